(** L_Neigh.v: proofs about neighbour.c *)
From Verif Require Import Base M_Util S_Util L_Util M_Filter M_Source M_Types M_Neigh S_Neigh.

(** ** Bits *)
Lemma tb_32768 : forall i, Z.testbit 32768 i = (i =? 15).
Proof.
  intros. change 32768 with (2 ^ 15). rewrite Z.pow2_bits_eqb by lia. apply Z.eqb_sym.
Qed.

Lemma tb_high : forall x i, 0 <= x < 65536 -> 16 <= i -> Z.testbit x i = false.
Proof.
  intros. destruct (Z.eq_dec x 0) as [->|]; [apply Z.bits_0|].
  apply Z.bits_above_log2; [lia|].
  assert (Z.log2 x < 16); [|lia]. apply Z.log2_lt_pow2; lia.
Qed.

Lemma u16_shiftl_bits : forall x k i, 0 <= i < 16 -> 0 <= k ->
  Z.testbit (u16 (Z.shiftl x k)) i = Z.testbit x (i - k).
Proof.
  intros. unfold u16. change 65536 with (2 ^ 16). rewrite Z.mod_pow2_bits_low by lia.
  rewrite Z.shiftl_spec by lia. auto.
Qed.

Lemma bits_inj16 : forall x y, 0 <= x < 65536 -> 0 <= y < 65536 ->
  (forall i, 0 <= i < 16 -> Z.testbit x i = Z.testbit y i) -> x = y.
Proof.
  intros. apply Z.bits_inj'. intros i Hi. destruct (Z_lt_dec i 16).
  - apply H1; lia.
  - rewrite !tb_high; auto; lia.
Qed.

Lemma range16 : forall x, 0 <= x -> (forall i, 16 <= i -> Z.testbit x i = false) -> x < 65536.
Proof.
  intros x H0 H. destruct (Z.eq_dec x 0) as [->|]; [lia|].
  change 65536 with (2 ^ 16). apply Z.log2_lt_pow2; [lia|].
  destruct (Z_lt_dec (Z.log2 x) 16); auto. exfalso.
  specialize (H (Z.log2 x)). rewrite Z.bit_log2 in H by lia. discriminate H; lia.
Qed.

Lemma lor_shiftr_range : forall r, 0 <= r < 65536 -> 0 <= Z.lor (Z.shiftr r 1) 32768 < 65536.
Proof.
  intros. assert (0 <= Z.shiftr r 1) by (apply Z.shiftr_nonneg; lia).
  assert (0 <= Z.lor (Z.shiftr r 1) 32768) by (apply Z.lor_nonneg; lia).
  split; auto. apply range16; auto. intros i Hi.
  rewrite Z.lor_spec, tb_32768, Z.shiftr_spec by lia. rewrite tb_high by lia. lia.
Qed.

Lemma shiftr_range : forall r k, 0 <= r < 65536 -> 0 <= k -> 0 <= Z.shiftr r k < 65536.
Proof.
  intros. assert (0 <= Z.shiftr r k) by (apply Z.shiftr_nonneg; lia). split; auto.
  apply range16; auto. intros. rewrite Z.shiftr_spec by lia. apply tb_high; lia.
Qed.

Lemma u16_range : forall x, 0 <= u16 x < 65536.
Proof. intros. unfold u16. lia. Qed.

Lemma lor_pos : forall r, 0 <= r -> Z.lor (Z.shiftr r 1) 32768 > 0.
Proof.
  intros. assert (0 <= Z.shiftr r 1) by (apply Z.shiftr_nonneg; lia).
  assert (0 <= Z.lor (Z.shiftr r 1) 32768) by (apply Z.lor_nonneg; lia).
  destruct (Z.eq_dec (Z.lor (Z.shiftr r 1) 32768) 0); [|lia].
  apply Z.lor_eq_0_iff in e. lia.
Qed.

(** ** The two kinds of step *)

(** Number of hellos declared missed by the periodic check. *)
Definition missed_of (now : timeval) (h : hist) : Z :=
  if h_interval h >? 0 then
    Z.quot (timeval_minus_msec now (h_time h) - h_interval h * 7) (h_interval h * 10)
  else 16.

Lemma minus_msec_range : forall a b, tv_ok a -> tv_ok b -> 0 <= timeval_minus_msec a b <= 2000000999.
Proof.
  intros. unfold tv_ok in *. unfold timeval_minus_msec, u32.
  destruct (tv_sec a <? tv_sec b) eqn:E1; [lia|].
  destruct (tv_sec a - tv_sec b >? 2000000) eqn:E2; [lia|].
  destruct (tv_sec a >? tv_sec b) eqn:E3.
  - assert (A : -1000 < Z.quot (tv_usec a - tv_usec b) 1000 < 1000) by lia.
    rewrite Z.mod_small; rewrite Z.mod_small; lia.
  - destruct (tv_usec a <=? tv_usec b) eqn:E4; lia.
Qed.

Lemma s32_id : forall x, 0 <= x < 2147483648 -> s32 x = x.
Proof. intros. unfold s32. rewrite Z.mod_small by lia. destruct (x <? 2147483648) eqn:E; lia. Qed.

Lemma check_step : forall now h, tv_ok now -> tv_ok (h_time h) ->
  update_hist now h (-1) 0 =
  if missed_of now h <=? 0 then (h, false)
  else (mkHist (if missed_of now h >=? 16 then 0 else Z.shiftr (h_reach h) (missed_of now h))
              (h_interval h) (seqno_plus (u16 (h_seqno h)) (missed_of now h))
              (timeval_add_msec (h_time h) (missed_of now h * h_interval h * 10)), true).
Proof.
  intros. unfold update_hist. change (-1 <? 0) with true. cbv iota.
  pose proof (minus_msec_range now (h_time h) H H0).
  rewrite s32_id by lia. reflexivity.
Qed.

Lemma u16_seq : forall s, 0 <= s < 65536 -> u16 s = s.
Proof. intros. unfold u16. apply Z.mod_small; auto. Qed.

(** What a received Hello does to the window. *)
Lemma hello_step_first : forall now h s i, seqno_ok s -> h_reach h = 0 ->
  h_reach (fst (update_hist now h s i)) = 32768 /\ h_seqno (fst (update_hist now h s i)) = s.
Proof.
  intros. unfold update_hist. assert (E : s <? 0 = false) by (unfold seqno_ok in *; lia). rewrite E.
  rewrite H0. change (0 >? 0) with false. rewrite andb_false_r. change (0 >? 0) with false.
  destruct (negb (i =? 0)); cbv iota; cbn [fst h_reach h_seqno]; auto.
Qed.

Lemma hello_step : forall now h s i, hist_ok h -> h_reach h > 0 -> seqno_ok s ->
  let h' := fst (update_hist now h s i) in
  h_seqno h' = s /\ 0 <= h_reach h' < 65536 /\ h_reach h' > 0 /\
  (* g hellos were lost in between *)
  (forall g, ahead s (h_seqno h) = g + 1 -> 0 <= g < 16 ->
     forall k, 0 <= k < 16 -> slot_heard h' k =
       if k =? 0 then true else if k <=? g then false else slot_heard h (k - g - 1)) /\
  (* late by b hellos, or duplicate *)
  (forall b, behind s (h_seqno h) = b -> 0 <= b < 8 ->
     forall k, 0 <= k < 16 -> slot_heard h' k =
       if k =? 0 then true else if k + b <? 16 then slot_heard h (k + b) else false) /\
  (* anything else is a jump *)
  (17 <= ahead s (h_seqno h) <= 65528 -> h_reach h' = 32768).
Proof.
  intros now h s i (R & I & S & T & S0) Hr Hs. cbv zeta.
  assert (Sq : seqno_ok (h_seqno h)) by (unfold seqno_ok; lia).
  unfold update_hist. assert (E : s <? 0 = false) by (unfold seqno_ok in *; lia). rewrite E.
  assert (E1 : (h_seqno h >=? 0) && (h_reach h >? 0) = true) by (unfold seqno_ok in *; lia).
  rewrite E1. rewrite (u16_seq (h_seqno h)) by auto.
  assert (M : seqno_minus s (h_seqno h) =
     (if ahead s (h_seqno h) <? 32768 then ahead s (h_seqno h) else ahead s (h_seqno h) - 65536)).
  { unfold seqno_minus, s16, ahead. rewrite land_65535. rewrite Zmod_mod. reflexivity. }
  assert (A : 0 <= ahead s (h_seqno h) < 65536) by (unfold ahead; lia).
  assert (B : behind s (h_seqno h) = if ahead s (h_seqno h) =? 0 then 0 else 65536 - ahead s (h_seqno h)).
  { unfold behind, ahead, seqno_ok in *. destruct ((s - h_seqno h) mod 65536 =? 0) eqn:E2; lia. }
  rewrite M. remember (ahead s (h_seqno h)) as a. remember (behind s (h_seqno h)) as b.
  clear Heqa Heqb M.
  unfold slot_heard.
  assert (X : exists m, (if a <? 32768 then a else a - 65536) = m /\
    (a < 32768 /\ m = a \/ 32768 <= a /\ m = a - 65536)).
  { destruct (a <? 32768) eqn:?; eexists; split; eauto; lia. }
  destruct X as (m & X1 & X2). rewrite X1. clear X1.
  assert (B' : b = 0 /\ a = 0 \/ a <> 0 /\ b = 65536 - a) by (destruct (a =? 0) eqn:?; lia).
  clear B. rename B' into B.
  destruct (m - 1 <? -8) eqn:C1; [|destruct (m - 1 <? 0) eqn:C2].
  - (* jump backwards *)
    change (0 >? 0) with false.
    destruct (negb (i =? 0)); cbv iota; cbn [fst h_reach h_seqno];
    change (Z.lor (Z.shiftr 0 1) 32768) with 32768;
    (split; [auto|]; split; [lia|]; split; [lia|]; split; [intros; lia|]; split; [|auto];
     intros; lia).
  - change (0 >? 0) with false.
    set (r := u16 _).
    assert (Rr : 0 <= r < 65536) by apply u16_range.
    assert (Q : forall k, 0 <= k < 16 -> Z.testbit (Z.lor (Z.shiftr r 1) 32768) (15 - k) =
       if k =? 0 then true else if k + b <? 16 then Z.testbit (h_reach h) (15 - (k + b)) else false).
    { intros k Hk. rewrite Z.lor_spec, tb_32768, Z.shiftr_spec by lia.
      destruct (k =? 0) eqn:K0; [replace (15 - k =? 15) with true by lia; apply orb_true_r|].
      replace (15 - k =? 15) with false by lia. rewrite orb_false_r.
      unfold r. rewrite u16_shiftl_bits by lia.
      destruct (k + b <? 16) eqn:K1.
      - f_equal. lia.
      - apply Z.testbit_neg_r. lia. }
    destruct (negb (i =? 0)); cbv iota; cbn [fst h_reach h_seqno];
    (split; [auto|]; split; [apply lor_shiftr_range; auto|]; split; [apply lor_pos; lia|];
     split; [intros; lia|]; split; [intros b' Hb' Hb2 k Hk; subst b'; apply Q; auto|lia]).
  - assert (Ha : 1 <= a < 32768) by lia. assert (m = a) by lia. subst m. clear X2.
    destruct (a - 1 >? 0) eqn:C3.
    + destruct (a - 1 >=? 16) eqn:C4.
      * destruct (negb (i =? 0)); cbv iota; cbn [fst h_reach h_seqno];
        change (Z.lor (Z.shiftr 0 1) 32768) with 32768;
        (split; [auto|]; split; [lia|]; split; [lia|]; split; [intros; lia|]; split; [|auto];
         intros; lia).
      * assert (Q : forall k, 0 <= k < 16 ->
          Z.testbit (Z.lor (Z.shiftr (Z.shiftr (h_reach h) (a - 1)) 1) 32768) (15 - k) =
          if k =? 0 then true else if k <=? a - 1 then false else Z.testbit (h_reach h) (15 - (k - (a - 1) - 1))).
        { intros k Hk. rewrite Z.lor_spec, tb_32768, !Z.shiftr_spec by lia.
          destruct (k =? 0) eqn:K0; [replace (15 - k =? 15) with true by lia; apply orb_true_r|].
          replace (15 - k =? 15) with false by lia. rewrite orb_false_r.
          destruct (k <=? a - 1) eqn:K1.
          - apply tb_high; lia.
          - f_equal. lia. }
        destruct (negb (i =? 0)); cbv iota; cbn [fst h_reach h_seqno];
        (split; [auto|]; split; [apply lor_shiftr_range, shiftr_range; auto; lia|];
         split; [apply lor_pos; apply Z.shiftr_nonneg; lia|];
         split; [intros g Hg Hg2; replace g with (a - 1) by lia; apply Q|]; split;
         [intros; lia|lia]).
    + assert (a = 1) by lia. subst a.
      assert (Q : forall k, 0 <= k < 16 ->
          Z.testbit (Z.lor (Z.shiftr (h_reach h) 1) 32768) (15 - k) =
          if k =? 0 then true else if k <=? 0 then false else Z.testbit (h_reach h) (15 - (k - 0 - 1))).
      { intros k Hk. rewrite Z.lor_spec, tb_32768, !Z.shiftr_spec by lia.
          destruct (k =? 0) eqn:K0; [replace (15 - k =? 15) with true by lia; apply orb_true_r|].
          replace (15 - k =? 15) with false by lia. rewrite orb_false_r.
          replace (k <=? 0) with false by lia. f_equal. lia. }
      destruct (negb (i =? 0)); cbv iota; cbn [fst h_reach h_seqno];
        (split; [auto|]; split; [apply lor_shiftr_range; auto; lia|];
         split; [apply lor_pos; lia|];
         split; [intros g Hg Hg2; replace g with 0 by lia; apply Q|]; split;
         [intros; lia|lia]).
Qed.

(** ** Invariants *)
Lemma add_msec_ok : forall t m, tv_ok t -> 0 <= m -> tv_ok (timeval_add_msec t m).
Proof. intros. apply timeval_add_msec_us; auto. Qed.

Lemma update_hist_ok : forall now h s i, hist_ok h -> tv_ok now -> seqno_ok s -> 0 <= i < 65536 ->
  hist_ok (fst (update_hist now h s i)).
Proof.
  intros now h s i Hh Hn Hs Hi.
  assert (A : h_seqno (fst (update_hist now h s i)) = s /\
              0 <= h_reach (fst (update_hist now h s i)) < 65536).
  { destruct (Z_gt_dec (h_reach h) 0).
    - pose proof (hello_step now h s i Hh g Hs) as K. cbv zeta in K. tauto.
    - assert (h_reach h = 0) by (destruct Hh; lia).
      pose proof (hello_step_first now h s i Hs H). lia. }
  destruct A as [A1 A2]. destruct Hh as (R & I & S & T & S0).
  assert (B : 0 <= h_interval (fst (update_hist now h s i)) < 65536 /\
              tv_ok (h_time (fst (update_hist now h s i)))).
  { unfold update_hist. assert (E : s <? 0 = false) by (unfold seqno_ok in *; lia). rewrite E.
    destruct (negb (i =? 0)); cbv iota;
    repeat match goal with |- context [let '(_, _) := ?x in _] => destruct x end;
    cbn [fst h_interval h_time]; auto. }
  unfold hist_ok. rewrite A1. unfold seqno_ok in Hs. repeat split; try tauto; intros; try lia; apply B.
Qed.

Lemma missed_nonneg_mul : forall now h, hist_ok h -> tv_ok now -> missed_of now h > 0 ->
  0 <= missed_of now h * h_interval h * 10 <= timeval_minus_msec now (h_time h).
Proof.
  intros now h (R & I & S & T & S0) Hn Hm. unfold missed_of in *.
  pose proof (minus_msec_range now (h_time h) Hn T).
  destruct (h_interval h >? 0) eqn:E; [|replace (h_interval h) with 0 by lia; lia].
  remember (timeval_minus_msec now (h_time h)) as d. remember (h_interval h) as v.
  assert (0 <= d - v * 7).
  { destruct (Z_lt_dec (d - v * 7) 0); [|lia]. exfalso.
    assert (Z.quot (d - v * 7) (v * 10) <= 0); [|lia]. apply Z.quot_le_upper_bound; lia. }
  rewrite Z.quot_div_nonneg in * by lia.
  pose proof (Z.mul_div_le (d - v * 7) (v * 10)). nia.
Qed.

Lemma check_hist_ok : forall now h, hist_ok h -> tv_ok now -> hist_ok (fst (update_hist now h (-1) 0)).
Proof.
  intros now h Hh Hn. assert (K := Hh). destruct K as (R & I & S & T & S0).
  rewrite check_step by auto. destruct (missed_of now h <=? 0) eqn:E; auto.
  pose proof (missed_nonneg_mul now h Hh Hn ltac:(lia)).
  unfold hist_ok; cbn [fst h_reach h_interval h_seqno h_time].
  pose proof (seqno_plus_ok (u16 (h_seqno h)) (missed_of now h)) as P. unfold seqno_ok in P.
  split; [destruct (missed_of now h >=? 16); [lia|apply shiftr_range; lia]|].
  split; auto. split; [lia|]. split; [apply add_msec_ok; auto; lia|].
  intros. lia.
Qed.

Lemma hrun_ok : forall es h, hist_ok h -> Forall hev_ok es -> hist_ok (hrun es h).
Proof.
  induction es; intros h Hh F; simpl; auto. inversion F; subst. apply IHes; auto.
  destruct a; simpl in *; [apply update_hist_ok; tauto|apply check_hist_ok; auto].
Qed.

Lemma new_hist_ok : hist_ok new_hist.
Proof. repeat split; simpl; lia. Qed.

(** Everything marked as heard was heard. *)
Definition marked_heard (h : hist) (H : Z -> Prop) : Prop :=
  forall k, 0 <= k < 16 -> slot_heard h k = true -> H ((h_seqno h - k) mod 65536).

Lemma marked_step : forall e h (H : Z -> Prop), hist_ok h -> hev_ok e -> marked_heard h H ->
  marked_heard (hstep h e) (fun s => H s \/ match e with EvHello _ s' _ => s = s' | _ => False end).
Proof.
  intros e h H Hh He M k Hk Hs. destruct e as [now s i|now]; simpl in *.
  - destruct He as (Hn & Sk & Hi).
    destruct (Z_gt_dec (h_reach h) 0) as [g|g].
    + pose proof (hello_step now h s i Hh g Sk) as (Q1 & Q2 & Q3 & Q4 & Q5 & Q6).
      rewrite Q1. destruct (Z.eq_dec k 0) as [->|Kn].
      { right. rewrite Z.sub_0_r. apply Z.mod_small; auto. }
      assert (Sq : seqno_ok (h_seqno h)) by (destruct Hh as (?&?&?&?&?); unfold seqno_ok; lia).
      destruct (Z_le_dec 17 (ahead s (h_seqno h))) as [l|l];
      [destruct (Z_le_dec (ahead s (h_seqno h)) 65528) as [l2|l2]|].
      * exfalso. unfold slot_heard in Hs. rewrite Q6, tb_32768 in Hs by lia. lia.
      * assert (B : behind s (h_seqno h) = 65536 - ahead s (h_seqno h)) by (unfold behind, ahead, seqno_ok in *; lia).
        assert (A : ahead s (h_seqno h) < 65536) by (unfold ahead; lia).
        rewrite (Q5 _ B) in Hs by lia.
        replace (k =? 0) with false in Hs by lia.
        destruct (k + (65536 - ahead s (h_seqno h)) <? 16) eqn:E; [|discriminate].
        left. apply M in Hs; [|lia].
        replace ((s - k) mod 65536) with ((h_seqno h - (k + (65536 - ahead s (h_seqno h)))) mod 65536); auto.
        unfold ahead in *. unfold seqno_ok in *. lia.
      * destruct (Z.eq_dec (ahead s (h_seqno h)) 0) as [a0|an].
        -- assert (B : behind s (h_seqno h) = 0) by (unfold behind, ahead, seqno_ok in *; lia).
           rewrite (Q5 _ B) in Hs by lia. replace (k =? 0) with false in Hs by lia.
           replace (k + 0 <? 16) with true in Hs by lia.
           left. apply M in Hs; [|lia].
           replace ((s - k) mod 65536) with ((h_seqno h - (k + 0)) mod 65536); auto.
           unfold ahead, seqno_ok in *. lia.
        -- assert (A : 0 <= ahead s (h_seqno h)) by (unfold ahead; lia).
           rewrite (Q4 (ahead s (h_seqno h) - 1)) in Hs by lia.
           replace (k =? 0) with false in Hs by lia.
           destruct (k <=? ahead s (h_seqno h) - 1) eqn:E; [discriminate|].
           left. apply M in Hs; [|lia].
           replace ((s - k) mod 65536) with ((h_seqno h - (k - (ahead s (h_seqno h) - 1) - 1)) mod 65536); auto.
           unfold ahead, seqno_ok in *. lia.
    + assert (h_reach h = 0) by (destruct Hh; lia).
      pose proof (hello_step_first now h s i Sk H0) as [Q1 Q2].
      unfold slot_heard in Hs. rewrite Q1, tb_32768 in Hs.
      right. rewrite Q2. replace k with 0 by lia. rewrite Z.sub_0_r. apply Z.mod_small; auto.
  - left. destruct Hh as (R & I & S & T & S0). unfold slot_heard in Hs. revert Hs.
    rewrite check_step by auto. destruct (missed_of now h <=? 0) eqn:E; cbn [fst h_reach h_seqno]; [apply M; auto|].
    destruct (missed_of now h >=? 16) eqn:E2; [rewrite Z.bits_0; discriminate|].
    rewrite Z.shiftr_spec by lia. intros Hs.
    destruct (Z.eq_dec (h_seqno h) (-1)) as [q|q].
    { rewrite S0, Z.bits_0 in Hs by auto. discriminate. }
    assert (Kk : missed_of now h <= k).
    { destruct (Z_le_dec (missed_of now h) k); auto. rewrite tb_high in Hs by lia. discriminate. }
    specialize (M (k - missed_of now h) ltac:(lia)). unfold slot_heard in M.
    replace (15 - (k - missed_of now h)) with (15 - k + missed_of now h) in M by lia.
    specialize (M Hs).
    replace ((seqno_plus (u16 (h_seqno h)) (missed_of now h) - k) mod 65536)
      with ((h_seqno h - (k - missed_of now h)) mod 65536); auto.
    unfold seqno_plus. rewrite land_65535. rewrite u16_seq by lia. lia.
Qed.

Lemma marked_run : forall es h (H : Z -> Prop), hist_ok h -> Forall hev_ok es -> marked_heard h H ->
  marked_heard (hrun es h) (fun s => H s \/ heard es s).
Proof.
  induction es; intros h H Hh F M; simpl.
  - intros k Hk Hs. left. apply M; auto.
  - inversion F; subst.
    assert (Ok : hist_ok (hstep h a)) by (apply (hrun_ok [a] h Hh); auto).
    pose proof (IHes _ _ Ok H3 (marked_step a h H Hh H2 M)) as K.
    intros k Hk Hs. destruct (K k Hk Hs) as [[K1|K1]|(now & i & K1)]; auto.
    + right. destruct a; [|contradiction]. rewrite K1. exists now, interval. left; auto.
    + right. exists now, i. right; auto.
Qed.

Lemma heard_bits : forall es k, Forall hev_ok es -> 0 <= k < 16 ->
  let h := hrun es new_hist in
  slot_heard h k = true -> heard es ((h_seqno h - k) mod 65536).
Proof.
  intros es k F Hk h Hs.
  assert (M0 : marked_heard new_hist (fun _ => False)).
  { intros j Hj Hs'. unfold slot_heard, new_hist in Hs'. simpl in Hs'. rewrite Z.bits_0 in Hs'. discriminate. }
  pose proof (marked_run es new_hist _ new_hist_ok F M0) as M.
  destruct (M k Hk Hs); [contradiction|auto].
Qed.

(** In-order hellos fill the window. *)
Lemma consecutive_step : forall now h s i, hist_ok h -> seqno_ok s ->
  (h_reach h > 0 -> ahead s (h_seqno h) = 1) ->
  let h' := fst (update_hist now h s i) in
  forall k, 0 <= k < 16 -> slot_heard h' k =
    if k =? 0 then true else slot_heard h (k - 1).
Proof.
  intros now h s i Hh Hs A h' k Hk.
  destruct (Z_gt_dec (h_reach h) 0) as [g|g].
  - pose proof (hello_step now h s i Hh g Hs) as (Q1 & Q2 & Q3 & Q4 & _).
    unfold h'. rewrite (Q4 0) by (auto; lia). destruct (k =? 0) eqn:E; auto.
    replace (k <=? 0) with false by lia. f_equal. lia.
  - assert (H : h_reach h = 0) by (destruct Hh; lia).
    pose proof (hello_step_first now h s i Hs H) as [Q1 Q2].
    unfold slot_heard, h'. rewrite Q1, H, tb_32768, Z.bits_0. destruct (k =? 0) eqn:?; lia.
Qed.

Lemma consecutive_fill_gen : forall es s h n, consecutive s es -> Forall hev_ok es -> hist_ok h ->
  (h_reach h > 0 -> ahead s (h_seqno h) = 1) ->
  (forall k, 0 <= k < Z.min n 16 -> slot_heard h k = true) -> 0 <= n ->
  (forall k, 0 <= k < Z.min (n + Z.of_nat (length es)) 16 -> slot_heard (hrun es h) k = true).
Proof.
  induction es; intros s h n C F Hh A Hb Hn k Hk; simpl hrun.
  - apply Hb. simpl length in Hk. lia.
  - inversion C; subst. inversion F as [|e0 l0 X1 X2]; subst. destruct X1 as (T & Sk & Hi).
    assert (Ok : hist_ok (hstep h (EvHello now s i))) by (apply update_hist_ok; auto).
    assert (Sq : h_seqno (hstep h (EvHello now s i)) = s).
    { simpl. destruct (Z_gt_dec (h_reach h) 0).
      - apply (hello_step now h s i Hh g Sk).
      - apply hello_step_first; auto. destruct Hh; lia. }
    eapply (IHes ((s + 1) mod 65536) _ (n + 1)); eauto.
    + intros _. rewrite Sq. unfold ahead, seqno_ok in *. lia.
    + intros j Hj. simpl. rewrite (consecutive_step now h s i Hh Sk A j) by lia.
      destruct (j =? 0) eqn:E; auto. apply Hb. lia.
    + lia.
    + simpl length in Hk. lia.
Qed.

Lemma consecutive_fill : forall es s, consecutive s es -> Forall hev_ok es ->
  forall k, 0 <= k < 16 -> k < Z.of_nat (length es) -> slot_heard (hrun es new_hist) k = true.
Proof.
  intros. eapply (consecutive_fill_gen es s new_hist 0); eauto; try lia.
  - apply new_hist_ok.
  - simpl; lia.
Qed.

(** ** Costs *)
Lemma land_bit : forall x n, 0 <= n -> (Z.land x (2 ^ n) =? 0) = negb (Z.testbit x n).
Proof.
  intros. destruct (Z.testbit x n) eqn:E; simpl.
  - apply Z.eqb_neq. intros F. assert (Z.testbit (Z.land x (2 ^ n)) n = false) by (rewrite F; apply Z.bits_0).
    rewrite Z.land_spec, E, Z.pow2_bits_true in H0 by lia. discriminate.
  - apply Z.eqb_eq. apply Z.bits_inj'. intros i Hi. rewrite Z.land_spec, Z.bits_0.
    rewrite Z.pow2_bits_eqb by lia. destruct (Z.eq_dec n i) as [<-|F]; [rewrite E; auto|].
    replace (n =? i) with false by lia. apply andb_false_r.
Qed.

Lemma tb_of : forall m i, 0 <= i -> Z.testbit m i = Z.odd (Z.shiftr m i).
Proof. intros. rewrite <- Z.bit0_odd, Z.shiftr_spec by lia. f_equal. Qed.

Lemma land_49152 : forall x, Z.land x 49152 =
  (if Z.testbit x 15 then 32768 else 0) + (if Z.testbit x 14 then 16384 else 0).
Proof.
  intros. assert (D : Z.land 32768 16384 = 0) by reflexivity.
  assert (L : forall n, 0 <= n -> Z.land x (2 ^ n) = if Z.testbit x n then 2 ^ n else 0).
  { intros n Hn. apply Z.bits_inj'. intros i Hi. rewrite Z.land_spec, Z.pow2_bits_eqb by lia.
    destruct (Z.eq_dec n i) as [<-|F].
    - rewrite Z.eqb_refl. destruct (Z.testbit x n); [rewrite Z.pow2_bits_true; auto|rewrite Z.bits_0; auto].
    - replace (n =? i) with false by lia. rewrite andb_false_r.
      destruct (Z.testbit x n); [rewrite Z.pow2_bits_false; auto|rewrite Z.bits_0; auto]. }
  change 49152 with (Z.lor (2 ^ 15) (2 ^ 14)). rewrite Z.land_lor_distr_r, !L by lia.
  destruct (Z.testbit x 15), (Z.testbit x 14); reflexivity.
Qed.

Lemma two_three_iff : forall h, two_three (h_reach h) = true <-> heard_two_of_three h.
Proof.
  intros h. unfold two_three, heard_two_of_three, slot_heard.
  rewrite land_49152. change 8192 with (2 ^ 13). rewrite land_bit by lia.
  change (15 - 0) with 15. change (15 - 1) with 14. change (15 - 2) with 13.
  destruct (Z.testbit (h_reach h) 15), (Z.testbit (h_reach h) 14), (Z.testbit (h_reach h) 13);
   cbn; intuition discriminate.
Qed.

Lemma heard_none_iff : forall h, hist_ok h -> (Z.land (h_reach h) 65520 = 0 <-> heard_none h).
Proof.
  intros h (R & _). unfold heard_none, slot_heard. split.
  - intros H k Hk. assert (T : Z.testbit (Z.land (h_reach h) 65520) (15 - k) = false) by (rewrite H; apply Z.bits_0).
    rewrite Z.land_spec in T. 
    assert (Z.testbit 65520 (15 - k) = true).
    { rewrite tb_of by lia.
      assert (K : k = 0 \/ k = 1 \/ k = 2 \/ k = 3 \/ k = 4 \/ k = 5 \/ k = 6 \/ k = 7 \/ k = 8 \/ k = 9 \/ k = 10 \/ k = 11) by lia.
      repeat (destruct K as [->|K]; [reflexivity|]). subst; reflexivity. }
    rewrite H0, andb_true_r in T. auto.
  - intros H. apply Z.bits_inj'. intros i Hi. rewrite Z.land_spec, Z.bits_0.
    destruct (Z_lt_dec i 16).
    + destruct (Z_lt_dec i 4).
      * assert (Z.testbit 65520 i = false); [|rewrite H0; apply andb_false_r].
        rewrite tb_of by lia.
        assert (K : i = 0 \/ i = 1 \/ i = 2 \/ i = 3) by lia.
        repeat (destruct K as [->|K]; [reflexivity|]). subst; reflexivity.
      * specialize (H (15 - i) ltac:(lia)). replace (15 - (15 - i)) with i in H by lia. rewrite H; auto.
    + rewrite tb_high by lia. auto.
Qed.

Lemma stream_dead_iff : forall now h, hist_ok h ->
  ((Z.land (h_reach h) 65520 =? 0) || (timeval_minus_msec now (h_time h) >=? 180000) = true <-> stream_dead now h).
Proof.
  intros. unfold stream_dead. rewrite <- heard_none_iff by auto.
  destruct (Z.land (h_reach h) 65520 =? 0) eqn:E; simpl; intuition lia.
Qed.

Lemma sreach_range : forall r, 0 <= r < 65536 ->
  0 <= Z.shiftr (Z.land r 32768) 2 + Z.shiftr (Z.land r 16384) 1 + Z.land r 16383 <= 32767.
Proof.
  intros.
  assert (A : Z.land r 32768 = 0 \/ Z.land r 32768 = 32768).
  { destruct (Z.testbit r 15) eqn:E; [right|left].
    - apply Z.bits_inj'. intros i Hi. rewrite Z.land_spec, tb_32768.
      destruct (Z.eq_dec i 15) as [->|]; [rewrite E; auto|]. replace (i =? 15) with false by lia. apply andb_false_r.
    - apply Z.eqb_eq. change 32768 with (2^15). rewrite land_bit by lia. rewrite E. auto. }
  assert (B : 0 <= Z.land r 16384 <= 16384).
  { destruct (Z.testbit r 14) eqn:E.
    - assert (Z.land r 16384 = 16384); [|lia].
      apply Z.bits_inj'. intros i Hi. rewrite Z.land_spec. change 16384 with (2 ^ 14).
      rewrite Z.pow2_bits_eqb by lia.
      destruct (Z.eq_dec 14 i) as [<-|]; [rewrite E; auto|]. replace (14 =? i) with false by lia. apply andb_false_r.
    - assert (Z.land r 16384 = 0); [|lia].
      apply Z.eqb_eq. change 16384 with (2^14). rewrite land_bit by lia. rewrite E. auto. }
  assert (C : 0 <= Z.land r 16383 <= 16383).
  { change (Z.land r 16383) with (Z.land r (Z.ones 14)). rewrite Z.land_ones by lia. change (2 ^ 14) with 16384. lia. }
  rewrite !Z.shiftr_div_pow2 by lia. change (2 ^ 2) with 4. change (2 ^ 1) with 2.
  destruct A as [-> | ->]; lia.
Qed.

Lemma rxcost_range : forall now i n, iface_ok i -> neigh_ok n ->
  0 <= neighbour_rxcost now i n <= INFINITY.
Proof.
  intros now i n Hi Hn. unfold iface_ok in Hi. destruct Hn as ((R & _) & _).
  unfold neighbour_rxcost. unfold INFINITY.
  destruct (_ && _); [lia|]. destruct (flag i IF_LQ).
  - pose proof (sreach_range _ R).
    destruct (timeval_minus_msec now (h_time (n_hello n)) >=? 40000).
    + set (q := u32 (u32 (u32 _ * _) + 10000)).
      assert (0 <= q < 4294967296) by (unfold q, u32; lia).
      clearbody q. unfold s32. assert (0 <= q / 20000 < 2147483648) by lia.
      rewrite Z.mod_small by lia. destruct (q / 20000 <? 2147483648) eqn:E; lia.
    + assert (0 <= 32768 * if_cost i / (Z.shiftr (Z.land (h_reach (n_hello n)) 32768) 2 +
         Z.shiftr (Z.land (h_reach (n_hello n)) 16384) 1 + Z.land (h_reach (n_hello n)) 16383 + 1)).
      { apply Z.div_pos; lia. }
      lia.
  - destruct (_ || _); lia.
Qed.

(** dead streams *)
Lemma rxcost_dead : forall now i n, neigh_ok n ->
  stream_dead now (n_hello n) -> stream_dead now (n_uhello n) ->
  neighbour_rxcost now i n = INFINITY.
Proof.
  intros now i n (H1 & H2 & _) D1 D2. unfold neighbour_rxcost.
  apply stream_dead_iff in D1; auto. apply stream_dead_iff in D2; auto.
  rewrite D1, D2. reflexivity.
Qed.

Lemma rxcost_wired : forall now i n, iface_ok i -> neigh_ok n -> flag i IF_LQ = false ->
  neighbour_rxcost now i n = INFINITY /\
    ((stream_dead now (n_hello n) /\ stream_dead now (n_uhello n)) \/
     (~ heard_two_of_three (n_hello n) /\ ~ heard_two_of_three (n_uhello n))) \/
  neighbour_rxcost now i n = if_cost i /\
    ~ (stream_dead now (n_hello n) /\ stream_dead now (n_uhello n)) /\
    (heard_two_of_three (n_hello n) \/ heard_two_of_three (n_uhello n)).
Proof.
  intros now i n Hi (H1 & H2 & _) L. unfold neighbour_rxcost.
  rewrite L. pose proof (stream_dead_iff now _ H1) as S1. pose proof (stream_dead_iff now _ H2) as S2.
  rewrite <- !two_three_iff. rewrite <- S1, <- S2.
  destruct (_ || _); destruct (_ || _); cbn [andb];
  destruct (two_three (h_reach (n_hello n))); destruct (two_three (h_reach (n_uhello n))); cbn [orb]; 
  intuition discriminate.
Qed.

(** link quality: at least the configured cost while hellos are less than 40 s old *)
Lemma rxcost_lq : forall now i n, iface_ok i -> neigh_ok n ->
  timeval_minus_msec now (h_time (n_hello n)) < 40000 ->
  if_cost i <= neighbour_rxcost now i n.
Proof.
  intros now i n Hi Hn D. destruct (flag i IF_LQ) eqn:L.
  - unfold iface_ok in Hi. destruct Hn as ((R & _) & _). unfold neighbour_rxcost, INFINITY. rewrite L.
    destruct (_ && _); [lia|].
    replace (timeval_minus_msec now (h_time (n_hello n)) >=? 40000) with false by lia.
    pose proof (sreach_range _ R) as S.
    remember (Z.shiftr (Z.land (h_reach (n_hello n)) 32768) 2 + Z.shiftr (Z.land (h_reach (n_hello n)) 16384) 1 +
     Z.land (h_reach (n_hello n)) 16383) as sr.
    assert (if_cost i <= 32768 * if_cost i / (sr + 1)); [|lia].
    apply Z.div_le_lower_bound; [lia|nia].
  - destruct (rxcost_wired now i n Hi Hn L) as [[-> _]|[-> _]]; unfold iface_ok, INFINITY in *; lia.
Qed.

(** ... and in general as long as the 32-bit product does not wrap *)
Lemma rxcost_lq_nowrap : forall now i n, iface_ok i -> neigh_ok n -> tv_ok now ->
  timeval_minus_msec now (h_time (n_hello n)) < 180000 ->
  h_reach (n_hello n) >= 32768 -> if_cost i <= 6710 ->
  if_cost i <= neighbour_rxcost now i n.
Proof.
  intros now i n Hi Hn Ht D Hr Hc.
  destruct (Z_lt_dec (timeval_minus_msec now (h_time (n_hello n))) 40000); [apply rxcost_lq; auto|].
  destruct (flag i IF_LQ) eqn:L.
  - unfold iface_ok in Hi. destruct Hn as ((R & _ & _ & T & _) & _). unfold neighbour_rxcost, INFINITY. rewrite L.
    destruct (_ && _); [lia|].
    pose proof (minus_msec_range now (h_time (n_hello n)) Ht T).
    remember (timeval_minus_msec now (h_time (n_hello n))) as d. clear Heqd.
    replace (d >=? 40000) with true by lia.
    pose proof (sreach_range _ R) as S.
    assert (B : Z.land (h_reach (n_hello n)) 32768 = 32768).
    { assert (E : Z.testbit (h_reach (n_hello n)) 15 = true).
      { apply Z.testbit_true; [lia|]. change (2 ^ 15) with 32768.
        assert (h_reach (n_hello n) / 32768 = 1) by lia. rewrite H0. reflexivity. }
      apply Z.bits_inj'. intros j Hj. rewrite Z.land_spec, tb_32768.
      destruct (Z.eq_dec j 15) as [->|]; [rewrite E; auto|]. replace (j =? 15) with false by lia. apply andb_false_r. }
    rewrite B in *. change (Z.shiftr 32768 2) with 8192 in *.
    set (b := Z.shiftr (Z.land (h_reach (n_hello n)) 16384) 1) in *.
    assert (0 <= b).
    { apply Z.shiftr_nonneg. apply Z.land_nonneg. lia. }
    set (c := Z.land (h_reach (n_hello n)) 16383) in *.
    assert (0 <= c) by (apply Z.land_nonneg; lia).
    assert (Q1 : if_cost i <= 32768 * if_cost i / (8192 + b + c + 1)).
    { apply Z.div_le_lower_bound; [lia|nia]. }
    assert (Q2 : 32768 * if_cost i / (8192 + b + c + 1) <= 4 * if_cost i).
    { apply Z.div_le_upper_bound; [lia|nia]. }
    remember (32768 * if_cost i / (8192 + b + c + 1)) as q.
    assert (Q3 : 0 <= q * (d - 20000) <= 26840 * 160000) by nia.
    unfold u32. rewrite (Z.mod_small q) by lia. rewrite (Z.mod_small (q * (d - 20000))) by lia.
    rewrite (Z.mod_small (q * (d - 20000) + 10000)) by lia.
    assert (Q4 : q <= (q * (d - 20000) + 10000) / 20000).
    { apply Z.div_le_lower_bound; [lia|nia]. }
    unfold s32. assert (0 <= (q * (d - 20000) + 10000) / 20000 < 2147483648) by lia.
    rewrite Z.mod_small by lia. destruct (_ <? 2147483648) eqn:E; lia.
  - destruct (rxcost_wired now i n Hi Hn L) as [[-> _]|[-> _]]; unfold iface_ok, INFINITY in *; lia.
Qed.

(** ** RTT *)
Lemma rttcost_spec : forall now i n, iface_ok i -> neigh_ok n ->
  neighbour_rttcost now i n = Some (if valid_rtt now n then
    rtt_penalty_spec (if_max_rtt_penalty i) (if_rtt_min i) (if_rtt_max i) (n_rtt n) else 0).
Proof.
  intros now i n Hi Hn. unfold iface_ok in Hi. destruct Hn as (_ & _ & _ & _ & _ & Hr & _).
  unfold neighbour_rttcost, rtt_penalty_spec.
  destruct (valid_rtt now n); [|rewrite orb_true_r; auto].
  rewrite orb_false_r. destruct (if_max_rtt_penalty i =? 0) eqn:E0.
  - replace (if_max_rtt_penalty i) with 0 by lia.
    destruct (n_rtt n <=? if_rtt_min i); auto. destruct (if_rtt_max i <=? n_rtt n); auto.
  - destruct (n_rtt n <=? if_rtt_min i) eqn:E1; auto.
    destruct (n_rtt n <=? if_rtt_max i) eqn:E2.
    + unfold u32. rewrite (Z.mod_small (n_rtt n - if_rtt_min i)) by lia.
      rewrite (Z.mod_small (if_rtt_max i - if_rtt_min i)) by lia.
      rewrite Z.mod_small by nia.
      set (t := if_max_rtt_penalty i * (n_rtt n - if_rtt_min i) / (if_rtt_max i - if_rtt_min i)).
      assert (T : 0 <= t <= if_max_rtt_penalty i).
      { unfold t. split; [apply Z.div_pos; nia|apply Z.div_le_upper_bound; nia]. }
      assert (L : Z.land t 2147483647 = t).
      { change 2147483647 with (Z.ones 31). rewrite Z.land_ones by lia. apply Z.mod_small. 
        change (2 ^ 31) with 2147483648. lia. }
      rewrite L, Z.eqb_refl. f_equal. destruct (if_rtt_max i <=? n_rtt n) eqn:E3; auto.
      unfold t. replace (n_rtt n) with (if_rtt_max i) by lia. apply Z.div_mul. lia.
    + replace (if_rtt_max i <=? n_rtt n) with true by lia. auto.
Qed.

Lemma rtt_penalty_range : forall pen mn mx rtt, 0 <= pen -> mn < mx ->
  0 <= rtt_penalty_spec pen mn mx rtt <= pen.
Proof.
  intros. unfold rtt_penalty_spec. destruct (rtt <=? mn) eqn:E1; [lia|].
  destruct (mx <=? rtt) eqn:E2; [lia|].
  split; [apply Z.div_pos; nia|apply Z.div_le_upper_bound; nia].
Qed.

Lemma rtt_penalty_mono : forall pen mn mx r1 r2, 0 <= pen -> mn < mx -> r1 <= r2 ->
  rtt_penalty_spec pen mn mx r1 <= rtt_penalty_spec pen mn mx r2.
Proof.
  intros. pose proof (rtt_penalty_range pen mn mx r1 H H0). pose proof (rtt_penalty_range pen mn mx r2 H H0).
  unfold rtt_penalty_spec in *.
  destruct (r1 <=? mn) eqn:E1; [lia|]. destruct (r2 <=? mn) eqn:E2; [lia|].
  destruct (mx <=? r2) eqn:E3; [lia|]. destruct (mx <=? r1) eqn:E4; [lia|].
  apply Z.div_le_mono; nia.
Qed.

Lemma rttcost_range : forall now i n, iface_ok i -> neigh_ok n -> 0 <= rttcost now i n <= 65535.
Proof.
  intros. unfold rttcost. rewrite rttcost_spec by auto. unfold iface_ok in H.
  destruct (valid_rtt now n); [|lia].
  pose proof (rtt_penalty_range (if_max_rtt_penalty i) (if_rtt_min i) (if_rtt_max i) (n_rtt n)). lia.
Qed.

Lemma rtt_avg : forall now i n rtt, iface_ok i -> valid_rtt now n = true ->
  0 <= n_rtt n <= 16777214 -> 0 <= rtt <= 16777214 ->
  let r' := rtt_update now i n rtt in
  Z.min (n_rtt n) rtt <= r' <= Z.max (n_rtt n) rtt /\
  (n_rtt n <> rtt -> r' <> n_rtt n).
Proof.
  intros now i n rtt Hi V Ho Hr. unfold iface_ok in Hi. cbv zeta. unfold rtt_update. rewrite V.
  set (o := n_rtt n) in *. set (d := if_rtt_decay i) in *.
  assert (S : 0 <= d * rtt + (256 - d) * o <= 256 * 16777214) by nia.
  assert (u32 (u32 (d * rtt) + u32 (u32 (256 - d) * o)) = d * rtt + (256 - d) * o).
  { unfold u32. rewrite (Z.mod_small (d * rtt)) by nia. rewrite (Z.mod_small (256 - d)) by lia.
    rewrite (Z.mod_small ((256 - d) * o)) by nia. apply Z.mod_small. lia. }
  rewrite H. destruct (o >=? rtt) eqn:E.
  - assert (rtt <= (d * rtt + (256 - d) * o) / 256) by (apply Z.div_le_lower_bound; nia).
    assert ((d * rtt + (256 - d) * o) / 256 <= o) by (apply Z.div_le_upper_bound; nia).
    split; [lia|]. intros.
    assert ((d * rtt + (256 - d) * o) / 256 < o) by (apply Z.div_lt_upper_bound; nia). lia.
  - unfold u32. rewrite Z.mod_small by lia.
    assert (o + 1 <= (d * rtt + (256 - d) * o + 255) / 256) by (apply Z.div_le_lower_bound; nia).
    assert ((d * rtt + (256 - d) * o + 255) / 256 < rtt + 1) by (apply Z.div_lt_upper_bound; nia).
    lia.
Qed.

(** ** Total cost *)
Lemma cost_spec : forall now i n, iface_ok i -> neigh_ok n ->
  neighbour_cost now i n =
    if if_up i && (n_txcost n <? INFINITY) && (neighbour_rxcost now i n <? INFINITY) then
      Z.min INFINITY
       ((if flag i IF_LQ && ((256 <=? n_txcost n) || (256 <=? neighbour_rxcost now i n))
         then (Z.max (n_txcost n) 256 * Z.max (neighbour_rxcost now i n) 256 + 128) / 256
         else n_txcost n) + rttcost now i n)
    else INFINITY.
Proof.
  intros now i n Hi Hn. pose proof (rxcost_range now i n Hi Hn) as R.
  pose proof (rttcost_range now i n Hi Hn) as T.
  destruct Hn as (_ & _ & Tx & _). unfold neighbour_cost, INFINITY in *.
  destruct (if_up i); cbn [negb andb]; auto.
  remember (n_txcost n) as a. remember (neighbour_rxcost now i n) as b.
  destruct (a >=? 65535) eqn:E1; [replace (a <? 65535) with false by lia; auto|].
  replace (a <? 65535) with true by lia. cbn [andb].
  destruct (b >=? 65535) eqn:E2; [replace (b <? 65535) with false by lia; auto|].
  replace (b <? 65535) with true by lia.
  destruct (flag i IF_LQ); cbn [negb orb andb].
  - destruct ((a <? 256) && (b <? 256)) eqn:E3.
    + replace ((256 <=? a) || (256 <=? b)) with false by lia. unfold u32. rewrite Z.mod_small by lia. lia.
    + replace ((256 <=? a) || (256 <=? b)) with true by lia.
      assert (0 <= Z.max a 256 * Z.max b 256 <= 65534 * 65534) by nia.
      unfold u32. rewrite (Z.mod_small (Z.max a 256 * Z.max b 256)) by lia.
      rewrite (Z.mod_small (Z.max a 256 * Z.max b 256 + 128)) by lia.
      rewrite Z.shiftr_div_pow2 by lia. change (2 ^ 8) with 256.
      rewrite Z.mod_small by lia. lia.
  - unfold u32. rewrite Z.mod_small by lia. lia.
Qed.

Lemma cost_range : forall now i n, iface_ok i -> neigh_ok n ->
  0 <= neighbour_cost now i n <= INFINITY /\
  (neighbour_cost now i n < INFINITY ->
   if_up i = true /\ n_txcost n < INFINITY /\ neighbour_rxcost now i n < INFINITY /\
   n_txcost n <= neighbour_cost now i n /\
   (flag i IF_LQ = true -> 256 <= neighbour_rxcost now i n -> neighbour_rxcost now i n <= neighbour_cost now i n)).
Proof.
  intros now i n Hi Hn. rewrite cost_spec by auto.
  pose proof (rxcost_range now i n Hi Hn) as R.
  pose proof (rttcost_range now i n Hi Hn) as T.
  destruct Hn as (_ & _ & Tx & _). unfold INFINITY in *.
  remember (n_txcost n) as a. remember (neighbour_rxcost now i n) as b.
  destruct (if_up i) eqn:U; cbn [andb]; [|lia].
  destruct (a <? 65535) eqn:E1; cbn [andb]; [|lia].
  destruct (b <? 65535) eqn:E2; cbn [andb]; [|lia].
  destruct (flag i IF_LQ) eqn:L; cbn [andb].
  - destruct ((256 <=? a) || (256 <=? b)) eqn:E3.
    + assert (a <= (Z.max a 256 * Z.max b 256 + 128) / 256) by (apply Z.div_le_lower_bound; nia).
      assert (b <= (Z.max a 256 * Z.max b 256 + 128) / 256) by (apply Z.div_le_lower_bound; nia).
      lia.
    + lia.
  - split; [lia|]. intros. repeat split; try lia; auto.
Qed.

Lemma cost_in : forall now i n, iface_in i -> neigh_ok n ->
  0 <= neighbour_cost now i n <= INFINITY /\
  (neighbour_cost now i n < INFINITY ->
   if_up i = true /\ n_txcost n < INFINITY /\ neighbour_rxcost now i n < INFINITY /\
   n_txcost n <= neighbour_cost now i n /\
   (flag i IF_LQ = true -> 256 <= neighbour_rxcost now i n -> neighbour_rxcost now i n <= neighbour_cost now i n)).
Proof.
  intros now i n Hi Hn. destruct (if_up i) eqn:U.
  - pose proof (cost_range now i n (Hi U) Hn) as C. rewrite U in C. exact C.
  - unfold neighbour_cost. rewrite U. unfold INFINITY. cbn [negb]. split; [lia|]. intros X. exfalso. clear - X. lia.
Qed.

(** ** Liveness of neighbours *)

Lemma silent_run : forall es h, hist_ok h -> h_interval h > 0 -> silent es ->
  exists k, 0 <= k /\ h_interval (hrun es h) = h_interval h /\
    us (h_time (hrun es h)) = us (h_time h) + k * h_interval h * 10000 /\
    tv_ok (h_time (hrun es h)) /\
    h_reach (hrun es h) = Z.shiftr (h_reach h) k.
Proof.
  induction es; intros h Hh Hi S; simpl.
  - exists 0. rewrite Z.shiftr_0_r. destruct Hh as (R & I & Sq & T & S0). split; [lia|]. split; auto. split; [lia|]. split; auto.
  - inversion S; subst. destruct a as [|t]; [contradiction|]. simpl.
    assert (K := Hh). destruct K as (R & I & Sq & T & S0).
    pose proof (check_hist_ok t h Hh H1) as Ok.
    destruct (IHes (fst (update_hist t h (-1) 0)) Ok) as (k & K1 & K2 & K3 & K4 & K5); auto.
    { rewrite check_step by auto. destruct (missed_of t h <=? 0); simpl; auto. }
    revert K2 K3 K4 K5. rewrite check_step by auto.
    destruct (missed_of t h <=? 0) eqn:E; cbn [fst h_interval h_time h_reach].
    + intros. exists k. auto.
    + intros. pose proof (missed_nonneg_mul t h Hh H1 ltac:(lia)) as M.
      exists (k + missed_of t h). split; [lia|]. split; auto. split.
      { rewrite K3. destruct (timeval_add_msec_us (h_time h) (missed_of t h * h_interval h * 10) T ltac:(lia)) as [_ U].
        rewrite U. lia. }
      split; auto. rewrite K5. destruct (missed_of t h >=? 16) eqn:E2.
      * rewrite Z.shiftr_0_l. symmetry. apply Z.bits_inj'. intros j Hj.
        rewrite Z.shiftr_spec by lia. rewrite Z.bits_0. apply tb_high; lia.
      * rewrite Z.shiftr_shiftr by lia. f_equal. lia.
Qed.

Lemma minus_msec_ge : forall a b m, tv_ok a -> tv_ok b -> 0 <= m <= 2000000000 ->
  us a - us b >= m * 1000 + 999 -> timeval_minus_msec a b >= m.
Proof.
  intros a b m Ha Hb Hm H. unfold tv_ok, us in *. unfold timeval_minus_msec, u32.
  destruct (tv_sec a <? tv_sec b) eqn:E1; [lia|].
  destruct (tv_sec a - tv_sec b >? 2000000) eqn:E2; [lia|].
  destruct (tv_sec a >? tv_sec b) eqn:E3.
  - assert (A : -1000 < Z.quot (tv_usec a - tv_usec b) 1000 < 1000) by lia.
    rewrite (Z.mod_small ((tv_sec a - tv_sec b) * 1000)) by lia. rewrite Z.mod_small by lia.
    assert (1000 * Z.quot (tv_usec a - tv_usec b) 1000 > tv_usec a - tv_usec b - 1000) by lia. lia.
  - destruct (tv_usec a <=? tv_usec b) eqn:E4; lia.
Qed.

Lemma minus_msec_lt : forall a b m, tv_ok a -> tv_ok b -> 0 < m <= 2000000000 ->
  us a - us b < m * 1000 - 999 -> timeval_minus_msec a b < m.
Proof.
  intros a b m Ha Hb Hm H. unfold tv_ok, us in *. unfold timeval_minus_msec, u32.
  destruct (tv_sec a <? tv_sec b) eqn:E1; [lia|].
  destruct (tv_sec a - tv_sec b >? 2000000) eqn:E2; [lia|].
  destruct (tv_sec a >? tv_sec b) eqn:E3.
  - assert (A : -1000 < Z.quot (tv_usec a - tv_usec b) 1000 < 1000) by lia.
    rewrite (Z.mod_small ((tv_sec a - tv_sec b) * 1000)) by lia. rewrite Z.mod_small by lia.
    assert (1000 * Z.quot (tv_usec a - tv_usec b) 1000 < tv_usec a - tv_usec b + 1000) by lia. lia.
  - destruct (tv_usec a <=? tv_usec b) eqn:E4; lia.
Qed.

Lemma silent_flushed : forall es now n, neigh_ok n -> tv_ok now -> silent es ->
  h_interval (n_hello n) > 0 ->
  us now - us (h_time (n_hello n)) >= 167000 * h_interval (n_hello n) + 1000 ->
  check_neigh1 now (set_n_hello (hrun es (n_hello n)) n) = None.
Proof.
  intros es now n (Hh & Hu & _) Hn S I D.
  destruct (silent_run es _ Hh I S) as (k & K1 & K2 & K3 & K4 & K5).
  assert (Ok : hist_ok (hrun es (n_hello n))).
  { apply hrun_ok; auto. eapply Forall_impl; [|exact S]. intros e He. destruct e; [contradiction|exact He]. }
  unfold check_neigh1. cbn [n_hello n_uhello set_n_hello].
  remember (hrun es (n_hello n)) as h.
  rewrite (surjective_pairing (update_hist now h (-1) 0)).
  rewrite (surjective_pairing (update_hist now (n_uhello n) (-1) 0)).
  cbn [fst snd]. unfold neigh_dead. cbn [n_hello set_n_uhello set_n_hello].
  assert (Z0 : h_reach (fst (update_hist now h (-1) 0)) = 0); [|rewrite Z0; reflexivity].
  assert (Iv : 0 < h_interval (n_hello n) < 65536) by (destruct Hh; lia).
  rewrite check_step by auto.
  destruct (Z_ge_dec k 16) as [g|g].
  { assert (R0 : h_reach h = 0).
    { rewrite K5. apply Z.bits_inj'. intros j Hj. rewrite Z.shiftr_spec by lia.
      rewrite Z.bits_0. apply tb_high; [apply Hh|lia]. }
    destruct (missed_of now h <=? 0); cbn [fst h_reach]; auto.
    destruct (missed_of now h >=? 16); auto. rewrite R0. apply Z.shiftr_0_l. }
  assert (M : missed_of now h >= 16 - k).
  { unfold missed_of. rewrite K2. replace (h_interval (n_hello n) >? 0) with true by lia.
    assert (Q : timeval_minus_msec now (h_time h) >= (167 - 10 * k) * h_interval (n_hello n)).
    { apply minus_msec_ge; auto; [|rewrite K3; lia]. nia. }
    rewrite Z.quot_div_nonneg by nia.
    assert (16 - k <= (timeval_minus_msec now (h_time h) - h_interval (n_hello n) * 7) / (h_interval (n_hello n) * 10)); [|lia].
    apply Z.div_le_lower_bound; nia. }
  replace (missed_of now h <=? 0) with false by lia. cbn [fst h_reach].
  destruct (missed_of now h >=? 16) eqn:E; auto.
  rewrite K5, Z.shiftr_shiftr by lia. apply Z.bits_inj'. intros j Hj. rewrite Z.shiftr_spec by lia.
  rewrite Z.bits_0. apply tb_high; [apply Hh|lia].
Qed.

(** A neighbour heard recently is kept. *)
Lemma live_kept : forall now n, neigh_ok n -> tv_ok now ->
  slot_heard (n_hello n) 0 = true -> h_interval (n_hello n) > 0 ->
  tv_sec (h_time (n_hello n)) <= tv_sec now ->
  us now - us (h_time (n_hello n)) < 17000 * h_interval (n_hello n) - 1000 ->
  us now - us (h_time (n_hello n)) < 299999000 ->
  exists n' c, check_neigh1 now n = Some (n', c) /\ n_hello n' = n_hello n.
Proof.
  intros now n (Hh & Hu & _) Hn S I C D1 D2.
  assert (K := Hh). destruct K as (R & Iv & Sq & T & S0).
  unfold check_neigh1.
  rewrite (surjective_pairing (update_hist now (n_uhello n) (-1) 0)).
  rewrite check_step by auto.
  assert (Q : timeval_minus_msec now (h_time (n_hello n)) < 17 * h_interval (n_hello n)).
  { apply minus_msec_lt; auto; lia. }
  assert (M : missed_of now (n_hello n) <= 0).
  { unfold missed_of. replace (h_interval (n_hello n) >? 0) with true by lia.
    pose proof (minus_msec_range now (h_time (n_hello n)) Hn T).
    remember (timeval_minus_msec now (h_time (n_hello n))) as d.
    remember (h_interval (n_hello n)) as v.
    destruct (Z_lt_dec (d - v * 7) 0).
    - apply Z.quot_le_upper_bound; lia.
    - rewrite Z.quot_div_nonneg by lia.
      assert ((d - v * 7) / (v * 10) < 1) by (apply Z.div_lt_upper_bound; lia). lia. }
  replace (missed_of now (n_hello n) <=? 0) with true by lia.
  unfold neigh_dead. cbn [n_hello set_n_uhello set_n_hello].
  assert (Rn : h_reach (n_hello n) <> 0).
  { intros F. unfold slot_heard in S. rewrite F, Z.bits_0 in S. discriminate. }
  assert (Q2 : timeval_minus_msec now (h_time (n_hello n)) < 300000).
  { apply minus_msec_lt; auto; lia. }
  replace (h_reach (n_hello n) =? 0) with false by lia.
  replace (tv_sec (h_time (n_hello n)) >? tv_sec now) with false by lia.
  replace (timeval_minus_msec now (h_time (n_hello n)) >? 300000) with false by lia.
  cbn [orb]. unfold reset_txcost.
  destruct (_ && _); [eexists; eexists; split; reflexivity|].
  destruct (_ || _); eexists; eexists; split; reflexivity.
Qed.

(** txcost *)
Lemma txcost_reset : forall now n n' c, neigh_ok n -> tv_ok now ->
  (0 < n_ihu_interval n /\ us now - us (n_ihu_time n) >= 100000 * n_ihu_interval n + 1000 \/
   n_ihu_interval n = 0 /\ us now - us (n_ihu_time n) >= 180001000) ->
  check_neigh1 now n = Some (n', c) -> n_txcost n' = INFINITY.
Proof.
  intros now n n' c (Hh & Hu & Tx & It & Ii & _) Hn D. unfold check_neigh1.
  rewrite (surjective_pairing (update_hist now (n_uhello n) (-1) 0)).
  rewrite (surjective_pairing (update_hist now (n_hello n) (-1) 0)).
  destruct (neigh_dead _ _); [discriminate|].
  unfold reset_txcost. cbn [n_ihu_time n_ihu_interval n_hello set_n_uhello set_n_hello].
  destruct D as [[D1 D2]|[D1 D2]].
  - assert (Q : timeval_minus_msec now (n_ihu_time n) >= 100 * n_ihu_interval n).
    { apply minus_msec_ge; auto; lia. }
    replace (timeval_minus_msec now (n_ihu_time n) <? n_ihu_interval n * 10 * 3) with false by lia.
    rewrite andb_false_r.
    replace ((n_ihu_interval n >? 0) && (timeval_minus_msec now (n_ihu_time n) >=? n_ihu_interval n * 10 * 10)) with true by lia.
    rewrite orb_true_r. intros E. injection E; intros; subst. reflexivity.
  - assert (Q : timeval_minus_msec now (n_ihu_time n) >= 180000).
    { apply minus_msec_ge; auto; lia. }
    replace (n_ihu_interval n >? 0) with false by lia. cbn [andb].
    replace (timeval_minus_msec now (n_ihu_time n) >=? 180000) with true by lia.
    cbn [orb]. intros E. injection E; intros; subst. reflexivity.
Qed.

Lemma txcost_kept : forall now n n' c, neigh_ok n -> tv_ok now ->
  us now - us (n_ihu_time n) < 30000 * n_ihu_interval n - 1000 ->
  n_ihu_interval n > 0 ->
  check_neigh1 now n = Some (n', c) -> n_txcost n' = n_txcost n.
Proof.
  intros now n n' c (Hh & Hu & Tx & It & Ii & _) Hn D I. unfold check_neigh1.
  rewrite (surjective_pairing (update_hist now (n_uhello n) (-1) 0)).
  rewrite (surjective_pairing (update_hist now (n_hello n) (-1) 0)).
  destruct (neigh_dead _ _); [discriminate|].
  unfold reset_txcost. cbn [n_ihu_time n_ihu_interval n_hello set_n_uhello set_n_hello].
  assert (Q : timeval_minus_msec now (n_ihu_time n) < 30 * n_ihu_interval n).
  { apply minus_msec_lt; auto; lia. }
  replace ((n_ihu_interval n >? 0) && (timeval_minus_msec now (n_ihu_time n) <? n_ihu_interval n * 10 * 3)) with true by lia.
  intros E. injection E; intros; subst. reflexivity.
Qed.

Lemma rtt_sample_iff : forall n t1 t2 rtt,
  rtt_sample n t1 t2 = Some rtt <->
  (0 <= s32 (n_hello_send_us n - t2) <= 600000000 /\
   0 <= s32 (time_us (n_hello_rtt_time n) - t1) <= 600000000 /\
   rtt = Z.max 0 (s32 (time_us (n_hello_rtt_time n) - t1) - s32 (n_hello_send_us n - t2))).
Proof.
  intros. unfold rtt_sample.
  set (a := s32 (n_hello_send_us n - t2)). set (b := s32 (time_us (n_hello_rtt_time n) - t1)).
  clearbody a b. destruct (_ || _) eqn:E.
  - split; [discriminate|lia].
  - split; intros H; [injection H; intros; lia|].
    f_equal. lia.
Qed.

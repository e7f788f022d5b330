(** L_Buf4.v: updates; every operation; the whole history of a buffer. *)
From Verif Require Import Base M_Util S_Util L_Util M_Filter L_Filter M_Types M_Wire S_Wire L_Wire L_Wire2 M_Auth M_Buf S_Buf L_Codec L_Buf L_Buf2 L_Buf3.

Section Mac.
Variable key : Type.
Variable mac : key -> list Z -> option (list Z).
Notation env := (benv key).
Variable v : env.
Variable c : rctx.
Hypothesis VOK : env_ok key mac v.
Hypothesis FROM : addr_ok (r_from c).
Hypothesis LL : linklocal (r_from c) = true.
Variable own : bool.
Notation binv := (binv key v c own).
Notation avail := (avail key v).
Notation writes := (writes key v).

Lemma room : forall n s E R, binv s E R -> n <= avail s -> n <= v_size v - zlen (e_buf s).
Proof. intros n s E R B A. unfold L_Buf.avail in A. destruct (auth_room_cases key v); lia. Qed.

(** A message when there is room *)
Lemma build_room : forall t n m body s, writes m body -> zlen body = n -> n < 256 -> n + 2 <= avail s ->
  quiet (set_e_buf (e_buf s ++ t :: n :: body) s) (end_message key v t n (m (start_message key mac v t n s))).
Proof.
  intros t n m body s W L N A. pose proof (build key v mac t n m body s W L N) as Q. cbv zeta in Q.
  rewrite (space_id key v mac) in Q by auto. apply Q. unfold L_Buf.avail in A. destruct (auth_room_cases key v); lia.
Qed.

(** The next hop *)
Lemma nh_ok : forall a s E R, binv s E R -> length a = 4%nat -> bytes_ok a -> 8 <= avail s ->
  let s' := buffer_nh key mac v a s in
  binv s' E R /\ e_nh s' = Some a /\ avail s <= avail s' + 8 /\ keeps s s'.
Proof.
  intros a s E R B La Ba A s'. unfold s', buffer_nh.
  destruct (match e_nh s with None => true | Some n => negb (beq_n 4 n a) end) eqn:G.
  - set (m := fun s => puts key v a 0 4 (put key v [AE_IPV4; 0] s)).
    assert (W : writes m ([AE_IPV4; 0] ++ a)).
    { apply (writes_comp key v (put key v [AE_IPV4; 0]) (puts key v a 0 4)); [apply writes_put|].
      apply writes_puts; try lia; [unfold zlen; lia|]. symmetry. apply (firstn_k 4 a La). }
    assert (L6 : zlen ([AE_IPV4; 0] ++ a) = 6) by (rewrite zlen_app, (zl a 4 La); reflexivity).
    pose proof (build_room MESSAGE_NH 6 m _ s W L6 ltac:(lia) ltac:(lia)) as Q.
    change (let s0 := start_message key mac v MESSAGE_NH 6 s in
            let s1 := put key v [AE_IPV4; 0] s0 in
            let s2 := puts key v a 0 4 s1 in
            let s3 := end_message key v MESSAGE_NH 6 s2 in set_e_nh (Some (firstn 4 a)) s3)
      with (set_e_nh (Some (firstn 4 a)) (end_message key v MESSAGE_NH 6 (m (start_message key mac v MESSAGE_NH 6 s)))).
    set (s1 := end_message _ _ _ _ _) in *. rewrite (firstn_k 4 a La).
    destruct Q as (Q1 & Q2 & Q3 & Q4 & Q5 & Q6 & Q7 & Q8 & Q9 & Q10 & Q11 & Q12 & Q13 & Q14).
    cbn [set_e_buf e_buf e_hello e_id e_nh e_prefix e_pc e_index e_hseq e_ipv4 e_lls e_mc e_rndb e_sent e_bad] in *.
    split; [|split; [reflexivity|split]].
    + rewrite <- (app_nil_r E), <- (app_nil_r R). change (R ++ []) with (R ++ raw1 (MESSAGE_NH, [AE_IPV4; 0] ++ a)).
      apply (append_ok key v c own s); auto; try discriminate.
      * unfold frame_ok. cbn [fst snd]. rewrite L6. unfold MESSAGE_NH. split; [lia|]. split; [lia|].
        constructor; [unfold byte_ok, AE_IPV4; lia|]. constructor; [unfold byte_ok; lia|auto].
      * cbn [set_e_nh e_buf]. rewrite Q1, L6. auto.
      * unfold kept. cbn. repeat split; auto.
      * lia.
      * intros p (C1 & C2 & C3 & C4). exists (set_p_nh4 (Some (v4tov6 a)) p), []. rewrite one_nh_ok by auto.
        split; auto. split; [|auto]. unfold coupled. cbn [set_e_nh e_id e_nh e_prefix set_p_nh4 p_id p_nh4 p_v6 p_nh6].
        rewrite Q3, Q5. split; auto. split; auto. intros n X. injection X as <-. auto.
    + unfold L_Buf.avail. cbn [set_e_nh e_buf]. rewrite Q1, zlen_app, !zlen_cons, L6. lia.
    + unfold keeps. cbn [set_e_nh e_hseq e_ipv4 e_lls e_mc]. auto.
  - destruct (e_nh s) as [n|] eqn:En; [|discriminate]. split; auto. split; [|split; [lia|repeat split]].
    f_equal. apply negb_false_iff, beq_n_true in G.
    destruct B as (E1 & E2 & R1 & R2 & F & _ & _ & _ & C).
    destruct (c_coupled _ _ _ _ _ _ _ _ C None Logic.I) as (_ & C2 & _). destruct (C2 n En) as [Ln _].
    rewrite !firstn_k in G by auto. auto.
Qed.

(** The router-id, when it is not in the prefix *)
Definition id_known (s : est) (id : list Z) : bool := match e_id s with None => false | Some i => beq id i end.
Definition in_prefix_id (id prefix : list Z) (plen : Z) : bool := (plen =? 128) && beq (firstn 8 (skipn 8 prefix)) id.

Lemma id_ok : forall id s E R, binv s E R -> length id = 8%nat -> bytes_ok id -> 12 <= avail s -> id_known s id = false ->
  let s' := set_e_id (Some id) (end_message key v MESSAGE_ROUTER_ID 10
    (puts key v id 0 8 (put key v (be16 0) (start_message key mac v MESSAGE_ROUTER_ID 10 s)))) in
  binv s' E R /\ e_id s' = Some id /\ e_nh s' = e_nh s /\ e_prefix s' = e_prefix s /\ avail s <= avail s' + 12 /\ keeps s s'.
Proof.
  intros id s E R B La Ba A G s'.
  set (m := fun s => puts key v id 0 8 (put key v (be16 0) s)).
  assert (W : writes m (be16 0 ++ id)).
  { apply (writes_comp key v (put key v (be16 0)) (puts key v id 0 8)); [apply writes_put|].
    apply writes_puts; try lia; [rewrite (zl id 8 La); lia|]. symmetry. apply (firstn_all8 id La). }
  assert (L10 : zlen (be16 0 ++ id) = 10) by (rewrite zlen_app, (zl id 8 La); reflexivity).
  pose proof (build_room MESSAGE_ROUTER_ID 10 m _ s W L10 ltac:(lia) ltac:(lia)) as Q.
  unfold s'. change (puts key v id 0 8 (put key v (be16 0) ?x)) with (m x).
  set (s1 := end_message _ _ _ _ _) in *.
  destruct Q as (Q1 & Q2 & Q3 & Q4 & Q5 & Q6 & Q7 & Q8 & Q9 & Q10 & Q11 & Q12 & Q13 & Q14).
  cbn [set_e_buf e_buf e_hello e_id e_nh e_prefix e_pc e_index e_hseq e_ipv4 e_lls e_mc e_rndb e_sent e_bad] in *.
  split; [|split; [reflexivity|split; [exact Q4|split; [exact Q5|split]]]].
  - rewrite <- (app_nil_r E), <- (app_nil_r R). change (R ++ []) with (R ++ raw1 (MESSAGE_ROUTER_ID, be16 0 ++ id)).
    apply (append_ok key v c own s); auto; try discriminate.
    + unfold frame_ok. cbn [fst snd]. rewrite L10. unfold MESSAGE_ROUTER_ID. split; [lia|]. split; [lia|].
      apply bytes_ok_app. split; [apply be16_ok|auto].
    + cbn [set_e_id e_buf]. rewrite Q1, L10. auto.
    + unfold kept. cbn. repeat split; auto.
    + lia.
    + intros p (C1 & C2 & C3 & C4). exists (set_p_id (Some id) p), []. rewrite one_router_id_ok by auto.
      split; auto. split; [|auto]. unfold coupled. cbn [set_e_id e_id e_nh e_prefix set_p_id p_id p_nh4 p_v6 p_nh6].
      rewrite Q4, Q5. split; auto.
  - unfold L_Buf.avail. cbn [set_e_id e_buf]. rewrite Q1, zlen_app, !zlen_cons, L10. lia.
  - unfold keeps. cbn [set_e_id e_hseq e_ipv4 e_lls e_mc]. auto.
Qed.

(** The update itself *)
Lemma update_tlv_ok : forall ae d fl om seqno metric interval s, dest_wire d -> 0 <= om <= real_plen d / 8 ->
  (is4 d = true -> om = 0) -> 47 <= avail s ->
  let s' := buffer_update_tlv key mac v ae (is4 d) d fl om seqno metric interval s in
  let b := update_body ae fl om interval seqno metric d in
  zlen b <= 45 /\
  quiet (set_e_prefix (if bit fl 128 then Some (d_prefix d) else e_prefix s) (set_e_buf (e_buf s ++ MESSAGE_UPDATE :: zlen b :: b) s)) s'.
Proof.
  intros ae d fl om seqno metric interval s W Ho O4 A s' b.
  destruct (pb_range d W) as (P1 & P2 & P3). pose proof (src_tail_max d W) as Mx. pose proof (zlen_nonneg _ (src_tail d)).
  destruct (spb_range d W) as (S1 & S2 & S3). pose proof (pbytes_len d om W Ho O4) as Lp.
  pose proof (zlen_nonneg _ (pbytes d om)) as Np.
  assert (Lb : zlen b = 10 + pb d - om + zlen (src_tail d)).
  { unfold b, update_body, be16. rewrite !zlen_cons, !zlen_app, !zlen_cons, !zlen_nil, Lp. lia. }
  assert (Sz : zlen b <= 45) by lia.
  split; [exact Sz|].
  unfold s', buffer_update_tlv. cbv zeta. fold (real_plen d) (real_splen d). rewrite pb_quot by auto. fold (pb d).
  rewrite !u8_small by lia.
  set (m := fun s => 
     if negb (is_default (d_src d) (d_splen d)) then
       puts key v (d_src d) (if is4 d then 12 else 0) (spb d) (put key v [SUBTLV_SOURCE_PREFIX; 1 + spb d; real_splen d]
          (puts key v (d_prefix d) ((if is4 d then 12 else 0) + om) (pb d - om)
             (put key v ([ae; fl; real_plen d; om] ++ be16 interval ++ be16 seqno ++ be16 metric) s)))
     else puts key v (d_prefix d) ((if is4 d then 12 else 0) + om) (pb d - om)
             (put key v ([ae; fl; real_plen d; om] ++ be16 interval ++ be16 seqno ++ be16 metric) s)).
  assert (Wr : writes m b).
  { assert (W1 : writes (fun s => puts key v (d_prefix d) ((if is4 d then 12 else 0) + om) (pb d - om)
             (put key v ([ae; fl; real_plen d; om] ++ be16 interval ++ be16 seqno ++ be16 metric) s))
             (([ae; fl; real_plen d; om] ++ be16 interval ++ be16 seqno ++ be16 metric) ++ pbytes d om)).
    { apply (writes_comp key v (put key v ([ae; fl; real_plen d; om] ++ be16 interval ++ be16 seqno ++ be16 metric))
        (puts key v (d_prefix d) ((if is4 d then 12 else 0) + om) (pb d - om))); [apply writes_put|].
      destruct W as ((((La & _) & _) & _) & _).
      apply writes_puts.
      - lia.
      - destruct (is4 d); lia.
      - unfold zlen. rewrite La. destruct (is4 d); [specialize (P3 eq_refl)|]; lia.
      - unfold pbytes. f_equal. f_equal. destruct (is4 d); lia. }
    assert (W2 : writes (put_src key v d) (src_tail d)) by (apply w_src; auto).
    pose proof (writes_comp key v _ _ _ _ W1 W2) as Q.
    replace ((([ae; fl; real_plen d; om] ++ be16 interval ++ be16 seqno ++ be16 metric) ++ pbytes d om) ++ src_tail d)
      with b in Q by (unfold b, update_body; rewrite <- !app_assoc; reflexivity).
    intros bb ss H0. rewrite <- (Q bb ss H0). unfold m, put_src. cbv zeta. fold (is4 d).
    assert (X : (if is4 d then Z.quot (d_splen d - 96 + 7) 8 else (d_splen d + 7) / 8) = spb d).
    { pose proof (pb_quot d W) as Q'. unfold spb, real_splen in *. destruct (is4 d); auto. }
    rewrite X. fold (real_splen d). rewrite !u8_small by lia. destruct (is_default _ _); reflexivity. }
  set (n := 10 + pb d - om + (if negb (is_default (d_src d) (d_splen d)) then 3 + spb d else 0)).
  assert (Ln : zlen b = n).
  { rewrite Lb, src_tail_len by auto. unfold n. destruct (is_default _ _); cbn [negb]; lia. }
  change (if negb (is_default (d_src d) (d_splen d)) then
      puts key v (d_src d) (if is4 d then 12 else 0) (spb d) (put key v [SUBTLV_SOURCE_PREFIX; 1 + spb d; real_splen d]
         (puts key v (d_prefix d) ((if is4 d then 12 else 0) + om) (pb d - om)
            (put key v ([ae; fl; real_plen d; om] ++ be16 interval ++ be16 seqno ++ be16 metric) (start_message key mac v MESSAGE_UPDATE n s))))
     else puts key v (d_prefix d) ((if is4 d then 12 else 0) + om) (pb d - om)
            (put key v ([ae; fl; real_plen d; om] ++ be16 interval ++ be16 seqno ++ be16 metric) (start_message key mac v MESSAGE_UPDATE n s)))
    with (m (start_message key mac v MESSAGE_UPDATE n s)).
  pose proof (build_room MESSAGE_UPDATE n m b s Wr Ln ltac:(lia) ltac:(lia)) as Q. rewrite Ln.
  set (s1 := end_message _ _ _ _ _) in *.
  destruct Q as (Q1 & Q2 & Q3 & Q4 & Q5 & Q6 & Q7 & Q8 & Q9 & Q10 & Q11 & Q12 & Q13 & Q14).
  destruct (bit fl 128); unfold quiet; cbn [set_e_prefix set_e_buf e_buf e_hello e_id e_nh e_prefix e_pc e_index e_hseq e_ipv4 e_lls e_mc e_rndb e_sent e_bad] in *;
  repeat split; auto.
Qed.

Lemma upd_append : forall s E R s0 ae d fl om seqno metric interval a0, binv s E R -> dest_wire d ->
  0 <= om <= real_plen d / 8 -> (is4 d = true -> om = 0) -> 47 <= avail s ->
  byte_ok ae -> byte_ok fl ->
  (s0 = s \/ exists i, s0 = set_e_id i s) ->
  (forall p, coupled s p -> exists p' a,
     one c p MESSAGE_UPDATE (update_body ae fl om interval seqno metric d) = (p', a) /\
     coupled (set_e_prefix (if bit fl 128 then Some (d_prefix d) else e_prefix s) s0) p' /\ untimed a = a0) ->
  binv (buffer_update_tlv key mac v ae (is4 d) d fl om seqno metric interval s0) (E ++ a0) (R ++ []).
Proof.
  intros s E R s0 ae d fl om seqno metric interval a0 B W Ho O4 A Bae Bfl S0 H.
  assert (X : e_buf s0 = e_buf s /\ e_hello s0 = e_hello s /\ e_prefix s0 = e_prefix s /\ kept s s0 /\ avail s0 = avail s).
  { destruct S0 as [-> |(i & ->)]; repeat split. }
  destruct X as (X1 & X2 & X3 & X4 & X5).
  destruct (update_tlv_ok ae d fl om seqno metric interval s0 W Ho O4 ltac:(lia)) as [Lb Q].
  destruct (pb_range d W) as (P1 & P2 & P3).
  set (b := update_body ae fl om interval seqno metric d) in *.
  set (s' := buffer_update_tlv _ _ _ _ _ _ _ _ _ _ _ _) in *.
  change (R ++ []) with (R ++ raw1 (MESSAGE_UPDATE, b)).
  destruct Q as (Q1 & Q2 & Q3 & Q4 & Q5 & Q6 & Q7 & Q8 & Q9 & Q10 & Q11 & Q12 & Q13 & Q14).
  cbn [set_e_prefix set_e_buf e_buf e_hello e_id e_nh e_prefix e_pc e_index e_hseq e_ipv4 e_lls e_mc e_rndb e_sent e_bad] in *.
  apply (append_ok key v c own s); auto; try discriminate.
  - unfold frame_ok. cbn [fst snd]. unfold MESSAGE_UPDATE. split; [lia|]. split; [lia|].
    unfold b, update_body. constructor; [auto|]. constructor; [auto|]. constructor; [unfold byte_ok; lia|].
    constructor; [unfold byte_ok; lia|]. rewrite !bytes_ok_app. repeat split; try apply be16_ok.
    + apply pbytes_bytes; auto.
    + apply src_tail_bytes; auto.
  - rewrite Q1, X1. auto.
  - congruence.
  - destruct X4 as (K1 & K2 & K3 & K4 & K5 & K6 & K7). repeat split; congruence.
  - lia.
  - intros p Cp. destruct (H p Cp) as (p' & a & Y1 & Y2 & Y3). exists p', a. split; auto. split; auto.
    destruct Y2 as (Z1 & Z2 & Z3 & Z4). cbn [set_e_prefix e_id e_nh e_prefix] in *. unfold coupled. rewrite Q3, Q4, Q5, X3. auto.
Qed.

Lemma bits_fl : forall a b : bool, let fl := (if a then 128 else 0) + (if b then 64 else 0) in
  bit fl 128 = a /\ bit fl 64 = b /\ byte_ok fl.
Proof. intros [] []; repeat split; unfold byte_ok; lia. Qed.

(** An IPv6 update in state [s] *)
Lemma upd6 : forall s E R id d seqno metric interval, binv s E R -> dest_wire d -> is4 d = false ->
  length id = 8%nat -> bytes_ok id -> 0 <= seqno < 65536 -> 0 <= metric < 65536 -> 0 <= interval < 65536 -> 78 <= avail s ->
  let om := match e_prefix s with None => 0 | Some q => common (Z.to_nat (d_plen d / 8)) q (d_prefix d) end in
  let store := match e_prefix s with None => true | Some _ => false end || (d_plen d >=? 48) in
  let r := buffer_id key mac v id (d_prefix d) false (d_plen d) (if store then 128 else 0) s in
  binv (buffer_update_tlv key mac v AE_IPV6 false d (fst r) om seqno metric interval (snd r))
    (E ++ [AUpdate (Some id) d seqno metric interval (Some (r_from c))]) (R ++ []).
Proof.
  intros s E R id d seqno metric interval B W N4 Li Bi Hs Hm Hi A om store r.
  destruct (pb_range d W) as (P1 & P2 & _). assert (Rp : real_plen d = d_plen d) by (unfold real_plen; rewrite N4; auto).
  assert (Ho : 0 <= om <= real_plen d / 8).
  { rewrite Rp. unfold om. destruct (e_prefix s) as [q|]; [|lia]. pose proof (common_range (Z.to_nat (d_plen d / 8)) q (d_prefix d)). lia. }
  assert (Fa : fam AE_IPV6 d) by (unfold fam; rewrite N4; auto).
  assert (Om : forall p, (forall q, e_prefix s = Some q -> p_v6 p = Some q /\ v4mapped q = false /\ addr_ok q) -> omits d om (p_v6 p)).
  { intros p C3. unfold omits, om. destruct (e_prefix s) as [q|]; [|auto]. right. split; auto.
    destruct (C3 q eq_refl) as (Y1 & Y2 & _). exists q. split; auto. split; auto. apply common_firstn. }
  assert (M4 : v4mapped (d_prefix d) = false) by (apply not4_unmapped; auto).
  assert (Ap : addr_ok (d_prefix d)) by (destruct W as (((Ap & _) & _) & _); auto).
  (* the last step, from a state that differs in the router-id *)
  assert (Last : forall s1 s0 b, binv s1 E R -> 47 <= avail s1 -> e_prefix s1 = e_prefix s ->
    (s0 = s1 \/ exists i, s0 = set_e_id i s1) -> e_id s0 = Some id ->
    (b = false -> e_id s1 = Some id) -> (b = true -> firstn 8 (skipn 8 (d_prefix d)) = id) ->
    binv (buffer_update_tlv key mac v AE_IPV6 false d ((if store then 128 else 0) + (if b : bool then 64 else 0)) om seqno metric interval s0)
      (E ++ [AUpdate (Some id) d seqno metric interval (Some (r_from c))]) (R ++ [])).
  { intros s1 s0 b B1 A1 Ep S0 I0 Ib1 Ib2. destruct (bits_fl store b) as (F1 & F2 & F3).
    set (fl := (if store then 128 else 0) + (if b then 64 else 0)) in *.
    rewrite <- N4. apply (upd_append s1); auto; [congruence|unfold byte_ok, AE_IPV6; lia|].
    rewrite F1. intros p Cp.
    destruct Cp as (C1 & C2 & C3 & C4). rewrite Ep in C3.
    set (p1 := if bit fl 128 then set_p_v6 (Some (d_prefix d)) p else p).
    set (p2 := if bit fl 64 then set_p_id (Some (firstn 8 (skipn 8 (d_prefix d)))) p1 else p1).
    assert (Pi : p_id p2 = Some id).
    { unfold p2, p1. rewrite F1, F2. destruct b; [rewrite Ib2 by auto; reflexivity|].
      destruct store; cbn [set_p_v6 p_id]; apply C1; auto. }
    exists p2, [AUpdate (Some id) d seqno metric interval (Some (r_from c))]. split; [|split; [|reflexivity]].
    - eapply one_update_ok; eauto.
      + exact (Om p C3).
      + intros X. unfold AE_IPV6, AE_V4VIAV6 in X. lia.
      + change (AE_IPV6 =? AE_IPV4) with false. cbv iota. rewrite C4. auto.
    - unfold coupled. cbn [set_e_prefix e_id e_nh e_prefix].
      assert (E2 : e_nh s0 = e_nh s1) by (destruct S0 as [-> |(i & ->)]; reflexivity). rewrite I0, E2, Ep.
      assert (P4 : p_nh4 p2 = p_nh4 p /\ p_nh6 p2 = p_nh6 p /\ p_v6 p2 = if store then Some (d_prefix d) else p_v6 p).
      { unfold p2, p1. rewrite F1, F2. destruct b, store; repeat split. }
      destruct P4 as (P4 & P6 & Pv). rewrite P4, P6, Pv.
      split; [intros i X; congruence|]. split; [exact C2|]. split; [|exact C4].
      destruct store; [intros q X; injection X as <-; auto|exact C3]. }
  unfold r, buffer_id. clear r.
  destruct (e_id s) as [i|] eqn:Ei.
  - destruct (beq id i) eqn:Bi'; cbn [negb fst snd].
    + apply beq_true in Bi'. subst i. specialize (Last s s false B ltac:(lia) eq_refl (or_introl eq_refl) Ei (fun _ => Ei) ltac:(discriminate)).
      cbv iota in Last. rewrite Z.add_0_r in Last. exact Last.
    + destruct ((d_plen d =? 128) && beq (firstn 8 (skipn 8 (d_prefix d))) id) eqn:G; cbn [fst snd].
      * apply andb_true_iff in G. destruct G as [_ G]. apply beq_true in G.
        exact (Last s (set_e_id (Some id) s) true B ltac:(lia) eq_refl (or_intror (ex_intro _ (Some id) eq_refl)) eq_refl ltac:(discriminate) (fun _ => G)).
      * assert (Kn : id_known s id = false) by (unfold id_known; rewrite Ei; auto).
        destruct (id_ok id s E R B Li Bi ltac:(lia) Kn) as (Y1 & Y2 & Y3 & Y4 & Y5 & Y6).
        specialize (Last _ _ false Y1 ltac:(lia) Y4 (or_introl eq_refl) Y2 (fun _ => Y2) ltac:(discriminate)).
        cbv iota in Last. rewrite Z.add_0_r in Last. exact Last.
  - destruct ((d_plen d =? 128) && beq (firstn 8 (skipn 8 (d_prefix d))) id) eqn:G; cbn [fst snd].
    * apply andb_true_iff in G. destruct G as [_ G]. apply beq_true in G.
      exact (Last s (set_e_id (Some id) s) true B ltac:(lia) eq_refl (or_intror (ex_intro _ (Some id) eq_refl)) eq_refl ltac:(discriminate) (fun _ => G)).
    * assert (Kn : id_known s id = false) by (unfold id_known; rewrite Ei; auto).
      destruct (id_ok id s E R B Li Bi ltac:(lia) Kn) as (Y1 & Y2 & Y3 & Y4 & Y5 & Y6).
      specialize (Last _ _ false Y1 ltac:(lia) Y4 (or_introl eq_refl) Y2 (fun _ => Y2) ltac:(discriminate)).
      cbv iota in Last. rewrite Z.add_0_r in Last. exact Last.
Qed.

(** An IPv4 update in state [s], with its next hop *)
Lemma upd4 : forall s E R id d ae seqno metric interval a0, binv s E R -> dest_wire d -> is4 d = true ->
  length id = 8%nat -> bytes_ok id -> 0 <= seqno < 65536 -> 0 <= metric < 65536 -> 0 <= interval < 65536 -> 59 <= avail s ->
  (ae = AE_IPV4 /\ (exists a, e_nh s = Some a /\ a0 = [AUpdate (Some id) d seqno metric interval (Some (v4tov6 a))]) \/
   ae = AE_V4VIAV6 /\ a0 = (if r_46 c then [AUpdate (Some id) d seqno metric interval (Some (r_from c))] else [])) ->
  let r := buffer_id key mac v id (d_prefix d) true (d_plen d - 96) 0 s in
  binv (buffer_update_tlv key mac v ae true d (fst r) 0 seqno metric interval (snd r)) (E ++ a0) (R ++ []).
Proof.
  intros s E R id d ae seqno metric interval a0 B W I4 Li Bi Hs Hm Hi A Ae r.
  destruct (pb_range d W) as (P1 & P2 & P3). specialize (P3 I4).
  assert (Rp : real_plen d = d_plen d - 96) by (unfold real_plen; rewrite I4; auto).
  assert (Ho : 0 <= 0 <= real_plen d / 8) by lia.
  assert (Fa : fam ae d) by (unfold fam; rewrite I4; destruct Ae as [[-> _]|[-> _]]; auto).
  assert (Last : forall s1, binv s1 E R -> 47 <= avail s1 -> e_id s1 = Some id -> e_nh s1 = e_nh s ->
    binv (buffer_update_tlv key mac v ae true d 0 0 seqno metric interval s1) (E ++ a0) (R ++ [])).
  { intros s1 B1 A1 I1 N1. rewrite <- I4. apply (upd_append s1); auto.
    - unfold byte_ok. destruct Ae as [[-> _]|[-> _]]; unfold AE_IPV4, AE_V4VIAV6; lia.
    - unfold byte_ok. lia.
    - change (bit 0 128) with false. cbv iota. intros p Cp. pose proof Cp as (C1 & C2 & C3 & C4).
      destruct Ae as [[-> (a & Ea & ->)]|[-> ->]].
      + exists p, [AUpdate (Some id) d seqno metric interval (Some (v4tov6 a))]. split; [|split; [|reflexivity]].
        * eapply one_update_ok; eauto; try reflexivity; try discriminate; [unfold byte_ok; lia|left; auto|].
          change (AE_IPV4 =? AE_IPV4) with true. cbv iota. rewrite <- N1 in Ea. apply (C2 a Ea).
        * exact Cp.
      + destruct (r_46 c) eqn:R46.
        * exists p, [AUpdate (Some id) d seqno metric interval (Some (r_from c))]. split; [|split; [|reflexivity]].
          -- eapply one_update_ok; eauto; try reflexivity; try discriminate; [unfold byte_ok; lia|left; auto|].
             change (AE_V4VIAV6 =? AE_IPV4) with false. cbv iota. rewrite C4. auto.
          -- exact Cp.
        * exists p, []. rewrite one_update_46 by auto. split; [auto|]. split; [exact Cp|reflexivity]. }
  unfold r, buffer_id. clear r. replace (d_plen d - 96 =? 128) with false by lia. cbn [andb].
  destruct (e_id s) as [i|] eqn:Ei.
  - destruct (beq id i) eqn:Bi'; cbn [negb fst snd].
    + apply beq_true in Bi'. subst i. apply Last; auto. lia.
    + assert (Kn : id_known s id = false) by (unfold id_known; rewrite Ei; auto).
      destruct (id_ok id s E R B Li Bi ltac:(lia) Kn) as (Y1 & Y2 & Y3 & Y4 & Y5 & Y6).
      apply Last; auto. lia.
  - cbn [fst snd]. assert (Kn : id_known s id = false) by (unfold id_known; rewrite Ei; auto).
    destruct (id_ok id s E R B Li Bi ltac:(lia) Kn) as (Y1 & Y2 & Y3 & Y4 & Y5 & Y6).
    apply Last; auto. lia.
Qed.

Lemma b_update : forall id d seqno metric interval s E R, binv s E R ->
  length id = 8%nat -> bytes_ok id -> dest_wire d -> 0 <= seqno < 65536 -> 0 <= metric < 65536 -> 0 <= interval < 65536 ->
  binv (buffer_update key mac v id d seqno metric interval s)
    (E ++ wanted c (v_46 v) (e_hello s >=? 0) (e_hseq s) (e_ipv4 s) (BUpdate id d seqno metric interval)) (R ++ []).
Proof.
  intros id d seqno metric interval s E R B Li Bi W Hs Hm Hi. unfold buffer_update, wanted.
  destruct (space_inv key mac v c VOK FROM LL own (20 + 12 + 28 + 18) s E R B) as (B1 & K1 & _ & A1). specialize (A1 ltac:(lia)).
  set (s1 := ensure_space key mac v (20 + 12 + 28 + 18) s) in *. cbv zeta. fold (is4 d).
  destruct (is4 d) eqn:I4.
  - replace (e_ipv4 s) with (e_ipv4 s1) by apply K1. destruct (e_ipv4 s1) as [a|] eqn:Ea.
    + assert (La : length a = 4%nat /\ bytes_ok a).
      { destruct B1 as (E1 & E2 & R1 & R2 & F & _ & _ & _ & C). pose proof (c_ipv4 _ _ _ _ _ _ _ _ C) as X. rewrite Ea in X. auto. }
      destruct (nh_ok a s1 E R B1 (proj1 La) (proj2 La) ltac:(lia)) as (B2 & N2 & A2 & _).
      set (s2 := buffer_nh key mac v a s1) in *.
      pose proof (upd4 s2 E R id d AE_IPV4 seqno metric interval _ B2 W I4 Li Bi Hs Hm Hi ltac:(lia)
        (or_introl (conj eq_refl (ex_intro _ a (conj N2 eq_refl))))) as X. cbv zeta in X.
      destruct (buffer_id _ _ _ _ _ _ _ _ _) as [fl s3]. exact X.
    + destruct (v_46 v); cbn [negb andb].
      * pose proof (upd4 s1 E R id d AE_V4VIAV6 seqno metric interval _ B1 W I4 Li Bi Hs Hm Hi ltac:(lia)
          (or_intror (conj eq_refl eq_refl))) as X. cbv zeta in X.
        destruct (buffer_id _ _ _ _ _ _ _ _ _) as [fl s3]. exact X.
      * rewrite !app_nil_r. exact B1.
  - pose proof (upd6 s1 E R id d seqno metric interval B1 W I4 Li Bi Hs Hm Hi ltac:(lia)) as X. cbv zeta in X.
    destruct (buffer_id _ _ _ _ _ _ _ _ _) as [fl s3]. exact X.
Qed.

(** Any operation *)
Definition keyed : bool := match v_key v with Some _ => true | None => false end.
Lemma keyed_ne : v_key v <> None -> keyed = true.
Proof. unfold keyed. destruct (v_key v); auto; congruence. Qed.

Lemma b_step : forall o s E R, binv s E R -> op_ok keyed o ->
  binv (bstep key mac v s o) (E ++ wanted c (v_46 v) (e_hello s >=? 0) (e_hseq s) (e_ipv4 s) o) (R ++ raw_wanted o).
Proof.
  intros o s E R B Ok. destruct o; cbn [bstep raw_wanted].
  - destruct Ok as (O1 & O2 & O3 & O4 & O5 & O6). apply b_update; auto.
  - cbn [wanted]. rewrite app_nil_r. apply b_wild; auto.
  - apply b_request; auto.
  - destruct Ok as (O1 & O2 & O3 & O4 & O5). apply b_mh; auto.
  - apply b_hello; auto.
  - apply b_ihu; auto.
  - apply b_ack; auto.
  - destruct Ok as [O1 O2]. unfold buffer_challenge_request. cbv zeta.
    pose proof (b_challenge key mac v c VOK FROM LL own 18 nonce s E R B) as X. rewrite (zl nonce 8 O1) in X.
    specialize (X ltac:(lia) O2 (or_introl eq_refl)).
    eapply quiet_binv; [|exact X]. eapply quiet_trans; [apply quiet_gettime|apply quiet_now].
  - destruct Ok as [O1 O2]. unfold buffer_challenge_reply. cbv zeta.
    pose proof (b_challenge key mac v c VOK FROM LL own 19 nonce s E R B O1 O2 (or_intror eq_refl)) as X.
    eapply quiet_binv; [|exact X]. eapply quiet_trans; [apply quiet_gettime|apply quiet_now].
  - rewrite !app_nil_r. apply (flush_ok key mac v c VOK FROM LL own s E R B).
  - rewrite !app_nil_r. apply (space_inv key mac v c VOK FROM LL own n s E R B).
  - rewrite !app_nil_r. eapply quiet_binv; [|exact B]. unfold quiet. repeat split.
  - rewrite !app_nil_r. destruct B as (E1 & E2 & R1 & R2 & F & X1 & X2 & X3 & []). exists E1, E2, R1, R2, F.
    repeat (split; [auto|]). constructor; auto.
  - rewrite !app_nil_r. destruct B as (E1 & E2 & R1 & R2 & F & X1 & X2 & X3 & []). exists E1, E2, R1, R2, F.
    repeat (split; [auto|]). constructor; auto. intros K. apply Ok, keyed_ne, K.
  - rewrite !app_nil_r. destruct (e_mc s) as [h0|] eqn:Em; [|exact B].
    destruct B as (E1 & E2 & R1 & R2 & F & X1 & X2 & X3 & []). exists E1, E2, R1, R2, F.
    repeat (split; [auto|]). constructor; auto. intros O. specialize (c_own O). congruence.
Qed.

Lemma b_steps : forall l s E R, binv s E R -> Forall (op_ok keyed) l ->
  binv (bsteps key mac v s l) (E ++ all_wanted key mac c v s l) (R ++ flat_map raw_wanted l).
Proof.
  induction l as [|o l IH]; intros s E R B O.
  - cbn. rewrite !app_nil_r. exact B.
  - inversion O; subst. cbn [bsteps fold_left all_wanted flat_map]. rewrite !app_assoc.
    apply (IH (bstep key mac v s o)); auto. apply b_step; auto.
Qed.

Lemma b_start : forall s, start_ok key v s -> (own = true -> e_mc s = None) -> binv s [] [].
Proof.
  intros s (S1 & S2 & S3 & S4 & S5 & S6 & S7 & S8 & S9 & S10 & S11 & S12) Ow.
  exists [], [], [], [], (fun _ => []). split; auto. split; auto. split.
  - rewrite S6. split; [constructor|]. split; [reflexivity|]. exists []. split; [constructor|reflexivity].
  - apply (cur_fresh key mac v c VOK own s); auto; repeat split; auto.
Qed.
End Mac.

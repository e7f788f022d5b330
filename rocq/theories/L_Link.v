(** L_Link.v: a link survives losses. *)
From Verif Require Import Base M_Util S_Util M_Filter M_Source M_Types M_Neigh S_Neigh L_Util L_Neigh M_Link S_Link.

Lemma check_none : forall now h v, tv_ok now -> hist_ok h -> h_interval h = v -> v > 0 ->
  us now - us (h_time h) < 17000 * v - 1000 -> fst (update_hist now h (-1) 0) = h.
Proof.
  intros now h v Hn Ok Hi Hv D. assert (K := Ok). destruct K as (R & Iv & Sq & T & S0).
  rewrite check_step by auto.
  assert (Q : timeval_minus_msec now (h_time h) < 17 * v) by (apply minus_msec_lt; auto; lia).
  replace (missed_of now h <=? 0) with true; [reflexivity|].
  symmetry. apply Z.leb_le. unfold missed_of. rewrite Hi. replace (v >? 0) with true by lia.
  pose proof (minus_msec_range now (h_time h) Hn T).
  remember (timeval_minus_msec now (h_time h)) as d.
  destruct (Z_lt_dec (d - v * 7) 0).
  - apply Z.quot_le_upper_bound; lia.
  - rewrite Z.quot_div_nonneg by lia.
    assert ((d - v * 7) / (v * 10) < 1) by (apply Z.div_lt_upper_bound; lia). lia.
Qed.

Lemma check_one : forall now h v, tv_ok now -> hist_ok h -> h_interval h = v -> v > 0 ->
  h_seqno h >= 0 ->
  us now - us (h_time h) < 27000 * v - 1000 ->
  fst (update_hist now h (-1) 0) = h \/
  us (h_time h) + 10000 * v <= us now /\
  fst (update_hist now h (-1) 0) =
    mkHist (Z.shiftr (h_reach h) 1) v ((h_seqno h + 1) mod 65536) (timeval_add_msec (h_time h) (10 * v)).
Proof.
  intros now h v Hn Ok Hi Hv Hs D. assert (K := Ok). destruct K as (R & Iv & Sq & T & S0).
  rewrite check_step by auto.
  assert (Q : timeval_minus_msec now (h_time h) < 27 * v) by (apply minus_msec_lt; auto; lia).
  destruct (missed_of now h <=? 0) eqn:E; [left; reflexivity|right].
  assert (M : missed_of now h = 1 /\ 17 * v <= timeval_minus_msec now (h_time h)).
  { apply Z.leb_gt in E. unfold missed_of in *. rewrite Hi in *. replace (v >? 0) with true in * by lia.
    pose proof (minus_msec_range now (h_time h) Hn T).
    remember (timeval_minus_msec now (h_time h)) as d.
    destruct (Z_lt_dec (d - v * 7) 0).
    - assert (Z.quot (d - v * 7) (v * 10) <= 0) by (apply Z.quot_le_upper_bound; lia). lia.
    - rewrite Z.quot_div_nonneg in * by lia.
      assert ((d - v * 7) / (v * 10) < 2) by (apply Z.div_lt_upper_bound; lia).
      pose proof (Z.mul_div_le (d - v * 7) (v * 10) ltac:(lia)). nia. }
  destruct M as [M M2]. rewrite M. split.
  - destruct (Z_le_gt_dec (us (h_time h) + 10000 * v) (us now)); auto. exfalso.
    assert (timeval_minus_msec now (h_time h) < 17 * v) by (apply minus_msec_lt; auto; lia). lia.
  - change (1 >=? 16) with false. cbn [fst]. rewrite Hi.
    rewrite u16_seq by lia. unfold seqno_plus. rewrite land_65535.
    replace (1 * v * 10) with (10 * v) by lia. reflexivity.
Qed.

Definition slots (h : hist) (v : list bool) : Prop :=
  forall k, 0 <= k < 16 -> slot_heard h k = nth (Z.to_nat k) v false.

Lemma slots_next : forall t h s i v g, hist_ok h -> h_reach h > 0 -> seqno_ok s ->
  ahead s (h_seqno h) = Z.of_nat g + 1 -> (g < 16)%nat -> slots h v ->
  slots (fst (update_hist t h s i)) (true :: repeat false g ++ v).
Proof.
  intros t h s i v g Ok R Hs A Hg Sl k Hk.
  pose proof (hello_step t h s i Ok R Hs) as K. cbv zeta in K. destruct K as (_ & _ & _ & K & _).
  rewrite (K (Z.of_nat g) A ltac:(lia) k Hk).
  destruct (k =? 0) eqn:E0. { replace k with 0 by lia. reflexivity. }
  replace (Z.to_nat k) with (S (Z.to_nat (k - 1))) by lia. cbn [nth].
  destruct (k <=? Z.of_nat g) eqn:E1.
  - rewrite app_nth1 by (rewrite repeat_length; lia). rewrite nth_repeat. reflexivity.
  - rewrite app_nth2 by (rewrite repeat_length; lia). rewrite repeat_length.
    rewrite Sl by lia. f_equal. lia.
Qed.

Lemma slots_first : forall t h s i, seqno_ok s -> h_reach h = 0 ->
  slots (fst (update_hist t h s i)) [true].
Proof.
  intros t h s i Hs R k Hk. destruct (hello_step_first t h s i Hs R) as [E _].
  unfold slot_heard. rewrite E. rewrite tb_32768.
  destruct (Z.to_nat k) eqn:Ek; cbn [nth].
  - replace k with 0 by lia. reflexivity.
  - replace (15 - k =? 15) with false by lia. destruct n; reflexivity.
Qed.

Lemma slots_shift : forall h i s t v, hist_ok h -> slots h v ->
  slots (mkHist (Z.shiftr (h_reach h) 1) i s t) (false :: v).
Proof.
  intros h i s t v Ok Sl k Hk. unfold slot_heard in *. cbn [h_reach].
  rewrite Z.shiftr_spec by lia.
  destruct (Z.eq_dec k 0) as [->|Hne].
  - cbn [Z.to_nat nth]. apply tb_high; [apply Ok|lia].
  - replace (Z.to_nat k) with (S (Z.to_nat (k - 1))) by lia. cbn [nth].
    rewrite <- Sl by lia. unfold slot_heard. f_equal. lia.
Qed.

Lemma slots_pos : forall h v j, hist_ok h -> slots h v -> (j < 16)%nat -> nth j v false = true -> h_reach h > 0.
Proof.
  intros h v j Ok Sl Hj N. assert (h_reach h <> 0); [|destruct Ok; lia].
  intros E. specialize (Sl (Z.of_nat j) ltac:(lia)). rewrite Nat2Z.id, N in Sl.
  unfold slot_heard in Sl. rewrite E, Z.bits_0 in Sl. discriminate.
Qed.

(** ** The invariant *)
Section Keep.
Variables G D H M : Z.
Hypothesis HG : 1000 <= G.
Hypothesis HD : 0 <= D.
Hypothesis HGD : 2 * G + D <= 2700.
Hypothesis HH : 1 <= H <= 66000.
Hypothesis HM : 0 <= M <= 5 \/ 0 <= M <= 20 /\ H <= 6300.

Let Iv := (H + 9) / 10.
Let Jv := (3 * H + 9) / 10.

Lemma Iv_eq : hello_announced H = Iv /\ H <= 10 * Iv < H + 10 /\ 0 < Iv < 65536.
Proof.
  unfold hello_announced, Iv.
  pose proof (Z.mul_div_le (H + 9) 10 ltac:(lia)). pose proof (Z.mul_succ_div_gt (H + 9) 10 ltac:(lia)). lia.
Qed.
Lemma Jv_eq : ihu_announced H = Jv /\ 3 * H <= 10 * Jv < 3 * H + 10 /\ 0 < Jv < 65536.
Proof.
  unfold ihu_announced, Jv.
  pose proof (Z.mul_div_le (3 * H + 9) 10 ltac:(lia)). pose proof (Z.mul_succ_div_gt (3 * H + 9) 10 ltac:(lia)).
  unfold u16. rewrite Z.mod_small by lia. lia.
Qed.

Definition good (v : list bool) : Prop :=
  forall j, nth j v true = false -> nth (S j) v false = true /\ nth (S (S j)) v false = true.

Definition hinv (clk last sq : Z) (v : list bool) (h : hist) : Prop :=
  hist_ok h /\ h_interval h = Iv /\ us (h_time h) <= clk /\ 0 <= h_seqno h /\
  ((hd false v = true /\ h_seqno h = (sq - 1) mod 65536 /\ last <= us (h_time h) /\ slots h v) \/
   (exists u, v = false :: true :: true :: u /\ h_seqno h = (sq - 2) mod 65536 /\
      last - G * H <= us (h_time h) /\ slots h (true :: true :: u)) \/
   (exists u, v = false :: true :: true :: u /\ h_seqno h = (sq - 1) mod 65536 /\
      last - G * H + 10000 * Iv <= us (h_time h) /\ slots h v)).

Definition iinv (clk last : Z) (oc lc : option Z) (n : neigh) : Prop :=
  match oc with
  | None => lc = None
  | Some m => 0 <= m <= M /\ lc = Some (n_txcost n) /\ n_ihu_interval n = Jv /\
      last - m * (G * H) <= us (n_ihu_time n) <= clk
  end.

Lemma hinv_reach : forall clk last sq v h, hinv clk last sq v h -> h_reach h > 0.
Proof.
  intros clk last sq v h (Ok & _ & _ & _ & [(A & _ & _ & Sl)|[(u & -> & _ & _ & Sl)|(u & -> & _ & _ & Sl)]]).
  - destruct v as [|b v]; [discriminate|]. cbn in A. subst b. apply (slots_pos h _ 0 Ok Sl); [lia|reflexivity].
  - apply (slots_pos h _ 0 Ok Sl); [lia|reflexivity].
  - apply (slots_pos h _ 1 Ok Sl); [lia|reflexivity].
Qed.

Lemma hinv_slot : forall clk last sq v h, hinv clk last sq v h -> exists j, 0 <= j < 12 /\ slot_heard h j = true.
Proof.
  intros clk last sq v h (Ok & _ & _ & _ & [(A & _ & _ & Sl)|[(u & -> & _ & _ & Sl)|(u & -> & _ & _ & Sl)]]).
  - destruct v as [|b v]; [discriminate|]. cbn in A. subst b. exists 0. split; [lia|]. rewrite Sl by lia. reflexivity.
  - exists 0. split; [lia|]. rewrite Sl by lia. reflexivity.
  - exists 1. split; [lia|]. rewrite Sl by lia. reflexivity.
Qed.

Lemma hinv_age : forall clk last sq v h t, hinv clk last sq v h -> clk <= us t ->
  us t + 1000 < last + (G + D) * H -> us t - us (h_time h) < 2700 * H - 1000.
Proof. intros clk last sq v h t (Ok & _ & C & _ & K) Ht A. pose proof Iv_eq. destruct K as [K|[(u & K)|(u & K)]]; nia. Qed.

Lemma hinv_check : forall clk last sq v h t, hinv clk last sq v h -> tv_ok t -> clk <= us t ->
  us t + 1000 < last + (G + D) * H -> hinv (us t) last sq v (fst (update_hist t h (-1) 0)).
Proof.
  intros clk last sq v h t Hh Ht C A. pose proof (hinv_age _ _ _ _ _ _ Hh C A) as Ag.
  assert (Ok' : hist_ok (fst (update_hist t h (-1) 0))) by (apply check_hist_ok; [apply Hh|auto]).
  pose proof Iv_eq as (_ & I1 & I2).
  destruct Hh as (Ok & Hi & Ht0 & Hs & K).
  assert (Same : fst (update_hist t h (-1) 0) = h -> hinv (us t) last sq v (fst (update_hist t h (-1) 0))).
  { intros E. rewrite E. split; auto. split; auto. split; [lia|]. split; auto. }
  destruct K as [(K1 & K2 & K3 & K4)|[(u & K1 & K2 & K3 & K4)|(u & K1 & K2 & K3 & K4)]].
  - apply Same. apply (check_none t h Iv); auto; try lia. nia.
  - destruct (check_one t h Iv Ht Ok Hi ltac:(lia) ltac:(lia) ltac:(nia)) as [E|[E1 E2]]; [auto|].
    rewrite E2 in *. unfold hinv. cbn [h_interval h_time h_seqno].
    destruct (timeval_add_msec_us (h_time h) (10 * Iv)) as [T1 T2]; [apply Ok|lia|].
    split; auto. split; auto. split; [lia|].
    split; [apply Z.mod_pos_bound; lia|].
    right. right. exists u. split; auto. split.
    + rewrite K2. rewrite Zplus_mod_idemp_l. f_equal. lia.
    + split; [lia|]. subst v. apply slots_shift; auto.
  - apply Same. apply (check_none t h Iv); auto; try lia. nia.
Qed.

Lemma hinv_got : forall clk last sq v h s t, hinv clk last sq v h -> seqno_ok sq ->
  last <= s -> tv_ok t -> Z.max clk s <= us t ->
  hinv (us t) s ((sq + 1) mod 65536) (true :: v) (fst (update_hist t h sq (hello_announced H))).
Proof.
  intros clk last sq v h s t Hh Hsq Hs Ht C. pose proof (hinv_reach _ _ _ _ _ Hh) as Rp.
  destruct Iv_eq as (Ie & I1 & I2). rewrite Ie.
  destruct Hh as (Ok & Hi & Ht0 & Hs0 & K).
  assert (Ok' : hist_ok (fst (update_hist t h sq Iv))) by (apply update_hist_ok; auto; lia).
  assert (Tm : h_interval (fst (update_hist t h sq Iv)) = Iv /\ h_time (fst (update_hist t h sq Iv)) = t).
  { unfold update_hist. replace (sq <? 0) with false by (unfold seqno_ok in *; lia).
    replace (negb (Iv =? 0)) with true by lia.
    repeat match goal with |- context [let '(_, _) := ?x in _] => destruct x end.
    split; reflexivity. }
  destruct Tm as [T1 T2].
  assert (Sq : h_seqno (fst (update_hist t h sq Iv)) = sq).
  { pose proof (hello_step t h sq Iv Ok Rp Hsq) as Q. cbv zeta in Q. tauto. }
  split; auto. split; auto. rewrite T2. split; [lia|]. rewrite Sq. split; [unfold seqno_ok in *; lia|].
  left. split; [reflexivity|]. split.
  { unfold seqno_ok in Hsq. rewrite Zminus_mod_idemp_l. replace (sq + 1 - 1) with sq by lia.
    symmetry. apply Z.mod_small. auto. }
  split; [lia|].
  destruct K as [(K1 & K2 & K3 & K4)|[(u & K1 & K2 & K3 & K4)|(u & K1 & K2 & K3 & K4)]].
  - apply (slots_next t h sq Iv v 0); auto; [|lia]. unfold ahead. rewrite K2, Zminus_mod_idemp_r.
    replace (sq - (sq - 1)) with 1 by lia. reflexivity.
  - subst v. apply (slots_next t h sq Iv (true :: true :: u) 1); auto; [|lia]. unfold ahead. rewrite K2, Zminus_mod_idemp_r.
    replace (sq - (sq - 2)) with 2 by lia. reflexivity.
  - apply (slots_next t h sq Iv v 0); auto; [|lia]. unfold ahead. rewrite K2, Zminus_mod_idemp_r.
    replace (sq - (sq - 1)) with 1 by lia. reflexivity.
Qed.

Lemma hinv_lost : forall clk last sq u h s, hinv clk last sq (true :: true :: u) h -> seqno_ok sq ->
  last <= s <= last + G * H ->
  hinv clk s ((sq + 1) mod 65536) (false :: true :: true :: u) h.
Proof.
  intros clk last sq u h s (Ok & Hi & Ht0 & Hs0 & K) Hsq Hs.
  destruct K as [(K1 & K2 & K3 & K4)|[(u' & K1 & _)|(u' & K1 & _)]]; [|discriminate|discriminate].
  split; auto. split; auto. split; auto. split; auto. right. left. exists u. split; auto.
  split. { rewrite K2, Zminus_mod_idemp_l. f_equal. lia. }
  split; [lia|]. exact K4.
Qed.

Lemma link_check_kept : forall clk last sq v oc lc n t, neigh_ok n -> hinv clk last sq v (n_hello n) ->
  iinv clk last oc lc n -> tv_ok t -> clk <= us t -> us t + 1000 < last + (G + D) * H ->
  exists n', link_check t n = Some n' /\ neigh_ok n' /\
    hinv (us t) last sq v (n_hello n') /\ iinv (us t) last oc lc n'.
Proof.
  intros clk last sq v oc lc n t Nok Hh Hj Ht C A.
  pose proof (hinv_check _ _ _ _ _ _ Hh Ht C A) as Hh'.
  pose proof (hinv_age _ _ _ _ _ _ Hh' (Z.le_refl _) A) as Ag.
  pose proof (hinv_reach _ _ _ _ _ Hh') as Rp.
  assert (Nok' := Nok). destruct Nok' as (O1 & O2 & O3 & O4 & O5 & O6 & O7).
  unfold link_check, check_neigh1.
  rewrite (surjective_pairing (update_hist t (n_hello n) (-1) 0)).
  rewrite (surjective_pairing (update_hist t (n_uhello n) (-1) 0)).
  set (h' := fst (update_hist t (n_hello n) (-1) 0)) in *.
  assert (Uok : hist_ok (fst (update_hist t (n_uhello n) (-1) 0))) by (apply check_hist_ok; auto).
  set (u' := fst (update_hist t (n_uhello n) (-1) 0)) in *.
  assert (Dead : neigh_dead t (set_n_uhello u' (set_n_hello h' n)) = false).
  { unfold neigh_dead. cbn [n_hello set_n_uhello set_n_hello].
    destruct Hh' as (Hok' & _ & Hcl & _).
    assert (Tk : tv_ok (h_time h')) by apply Hok'.
    assert (timeval_minus_msec t (h_time h') < 300000) by (apply minus_msec_lt; auto; lia).
    assert (tv_sec (h_time h') <= tv_sec t) by (unfold us, tv_ok in *; lia).
    apply orb_false_iff; split; [apply orb_false_iff; split|]; lia. }
  rewrite Dead.
  assert (Tx : forall m, oc = Some m -> reset_txcost t (set_n_uhello u' (set_n_hello h' n)) =
     (set_n_uhello u' (set_n_hello h' n), false)).
  { intros m ->. destruct Hj as (J1 & J2 & J3 & J4). unfold reset_txcost.
    cbn [n_ihu_time n_ihu_interval set_n_uhello set_n_hello].
    pose proof Jv_eq as (_ & J5 & J6). rewrite J3. destruct HM as [HM'|[HM' HH']].
    - assert (timeval_minus_msec t (n_ihu_time n) < 30 * Jv).
      { apply minus_msec_lt; auto; [lia|]. nia. }
      replace ((Jv >? 0) && (timeval_minus_msec t (n_ihu_time n) <? Jv * 10 * 3)) with true by lia. reflexivity.
    - cbn [n_hello set_n_uhello set_n_hello].
      assert (Age : us t - us (n_ihu_time n) < 28350 * H - 1000) by nia.
      assert (timeval_minus_msec t (n_ihu_time n) < 100 * Jv) by (apply minus_msec_lt; auto; lia).
      assert (timeval_minus_msec t (n_ihu_time n) < 180000) by (apply minus_msec_lt; auto; lia).
      assert (Hl : Z.land (h_reach h') 65520 <> 0).
      { intros E. apply heard_none_iff in E; [|apply Hh']. destruct (hinv_slot _ _ _ _ _ Hh') as (j & Hj & Ej).
        rewrite (E j Hj) in Ej. discriminate. }
      replace (timeval_minus_msec t (n_ihu_time n) >=? 180000) with false by lia.
      replace (Z.land (h_reach h') 65520 =? 0) with false by lia.
      replace (timeval_minus_msec t (n_ihu_time n) >=? Jv * 10 * 10) with false by lia.
      rewrite andb_false_r. cbn [orb]. destruct (_ && _); reflexivity. }
  destruct oc as [m|].
  - rewrite (Tx m eq_refl). exists (set_n_uhello u' (set_n_hello h' n)). split; auto.
    cbn [n_hello set_n_uhello set_n_hello].
    split. { split; [apply Hh'|]. split; [exact Uok|]. repeat (split; [assumption|]). assumption. }
    split; auto. destruct Hj as (J1 & J2 & J3 & J4).
    unfold iinv. cbn [n_txcost n_ihu_time n_ihu_interval set_n_uhello set_n_hello]. repeat split; auto; lia.
  - unfold reset_txcost. cbn in Hj.
    destruct (_ && _); [|destruct (_ || _)]; eexists; split; try reflexivity;
     (split; [split; [apply Hh'|split; [exact Uok|repeat (split; [first [assumption|cbn; unfold INFINITY; lia]|]); assumption]]|
      split; [exact Hh'|exact Hj]]).
Qed.

Definition sinv (k : Z) (v : list bool) : Prop :=
  good v /\ (1 <= k -> hd false v = true) /\ (2 <= k -> exists u, v = true :: true :: u) /\ 0 <= k.

Lemma good_true : forall v, good v -> good (true :: v).
Proof. intros v Hg [|j] Hj; [discriminate|]. apply Hg. exact Hj. Qed.
Lemma good_lost : forall u, good (true :: true :: u) -> good (false :: true :: true :: u).
Proof. intros u Hg [|j] Hj; [split; reflexivity|]. apply Hg. exact Hj. Qed.

Definition heards (v : list bool) : Z := Z.of_nat (length (filter (fun b => b) v)).

Lemma keep : forall now es clk last sq k v oc lc n, neigh_ok n -> seqno_ok sq ->
  hinv clk last sq v (n_hello n) -> iinv clk last oc lc n -> sinv k v ->
  flows G D H clk last (es ++ [Chk now]) -> sparse k es -> often M oc es ->
  exists n' clk' last' sq' v' oc', lrun H es sq n = Some n' /\ neigh_ok n' /\
    hinv clk' last' sq' v' (n_hello n') /\ iinv clk' last' oc' (last_ihu lc es) n' /\ good v' /\
    heards v' = heards v + hellos es /\ tv_ok now /\ clk' <= us now /\ us now + 1000 < last' + (G + D) * H.
Proof.
  intros now. induction es as [|e es IH]; intros clk last sq k v oc lc n Nok Hsq Hh Hj Hs F Sp Of.
  - cbn in F. exists n, clk, last, sq, v, oc. cbn [lrun last_ihu hellos].
    destruct Hs as [Hs _]. destruct F as (F1 & F2 & F3 & _).
    repeat (split; [try assumption; try reflexivity; try lia|]). lia.
  - assert (Hsq' : seqno_ok ((sq + 1) mod 65536)) by (apply Z.mod_pos_bound; lia).
    destruct e as [s t|s|t c|t]; cbn [app flows sparse often lrun last_ihu hellos] in *.
    + destruct F as (F1 & F2 & F3 & F4 & F5).
      assert (Hh' := hinv_got _ _ _ _ _ _ _ Hh Hsq (proj1 F1) F2 F3).
      assert (N2 : neigh_ok (got_hello t sq (hello_announced H) n)).
      { destruct Nok as (O1 & O2 & O3). unfold got_hello. split; [apply Hh'|]. split; [exact O2|exact O3]. }
      assert (S2 : sinv (k + 1) (true :: v)).
      { destruct Hs as (S1 & S2 & S3 & S4). split; [apply good_true; auto|]. split; [reflexivity|]. split; [|lia].
        intros Hk. specialize (S2 ltac:(lia)). destruct v as [|b v]; [discriminate|]. cbn in S2. subst b. eauto. }
      destruct oc as [m|].
      * destruct Of as [Of1 Of2].
        assert (I2 : iinv (us t) s (Some (m + 1)) lc (got_hello t sq (hello_announced H) n)).
        { destruct Hj as (J1 & J2 & J3 & J4). unfold iinv, got_hello.
          cbn [n_txcost n_ihu_time n_ihu_interval set_n_hello]. repeat split; auto; lia. }
        destruct (IH _ _ _ _ _ _ _ _ N2 Hsq' Hh' I2 S2 F5 Sp Of2) as (n' & clk' & last' & sq' & v' & oc' & Q1 & Q2 & Q3 & Q4 & Q5 & Q6 & Q7).
        exists n', clk', last', sq', v', oc'. split; auto. split; auto. split; auto. split; auto. split; auto.
        split; auto. rewrite Q6. unfold heards. cbn [filter length]. lia.
      * assert (I2 : iinv (us t) s None lc (got_hello t sq (hello_announced H) n)) by exact Hj.
        destruct (IH _ _ _ _ _ _ _ _ N2 Hsq' Hh' I2 S2 F5 Sp Of) as (n' & clk' & last' & sq' & v' & oc' & Q1 & Q2 & Q3 & Q4 & Q5 & Q6 & Q7).
        exists n', clk', last', sq', v', oc'. split; auto. split; auto. split; auto. split; auto. split; auto.
        split; auto. rewrite Q6. unfold heards. cbn [filter length]. lia.
    + destruct F as (F1 & F2). destruct Sp as [Sp1 Sp2].
      destruct Hs as (S1 & S2 & S3 & S4). destruct (S3 Sp1) as [u ->].
      assert (Hh' := hinv_lost _ _ _ _ _ _ Hh Hsq F1).
      assert (S5 : sinv 0 (false :: true :: true :: u)).
      { split; [apply good_lost; auto|]. split; [lia|]. split; lia. }
      destruct oc as [m|].
      * destruct Of as [Of1 Of2].
        assert (I2 : iinv clk s (Some (m + 1)) lc n).
        { destruct Hj as (J1 & J2 & J3 & J4). repeat split; auto; lia. }
        destruct (IH _ _ _ _ _ _ _ _ Nok Hsq' Hh' I2 S5 F2 Sp2 Of2) as (n' & clk' & last' & sq' & v' & oc' & Q1 & Q2 & Q3 & Q4 & Q5 & Q6 & Q7).
        exists n', clk', last', sq', v', oc'.
        exact (conj Q1 (conj Q2 (conj Q3 (conj Q4 (conj Q5 (conj Q6 Q7)))))).
      * assert (I2 : iinv clk s None lc n) by exact Hj.
        destruct (IH _ _ _ _ _ _ _ _ Nok Hsq' Hh' I2 S5 F2 Sp2 Of) as (n' & clk' & last' & sq' & v' & oc' & Q1 & Q2 & Q3 & Q4 & Q5 & Q6 & Q7).
        exists n', clk', last', sq', v', oc'.
        exact (conj Q1 (conj Q2 (conj Q3 (conj Q4 (conj Q5 (conj Q6 Q7)))))).
    + destruct F as (F1 & F2 & F3 & F4).
      assert (N2 : neigh_ok (got_ihu t c (ihu_announced H) n)).
      { pose proof Jv_eq as (J1 & J2 & J3). destruct Nok as (O1 & O2 & O3 & O4 & O5 & O6 & O7). unfold got_ihu.
        split; [exact O1|]. split; [exact O2|].
        cbn [n_txcost n_ihu_time n_ihu_interval n_rtt n_rtt_time set_n_txcost set_n_ihu_time set_n_ihu_interval].
        split; [exact F3|]. split; [exact F1|]. split; [lia|]. split; [exact O6|exact O7]. }
      assert (H2 : hinv (us t) last sq v (n_hello (got_ihu t c (ihu_announced H) n))).
      { destruct Hh as (A1 & A2 & A3 & A4). split; [exact A1|]. split; [exact A2|].
        split; [cbn [n_hello got_ihu set_n_txcost set_n_ihu_time set_n_ihu_interval]; lia|exact A4]. }
      assert (I2 : iinv (us t) last (Some 0) (Some c) (got_ihu t c (ihu_announced H) n)).
      { unfold iinv, got_ihu. cbn [n_txcost n_ihu_time n_ihu_interval set_n_txcost set_n_ihu_time set_n_ihu_interval].
        pose proof Jv_eq as (J1 & J2 & J3). repeat split; auto; lia. }
      destruct (IH _ _ _ _ _ _ _ _ N2 Hsq H2 I2 Hs F4 Sp Of) as (n' & clk' & last' & sq' & v' & oc' & Q).
      exists n', clk', last', sq', v', oc'. exact Q.
    + destruct F as (F1 & F2 & F3 & F4).
      destruct (link_check_kept _ _ _ _ _ _ _ t Nok Hh Hj F1 F2 F3) as (n2 & E & N2 & H2 & I2).
      rewrite E.
      destruct (IH _ _ _ _ _ _ _ _ N2 Hsq H2 I2 Hs F4 Sp Of) as (n' & clk' & last' & sq' & v' & oc' & Q).
      exists n', clk', last', sq', v', oc'. exact Q.
Qed.

Lemma hinv_two : forall clk last sq v h, hinv clk last sq v h -> good v -> 2 <= heards v ->
  heard_two_of_three h.
Proof.
  intros clk last sq v h (Ok & _ & _ & _ & K) Hg Hv.
  destruct K as [(A & _ & _ & Sl)|[(u & -> & _ & _ & Sl)|(u & -> & _ & _ & Sl)]].
  - destruct v as [|b v]; [discriminate|]. cbn in A. subst b.
    destruct v as [|[] v]; [vm_compute in Hv; exfalso; apply Hv; reflexivity| |].
    + left. rewrite !Sl by lia. split; reflexivity.
    + right. left. rewrite !Sl by lia. destruct (Hg 1%nat eq_refl) as [G1 _]. split; [reflexivity|].
      exact G1.
  - left. rewrite !Sl by lia. split; reflexivity.
  - right. right. rewrite !Sl by lia. split; reflexivity.
Qed.

Theorem link_kept : forall now es clk last sq s t n i, neigh_ok n -> h_reach (n_hello n) = 0 ->
  seqno_ok sq -> iface_ok i -> flag i IF_LQ = false ->
  flows G D H clk last (Got s t :: es ++ [Chk now]) -> sparse 0 (Got s t :: es) -> often M None (Got s t :: es) ->
  exists n', lrun H (Got s t :: es) sq n = Some n' /\ neigh_ok n' /\
    link_check now n' <> None /\
    (2 <= hellos (Got s t :: es) -> neighbour_rxcost now i n' = if_cost i) /\
    (forall c, last_ihu None (Got s t :: es) = Some c -> n_txcost n' = c).
Proof.
  intros now es clk last sq s t n i Nok R Hsq Hi Lq F Sp Of.
  cbn [flows sparse often] in F, Sp, Of. destruct F as (F1 & F2 & F3 & F4 & F5).
  destruct Iv_eq as (Ie & I1 & I2).
  assert (N2 : neigh_ok (got_hello t sq (hello_announced H) n)).
  { destruct Nok as (O1 & O2 & O3). unfold got_hello. split; [|split; [exact O2|exact O3]].
    apply update_hist_ok; auto. rewrite Ie. lia. }
  assert (Hh : hinv (us t) s ((sq + 1) mod 65536) [true] (n_hello (got_hello t sq (hello_announced H) n))).
  { cbn [n_hello got_hello set_n_hello]. destruct (hello_step_first t (n_hello n) sq (hello_announced H) Hsq R) as [_ Sq].
    assert (Tm : h_interval (fst (update_hist t (n_hello n) sq (hello_announced H))) = Iv /\
                 h_time (fst (update_hist t (n_hello n) sq (hello_announced H))) = t).
    { rewrite Ie. unfold update_hist. replace (sq <? 0) with false by (unfold seqno_ok in *; lia).
      replace (negb (Iv =? 0)) with true by lia.
      repeat match goal with |- context [let '(_, _) := ?x in _] => destruct x end. split; reflexivity. }
    destruct Tm as [T1 T2].
    split; [apply N2|]. split; auto. rewrite T2, Sq. split; [lia|]. split; [unfold seqno_ok in *; lia|].
    left. split; auto. split; [|split; [lia|apply slots_first; auto]].
    unfold seqno_ok in Hsq. rewrite Zminus_mod_idemp_l. replace (sq + 1 - 1) with sq by lia.
    symmetry. apply Z.mod_small; auto. }
  assert (S1 : sinv (0 + 1) [true]).
  { split; [|split; [reflexivity|split; [lia|lia]]]. intros [|j]; [discriminate|]. destruct j; discriminate. }
  destruct (keep now es (us t) s ((sq + 1) mod 65536) (0 + 1) [true] None None _ N2
              ltac:(apply Z.mod_pos_bound; lia) Hh eq_refl S1 F5 Sp Of)
    as (n' & clk' & last' & sq' & v' & oc' & Q1 & Q2 & Q3 & Q4 & Q5 & Q6 & Q7 & Q8 & Q9).
  exists n'. cbn [lrun]. split; [exact Q1|]. split; auto.
  destruct (link_check_kept _ _ _ _ _ _ _ now Q2 Q3 Q4 Q7 Q8 Q9) as (n2 & E & _).
  split; [rewrite E; discriminate|].
  split.
  - intros Hv. pose proof (hinv_age _ _ _ _ _ _ Q3 Q8 Q9) as Ag.
    assert (Two : heard_two_of_three (n_hello n')).
    { eapply hinv_two; eauto. rewrite Q6. cbn [hellos] in Hv. change (heards [true]) with 1. lia. }
    destruct (rxcost_wired now i n' Hi Q2 Lq) as [[_ [[St _]|[W _]]]|[E2 _]]; [| |exact E2]; exfalso.
    + destruct St as [Hn|Hn].
      * unfold heard_none in Hn. destruct Two as [[T _]|[[T _]|[T _]]]; rewrite Hn in T by lia; discriminate.
      * assert (timeval_minus_msec now (h_time (n_hello n')) < 180000); [|lia].
        apply minus_msec_lt; auto; try lia. apply Q2.
    + contradiction.
  - intros c Hc. cbn [last_ihu] in Hc. destruct oc' as [m|]; cbn in Q4.
    + destruct Q4 as (_ & E2 & _). congruence.
    + congruence.
Qed.
End Keep.

(** L_Resend3.v: counting retransmissions; the next wake-up. *)
From Verif Require Import Base M_Util S_Util L_Util M_Slot M_Source S_Source L_Source M_Filter M_Types M_Neigh M_State M_Table
  M_Msg M_Route M_Xroute S_World L_Table L_Resend L_Step L_Msg L_Chain L_Update2 M_Daemon L_Daemon L_Inv S_Resend L_Resend2.

Lemma alive_rlive : forall w r, alive w r = rlive (w_now w) r.
Proof.
  intros. unfold alive, rlive, rexp. change (rs_kind r =? 1) with (rs_kind r =? RESEND_REQUEST). unfold REQUEST_TIMEOUT.
  rewrite !Z.gtb_ltb, Z.geb_leb, !Z.leb_antisym.
  destruct (rs_kind r =? RESEND_REQUEST); cbn [negb orb]; rewrite ?negb_involutive;
    destruct (0 <? rs_max r), (0 <? rs_delay r); cbn; rewrite ?andb_true_r, ?andb_false_r; auto.
Qed.
Lemma ripe_rdue : forall w r, tv_ok (w_now w) -> tv_ok (rs_time r) -> ripe w r = rdue (w_now w) r.
Proof.
  intros w r Tn Tr. unfold ripe, rdue. rewrite alive_rlive. destruct (rlive (w_now w) r) eqn:L; auto. cbn [andb].
  unfold rlive in L. rewrite !andb_true_iff in L. unfold resend_due.
  destruct (timeval_add_msec_us (rs_time r) (rs_delay r) Tr ltac:(lia)) as (T1 & T2).
  rewrite timeval_compare_us by auto. rewrite T2. destruct (Z.compare_spec (us (w_now w)) (us (rs_time r) + 1000 * rs_delay r)); lia.
Qed.
Lemma same_key_iff : forall k d r, same_key k d r = true <-> rkey r = (k, d).
Proof.
  intros k d r. unfold same_key, rkey. rewrite !andb_true_iff, !Z.eqb_eq, !beq_true. destruct (rs_dest r) as [p l s m], d as [p' l' s' m'].
  cbn. split; [intros ((((-> & ->) & ->) & ->) & ->); auto|intros H; inversion H; subst; auto].
Qed.

(** ** Retransmissions left *)
Definition pot (r : resend) : Z := if satb r then 0 else rs_max r.
Definition potl (k : Z) (d : dest) (l : list resend) : Z := match ent k d l with Some r => pot r | None => 0 end.
Lemma pot_range : forall r, ok1 r -> 0 <= pot r <= 3.
Proof. intros r (_ & H & _). unfold pot. destruct (satb r); [lia|]. destruct H; [discriminate|lia]. Qed.
Lemma potl_range : forall k d l, rinv l -> 0 <= potl k d l <= 3.
Proof.
  intros k d l (_ & O). unfold potl. destruct (ent k d l) as [r|] eqn:E; [|lia]. apply ent_Some in E. apply pot_range.
  rewrite Forall_forall in O. apply O. tauto.
Qed.
Lemma later_pot : forall r r', later r r' -> 0 <= rs_max r -> pot r' <= pot r.
Proof.
  intros r r' (A & _ & _ & _ & _ & B & C & _) N. unfold pot, satb. rewrite A, B. destruct (_ && _); lia.
Qed.

Lemma evo_pot : forall w w' k d, rinv (w_rsd w) -> rinv (w_rsd w') -> kevo (w_now w) (w_rsd w) (w_rsd w') -> w_now w' = w_now w ->
  potl k d (w_rsd w') <= potl k d (w_rsd w) + (if records k d w w' then 3 else 0).
Proof.
  intros w w' k d I1 I2 K N. pose proof (potl_range k d _ I1) as P1. pose proof (potl_range k d _ I2) as P2.
  destruct (records k d w w') eqn:R; [lia|]. unfold potl in *. destruct (ent k d (w_rsd w')) as [r'|] eqn:E; [|lia].
  destruct (K k d r' E) as [S|[(r & E1 & L)|T]].
  - unfold pot at 1. rewrite S. lia.
  - rewrite E1 in *. assert (0 <= rs_max r) by (destruct L as (_ & _ & _ & _ & _ & _ & L & _); lia).
    pose proof (later_pot _ _ L H). lia.
  - unfold records in R. apply ent_Some in E. destruct E as (E1 & E2).
    destruct (in_dec resend_dec r' (w_rsd w)) as [Hi|Hi].
    + rewrite (ent_In k d (w_rsd w) r'); auto; [lia|apply I1].
    + exfalso. assert (X : existsb (fun r => same_key k d r && (if tv_dec (rs_time r) (w_now w') then true else false) &&
                    (if in_dec resend_dec r (w_rsd w) then false else true)) (w_rsd w') = true).
      { apply existsb_exists. exists r'. split; auto. apply same_key_iff in E2. rewrite E2.
        destruct (tv_dec (rs_time r') (w_now w')); [|congruence]. destruct (in_dec resend_dec r' (w_rsd w)); [contradiction|]. reflexivity. }
      congruence.
Qed.

(** ** do_resend *)
Definition lateb (now : timeval) : Prop := 66 <= tv_sec now /\ tv_ok now.
Lemma satb_expired : forall now r, lateb now -> tv_ok (rs_time r) -> satb r = true -> rexp now r = true.
Proof.
  intros now r (L & T) Tr S. unfold satb in S. apply andb_prop in S. destruct S as (S1 & S2). unfold rexp. rewrite S1.
  unfold REQUEST_TIMEOUT, timeval_minus_msec, tv_ok in *. replace (tv_sec (rs_time r)) with 0 by lia.
  destruct (tv_sec now <? 0) eqn:A; [lia|]. destruct (_ >? 2000000) eqn:B; [lia|]. destruct (_ >? 0) eqn:C; [|lia].
  rewrite Z.sub_0_r in *. assert (Q : -1000 < Z.quot (tv_usec now - tv_usec (rs_time r)) 1000 < 1000).
  { pose proof (Z.quot_rem' (tv_usec now - tv_usec (rs_time r)) 1000).
    pose proof (Z.rem_bound_abs (tv_usec now - tv_usec (rs_time r)) 1000 ltac:(lia)). lia. }
  assert (E1 : u32 (tv_sec now * 1000) = tv_sec now * 1000) by (unfold u32; apply Z.mod_small; lia).
  rewrite E1. unfold u32. rewrite Z.mod_small by lia. lia.
Qed.
Lemma satb_not_due : forall now r, lateb now -> tv_ok (rs_time r) -> satb r = true -> rdue now r = false.
Proof. intros. unfold rdue, rlive. rewrite satb_expired; auto. Qed.
Lemma satb_sat : forall r, rs_kind r = RESEND_REQUEST -> satb (sat r) = true.
Proof. intros r H. unfold satb, sat. cbn. rewrite H. reflexivity. Qed.
Lemma satb_dec : forall r, satb (dec r) = satb r. Proof. reflexivity. Qed.

Definition after (b : bool) (now : timeval) (r r' : resend) : Prop :=
  if b && rdue now r then r' = dec r \/ satb r' = true else satq1 r r'.
Lemma satq1_tv : forall r r', satq1 r r' -> tv_ok (rs_time r) -> tv_ok (rs_time r').
Proof. intros r r' [->|(_ & ->)] H; auto. Qed.
Lemma satq1_satb : forall r r', satq1 r r' -> satb r = true -> satb r' = true.
Proof. intros r r' [->|(K & ->)] H; auto. apply satb_sat. auto. Qed.

Lemma do_resend1_after : forall w k i r, nth_error (w_rsd w) i = Some r ->
  w_now (do_resend1 w k) = w_now w /\
  exists r', nth_error (w_rsd (do_resend1 w k)) i = Some r' /\ after (i =? k)%nat (w_now w) r r'.
Proof.
  intros w k i r N. rewrite do_resend1_eq. unfold after.
  destruct (nth_error (w_rsd w) k) as [rk|] eqn:Nk.
  2: { split; auto. exists r. split; auto. destruct (i =? k)%nat eqn:E; [apply Nat.eqb_eq in E; congruence|]. left. auto. }
  destruct (rdue (w_now w) rk) eqn:D.
  2: { split; auto. exists r. split; auto. destruct (i =? k)%nat eqn:E.
       - apply Nat.eqb_eq in E. subst. rewrite N in Nk. inversion Nk; subst. rewrite D. left. auto.
       - left. auto. }
  cbv zeta. destruct (resend_send_satq w rk) as (Nw & F).
  destruct (F2_nth _ _ _ _ _ _ _ F Nk) as (rk' & Nk' & Qk). rewrite Nk'. split; [exact Nw|].
  cbn [w_rsd set_w_rsd]. destruct (i =? k)%nat eqn:E.
  - apply Nat.eqb_eq in E. subst i. rewrite N in Nk. inversion Nk; subst rk. rewrite D. cbn [andb].
    exists (dec rk'). split; [apply upd_nth_error_eq; apply nth_error_Some; congruence|].
    destruct Qk as [->|(K & ->)]; auto. right. rewrite satb_dec. apply satb_sat. auto.
  - apply Nat.eqb_neq in E. destruct (F2_nth _ _ _ _ _ _ _ F N) as (r' & N' & Q). exists r'. split; auto.
    rewrite upd_nth_error_ne; auto.
Qed.

Definition memb (i : nat) (js : list nat) : bool := existsb (Nat.eqb i) js.
Lemma fold_after : forall js w i r, NoDup js -> lateb (w_now w) -> tv_ok (rs_time r) -> nth_error (w_rsd w) i = Some r ->
  w_now (fold_left do_resend1 js w) = w_now w /\
  exists r', nth_error (w_rsd (fold_left do_resend1 js w)) i = Some r' /\ after (memb i js) (w_now w) r r'.
Proof.
  induction js as [|j js IH]; intros w i r Nd L T N.
  - split; auto. exists r. split; auto. unfold after. cbn. left. auto.
  - cbn [fold_left]. inversion Nd as [|? ? Nj Nd']; subst.
    destruct (do_resend1_after w j i r N) as (Nw & r1 & N1 & A1). unfold after in A1.
    assert (T1 : tv_ok (rs_time r1)).
    { destruct ((i =? j)%nat && rdue (w_now w) r); [|eapply satq1_tv; eauto]. destruct A1 as [->|S]; auto.
      clear - N1 N T j. revert N1. rewrite do_resend1_eq.
      destruct (nth_error (w_rsd w) j) as [rk|] eqn:Nk; [|congruence]. destruct (rdue (w_now w) rk); [|congruence]. cbv zeta.
      destruct (resend_send_satq w rk) as (_ & F). destruct (F2_nth _ _ _ _ _ _ _ F Nk) as (rk' & Nk' & Qk). rewrite Nk'.
      cbn [w_rsd set_w_rsd]. destruct (Nat.eq_dec j i) as [->|E].
      - rewrite upd_nth_error_eq by (apply nth_error_Some; congruence). rewrite N in Nk. inversion Nk; subst.
        intros H; inversion H; subst. cbn. eapply satq1_tv; eauto.
      - rewrite upd_nth_error_ne by auto. destruct (F2_nth _ _ _ _ _ _ _ F N) as (r2 & N2 & Q). rewrite N2. intros H; inversion H; subst.
        eapply satq1_tv; eauto. }
    rewrite <- Nw in L. destruct (IH (do_resend1 w j) i r1 Nd' L T1 N1) as (Nw2 & r' & N2 & A2).
    split; [congruence|]. exists r'. split; auto. rewrite Nw in *. unfold after in *. cbn [memb existsb]. fold (memb i js).
    destruct (i =? j)%nat eqn:E.
    + cbn [orb andb] in *. assert (M : memb i js = false).
      { apply Nat.eqb_eq in E. subst. unfold memb. destruct (existsb (Nat.eqb j) js) eqn:X; auto. apply existsb_exists in X.
        destruct X as (y & Hy & Ey). apply Nat.eqb_eq in Ey. subst. contradiction. }
      rewrite M in A2. cbn [andb] in A2. destruct (rdue (w_now w) r).
      * destruct A1 as [->|S].
        -- destruct A2 as [->|(K & ->)]; auto. right. apply satb_sat. auto.
        -- right. eapply satq1_satb; eauto.
      * eapply satq1_trans; eauto.
    + cbn [orb andb] in *. destruct A1 as [->|(K & ->)]; auto.
      rewrite (satb_not_due (w_now w) (sat r)), andb_false_r in A2 by (auto; apply satb_sat; auto).
      assert (Sr : satb r' = true) by (eapply satq1_satb; eauto; apply satb_sat; auto).
      destruct (memb i js && rdue (w_now w) r) eqn:D; auto. eapply satq1_trans; eauto. right. auto.
Qed.
Lemma memb_seq : forall i n, (i < n)%nat -> memb i (seq 0 n) = true.
Proof. intros. apply existsb_exists. exists i. split; [apply in_seq; lia|apply Nat.eqb_refl]. Qed.
Lemma do_resend_after : forall w i r, lateb (w_now w) -> tv_ok (rs_time r) -> nth_error (w_rsd w) i = Some r ->
  exists r', nth_error (w_rsd (do_resend w)) i = Some r' /\ after true (w_now w) r r'.
Proof.
  intros w i r L T N. unfold do_resend. cbn [w_rsd recompute_resend_time set_w_rsd_time].
  destruct (fold_after (seq 0 (length (w_rsd w))) w i r) as (_ & r' & N' & A); auto; [apply seq_NoDup|].
  exists r'. split; auto. rewrite memb_seq in A; auto. apply nth_error_Some. congruence.
Qed.
Lemma after_key : forall now r r', after true now r r' -> rs_kind r' = 1 -> rkey r' = rkey r \/ satb r' = true.
Proof.
  intros now r r' A K. unfold after in A. cbn in A. destruct (rdue now r); destruct A as [->|A]; auto.
  destruct A as (_ & ->). left. reflexivity.
Qed.

Lemma keys_fold : forall js w, map rkey (w_rsd (fold_left do_resend1 js w)) = map rkey (w_rsd w).
Proof.
  induction js as [|j js IH]; intros w0; auto. cbn [fold_left]. rewrite (IH (do_resend1 w0 j)).
  rewrite do_resend1_eq. destruct (nth_error (w_rsd w0) j) as [rk|] eqn:Nk; auto. destruct (rdue (w_now w0) rk); auto. cbv zeta.
  destruct (resend_send_satq w0 rk) as (_ & F). destruct (F2_nth _ _ _ _ _ _ _ F Nk) as (rk' & Nk' & Qk). rewrite Nk'.
  cbn [w_rsd set_w_rsd]. rewrite (keys_upd j (dec rk') _ rk' Nk' eq_refl).
  clear - F. induction F; auto. cbn [map]. rewrite IHF. f_equal. destruct H as [->|(_ & ->)]; auto.
Qed.
Lemma keys_do_resend : forall w, map rkey (w_rsd (do_resend w)) = map rkey (w_rsd w).
Proof. intros. apply keys_fold. Qed.
Lemma resend_pot : forall w k d, rinv (w_rsd w) -> rinv (w_rsd (do_resend w)) -> lateb (w_now w) ->
  kevo (w_now w) (w_rsd w) (w_rsd (do_resend w)) -> w_now (do_resend w) = w_now w ->
  retransmits k d EvResend w = true ->
  potl k d (w_rsd (do_resend w)) <= potl k d (w_rsd w) - 1.
Proof.
  intros w k d I1 I2 L K Nw R. cbn [retransmits] in R. apply existsb_exists in R. destruct R as (r & Hr & R).
  apply andb_prop in R. destruct R as (R1 & R2). apply same_key_iff in R1.
  assert (O : ok1 r) by (destruct I1 as (_ & O); rewrite Forall_forall in O; auto).
  rewrite ripe_rdue in R2 by (apply L || apply O). unfold potl at 2. rewrite (ent_In k d (w_rsd w) r) by (auto; apply I1).
  assert (Sr : satb r = false).
  { destruct (satb r) eqn:S; auto. destruct O as (_ & _ & O). rewrite (satb_not_due (w_now w) r L O S) in R2. discriminate. }
  unfold pot. rewrite Sr. assert (M : 0 < rs_max r) by (unfold rdue, rlive in R2; rewrite !andb_true_iff in R2; lia).
  apply In_nth_error in Hr. destruct Hr as (i & N). destruct (do_resend_after w i r L ltac:(apply O) N) as (r' & N' & A).
  unfold after in A. rewrite R2 in A. cbn [andb] in A.
  assert (Hk : rkey r' = (k, d) /\ pot r' <= rs_max r - 1).
  { assert (M3 : rs_max r <= 3) by (destruct O as (_ & [O|O] & _); [congruence|lia]).
    destruct A as [->|S].
    - split; [exact R1|]. unfold pot. rewrite satb_dec, Sr. cbn. unfold u8. rewrite Z.mod_small by lia. lia.
    - split; [|unfold pot; rewrite S; lia].
      (* same key, by position *)
      pose proof (keys_do_resend w) as Keys.
      apply (map_nth_error rkey) in N, N'. rewrite Keys in N'. congruence. }
  destruct Hk as (Hk & Hp). unfold potl. rewrite (ent_In k d _ r'); auto; [apply I2|]. eapply nth_error_In; eauto.
Qed.

Lemma late_step : forall evs ev w, late_clock w -> (forall t, In (EvClock t) (ev :: evs) -> 66 <= tv_sec t) -> W [] w -> allowed ev w ->
  late_clock (run1 ev w).
Proof.
  intros evs ev w L H Hw A. unfold late_clock in *.
  assert (X : w_now (run1 ev w) = w_now w \/ exists t, ev = EvClock t).
  { destruct (run1_cases_ev w ev Hw A) as [(O & E)|[C|(id & d & q & m & iv & n & nh & -> & U)]].
    - destruct ev; cbn in O; try discriminate; eauto; left; try reflexivity. cbn. unfold find_neighbour. destruct (existsb _ _); reflexivity.
    - left. eapply chain_now; eauto.
    - left. destruct U as [C|w1 r w2 S _ E C _ _ _ _]; [eapply chain_now; eauto|].
      apply chain_now in C. rewrite C, E. destruct (insert_rsd r (set_w_next (w_next w1 + 1) w1)) as (_ & _ & I3). rewrite I3.
      apply star_menv in S. cbn [snd] in S. apply S. }
  destruct X as [->|(t & ->)]; auto. cbn. apply H. left. auto.
Qed.
Lemma run1_now : forall w ev, W [] w -> allowed ev w -> w_now (run1 ev w) = w_now w \/ exists t, ev = EvClock t.
Proof.
  intros w ev Hw A. destruct (run1_cases_ev w ev Hw A) as [(O & E)|[C|(id & d & q & m & iv & n & nh & -> & U)]].
  - destruct ev; cbn in O; try discriminate; eauto; left; try reflexivity. cbn. unfold find_neighbour. destruct (existsb _ _); reflexivity.
  - left. eapply chain_now; eauto.
  - left. destruct U as [C|w1 r w2 S _ E C _ _ _ _]; [eapply chain_now; eauto|].
    apply chain_now in C. rewrite C, E. destruct (insert_rsd r (set_w_next (w_next w1 + 1) w1)) as (_ & _ & I3). rewrite I3.
    apply star_menv in S. cbn [snd] in S. apply S.
Qed.

Lemma count_bound : forall c k d evs w, c_half_life c <> 2 -> reach c w -> allowed_run evs w -> late_clock w -> late_clocks evs ->
  retransmissions k d evs w <= potl k d (w_rsd w) + 3 * recordings k d evs w.
Proof.
  intros c k d evs. induction evs as [|ev evs IH]; intros w Hc R A L Lc.
  - cbn. pose proof (potl_range k d _ (reach_rinv c w Hc R)). lia.
  - cbn [allowed_run] in A. destruct A as (A & As). cbn [retransmissions recordings].
    destruct (reach_W c w Hc R) as (Hw & _). assert (R' : reach c (run1 ev w)) by (apply reach_run; auto).
    assert (L' : late_clock (run1 ev w)) by (eapply late_step; eauto).
    assert (Lc' : late_clocks evs) by (intros t Ht; apply Lc; right; auto).
    specialize (IH (run1 ev w) Hc R' As L' Lc').
    pose proof (reach_rinv c w Hc R) as I1. pose proof (reach_rinv c _ Hc R') as I2.
    assert (T : tv_ok (w_now w)) by apply (rg_now _ (reach_rng c w Hc R)).
    destruct (evo_inv _ _ (run1_evo w ev Hw A) T I1) as (_ & K).
    assert (Step : potl k d (w_rsd (run1 ev w)) + (if retransmits k d ev w then 1 else 0) <=
                   potl k d (w_rsd w) + (if records k d w (run1 ev w) then 3 else 0)).
    { destruct (run1_now w ev Hw A) as [Nw|(t & ->)].
      - destruct (retransmits k d ev w) eqn:Rt.
        + assert (ev = EvResend) by (destruct ev; cbn in Rt; try discriminate; auto). subst ev. cbn [run1] in *.
          pose proof (resend_pot w k d I1 I2 (conj L T) K Nw Rt). destruct (records _ _ _ _); lia.
        + pose proof (evo_pot w (run1 ev w) k d I1 I2 K Nw). lia.
      - destruct (records k d w (run1 (EvClock t) w)); cbn; lia. }
    destruct (records k d w (run1 ev w)), (retransmits k d ev w); lia.
Qed.

(** ** The next wake-up *)
Definition wake (now : timeval) (l : list resend) (t : timeval) : Prop :=
  tv_ok t /\ forall r, In r l -> rlive now r = true -> exists x, deadline t = Some x /\ x <= us (rs_time r) + 1000 * rs_delay r.
Definition ok2 (r : resend) : Prop := tv_ok (rs_time r) /\ (satb r = true \/ 66 <= tv_sec (rs_time r)).
Lemma due_ok : forall r, ok2 r -> 0 < rs_delay r -> satb r = false -> tv_ok (resend_due r) /\
  deadline (resend_due r) = Some (us (rs_time r) + 1000 * rs_delay r).
Proof.
  intros r (T & S) D Sb. unfold resend_due. destruct (timeval_add_msec_us (rs_time r) (rs_delay r) T ltac:(lia)) as (T1 & T2).
  split; auto. unfold deadline. destruct S as [S|S]; [congruence|]. unfold us, tv_ok in *.
  destruct (tv_sec (timeval_add_msec (rs_time r) (rs_delay r)) =? 0) eqn:E; [lia|]. f_equal. lia.
Qed.
Lemma live_sat : forall now r, lateb now -> ok2 r -> rlive now r = true -> satb r = false /\ 0 < rs_delay r.
Proof.
  intros now r L (T & _) H. unfold rlive in H. rewrite !andb_true_iff in H. split; [|lia].
  destruct (satb r) eqn:S; auto. rewrite satb_expired in H; auto. destruct H as ((H & _) & _). discriminate.
Qed.
Lemma min_le : forall a b x, tv_ok a -> tv_ok b -> deadline b = Some x -> exists y, deadline (timeval_min a b) = Some y /\ y <= x.
Proof.
  intros a b x Ta Tb E. destruct (timeval_min_spec a b Ta Tb) as (M & _). rewrite M, E. destruct (deadline a); cbn; eexists; split; eauto; lia.
Qed.
Lemma min_le_l : forall a b x, tv_ok a -> tv_ok b -> deadline a = Some x -> exists y, deadline (timeval_min a b) = Some y /\ y <= x.
Proof.
  intros a b x Ta Tb E. destruct (timeval_min_spec a b Ta Tb) as (M & _). rewrite M, E. destruct (deadline b); cbn; eexists; split; eauto; lia.
Qed.
Lemma min_tv : forall a b, tv_ok a -> tv_ok b -> tv_ok (timeval_min a b).
Proof. intros a b A B. unfold timeval_min. destruct (_ =? _); auto. destruct (_ || _); auto. Qed.

Lemma rtime_wake : forall now l, lateb now -> Forall ok2 l -> wake now l (rtime now l).
Proof.
  intros now l L O. unfold rtime.
  assert (G : forall l t done, Forall ok2 l -> (forall r, In r done -> ok2 r) -> wake now done t ->
    wake now (done ++ l) (fold_left (fun t r => if rlive now r then timeval_min t (resend_due r) else t) l t)).
  { clear O l. induction l as [|a l IH]; intros t done O D Wk; [rewrite app_nil_r; auto|]. cbn [fold_left].
    inversion O as [|? ? Oa Ol]; subst. replace (done ++ a :: l) with ((done ++ [a]) ++ l) by (rewrite <- app_assoc; auto). apply IH; auto.
    - intros r Hr. apply in_app_iff in Hr. destruct Hr as [Hr|[<-|[]]]; auto.
    - destruct Wk as (T & Wk). destruct (rlive now a) eqn:La.
      + destruct (live_sat now a L Oa La) as (S & Dl). destruct (due_ok a Oa Dl S) as (T1 & E1). split; [apply min_tv; auto|].
        intros r Hr Lr. apply in_app_iff in Hr. destruct Hr as [Hr|[<-|[]]].
        * destruct (Wk r Hr Lr) as (x & Ex & Hx). destruct (min_le_l t (resend_due a) x T T1 Ex) as (y & Ey & Hy). exists y. split; auto. lia.
        * apply min_le; auto.
      + split; auto. intros r Hr Lr. apply in_app_iff in Hr. destruct Hr as [Hr|[<-|[]]]; auto. congruence. }
  apply (G l tv0 []); auto; [intros r []|]. split; [unfold tv_ok; cbn; lia|intros r []].
Qed.

Lemma live_later : forall a b r, tv_ok a -> tv_ok b -> tv_ok (rs_time r) -> us a <= us b -> rlive b r = true -> rlive a r = true.
Proof.
  intros a b r Ta Tb Tr H L. unfold rlive in *. rewrite !andb_true_iff in *. destruct L as ((L & D) & M). repeat split; auto.
  unfold rexp in *. destruct (_ =? _); auto. apply negb_true_iff in L. apply negb_true_iff. unfold REQUEST_TIMEOUT in *.
  apply Z.geb_leb in L || idtac. revert L. unfold timeval_minus_msec, us, tv_ok in *.
  assert (Q : forall x, -1000 * 1000 < x < 1000 * 1000 -> 1000 * Z.quot x 1000 <= x + 999 /\ x - 999 <= 1000 * Z.quot x 1000 /\ -1000 < Z.quot x 1000 < 1000).
  { intros x Hx. pose proof (Z.quot_rem' x 1000). pose proof (Z.rem_bound_abs x 1000 ltac:(lia)). lia. }
  assert (Mo : forall x y, x <= y -> Z.quot x 1000 <= Z.quot y 1000) by (intros; apply Z.quot_le_mono; lia).
  pose proof (Q (tv_usec a - tv_usec (rs_time r)) ltac:(lia)) as Qa. pose proof (Q (tv_usec b - tv_usec (rs_time r)) ltac:(lia)) as Qb.
  destruct (tv_sec b <? tv_sec (rs_time r)) eqn:B1.
  { destruct (tv_sec a <? tv_sec (rs_time r)) eqn:A1; lia. }
  destruct (tv_sec b - tv_sec (rs_time r) >? 2000000) eqn:B2; [lia|].
  destruct (tv_sec b >? tv_sec (rs_time r)) eqn:B3.
  - assert (E1 : u32 ((tv_sec b - tv_sec (rs_time r)) * 1000) = (tv_sec b - tv_sec (rs_time r)) * 1000) by (unfold u32; apply Z.mod_small; lia).
    rewrite E1. unfold u32 at 1. rewrite Z.mod_small by lia. intros L.
    destruct (tv_sec a <? tv_sec (rs_time r)) eqn:A1; [lia|].
    destruct (tv_sec a - tv_sec (rs_time r) >? 2000000) eqn:A2; [lia|].
    destruct (tv_sec a >? tv_sec (rs_time r)) eqn:A3.
    + assert (E2 : u32 ((tv_sec a - tv_sec (rs_time r)) * 1000) = (tv_sec a - tv_sec (rs_time r)) * 1000) by (unfold u32; apply Z.mod_small; lia).
      rewrite E2. unfold u32. rewrite Z.mod_small by lia.
      destruct (Z.eq_dec (tv_sec a) (tv_sec b)) as [Es|Es].
      * pose proof (Mo (tv_usec a - tv_usec (rs_time r)) (tv_usec b - tv_usec (rs_time r)) ltac:(lia)). lia.
      * lia.
    + destruct (_ <=? _); [lia|]. assert ((tv_usec a - tv_usec (rs_time r)) / 1000 < 1000) by (apply Z.div_lt_upper_bound; lia). lia.
  - intros _. destruct (tv_sec a <? tv_sec (rs_time r)) eqn:A1; [lia|].
    destruct (tv_sec a - tv_sec (rs_time r) >? 2000000) eqn:A2; [lia|].
    destruct (tv_sec a >? tv_sec (rs_time r)) eqn:A3; [lia|].
    destruct (_ <=? _); [lia|]. assert ((tv_usec a - tv_usec (rs_time r)) / 1000 < 1000) by (apply Z.div_lt_upper_bound; lia). lia.
Qed.

Lemma satq1_ok2 : forall r r', satq1 r r' -> ok2 r -> ok2 r'.
Proof.
  intros r r' [->|(K & ->)] (T & S); split; auto. left. apply satb_sat. auto.
Qed.
Lemma F2_ok2 : forall l l', Forall2 satq1 l l' -> Forall ok2 l -> Forall ok2 l'.
Proof. induction 1; intros F; auto. inversion F; subst. constructor; auto. eapply satq1_ok2; eauto. Qed.
Lemma upd_Forall : forall A (P : A -> Prop) i x l, P x -> Forall P l -> Forall P (upd i x l).
Proof.
  intros A P i x l Px F. rewrite Forall_forall in *. intros y Hy. apply upd_In in Hy. destruct Hy as [->|Hy]; auto.
Qed.
Lemma do_resend_ok2 : forall js w, Forall ok2 (w_rsd w) -> Forall ok2 (w_rsd (fold_left do_resend1 js w)) /\ w_now (fold_left do_resend1 js w) = w_now w.
Proof.
  induction js as [|j js IH]; intros w F; auto. cbn [fold_left].
  assert (G : Forall ok2 (w_rsd (do_resend1 w j)) /\ w_now (do_resend1 w j) = w_now w).
  { rewrite do_resend1_eq. destruct (nth_error (w_rsd w) j) as [rk|] eqn:Nk; auto. destruct (rdue (w_now w) rk); auto. cbv zeta.
    destruct (resend_send_satq w rk) as (Nw & F2). destruct (F2_nth _ _ _ _ _ _ _ F2 Nk) as (rk' & Nk' & Qk). rewrite Nk'.
    split; [|exact Nw]. cbn [w_rsd set_w_rsd]. pose proof (F2_ok2 _ _ F2 F) as F'. apply upd_Forall; auto.
    apply nth_error_In in Nk'. rewrite Forall_forall in F'. apply F' in Nk'. exact Nk'. }
  destruct G as (G1 & G2). destruct (IH _ G1) as (A & B). split; auto. congruence.
Qed.

Definition wk (w : world) : Prop := lateb (w_now w) /\ Forall ok2 (w_rsd w) /\ wake (w_now w) (w_rsd w) (w_rsd_time w).
Lemma recompute_wk : forall w, lateb (w_now w) -> Forall ok2 (w_rsd w) -> wk (recompute_resend_time w).
Proof.
  intros w L O. unfold wk. split; [exact L|]. split; [exact O|].
  change (w_rsd_time (recompute_resend_time w)) with (rtime (w_now w) (w_rsd w)).
  cbn [w_now w_rsd recompute_resend_time set_w_rsd_time]. apply rtime_wake; auto.
Qed.
Lemma upd_first_In : forall A (p : A -> bool) f l y, In y (upd_first p f l) -> In y l \/ exists x, find p l = Some x /\ y = f x.
Proof.
  induction l as [|x l IH]; intros y; cbn; [tauto|]. destruct (p x) eqn:E.
  - intros [<-|H]; eauto.
  - intros [<-|H]; auto. destruct (IH y H) as [G|G]; auto.
Qed.
Lemma wake_rec : forall now l l' t r', lateb now -> wake now l t -> ok2 r' -> satb r' = false -> 0 <= rs_delay r' ->
  (forall y, In y l' -> In y l \/ y = r') ->
  wake now l' (if negb (rs_delay r' =? 0) then timeval_min t (resend_due r') else t).
Proof.
  intros now l l' t r' L (T & Wk) O S D H. destruct (rs_delay r' =? 0) eqn:Z0; cbn [negb].
  - split; auto. intros y Hy Ly. destruct (H y Hy) as [Hl| ->]; auto. unfold rlive in Ly. rewrite !andb_true_iff in Ly. lia.
  - destruct (due_ok r' O ltac:(lia) S) as (T1 & E1). split; [apply min_tv; auto|].
    intros y Hy Ly. destruct (H y Hy) as [Hl| ->].
    + destruct (Wk y Hl Ly) as (x & Ex & Hx). destruct (min_le_l t (resend_due r') x T T1 Ex) as (z & Ez & Hz). exists z. split; auto. lia.
    + apply min_le; auto.
Qed.
Lemma rexec_delay : forall w, rexec w -> wk w /\ Forall (fun r => 0 <= rs_delay r) (w_rsd w).
Proof.
  induction 1 as [w E Et T L|w k d q id ifp delay X (IH & Dl) Dn Fr|w d q id ifp X (IH & Dl)|w X (IH & Dl)|w X (IH & Dl)|w w' X (IH & Dl) E1 E2 T Le].
  - unfold wk. rewrite E, Et. split; [|constructor]. split; [split; auto|]. split; [constructor|]. split; [unfold tv_ok; cbn; lia|intros r []].
  - unfold record_resend. destruct (_ || _); auto. destruct IH as (L & O & Wk). unfold find_resend.
    destruct (find (resend_match k d) (w_rsd w)) as [r|] eqn:F.
    + pose proof F as Fp. apply find_some in Fp. destruct Fp as (Hr & Hm).
      assert (O2 : ok2 r) by (rewrite Forall_forall in O; auto). assert (D0 : 0 <= rs_delay r) by (rewrite Forall_forall in Dl; apply (Dl r Hr)).
      assert (Ag : exists r', again_resend (w_now w) q id ifp (Z.min delay 65535) r = (r', true) /\ rs_time r' = w_now w /\ 0 <= rs_delay r').
      { unfold again_resend. cbv zeta. cbn [rs_id rs_seqno set_rs_max set_rs_time set_rs_delay].
        assert (Dx : 0 <= (if negb (rs_delay r =? 0) && negb (Z.min delay 65535 =? 0) then Z.min (rs_delay r) (Z.min delay 65535)
            else if negb (Z.min delay 65535 =? 0) then Z.min delay 65535 else rs_delay r)).
        { destruct (_ && _); [lia|]. destruct (negb _); lia. }
        destruct id as [i|].
        - destruct (beq (rs_id r) i && (seqno_compare (rs_seqno r) q >? 0)) eqn:C.
          + exfalso. apply andb_prop in C. destruct C as (C1 & C2). apply beq_true in C1. subst i.
            assert (P : pending k d w r) by (apply match_key in Hm; unfold rkey in Hm; inversion Hm; split; auto).
            specialize (Fr r P eq_refl). lia.
          + eexists. split; [reflexivity|]. cbn. auto.
        - eexists. split; [reflexivity|]. cbn. auto. }
      destruct Ag as (r' & -> & Tr & Dr). cbn [andb].
      assert (O' : ok2 r') by (split; [rewrite Tr; apply L|right; rewrite Tr; apply L]).
      assert (S' : satb r' = false).
      { unfold satb. rewrite Tr. destruct (tv_sec (w_now w) =? 0) eqn:Z1; [destruct L; lia|]. apply andb_false_r. }
      assert (Hin : forall y, In y (upd_first (resend_match k d) (fun _ => r') (w_rsd w)) -> In y (w_rsd w) \/ y = r').
      { intros y Hy. apply upd_first_In in Hy. destruct Hy as [Hy|(x & _ & ->)]; auto. }
      assert (Ok' : Forall ok2 (upd_first (resend_match k d) (fun _ => r') (w_rsd w)) /\ Forall (fun r => 0 <= rs_delay r) (upd_first (resend_match k d) (fun _ => r') (w_rsd w))).
      { rewrite !Forall_forall in *. split; intros y Hy; destruct (Hin y Hy) as [Hl| ->]; auto. }
      pose proof (wake_rec (w_now w) (w_rsd w) _ (w_rsd_time w) r' L Wk O' S' Dr Hin) as Wk'.
      destruct (negb (rs_delay r' =? 0)); (split; [|apply Ok']); (split; [exact L|]); (split; [apply Ok'|exact Wk']).
    + cbv zeta. set (r' := mkRsd k RESEND_MAX (Z.min delay 65535) (w_now w) d q match id with Some i => i | None => zeroes 8 end ifp).
      assert (O' : ok2 r') by (split; [apply L|right; apply L]).
      assert (S' : satb r' = false).
      { unfold satb, r'. cbn. destruct (tv_sec (w_now w) =? 0) eqn:Z1; [destruct L; lia|]. apply andb_false_r. }
      assert (Dr : 0 <= rs_delay r') by (cbn; lia).
      assert (Hin : forall y, In y (r' :: w_rsd w) -> In y (w_rsd w) \/ y = r') by (intros y [<-|Hy]; auto).
      pose proof (wake_rec (w_now w) (w_rsd w) _ (w_rsd_time w) r' L Wk O' S' Dr Hin) as Wk'.
      destruct (negb (rs_delay r' =? 0)); (split; [|constructor; auto]); (split; [exact L|]); (split; [constructor; auto|exact Wk']).
  - unfold satisfy_request. destruct (find_request d w); auto. destruct (match ifp with Some _ => _ | None => _ end); auto.
    destruct (_ || _); auto. destruct IH as (L & O & _). split.
    + apply recompute_wk; auto. cbn [w_rsd set_w_rsd]. rewrite Forall_forall in *. intros y Hy. apply upd_first_In in Hy.
      destruct Hy as [Hy|(x & Fx & ->)]; auto. apply find_some in Fx. destruct Fx as (Hx & Hm). apply (satq1_ok2 x); auto. right. split; auto.
      apply match_key in Hm. inversion Hm. auto.
    + cbn [w_rsd set_w_rsd recompute_resend_time set_w_rsd_time]. rewrite Forall_forall in *. intros y Hy. apply upd_first_In in Hy.
      destruct Hy as [Hy|(x & Fx & ->)]; auto. apply find_some in Fx. apply (Dl x). tauto.
  - unfold expire_resend. destruct (_ =? _)%nat; auto. destruct IH as (L & O & _).
    assert (Sub : forall y, In y (filter (fun r => negb (resend_expired w r)) (w_rsd w)) -> In y (w_rsd w)) by (intros y Hy; apply filter_In in Hy; tauto).
    rewrite Forall_forall in O, Dl. split; [apply recompute_wk; auto|]; apply Forall_forall; intros y Hy; auto.
  - destruct IH as (L & O & _). unfold do_resend. destruct (do_resend_ok2 (seq 0 (length (w_rsd w))) w O) as (O' & Nw). split.
    + apply recompute_wk; auto. rewrite Nw. exact L.
    + cbn [w_rsd recompute_resend_time set_w_rsd_time]. clear - Dl. generalize (seq 0 (length (w_rsd w))). intros js. revert w Dl.
      induction js as [|j js IH]; intros w F; auto. cbn [fold_left]. apply IH.
      rewrite do_resend1_eq. destruct (nth_error (w_rsd w) j) as [rk|] eqn:Nk; auto. destruct (rdue (w_now w) rk); auto. cbv zeta.
      destruct (resend_send_satq w rk) as (Nw & F2). destruct (F2_nth _ _ _ _ _ _ _ F2 Nk) as (rk' & Nk' & Qk). rewrite Nk'.
      assert (F' : Forall (fun r => 0 <= rs_delay r) (w_rsd (resend_send w rk))).
      { clear - F F2. induction F2; auto. inversion F; subst. constructor; auto. destruct H as [->|(_ & ->)]; auto. }
      cbn [w_rsd set_w_rsd]. apply upd_Forall; auto. apply nth_error_In in Nk'. rewrite Forall_forall in F'. apply F' in Nk'. cbn. lia.
  - destruct IH as (L & O & Wk). split; [|rewrite E1; exact Dl].
    assert (L' : lateb (w_now w')) by (destruct L as (L1 & L2); split; auto; unfold us, tv_ok in *; lia).
    unfold wk. rewrite E1, E2. split; [exact L'|]. split; [exact O|]. destruct Wk as (Tt & Wk). split; auto.
    intros r Hr Lr. apply Wk; auto. apply (live_later _ (w_now w')); auto; [apply L|]. rewrite Forall_forall in O. apply O. auto.
Qed.
Lemma rexec_wake : forall w r, rexec w -> In r (w_rsd w) -> alive w r = true ->
  exists t, deadline (w_rsd_time w) = Some t /\ t <= us (rs_time r) + 1000 * rs_delay r.
Proof.
  intros w r X Hr A. destruct (rexec_delay w X) as ((_ & _ & _ & Wk) & _). rewrite alive_rlive in A. apply Wk; auto.
Qed.

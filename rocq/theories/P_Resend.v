(** P_Resend.v: pending retransmissions (C40). *)
From Verif Require Import Base M_Util S_Util L_Util M_Slot M_Source S_Source L_Source M_Filter M_Types M_Neigh M_State M_Table
  M_Msg M_Route M_Xroute S_World L_Table L_Resend L_Step L_Msg L_Chain L_Update2 M_Daemon L_Daemon L_Inv S_Resend L_Resend2 L_Resend3
  S_Send L_Out L_Resend4 L_World X_Run X_Run2 X_Run3 X_Run4.

(** C40: in every execution, at most one entry per kind and destination, with at most
    3 retransmissions left (unless it is satisfied) and a delay of at most 65535. *)
Theorem C40_one_entry : forall c w k d, c_half_life c <> 2 -> reach c w ->
  (length (filter (same_key k d) (w_rsd w)) <= 1)%nat /\
  forall r, pending k d w r -> rs_delay r <= 65535 /\ (satisfied r \/ 0 <= rs_max r <= 3).
Proof.
  intros c w k d H R. pose proof (reach_rinv c w H R) as (Nd & O). split.
  - revert Nd. clear. induction (w_rsd w) as [|a l IH]; intros Nd; cbn; [lia|]. cbn in Nd. inversion Nd as [|? ? Na Nd']; subst.
    destruct (same_key k d a) eqn:E; [|apply IH; auto]. cbn.
    assert (X : filter (same_key k d) l = []).
    { apply same_key_iff in E. clear - E Na. induction l as [|b l IH]; auto. cbn. destruct (same_key k d b) eqn:E'.
      - exfalso. apply same_key_iff in E'. apply Na. left. congruence.
      - apply IH. intros G. apply Na. right. auto. }
    rewrite X. cbn. lia.
  - intros r (Hr & _ & _). rewrite Forall_forall in O. destruct (O r Hr) as (A & B & _). split; auto. destruct B as [B|B]; auto.
    left. unfold satb in B. apply andb_prop in B. destruct B as (B1 & B2). apply Z.eqb_eq in B1, B2. split; auto.
Qed.
Print Assumptions C40_one_entry.
Example C40_one_entry_ex : reach x_conf r_w /\
  map (fun r => (rs_kind r, rs_max r, rs_delay r, rs_seqno r)) (w_rsd r_w) = [(1, 3, 2000, 41); (2, 3, 2000, 0)].
Proof. split; [exact r_reach|]. vm_compute. reflexivity. Qed.

(** What any event does to the entries: one there afterwards is satisfied, or is the
    same as before up to retransmissions, each of which doubles the delay up to 65535
    and uses one of those left, or it was recorded just now. *)
Theorem C40_backed_off : forall c w ev k d r', c_half_life c <> 2 -> reach c w -> allowed ev w ->
  pending k d (run1 ev w) r' ->
  satisfied r' \/ (exists r, pending k d w r /\ later r r') \/ rs_time r' = w_now w.
Proof.
  intros c w ev k d r' H R A P. destruct (reach_W c w H R) as (Hw & _).
  assert (R' : reach c (run1 ev w)) by (apply reach_run; auto).
  pose proof (reach_rinv c w H R) as I1. pose proof (reach_rinv c _ H R') as I2.
  destruct (evo_inv _ _ (run1_evo w ev Hw A) (rg_now _ (reach_rng c w H R)) I1) as (_ & K).
  destruct P as (Hr & Hk & Hd). assert (E : ent k d (w_rsd (run1 ev w)) = Some r').
  { apply ent_In; auto; [apply I2|]. unfold rkey. congruence. }
  destruct (K k d r' E) as [S|[(r & E1 & L)|T]]; auto.
  - left. unfold satb in S. apply andb_prop in S. destruct S as (S1 & S2). apply Z.eqb_eq in S1, S2. split; auto.
  - right. left. exists r. split; auto. apply ent_Some in E1. destruct E1 as (E1 & E2). unfold rkey in E2. inversion E2. split; auto.
Qed.
Print Assumptions C40_backed_off.

(** One pass: exactly the entries whose time has come are retransmitted; each then has
    one retransmission less and twice the delay, unless sending itself satisfied it. *)
Theorem C40_pass : forall c w r, c_half_life c <> 2 -> reach c w -> late_clock w -> In r (w_rsd w) ->
  exists r', In r' (w_rsd (run1 EvResend w)) /\ rs_kind r' = rs_kind r /\ rs_dest r' = rs_dest r /\
    if ripe w r then satisfied r' \/ (later r r' /\ rs_max r' = rs_max r - 1)
    else r' = r \/ satisfied r'.
Proof.
  intros c w r H R L Hr. pose proof (reach_rinv c w H R) as (_ & O). pose proof (rg_now _ (reach_rng c w H R)) as T.
  rewrite Forall_forall in O. specialize (O r Hr). destruct O as (O1 & O2 & O3).
  assert (Lb : lateb (w_now w)) by (split; auto).
  apply In_nth_error in Hr. destruct Hr as (i & N). destruct (do_resend_after w i r Lb O3 N) as (r' & N' & A).
  exists r'. split; [eapply nth_error_In; eauto|]. rewrite ripe_rdue by auto. unfold after in A. cbn [andb] in A.
  assert (Sx : forall x, satb x = true -> satisfied x).
  { intros x S. unfold satb in S. apply andb_prop in S. destruct S as (S1 & S2). apply Z.eqb_eq in S1, S2. split; auto. }
  pose proof (keys_do_resend w) as Keys. apply (map_nth_error rkey) in N. pose proof (map_nth_error rkey _ _ N') as N2.
  rewrite Keys in N2. rewrite N in N2. injection N2 as E1 E2. split; auto. split; auto.
  destruct (rdue (w_now w) r) eqn:D.
  - destruct A as [->|S]; auto. right.
    assert (M : 0 < rs_max r /\ 0 < rs_delay r) by (unfold rdue, rlive in D; rewrite !andb_true_iff in D; lia).
    assert (Sr : satb r = false).
    { destruct (satb r) eqn:S; auto. rewrite (satb_not_due (w_now w) r Lb O3 S) in D. discriminate. }
    assert (M3 : rs_max r <= 3) by (destruct O2 as [O2|O2]; [congruence|lia]).
    assert (Em : rs_max (dec r) = rs_max r - 1) by (cbn; unfold u8; rewrite Z.mod_small by lia; reflexivity).
    split; [|exact Em]. unfold later. rewrite Em. repeat split; try reflexivity; try lia.
    replace (rs_max r - (rs_max r - 1)) with 1 by lia. reflexivity.
  - destruct A as [->|(K & ->)]; auto. right. apply Sx. apply satb_sat. auto.
Qed.
Print Assumptions C40_pass.
Example C40_pass_ex : reach x_conf (run1 (EvClock (mkTv 1063 0)) r_w) /\ late_clock (run1 (EvClock (mkTv 1063 0)) r_w) /\
  map (ripe (run1 (EvClock (mkTv 1063 0)) r_w)) (w_rsd r_w) = [true; true].
Proof.
  split; [|split; vm_compute; [discriminate|reflexivity]].
  apply (reach_list x_conf [EvClock (mkTv 1063 0)]); [apply r_reach|]. vm_compute. reflexivity.
Qed.

(** Over a whole execution, at most 3 retransmissions for each time it was recorded. *)
Theorem C40_at_most_3 : forall c w evs k d, c_half_life c <> 2 -> reach c w -> allowed_run evs w ->
  late_clock w -> late_clocks evs ->
  retransmissions k d evs w <= (if existsb (same_key k d) (w_rsd w) then 3 else 0) + 3 * recordings k d evs w.
Proof.
  intros c w evs k d H R A L Lc. pose proof (count_bound c k d evs w H R A L Lc) as B.
  pose proof (potl_range k d _ (reach_rinv c w H R)) as P. destruct (existsb (same_key k d) (w_rsd w)) eqn:E; [lia|].
  unfold potl in *. destruct (ent k d (w_rsd w)) as [r|] eqn:F; [|lia]. exfalso. apply ent_Some in F. destruct F as (F1 & F2).
  apply same_key_iff in F2. assert (X : existsb (same_key k d) (w_rsd w) = true) by (apply existsb_exists; eauto). congruence.
Qed.
Print Assumptions C40_at_most_3.
Example C40_at_most_3_ex :
  let evs := [EvClock (mkTv 1062 0); EvResend; EvClock (mkTv 1064 0); EvResend; EvClock (mkTv 1068 0); EvResend; EvClock (mkTv 1090 0); EvResend] in
  late_clock r_w /\ late_clocks evs /\ retransmissions 1 (xd 1) evs r_w = 3 /\ recordings 1 (xd 1) evs r_w = 0.
Proof.
  cbv zeta. split; [vm_compute; discriminate|]. split; [|split; vm_compute; reflexivity].
  intros t Ht. repeat (destruct Ht as [Ht|Ht]; [inversion Ht; subst; cbn; lia|]). destruct Ht.
Qed.

(** The messages of a pass: the requests among them are those whose time has come, with
    127 hops; and each of these goes to every place it should, unless it is satisfied. *)
Theorem C40_messages : forall c w, c_half_life c <> 2 -> reach c w -> late_clock w ->
  exists l, w_out (run1 EvResend w) = w_out w ++ l /\
    (forall b t, In (b, t) l ->
       (exists id d q m iv, t = TUpdate id d q m iv) \/
       (exists r, In r (w_rsd w) /\ rs_kind r = 1 /\ ripe w r = true /\ t = TMhRequest (rs_dest r) (rs_seqno r) 127 (rs_id r))) /\
    (forall r i bs b, In r (w_rsd w) -> rs_kind r = 1 -> ripe w r = true -> In i (w_ifs w) -> if_up i = true ->
       rs_ifp r = None \/ rs_ifp r = Some (if_id i) -> (any_source (rs_dest r) \/ flag i IF_RFC6126 = false) ->
       goes_to w i bs -> In b bs ->
       In (b, TMhRequest (rs_dest r) (rs_seqno r) 127 (rs_id r)) (w_out (run1 EvResend w)) \/
       exists r', pending 1 (rs_dest r) (run1 EvResend w) r' /\ satisfied r').
Proof.
  intros c w H R L. destruct (reach_W c w H R) as (Hw & _). pose proof (reach_rinv c w H R) as (_ & O).
  pose proof (rg_now _ (reach_rng c w H R)) as T. rewrite Forall_forall in O. assert (Lb : lateb (w_now w)) by (split; auto).
  assert (Tv : forall r, In r (w_rsd w) -> tv_ok (rs_time r)) by (intros r Hr; apply (O r Hr)).
  destruct (do_resend_outq (fun e => isupd e \/ exists r, In r (w_rsd w) /\ rs_kind r = 1 /\ ripe w r = true /\ mh_of r e) w Lb) as (l & El & Fl); auto.
  { intros r Hr D K b. right. exists r. split; auto. split; auto. split; [rewrite ripe_rdue; auto|reflexivity]. }
  exists l. split; [exact El|]. split.
  - intros b t Hl. rewrite Forall_forall in Fl. destruct (Fl _ Hl) as [U|U]; [left|right; exact U].
    unfold isupd in U. cbn in U. destruct t; try contradiction. eauto 10.
  - intros r i bs b Hr K Rp Hi U Hf Hc Hg Hb. rewrite ripe_rdue in Rp by auto.
    pose proof Hr as Hr'. apply In_nth_error in Hr'. destruct Hr' as (j & N).
    assert (Gi : get_if (if_id i) w = Some i) by (apply get_if_In; auto; apply (W_ifs _ _ Hw)).
    assert (Tw : towards w r b).
    { exists i. split; auto. split; auto. split; auto. split.
      - destruct Hc as [Hc|Hc]; [left; apply is_default_any; auto|right; auto].
      - destruct Hg as [(G1 & ->)|(G1 & ns & -> & ->)]; unfold buffers; rewrite G1; auto. }
    destruct (fold_sent (seq 0 (length (w_rsd w))) w j r b) as [S|(r' & N' & S)]; auto.
    + apply seq_NoDup.
    + eapply W_refs; eauto.
    + intros k Hk. apply (W_rsd _ _ Hw). auto.
    + apply in_seq. split; [lia|]. apply nth_error_Some. congruence.
    + right. exists r'. change (w_rsd (fold_left do_resend1 (seq 0 (length (w_rsd w))) w)) with (w_rsd (do_resend w)) in N'.
      pose proof (map_nth_error rkey _ _ N) as N1. pose proof (map_nth_error rkey _ _ N') as N2. rewrite keys_do_resend in N2.
      rewrite N1 in N2. injection N2 as E1 E2. unfold satb in S. apply andb_prop in S. destruct S as (S1 & S2). apply Z.eqb_eq in S1, S2.
      split; [|split; auto]. split; [eapply nth_error_In; eauto|]. split; auto.
Qed.
Print Assumptions C40_messages.

(** The next wake-up: through any sequence of recordings (not of an older request than
    the pending one), satisfactions, expirations, passes and other activity, it is set
    and not later than the time of any entry that has retransmissions left. *)
Theorem C40_wake_up : forall w r, rexec w -> In r (w_rsd w) -> alive w r = true ->
  exists t, deadline (w_rsd_time w) = Some t /\ t <= us (rs_time r) + 1000 * rs_delay r.
Proof. exact rexec_wake. Qed.
Print Assumptions C40_wake_up.
Example C40_wake_up_ex :
  let w := expire_resend (do_resend (set_w_now (mkTv 1002 500000) (record_resend 2 (xd 2) 0 None None 3000
            (record_resend 1 (xd 1) 5 (Some (x_id 7)) (Some 1) 2000 (set_w_now (mkTv 1000 0) x_boot))))) in
  rexec w /\ map (alive w) (w_rsd w) = [true; true] /\ deadline (w_rsd_time w) = Some 1003000000.
Proof.
  cbv zeta. split; [|split; vm_compute; reflexivity].
  apply rx_expire, rx_resend. match goal with |- rexec (set_w_now _ ?z) => apply (rx_other z) end; try reflexivity.
  - apply rx_record; [|lia|intros r (Hr & K & _); discriminate].
    apply rx_record; [|lia|].
    + apply rx_start; [reflexivity|reflexivity|unfold tv_ok; cbn; lia|unfold late_clock; cbn; lia].
    + intros r (Hr & _). vm_compute in Hr. destruct Hr.
  - unfold tv_ok; cbn; lia.
  - vm_compute. discriminate.
Qed.

(** It can be missing when an older request is recorded again after all the
    retransmissions of a newer one for the same router-id: the entry has 3
    retransmissions again, and nothing will wake the daemon for it. *)
Theorem C40_stale_request_refuted : exists c w r, c_half_life c <> 2 /\ reach c w /\ late_clock w /\
  In r (w_rsd w) /\ alive w r = true /\ rs_max r = 3 /\ deadline (w_rsd_time w) = None.
Proof.
  exists x_conf, q_w2. assert (B : match w_rsd q_w2 with r :: _ => alive q_w2 r && (rs_max r =? 3) | [] => false end = true) by (vm_compute; reflexivity).
  assert (D : deadline (w_rsd_time q_w2) = None) by (vm_compute; reflexivity).
  assert (L : late_clock q_w2) by (vm_compute; discriminate).
  pose proof q_reach2 as R. revert B D L R. generalize q_w2. intros w B D L R. destruct (w_rsd w) as [|r l] eqn:E; [discriminate|].
  apply andb_prop in B. destruct B as (B1 & B2). exists r. split; [apply x_hl|]. split; [exact R|]. split; [exact L|]. split; [try rewrite E; left; reflexivity|].
  split; [exact B1|]. split; [lia|exact D].
Qed.
Print Assumptions C40_stale_request_refuted.

(** Within the first 65 seconds of the clock, the bound of 3 does not hold: a request
    satisfied by the updates sent just before it is repeated gets 255 more. *)
Theorem C40_early_clock_refuted : exists c w0 w k d q id ifp delay evs, c_half_life c <> 2 /\ reach c w0 /\ w_rsd w0 = [] /\
  w = record_resend k d q (Some id) ifp delay w0 /\ allowed_run evs w /\ recordings k d evs w = 0 /\
  retransmissions k d evs w = 5.
Proof.
  exists x_conf, (set_w_now (mkTv 10 0) f_w), e_w, 1, (xd 1), 5, (x_id 77), (Some 1), 2000, e_evs.
  split; [apply x_hl|]. split.
  { apply (reach_list x_conf [EvClock (mkTv 10 0)]); [apply f_reach|]. vm_compute. reflexivity. }
  split; [vm_compute; reflexivity|]. split; [reflexivity|]. split; [|split; vm_compute; reflexivity].
  cbn [allowed_run e_evs allowed]. unfold tv_ok. cbn. repeat split; lia.
Qed.
Print Assumptions C40_early_clock_refuted.

(** L_Request.v: requests for a new sequence number. *)
From Verif Require Import Base M_Util S_Util L_Util M_Slot L_Slot M_Source S_Source L_Source
  M_Filter S_Filter L_Filter M_Types M_Neigh S_Neigh L_Neigh M_State M_Table M_Msg M_Route M_Xroute S_World M_Daemon
  L_Table L_Resend L_Step L_Msg L_Smooth L_Quiet L_Select L_Select2 L_Chain L_Chain2 L_Chain3 L_Flush L_Update L_Update2
  L_Xroute L_Daemon L_Inv L_World L_World2 S_Resend L_Resend2 L_Resend3 S_Send L_Out L_Resend4 L_Send S_Request.
From Coq Require Import Permutation.

(** ** Our sequence number is 16 bits *)
Lemma mstep_seqno : forall b s t, mstep b s t -> u16_ok (w_seqno (snd s)) -> u16_ok (w_seqno (snd t)).
Proof.
  assert (Kf : forall a b, kframe a b -> w_seqno b = w_seqno a) by (intros a b (x & y & ->); reflexivity).
  assert (Mv : forall d p w, w_seqno (move_installed d p w) = w_seqno w)
    by (intros; unfold move_installed; destruct (find_route_slot d w); reflexivity).
  intros b s t H. destruct H; cbn [snd]; try (intros; assumption).
  - destruct H. rewrite f_seqno. auto.
  - match goal with H : change_route_add _ _ _ _ = _ |- _ => apply change_route_add_frame, Kf in H; intros; rewrite Mv; cbn; rewrite H; assumption end.
  - match goal with H : change_route_add _ _ _ _ = _ |- _ => apply change_route_add_frame, Kf in H; intros; rewrite H; assumption end.
  - destruct (change_route_flush _ _ _ _) as [rc w1] eqn:E. apply change_route_flush_frame, Kf in E. cbn. intros. rewrite E. assumption.
  - match goal with H : change_route_modify _ _ _ _ _ _ _ = _ |- _ => apply change_route_modify_frame, Kf in H; intros; rewrite Mv; cbn; rewrite H; assumption end.
  - match goal with H : change_route_modify _ _ _ _ _ _ _ = _ |- _ => apply change_route_modify_frame, Kf in H; intros; rewrite H; assumption end.
  - match goal with H : (if ?c then _ else _) = (rc, w1) |- _ => destruct c;
      [apply change_route_modify_frame, Kf in H; intros; cbn; rewrite H; assumption|injection H as _ <-; auto] end.
  - unfold unlink_route. destruct (find_route_slot _ _); cbn; auto.
  - intros _. cbn. apply seqno_plus_ok.
Qed.
Lemma star_seqno : forall q s t, star q s t -> u16_ok (w_seqno (snd s)) -> u16_ok (w_seqno (snd t)).
Proof. induction 1; auto. intros. apply IHstar. eapply mstep_seqno; eauto. Qed.
Lemma reach_seqno : forall c w, c_half_life c <> 2 -> reach c w -> u16_ok (w_seqno w).
Proof.
  intros c w H R. induction R as [now ifs s N F T U|w ev R IH A]; [exact U|]. destruct (reach_W c w H R) as (Hw & _).
  destruct (run1_cases w ev Hw A) as [O | [C | (id & d & q & m & iv & n & nh & _ & U)]].
  - destruct O; exact IH.
  - apply (star_seqno _ _ _ C). exact IH.
  - destruct U as [C | w1 r w2 S1 I1 E C _ _ _ _].
    + apply (star_seqno _ _ _ C). exact IH.
    + apply (star_seqno _ _ _ C). rewrite E. cbn [snd]. unfold insert_route.
      apply star_seqno in S1; auto. destruct (find_route_slot _ _); exact S1.
Qed.

(** ** An update sent soon *)
Lemma rsu_ifs : forall i id d s m w, w_ifs (really_send_update i id d s m w) = w_ifs w.
Proof.
  intros. unfold really_send_update. destruct (negb _); auto. generalize (buffers i w). intros l. revert w.
  induction l as [|b l IH]; intros w; cbn [fold_left]; auto. rewrite IH. unfold really_buffer_update.
  repeat match goal with |- w_ifs (if ?x then _ else _) = _ => destruct x end; reflexivity.
Qed.
Lemma satisfy_ifs : forall d s id i w, w_ifs (satisfy_request d s id i w) = w_ifs w.
Proof.
  intros. unfold satisfy_request. destruct (find_request d w); auto. destruct (match i with Some _ => _ | None => _ end); auto.
  destruct (_ || _); auto.
Qed.
Lemma flush1_ifs : forall i w last b, w_ifs (fst (flush1 i (w, last) b)) = w_ifs w.
Proof.
  intros i w last b. unfold flush1. destruct (match last with Some _ => _ | None => _ end); auto.
  destruct (find_xroute _ w) as [x|]; destruct (find_installed _ w) as [r|]; cbn [fst]; try apply rsu_ifs.
  - destruct (x_metric x <=? _); [apply rsu_ifs|].
    match goal with |- context [nb_if _ ?z] => set (w1 := z) end.
    assert (S1 : w_ifs w1 = w_ifs w) by (unfold w1; destruct (_ <? _); [apply satisfy_ifs|auto]).
    destruct (nb_if _ w1) as [[nb ri]|]; cbn [fst]; auto.
    destruct (_ && _); cbn [fst]; auto. cbn. rewrite rsu_ifs. auto.
  - match goal with |- context [nb_if _ ?z] => set (w1 := z) end.
    assert (S1 : w_ifs w1 = w_ifs w) by (unfold w1; destruct (_ <? _); [apply satisfy_ifs|auto]).
    destruct (nb_if _ w1) as [[nb ri]|]; cbn [fst]; auto.
    destruct (_ && _); cbn [fst]; auto. cbn. rewrite rsu_ifs. auto.
Qed.
Lemma flush_fold_ifs : forall i l w last, w_ifs (fst (fold_left (flush1 i) l (w, last))) = w_ifs w.
Proof.
  intros i. induction l as [|b l IH]; intros w last; auto. cbn [fold_left].
  pose proof (flush1_ifs i w last b) as H. destruct (flush1 i (w, last) b) as [w1 last1]. rewrite IH. exact H.
Qed.
Lemma flush_get : forall ifp w i, get_if ifp w = Some i ->
  exists i', get_if ifp (flushupdates ifp w) = Some i' /\ if_id i' = if_id i /\ if_hello_interval i' = if_hello_interval i /\
    if_flush_timeout i' = tv0.
Proof.
  intros ifp w i G. unfold flushupdates. rewrite G.
  destruct (match if_pend i with [] => true | _ => false end).
  - eexists. split; [apply get_if_map; eauto|]. auto.
  - pose proof (get_if_map ifp (fun x => set_if_pend [] (set_if_bufsize 0 x)) w i (fun x => eq_refl) G) as G1.
    destruct (negb (if_up i)).
    + eexists. split; [apply get_if_map; eauto|]. auto.
    + eexists. split; [apply get_if_map; auto; unfold get_if in *; rewrite flush_fold_ifs; exact G1|]. auto.
Qed.

Lemma buffer_update_get : forall ifp d w i, get_if ifp w = Some i -> tv_ok (if_flush_timeout i) ->
  exists i', get_if ifp (buffer_update ifp d w) = Some i' /\ if_id i' = if_id i /\ if_hello_interval i' = if_hello_interval i /\
    tv_ok (if_flush_timeout i') /\ In d (if_pend i').
Proof.
  intros ifp d w i G T. unfold buffer_update. rewrite G. set (w1 := if _ && _ then _ else w).
  assert (G1 : exists i1, get_if ifp w1 = Some i1 /\ if_id i1 = if_id i /\ if_hello_interval i1 = if_hello_interval i /\
    tv_ok (if_flush_timeout i1)).
  { unfold w1. destruct (_ && _).
    - destruct (flush_get ifp w i G) as (i1 & A & B & C & D). exists i1. rewrite D. split; auto. split; auto. split; auto.
      unfold tv_ok. cbn. lia.
    - exists i. auto. }
  destruct G1 as (i1 & A & B & C & D).
  match goal with |- context [map_if ifp ?f w1] => pose proof (get_if_map ifp f w1 i1) as M end.
  eexists. split; [apply M; auto; intros x; cbv zeta; destruct (if_bufsize x =? 0); reflexivity|].
  cbv zeta. destruct (if_bufsize i1 =? 0); cbn [if_id if_hello_interval if_flush_timeout if_pend set_if_pend set_if_bufsize];
    (split; auto; split; auto; split; auto; apply in_app_iff; right; left; auto).
Qed.

Lemma rand_rest : forall w r w', rand w = (r, w') -> 0 <= r /\ w_now w' = w_now w /\ w_ifs w' = w_ifs w.
Proof.
  unfold rand. intros w r w' H. destruct (w_rnd w) as [|x l]; inversion H; subst; [split; [lia|auto]|].
  split; [pose proof (Z.mod_pos_bound x 2147483648); lia|]. auto.
Qed.

Lemma send_update_if_soon : forall ifp d w i, get_if ifp w = Some i -> if_up i = true -> refs w ->
  tv_ok (w_now w) -> 1 <= now_s w -> tv_ok (if_flush_timeout i) -> 0 <= if_hello_interval i ->
  soon w i d (send_update_if ifp true d w).
Proof.
  intros ifp d w i G U R T P F Hh. unfold send_update_if. rewrite G, U. cbn [negb].
  destruct (buffer_update_get ifp d w i G F) as (i1 & G1 & E1 & E2 & E3 & E4).
  assert (N1 : w_now (buffer_update ifp d w) = w_now w).
  { apply (f_now w). apply buffer_update_frame; auto. eapply get_if_has; eauto. }
  set (w1 := buffer_update ifp d w) in *. unfold schedule_update_flush. rewrite G1. unfold update_jitter, set_timeout.
  destruct (rand w1) as [r1 w2] eqn:R1. apply rand_rest in R1. destruct R1 as (A1 & A2 & A3).
  assert (J : 0 <= roughly (Z.min (if_hello_interval i1) 100) r1 <= 125).
  { pose proof (roughly_nonneg (Z.min (if_hello_interval i1) 100) r1 A1 ltac:(lia)). lia. }
  assert (G2 : get_if ifp w2 = Some i1) by (unfold get_if in *; rewrite A3; auto).
  set (ms := roughly (Z.min (if_hello_interval i1) 100) r1) in *. unfold now_s in P.
  destruct (negb (tv_sec (if_flush_timeout i1) =? 0) && _) eqn:C.
  - exists i1. split; [eapply find_some in G2; apply G2|]. split; auto. split; auto. unfold deadline.
    apply andb_prop in C. destruct C as (C1 & C2). destruct (tv_sec (if_flush_timeout i1) =? 0); [discriminate|].
    eexists. split; [reflexivity|]. rewrite A2, N1 in C2.
    destruct (timeval_minus_msec_spec (if_flush_timeout i1) (w_now w) E3 T) as (S1 & S2 & S3 & S4).
    destruct (Z_le_gt_dec (us (if_flush_timeout i1)) (us (w_now w))); [lia|].
    destruct (Z_gt_le_dec (tv_sec (if_flush_timeout i1) - tv_sec (w_now w)) 2000000) as [X|X]; [rewrite S3 in C2 by lia; lia|].
    specialize (S2 ltac:(lia) X). lia.
  - destruct (rand w2) as [r2 w3] eqn:R2. apply rand_rest in R2. destruct R2 as (B1 & B2 & B3).
    assert (G3 : get_if ifp w3 = Some i1) by (unfold get_if in *; rewrite B3; auto).
    pose proof (roughly_nonneg ms r2 B1 ltac:(lia)) as J2.
    destruct (timeval_add_msec_us (w_now w) (roughly ms r2) T ltac:(lia)) as (T1 & T2).
    pose proof (get_if_map ifp (set_if_flush_timeout (timeval_add_msec (w_now w2) (roughly ms r2))) w3 i1 (fun x => eq_refl) G3) as G4.
    eexists. split; [eapply find_some in G4; apply G4|]. split; auto. split; auto.
    cbn [if_flush_timeout set_if_flush_timeout]. rewrite A2, N1. unfold deadline.
    clear C. unfold tv_ok, us in *. destruct (_ =? 0) eqn:Z0; [exfalso; lia|]. eexists. split; [reflexivity|]. lia.
Qed.

(** ** The conditions of handle_request *)
Lemma newer_iff : forall a b, (seqno_compare a b >? 0) = true <-> newer a b.
Proof.
  intros. rewrite seqno_compare_alt. unfold newer, ahead. destruct (a =? b) eqn:E; [|destruct (_ <? _) eqn:E2]; split; intros; lia.
Qed.
Lemma newer_iff' : forall a b, (seqno_compare a b <=? 0) = true <-> ~ newer a b.
Proof. intros. rewrite <- newer_iff. lia. Qed.
Lemma way_iff : forall a b, (seqno_minus a b >? 100) = true <-> way_ahead a b.
Proof.
  intros. unfold seqno_minus, s16, way_ahead, ahead. rewrite land_65535. destruct (_ <? _) eqn:E; split; intros; lia.
Qed.
Lemma ours_first_iff : forall e w d, W e w -> dvalid d ->
  (match find_xroute d w with
   | Some x => match find_installed d w with None => true | Some _ => x_metric x <=? c_kernel_metric (w_cfg w) end
   | None => false end = true <-> ours_first w d).
Proof.
  intros e w d Hw V. pose proof (W_rt _ _ Hw) as Wf. pose proof (W_xr _ _ Hw) as Xs. unfold ours_first.
  destruct (find_xroute d w) as [x|] eqn:Fx.
  - apply find_xroute_iff in Fx; auto. destruct (find_installed d w) as [r|] eqn:Fi.
    + apply find_installed_iff in Fi; auto. split.
      * intros H. exists x. split; auto. intros. lia.
      * intros (y & Hy & K). apply find_xroute_iff in Hy, Fx; auto. assert (x = y) by congruence. subst y. specialize (K r Fi). lia.
    + split; auto. intros _. exists x. split; auto. intros r Hr. exfalso.
      assert (find_installed d w = Some r) by (apply find_installed_iff; auto). congruence.
  - split; [discriminate|]. intros (x & Hx & _). exfalso. eapply find_xroute_none; eauto.
Qed.
Lemma redundant_iff : forall w i d q id, NoDup (map rkey (w_rsd w)) ->
  (request_redundant i d q id w = true <-> exists r, suppressing w i d q id r).
Proof.
  intros w i d q id Nd. unfold request_redundant, find_request, find_resend. change RESEND_REQUEST with 1.
  change (find (resend_match 1 d) (w_rsd w)) with (ent 1 d (w_rsd w)).
  assert (P : forall r, suppressing w i d q id r <->
    ent 1 d (w_rsd w) = Some r /\ resend_expired w r = false /\ (beq (rs_id r) id && (seqno_compare (rs_seqno r) q >? 0)) = false /\
    (match rs_ifp r with Some x => negb (x =? if_id i) | None => false end) = false /\
    ((rs_max r >? 0) = true \/ (timeval_minus_msec (w_now w) (rs_time r) <? Z.min (if_hello_interval i) 1000) = true)).
  { intros r. unfold suppressing, pending.
    assert (E1 : ent 1 d (w_rsd w) = Some r <-> In r (w_rsd w) /\ rs_kind r = 1 /\ rs_dest r = d).
    { split.
      - intros H. apply ent_Some in H. unfold rkey in H. destruct H as (H1 & H2). inversion H2. auto.
      - intros (H1 & H2 & H3). apply ent_In; auto. unfold rkey. congruence. }
    rewrite E1. assert (E2 : (beq (rs_id r) id && (seqno_compare (rs_seqno r) q >? 0)) = false <-> ~ (rs_id r = id /\ newer (rs_seqno r) q)).
    { rewrite <- not_true_iff_false, andb_true_iff, newer_iff, beq_true. tauto. }
    rewrite E2. assert (E3 : (match rs_ifp r with Some x => negb (x =? if_id i) | None => false end) = false <->
      rs_ifp r = None \/ rs_ifp r = Some (if_id i)).
    { destruct (rs_ifp r) as [x|]; [|split; auto]. rewrite negb_false_iff, Z.eqb_eq. split; [intros ->; auto|intros [H|H]; congruence]. }
    rewrite E3. unfold resend_expired, RESEND_REQUEST, REQUEST_TIMEOUT.
    assert (X : forall b, (b = true <-> b = true)) by tauto.
    split.
    - intros ((A1 & A2 & A3) & A4 & A5 & A6 & A7). rewrite A2, Z.eqb_refl. split; auto. split; [lia|]. split; auto. split; auto.
      destruct A7; [left|right]; lia.
    - intros ((A1 & A2 & A3) & A4 & A5 & A6 & A7). rewrite A2, Z.eqb_refl in A4. split; auto. split; [lia|]. split; auto. split; auto.
      destruct A7; [left|right]; lia. }
  destruct (ent 1 d (w_rsd w)) as [r|] eqn:E.
  - transitivity (suppressing w i d q id r).
    + rewrite P. destruct (resend_expired w r); [split; [discriminate|intros (_ & H & _); discriminate]|].
      destruct (beq _ _ && _); [split; [discriminate|intros (_ & _ & H & _); discriminate]|].
      destruct (match rs_ifp r with Some _ => _ | None => _ end); [split; [discriminate|intros (_ & _ & _ & H & _); discriminate]|].
      destruct (rs_max r >? 0); [split; auto 10|]. split; [auto 10|]. intros (_ & _ & _ & _ & [H|H]); [discriminate|auto].
    + split; [eauto|]. intros (x & H). pose proof H as H'. apply P in H. destruct H as (H & _). inversion H; subst. auto.
  - split; [discriminate|]. intros (r & H). apply P in H. destruct H as (H & _). discriminate.
Qed.

(** The entry that is recorded *)
Lemma record_pending : forall k d q id ifp dl w,
  ~ (k = 1 /\ 65535 <= input_filter (c_infs (w_cfg w)) None d None (if_index ifp w)) ->
  ~ (k = 2 /\ 65535 <= output_filter (c_outfs (w_cfg w)) None d (if_index ifp w)) ->
  exists r, pending k d (record_resend k d q (Some id) ifp dl w) r /\ rs_time r = w_now w /\ rs_max r = 3 /\ rs_id r = id /\
    (rs_seqno r = q \/ newer (rs_seqno r) q).
Proof.
  intros k d q id ifp dl w F1 F2. unfold record_resend. unfold RESEND_REQUEST, RESEND_UPDATE, INFINITY.
  destruct (_ || _) eqn:B; [exfalso; rewrite orb_true_iff, !andb_true_iff, !Z.eqb_eq in B; destruct B as [(B1 & B2)|(B1 & B2)]; [apply F1|apply F2]; split; auto; lia|].
  unfold find_resend. destruct (find (resend_match k d) (w_rsd w)) as [r|] eqn:E.
  - assert (K : rs_kind r = k /\ rs_dest r = d).
    { change (ent k d (w_rsd w) = Some r) in E. apply ent_Some in E. destruct E as (_ & E). unfold rkey in E. inversion E. auto. }
    assert (Up : forall y l, find (resend_match k d) l = Some r -> In y (upd_first (resend_match k d) (fun _ => y) l)).
    { intros y l. clear. induction l as [|a l IH]; cbn [find upd_first]; [discriminate|].
      destruct (resend_match k d a); intros H; [left; auto|right; auto]. }
    destruct (again_resend _ _ _ _ _ r) as [r' go] eqn:A.
    assert (P : rs_kind r' = k /\ rs_dest r' = d /\ rs_time r' = w_now w /\ rs_max r' = 3 /\ rs_id r' = id /\
      (rs_seqno r' = q \/ newer (rs_seqno r') q)).
    { unfold again_resend in A. cbn in A. destruct (beq (rs_id r) id) eqn:B1; cbn [andb] in A.
      - apply beq_true in B1. destruct (seqno_compare (rs_seqno r) q >? 0) eqn:B2; inversion A; subst; cbn; repeat split; auto; try apply K.
        right. apply newer_iff. auto.
      - inversion A; subst; cbn; repeat split; auto; apply K. }
    exists r'. destruct P as (P1 & P2 & P3). split; auto. unfold pending.
    destruct (go && _); cbn [w_rsd set_w_rsd_time set_w_rsd]; (split; [apply Up; auto|auto]).
  - eexists. split; [|split; [|split; [|split; [|left]]]].
    + unfold pending. destruct (negb _); cbn [w_rsd set_w_rsd_time set_w_rsd]; (split; [left; reflexivity|split; reflexivity]).
    + reflexivity.
    + reflexivity.
    + reflexivity.
    + reflexivity.
Qed.

Lemma heard_nb_if : forall e w n i, W e w -> heard_on w n i -> exists nb, nb_if n w = Some (nb, i).
Proof.
  intros e w n i Hw (Hi & nb & Hn & <- & E). exists nb. unfold nb_if.
  assert (G : get_nb (n_id nb) w = Some nb).
  { unfold get_nb. destruct (find (fun x => n_id x =? n_id nb) (w_nbs w)) as [x|] eqn:F.
    - apply find_some in F. destruct F as (F1 & F2). f_equal. eapply NoDup_map_inj; [apply (W_nbs _ _ Hw)| | |]; auto. lia.
    - exfalso. apply (find_none _ _ F nb) in Hn. lia. }
  rewrite G, E, (get_if_In w i); auto. apply (W_ifs _ _ Hw).
Qed.

(** *** The forwarding part *)
Definition forward (n : Z) (i : iface) (d : dest) (hop q : Z) (id : list Z) (w w' : world) : Prop :=
  exists w1, quiet [] w w1 /\ w_out w1 = w_out w /\ w_rsd w1 = w_rsd w /\
    ((w' = w1 /\
      (forall r, is_selected w d r -> finite r -> r_neigh r = n) /\
      ((exists r, In r (all_routes w) /\ dest_of r = d /\ eligible w false (Some n) r) ->
       exists r, In r (all_routes w) /\ dest_of r = d /\ eligible w false (Some n) r /\ ~ finite r)) \/
     (exists s, s <> n /\ next_hop_for w d s /\
        (forall r, is_selected w d r -> finite r -> r_neigh r <> n -> s = r_neigh r) /\
        w' = record_resend RESEND_REQUEST d q (Some id) (Some (if_id i)) 0 (send_unicast_multihop_request s d q id (hop - 1) w1))).

Lemma smw_out : forall w w', smw w w' -> w_out w' = w_out w /\ w_rsd w' = w_rsd w.
Proof. intros w w' H. rewrite (sm_eq _ _ H). auto. Qed.

Lemma metric_of_eq : forall r, metric_of r = route_metric r. Proof. reflexivity. Qed.

Lemma handle_cases : forall c w n i d hop q id, c_half_life c <> 2 -> reach c w -> heard_on w n i -> dvalid d ->
  let w' := handle_request n d hop q id w in
  (ours_first w d /\
    ((0 < hop /\ id = c_myid (w_cfg w) /\ newer q (w_seqno w) /\
      ((way_ahead q (w_seqno w) /\ w' = w) \/
       (~ way_ahead q (w_seqno w) /\ w' = send_update_if (if_id i) true d (update_myseqno w)))) \/
     (~ (0 < hop /\ id = c_myid (w_cfg w) /\ newer q (w_seqno w)) /\ w' = send_update_if (if_id i) true d w))) \/
  (~ ours_first w d /\ (exists r, is_selected w d r /\ meets q id r) /\ w' = send_update_if (if_id i) true d w) \/
  (~ ours_first w d /\ (forall r, is_selected w d r -> ~ meets q id r) /\
    (((hop <= 1 \/ (exists r, is_selected w d r /\ way_ahead q (r_seqno r)) \/ (exists r, suppressing w i d q id r)) /\ w' = w) \/
     (1 < hop /\ (forall r, is_selected w d r -> ~ way_ahead q (r_seqno r)) /\ (forall r, ~ suppressing w i d q id r) /\
      forward n i d hop q id w w'))).
Proof.
  intros c w n i d hop q id Hc R Ho V w'. destruct (reach_W c w Hc R) as (Hw & _). pose proof (reach_rng c w Hc R) as Rg.
  destruct (heard_nb_if _ _ _ _ Hw Ho) as (nb & Nb). pose proof (ours_first_iff _ _ _ Hw V) as Of.
  pose proof (W_rt _ _ Hw) as Wf. pose proof (reach_rinv c w Hc R) as (Nd & _).
  unfold w'. clear w'. unfold handle_request. rewrite Nb. cbv zeta.
  destruct (match find_xroute d w with Some x => _ | None => false end) eqn:B1.
  { left. split; [apply Of; auto|].
    assert (X : ((hop >? 0) && beq id (c_myid (w_cfg w)) && (seqno_compare q (w_seqno w) >? 0)) = true <->
      0 < hop /\ id = c_myid (w_cfg w) /\ newer q (w_seqno w)).
    { rewrite !andb_true_iff, beq_true, newer_iff. split; [intros ((X1 & X2) & X3); split; [lia|auto]|intros (X1 & X2 & X3); split; [split; [lia|auto]|auto]]. }
    destruct ((hop >? 0) && beq id (c_myid (w_cfg w)) && (seqno_compare q (w_seqno w) >? 0)).
    - left. destruct (proj1 X eq_refl) as (X1 & X2 & X3). split; auto. split; auto. split; auto.
      pose proof (way_iff q (w_seqno w)) as Y. destruct (seqno_minus q (w_seqno w) >? 100); [left|right]; split; auto; [apply Y; auto|].
      intros Z. apply Y in Z. discriminate.
    - right. split; auto. intros Z. apply X in Z. discriminate. }
  assert (No : ~ ours_first w d) by (intros Z; apply Of in Z; discriminate). right.
  assert (Sel : forall r, find_installed d w = Some r <-> is_selected w d r).
  { intros r. apply find_installed_iff; auto. }
  destruct (match find_installed d w with Some r => _ | None => false end) eqn:B2.
  { left. split; auto. split; auto. destruct (find_installed d w) as [r|] eqn:Fi; [|discriminate]. exists r. split; [apply Sel; auto|].
    unfold meets. apply orb_prop in B2. destruct B2 as [B2|B2]; [left|right].
    - apply negb_true_iff, beq_false in B2. auto.
    - apply newer_iff'. auto. }
  right. split; auto. split.
  { intros r Hr M. apply Sel in Hr. rewrite Hr in B2. apply orb_false_iff in B2. destruct B2 as (B2 & B3). destruct M as [M|M].
    - apply negb_false_iff, beq_true in B2. auto.
    - apply newer_iff' in M. congruence. }
  destruct (hop <=? 1) eqn:B3; [left; split; auto; left; lia|].
  destruct (match find_installed d w with Some r => beq id (k_id (r_src r)) && (seqno_minus q (r_seqno r) >? 100) | None => false end) eqn:B4.
  { left. split; auto. right. left. destruct (find_installed d w) as [r|] eqn:Fi; [|discriminate]. exists r. split; [apply Sel; auto|].
    apply andb_prop in B4. destruct B4 as (B4 & B5). apply way_iff. auto. }
  destruct (request_redundant i d q id w) eqn:B5.
  { left. split; auto. right. right. apply redundant_iff; auto. }
  right. split; [lia|]. split.
  { intros r Hr Y. apply Sel in Hr. rewrite Hr in B4, B2. apply way_iff in Y. rewrite Y, andb_true_r in B4.
    rewrite B4 in B2. discriminate. }
  split. { intros r Hr. assert (Z : request_redundant i d q id w = true) by (apply redundant_iff; eauto). congruence. }
  (* forwarding *)
  unfold forward.
  set (succ0 := match find_installed d w with Some r => if route_metric r <? INFINITY then Some (r_neigh r) else None | None => None end).
  assert (S0 : forall s, succ0 = Some s <-> exists r, is_selected w d r /\ finite r /\ r_neigh r = s).
  { intros s. unfold succ0. destruct (find_installed d w) as [r|] eqn:Fi.
    - pose proof (proj1 (Sel r) eq_refl) as Hr. pose proof (metric_of_eq r) as Me. unfold finite, INFINITY.
      destruct (route_metric r <? 65535) eqn:F.
      + split; [intros E; injection E as <-; exists r; rewrite Me; repeat split; auto; try apply Hr; lia|].
        intros (x & Hx & _ & <-). apply Sel in Hx. congruence.
      + split; [discriminate|]. intros (x & Hx & Fx & _). apply Sel in Hx. injection Hx as <-. rewrite Me in Fx. lia.
    - split; [discriminate|]. intros (r & Hr & _). apply Sel in Hr. discriminate. }
  assert (Nh0 : forall s, succ0 = Some s -> next_hop_for w d s).
  { intros s E. apply S0 in E. destruct E as (r & (H1 & H2 & H3) & F & E). exists r. auto 10. }
  destruct (match succ0 with None => true | Some s => s =? n end) eqn:C.
  - assert (C' : forall r, is_selected w d r -> finite r -> r_neigh r = n).
    { intros r Hr Fr. assert (E : succ0 = Some (r_neigh r)) by (apply S0; eauto). rewrite E in C. lia. }
    destruct (find_best_route d false (Some n) w) as [b w1] eqn:Fb.
    destruct (find_best_chain false (Some n) [] w d b w1 Hw Fb) as (Q & Sm & Hb). exists w1. split; auto.
    destruct (smw_out _ _ Sm) as (O1 & O2). split; auto. split; auto.
    destruct b as [p|].
    + destruct Hb as (r & Fp & Ac & r0 & H0 & P0 & Cr). rewrite Fp.
      apply slot_of_iff in H0; auto. destruct H0 as (H0 & D0).
      assert (A0 : acceptable r0 false (Some n) w = true).
      { rewrite <- Ac. symmetry. apply acceptable_core; auto using smw_srcs, smw_now. }
      apply eligible_iff with (e := []) in A0; auto.
      assert (Me : route_metric r = metric_of r0).
      { rewrite <- metric_of_eq. unfold metric_of. unfold core in Cr. destruct r, r0; cbn in *. inversion Cr; subst. reflexivity. }
      assert (Nn : r_neigh r = r_neigh r0) by (unfold core in Cr; destruct r, r0; cbn in *; inversion Cr; subst; reflexivity).
      destruct (route_metric r <? INFINITY) eqn:F.
      * assert (Ns : r_neigh r <> n) by (rewrite Nn; destruct A0 as (_ & _ & A0); congruence).
        replace (r_neigh r =? n) with false by lia. right. exists (r_neigh r). split; auto. split.
        -- exists r0. unfold finite. rewrite <- Me. unfold INFINITY in F. repeat split; auto; [lia|]. right. apply A0.
        -- split; auto. intros x Hx Fx Nx. exfalso. auto.
      * assert (Hn : forall s, succ0 = Some s -> s = n) by (intros s E; rewrite E in C; lia).
        assert (Ex : exists r, In r (all_routes w) /\ dest_of r = d /\ eligible w false (Some n) r /\ ~ finite r).
        { exists r0. repeat split; auto; try apply A0. unfold finite. rewrite <- Me. unfold INFINITY in F. lia. }
        left. destruct succ0 as [s|]; [rewrite (Hn s eq_refl), Z.eqb_refl|]; split; auto.
    + pose proof (find_best_spec false (Some n) [] w d Hw) as Sp. rewrite Fb in Sp. destruct Sp as (_ & El).
      assert (Nx : forall r, In r (all_routes w) -> dest_of r = d -> ~ eligible w false (Some n) r).
      { intros r Hr Dr E. apply eligible_iff with (e := []) in E; auto.
        assert (X : In (r_ptr r) (elig false (Some n) w d)).
        { unfold elig. apply in_map. apply filter_In. split; auto. apply slot_of_iff; auto. }
        rewrite El in X. contradiction. }
      left. assert (Hn : forall s, succ0 = Some s -> s = n) by (intros s E; rewrite E in C; lia).
      destruct succ0 as [s|]; [rewrite (Hn s eq_refl), Z.eqb_refl|];
        (split; auto; split; auto; intros (r & H1 & H2 & H3); exfalso; eapply Nx; eauto).
  - destruct succ0 as [s|] eqn:E0; [|discriminate]. exists w. split; [apply quiet_refl|]. split; auto. split; auto.
    rewrite C. right. exists s. split; [lia|]. split; auto. split; auto. intros r Hr Fr Nr.
    assert (E : Some s = Some (r_neigh r)) by (apply S0; eauto). congruence.
Qed.

(** L_Chain3.v: update_route_metric, retraction and table walks. *)
From Verif Require Import Base M_Util S_Util L_Util M_Slot L_Slot M_Source S_Source L_Source
  M_Filter M_Types M_Neigh M_State M_Table M_Msg M_Route S_World L_Table L_Step L_Msg L_Smooth L_Quiet L_Trace
  L_Select L_Select2 L_Chain L_Chain2.
From Coq Require Import Permutation.

(** [w'] differs from [w] by quiet changes and by what happened to route [p] *)
Record only (p : Z) (e : list skey) (w w' : world) : Prop := mkOnly {
  on_chain : chain e w w';
  on_keeps : keeps w w';
  on_others : forall q r, q <> p -> find_ptr q w = Some r ->
      exists r', find_ptr q w' = Some r' /\ core r' = core r }.
Lemma only_quiet : forall p e w w', W e w -> quiet e w w' -> only p e w w'.
Proof.
  intros p e w w' Hw Q. constructor; [apply quiet_chain; auto|eapply quiet_keeps; eauto|].
  intros q r _ F. apply (quiet_find _ _ _ _ _ Hw Q F).
Qed.
Lemma only_refl : forall p e w, only p e w w.
Proof. intros. constructor; [apply chain_refl|apply keeps_refl|eauto]. Qed.
Lemma only_trans : forall p e a b c, only p e a b -> only p e b c -> only p e a c.
Proof.
  intros p e a b c [C1 K1 O1] [C2 K2 O2]. constructor; [eapply chain_trans; eauto|eapply keeps_trans; eauto|].
  intros q r N F. destruct (O1 _ _ N F) as (r1 & F1 & E1). destruct (O2 _ _ N F1) as (r2 & F2 & E2).
  exists r2. split; auto. congruence.
Qed.
Lemma only_W : forall p e w w', only p e w w' -> W e w -> W e w'.
Proof. intros p e w w' [] Hw. eapply chain_W; eauto. Qed.
Lemma only_find : forall p e w w' q r, W e w -> only p e w w' -> find_ptr q w = Some r ->
  exists r', find_ptr q w' = Some r' /\ stay r' = stay r.
Proof.
  intros p e w w' q r Hw O F. apply (keeps_find w); auto; [apply O|]. apply (W_rt e). eapply only_W; eauto.
Qed.

Lemma change_only : forall e w p r a b c, W e w -> find_ptr p w = Some r -> metric_args w a b c ->
  only p e w (change_route_metric p a b c w).
Proof.
  intros e w p r a b c Hw F Ma. destruct (change_spec e w p r a b c Hw F Ma) as (C & K & O & _).
  constructor; auto. intros q x N G. exists x. rewrite O; auto.
Qed.
Lemma touch_only : forall e w p r s t h, W e w -> find_ptr p w = Some r -> u16_ok s ->
  only p e w (map_ptr p (fun r => set_r_seqno s (set_r_time t (set_r_hold_time h r))) w) \/ t <> r_time r \/ h <> r_hold_time r.
Proof.
  intros e w p r s t h Hw F U. destruct (Z.eq_dec t (r_time r)) as [->|]; auto.
  destruct (Z.eq_dec h (r_hold_time r)) as [->|]; auto. left. constructor.
  - eapply chain_step. apply S_touch; auto. apply (W_rng _ _ Hw r (find_In _ _ _ F)).
  - rewrite (map_ptr_ext w p r _ (set_r_seqno s)); auto.
    + apply keeps_map; [apply keeps_refl|reflexivity].
    + apply (W_rt _ _ Hw).
  - intros q x N G. rewrite find_other by auto. eauto.
Qed.
Lemma seqno_only : forall e w p r s, W e w -> find_ptr p w = Some r -> u16_ok s ->
  only p e w (map_ptr p (set_r_seqno s) w).
Proof.
  intros e w p r s Hw F U. destruct (touch_only e w p r s (r_time r) (r_hold_time r) Hw F U) as [H|[H|H]]; try contradiction.
  rewrite (map_ptr_ext w p r _ (fun r0 => set_r_seqno s (set_r_time (r_time r) (set_r_hold_time (r_hold_time r) r0)))); auto.
  apply (W_rt _ _ Hw).
Qed.

(** ** update_route_metric *)
Definition refreshed (w : world) (r r' : route) : Prop :=
  (if route_expired r w then
     if r_refmetric r <? INFINITY then
       exists s, get_src (r_src r) (w_srcs w) = Some s /\
         metric_effect (set_r_seqno (seqno_plus (s_seqno s) 1) r) INFINITY INFINITY 0 (set_r_installed (r_installed r) r')
     else core r' = core r
   else exists n i, nb_if (r_neigh r) w = Some (n, i) /\
     metric_effect r (r_refmetric r) (neighbour_cost (w_now w) i n)
       (input_filter (c_infs (w_cfg w)) (Some (k_id (r_src r))) (rdest r) (Some (n_addr n)) (if_ifindex i))
       (set_r_installed (r_installed r) r')).
(** the kernel refused to change the metric of a selected route *)
Definition refused (r r' : route) : Prop :=
  r_installed r = true /\ (core r' = core r \/ exists s, core r' = core (set_r_seqno s r)).

Lemma effect_core : forall r ref cost add r1 r', metric_effect r ref cost add r1 -> core r' = core r1 ->
  metric_effect r ref cost add (set_r_installed (r_installed r) r').
Proof.
  intros r ref cost add r1 r' (E & I) C. split; [|destruct r'; reflexivity].
  transitivity (core r'); [destruct r'; reflexivity|congruence].
Qed.

Lemma smw_find : forall e w w' p r, W e w -> smw w w' -> quiet e w w' -> find_ptr p w = Some r ->
  exists r', find_ptr p w' = Some r' /\ rsm r r'.
Proof.
  intros e w w' p r Hw S Q F. pose proof (quiet_W _ _ _ Q Hw) as Hw'.
  pose proof (find_In _ _ _ F) as H. apply in_concat in H. destruct H as (l & Hl & Hr).
  assert (G : exists l' r', In l' (w_rt w') /\ In r' l' /\ rsm r r').
  { pose proof (sm_rt _ _ S) as R. clear - R Hl Hr. induction R as [|x y xs ys Rx R IH]; [contradiction|].
    destruct Hl as [->|Hl].
    - assert (G : exists r', In r' y /\ rsm r r').
      { clear - Rx Hr. induction Rx; [contradiction|]. destruct Hr as [->|Hr]; [exists y; simpl; auto|].
        destruct (IHRx Hr) as (z & ? & ?). exists z. simpl. auto. }
      destruct G as (r' & ? & ?). exists y, r'. simpl. auto.
    - destruct (IH Hl) as (l' & r' & ? & ? & ?). exists l', r'. simpl. auto. }
  destruct G as (l' & r' & Hl' & Hr' & E). exists r'. split; auto. apply find_ptr_iff; [apply (W_rt _ _ Hw')|].
  split; [apply in_concat; eauto|]. destruct E as (E & _). apply core_ptr in E. rewrite E.
  eapply find_ptr_ptr; eauto.
Qed.

Lemma urm_spec : forall e w p r, W e w -> find_ptr p w = Some r ->
  only p e w (update_route_metric p w) /\
  exists r', find_ptr p (update_route_metric p w) = Some r' /\ (refreshed w r r' \/ (refused r r' /\ krefused w (update_route_metric p w))).
Proof.
  intros e w p r Hw F. unfold update_route_metric. rewrite F.
  destruct (smoothed_spec e w p r Hw F) as (m & rnd & E1 & Q & SW & F1 & _).
  set (w1 := map_ptr p (smooth_upd m (sec w)) (set_w_rnd rnd w)) in *. rewrite E1. clearbody w1.
  set (r1 := smooth_upd m (sec w) r) in *.
  pose proof (quiet_W _ _ _ Q Hw) as Hw1. pose proof (only_quiet p _ _ _ Hw Q) as O1.
  assert (C1 : core r1 = core r) by reflexivity. assert (I1 : r_installed r1 = r_installed r) by reflexivity.
  assert (X1 : r_src r1 = r_src r) by reflexivity.
  unfold refreshed. destruct (route_expired r w) eqn:Ex.
  - destruct (r_refmetric r <? INFINITY) eqn:Rf.
    + assert (Src : exists s, src_of r w1 = Some s).
      { unfold src_of. destruct (get_src (r_src r) (w_srcs w1)) as [s|] eqn:G; [eauto|]. exfalso.
        revert G. apply get_src_keys. apply (W_ref _ _ Hw1). left. rewrite <- X1. apply in_map.
        apply (find_In _ _ _ F1). }
      destruct Src as (s & Hs). rewrite Hs. cbv zeta.
      set (w2 := map_ptr p (set_r_seqno (seqno_plus (s_seqno s) 1)) w1).
      assert (O2 : only p e w1 w2) by (eapply seqno_only; eauto; apply seqno_plus_ok).
      pose proof (only_W _ _ _ _ O2 Hw1) as Hw2.
      assert (F2 : find_ptr p w2 = Some (set_r_seqno (seqno_plus (s_seqno s) 1) r1))
        by (apply map_ptr_find; auto).
      destruct (change_spec e w2 p _ INFINITY INFINITY 0 Hw2 F2 (retract_args w2)) as (C3 & K3 & O3 & S3 & r3 & F3 & E3).
      change (change_route_metric p INFINITY INFINITY 0 w2) with (retract_route p w2) in *.
      set (w3 := retract_route p w2) in *.
      assert (O3' : only p e w2 w3) by (apply (change_only e w2 p _ INFINITY INFINITY 0 Hw2 F2 (retract_args w2))).
      pose proof (only_W _ _ _ _ O3' Hw2) as Hw3.
      assert (Q4 : quiet e w3 (if route_metric r <? INFINITY then route_changed p (r_src r) (route_metric r) w3 else w3)).
      { destruct (route_metric r <? INFINITY); [eapply changed_chain; eauto|apply quiet_refl]. }
      split.
      * eapply only_trans; [exact O1|]. eapply only_trans; [exact O2|]. eapply only_trans; [exact O3'|].
        apply only_quiet; auto.
      * destruct (quiet_find _ _ _ _ _ Hw3 Q4 F3) as (r4 & F4 & E4). exists r4. split; auto.
        destruct E3 as [E3|(E3 & I3 & R3)].
        -- left. exists s. split.
           ++ unfold src_of in Hs. rewrite (smw_srcs _ _ SW) in Hs. auto.
           ++ destruct E3 as (E3 & _). split; [|reflexivity]. 
              transitivity (core r4); [destruct r4; reflexivity|]. rewrite E4, E3. reflexivity.
        -- right. split; [|apply (refused_l w w1); [apply (star_log _ _ _ Q)|]; apply (refused_l w1 w2); [apply (star_log _ _ _ (on_chain _ _ _ _ O2))|]; eapply refused_r; [exact R3|]; apply (star_log _ _ _ Q4)].
           split; [exact I3|]. right. exists (seqno_plus (s_seqno s) 1). rewrite E4.
           assert (find_ptr p w3 = find_ptr p w2) as Y by (unfold find_ptr; rewrite E3; auto).
           rewrite Y, F2 in F3. injection F3 as <-. reflexivity.
    + split; [exact O1|]. exists r1. split; auto.
  - destruct (W_nbif_ _ _ _ Hw1 (find_In _ _ _ F1)) as (n & i & Nb). change (r_neigh r1) with (r_neigh r) in Nb.
    rewrite Nb. cbv zeta.
    match goal with |- context [change_route_metric p ?a ?b ?c w1] => set (A := a); set (B := b); set (D := c) end.
    set (w2 := change_route_metric p A B D w1).
    assert (Ma : metric_args w1 A B D).
    { split; [pose proof (W_rng _ _ Hw1 r1 (find_In _ _ _ F1)) as G; apply G|].
      split; right; [|unfold D; eauto]. destruct (nb_if_In _ _ _ _ Nb) as (In1 & In2).
      exists n, i. split; [exact In1|]. split; [apply in_map; exact In2|reflexivity]. }
    destruct (change_spec e w1 p r1 A B D Hw1 F1 Ma) as (C2 & K2 & _ & S2 & r2 & F2 & E2). fold w2 in C2, K2, S2, F2, E2.
    assert (O2 : only p e w1 w2) by (eapply change_only; eauto). rewrite F2.
    pose proof (only_W _ _ _ _ O2 Hw1) as Hw2.
    match goal with |- only p e w ?x /\ _ => set (w4 := x) end.
    assert (Q4 : quiet e w2 w4).
    { unfold w4. destruct (negb _); [eapply changed_chain; eauto|].
      destruct (smoothed_spec e w2 p r2 Hw2 F2) as (m3 & rnd3 & E3 & Q3 & _ & F3 & _). rewrite E3.
      destruct (negb _); [|exact Q3]. eapply quiet_trans; [exact Q3|].
      eapply changed_chain; eauto. eapply quiet_W; eauto. }
    split.
    + eapply only_trans; [exact O1|]. eapply only_trans; [exact O2|]. apply only_quiet; auto.
    + destruct (quiet_find _ _ _ _ _ Hw2 Q4 F2) as (r4 & F4 & E4). exists r4. split; auto.
      destruct E2 as [E2|(E2 & I2 & R2)].
      * left. exists n, i. split; [rewrite <- (smw_nb_if _ _ _ SW); exact Nb|].
        unfold A, B, D in E2. rewrite (smw_now _ _ SW), (smw_cfg _ _ SW) in E2.
        destruct E2 as (E2 & _). split; [|reflexivity].
        transitivity (core r4); [destruct r4; reflexivity|]. rewrite E4, E2. reflexivity.
      * right. split; [|apply (refused_l w w1); [apply (star_log _ _ _ Q)|]; eapply refused_r; [exact R2|]; apply (star_log _ _ _ Q4)].
        split; [exact I2|]. left. rewrite E4.
        assert (find_ptr p w2 = find_ptr p w1) as Y by (unfold find_ptr; rewrite E2; auto).
        rewrite Y, F1 in F2. injection F2 as <-. reflexivity.
Qed.

(** ** retract_neighbour_routes: one route *)
Lemma retract1_spec : forall e w p r, W e w -> find_ptr p w = Some r ->
  only p e w (retract1 p w) /\
  exists r', find_ptr p (retract1 p w) = Some r' /\
    ((core r' = core r /\ (r_refmetric r = INFINITY \/ (r_installed r = true /\ krefused w (retract1 p w)))) \/
     metric_effect r INFINITY INFINITY 0 (set_r_installed (r_installed r) r')).
Proof.
  intros e w p r Hw F. unfold retract1. rewrite F. destruct (r_refmetric r =? INFINITY) eqn:Rf; cbn [negb].
  - split; [apply only_refl|]. exists r. split; auto. left. split; auto. left. lia.
  - cbv zeta. destruct (change_spec e w p r INFINITY INFINITY 0 Hw F (retract_args w)) as (_ & _ & _ & _ & r1 & F1 & E1).
    pose proof (change_only e w p r INFINITY INFINITY 0 Hw F (retract_args w)) as O1.
    change (change_route_metric p INFINITY INFINITY 0 w) with (retract_route p w) in *.
    set (w1 := retract_route p w) in *. pose proof (only_W _ _ _ _ O1 Hw) as Hw1. rewrite F1.
    set (w2 := if negb (route_metric r =? INFINITY) then route_changed p (r_src r1) (route_metric r) w1 else w1).
    assert (Q : quiet e w1 w2) by (unfold w2; destruct (negb _); [eapply changed_chain; eauto|apply quiet_refl]).
    split; [eapply only_trans; [exact O1|apply only_quiet; auto]|].
    destruct (quiet_find _ _ _ _ _ Hw1 Q F1) as (r2 & F2 & E2). exists r2. split; auto.
    destruct E1 as [E1|(E1 & I1 & R1)]; [right; eapply effect_core; eauto|].
    left. split; [rewrite E2; unfold find_ptr in F1, F; rewrite E1, F in F1; injection F1 as <-; auto|].
    right. split; auto. eapply refused_r; [exact R1|apply (star_log _ _ _ Q)].
Qed.

(** ** Walks *)
Lemma next_in_In : forall p l q, next_in p l = Some q -> exists r, In r l /\ r_ptr r = q.
Proof.
  induction l as [|a l IH]; intros q H; [discriminate|]. cbn [next_in] in H. destruct (is_ptr p a).
  - destruct l; [discriminate|]. injection H as <-. exists r. simpl. auto.
  - destruct (IH _ H) as (r & Hr & E). exists r. simpl. auto.
Qed.
Lemma next_ptr_find : forall p w q, rt_wf (w_rt w) -> next_ptr p w = Some q -> exists r, find_ptr q w = Some r.
Proof.
  intros p w q Wf H. unfold next_ptr in H.
  assert (G : exists r, In r (all_routes w) /\ r_ptr r = q).
  { unfold all_routes. clear Wf. induction (w_rt w) as [|l rt IH]; [discriminate|]. cbn [next_rt concat] in *.
    destruct (existsb (is_ptr p) l).
    - destruct (next_in_In _ _ _ H) as (r & Hr & E). exists r. rewrite in_app_iff. auto.
    - destruct (IH H) as (r & Hr & E). exists r. rewrite in_app_iff. auto. }
  destruct G as (r & Hr & E). exists r. apply find_ptr_iff; auto.
Qed.

Section Walk.
  Variable e : list skey.
  Variable sel : world -> route -> bool.
  Variable f : Z -> world -> world.
  Hypothesis Hf : forall w p r, W e w -> find_ptr p w = Some r -> only p e w (f p w).
  Lemma walk_slot_chain : forall fuel p w r, W e w -> find_ptr p w = Some r ->
    chain e w (walk_slot fuel sel f p w).
  Proof.
    induction fuel as [|k IH]; intros p w r Hw F; cbn [walk_slot].
    - eapply chain_step. apply S_nofuel.
    - rewrite F. set (w1 := if sel w r then f p w else w).
      assert (O : only p e w w1) by (unfold w1; destruct (sel w r); [eauto|apply only_refl]).
      pose proof (only_W _ _ _ _ O Hw) as Hw1.
      destruct (next_ptr p w1) as [q|] eqn:N; [|apply O].
      destruct (next_ptr_find _ _ _ (W_rt _ _ Hw1) N) as (r1 & F1).
      eapply chain_trans; [apply O|]. eapply IH; eauto.
  Qed.
  Lemma walk_slots_chain : forall n fuel i w, W e w -> chain e w (walk_slots n fuel sel f i w).
  Proof.
    induction n as [|n IH]; intros fuel i w Hw; cbn [walk_slots]; [apply chain_refl|].
    destruct (nth_error (w_rt w) i) as [l|] eqn:E; [|apply chain_refl].
    apply nth_error_In in E. destruct l as [|r l].
    { destruct (wf_slot _ _ (W_rt _ _ Hw) E) as (N & _). contradiction. }
    assert (F : find_ptr (r_ptr r) w = Some r).
    { apply find_ptr_iff; [apply (W_rt _ _ Hw)|]. split; auto. apply in_concat. exists (r :: l). simpl. auto. }
    pose proof (walk_slot_chain fuel _ _ _ Hw F) as C.
    eapply chain_trans; [exact C|]. apply IH. eapply chain_W; eauto.
  Qed.
End Walk.

Lemma urm_only : forall e w p r, W e w -> find_ptr p w = Some r -> only p e w (update_route_metric p w).
Proof. intros e w p r Hw F. apply (urm_spec e w p r Hw F). Qed.
Lemma update_neighbour_metric_chain : forall e w n c, W e w -> chain e w (update_neighbour_metric n c w).
Proof.
  intros. unfold update_neighbour_metric. destruct c; [|apply chain_refl].
  apply walk_slots_chain; auto. intros; eapply urm_only; eauto.
Qed.
Lemma update_interface_metric_chain : forall e w i, W e w -> chain e w (update_interface_metric i w).
Proof. intros. apply walk_slots_chain; auto. intros; eapply urm_only; eauto. Qed.
Lemma retract_neighbour_routes_chain : forall e w n, W e w -> chain e w (retract_neighbour_routes n w).
Proof. intros. apply walk_slots_chain; auto. intros. eapply retract1_spec; eauto. Qed.

(** ** expire_routes *)
Lemma expire_chain : forall fuel e w i p, W e w ->
  match p with Some p => find_ptr p w <> None | None => True end ->
  chain e w (expire_loop fuel i p w).
Proof.
  induction fuel as [|f IH]; intros e w i p Hw P; cbn [expire_loop].
  - eapply chain_step. apply S_nofuel.
  - destruct p as [p|].
    + destruct (find_ptr p w) as [r|] eqn:F; [|contradiction].
      destruct ((r_time r >? sec w) || route_old r w).
      * pose proof (flush_chain e w p r Hw F) as C. eapply chain_trans; [exact C|]. apply IH; auto.
        eapply chain_W; eauto.
      * cbv zeta. destruct (urm_spec e w p r Hw F) as (O & r1 & F1 & _). rewrite F1.
        set (w1 := update_route_metric p w) in *. pose proof (only_W _ _ _ _ O Hw) as Hw1.
        set (w2 := if r_installed r1 && (r_refmetric r1 <? INFINITY) && route_old r1 w1 then send_unicast_request (r_neigh r1) (rdest r1) w1 else w1).
        assert (Fr : frame w1 w2).
        { unfold w2. destruct (_ && _); [|apply frame_refl]. apply unicast_request_frame.
          - apply (W_refs _ _ Hw1).
          - unfold has_nb. destruct (W_nbif_ _ _ _ Hw1 (find_In _ _ _ F1)) as (? & ? & ->). discriminate. }
        assert (Q2 : quiet e w1 w2) by (apply quiet_frame; auto).
        pose proof (quiet_W _ _ _ Q2 Hw1) as Hw2.
        assert (C2 : chain e w w2) by (eapply chain_trans; [apply O|apply quiet_chain; auto]).
        destruct (next_ptr p w2) as [q|] eqn:N.
        -- destruct (next_ptr_find _ _ _ (W_rt _ _ Hw2) N) as (rq & Fq).
           eapply chain_trans; [exact C2|]. apply IH; auto. congruence.
        -- eapply chain_trans; [exact C2|]. apply IH; auto.
    + destruct (nth_error (w_rt w) i) as [l|] eqn:E; [|apply chain_refl].
      apply nth_error_In in E. destruct l as [|r l].
      { destruct (wf_slot _ _ (W_rt _ _ Hw) E) as (N & _). contradiction. }
      apply IH; auto.
      assert (F : find_ptr (r_ptr r) w = Some r).
      { apply find_ptr_iff; [apply (W_rt _ _ Hw)|]. split; auto. apply in_concat. exists (r :: l). simpl. auto. }
      congruence.
Qed.
Lemma expire_routes_chain : forall e w, W e w -> chain e w (expire_routes w).
Proof. intros. apply expire_chain; auto. Qed.

(** ** Flushing selected routes *)
Lemma flush_sel_chain : forall fuel e sel i w, W e w -> chain e w (flush_sel fuel sel i w).
Proof.
  induction fuel as [|f IH]; intros e sel i w Hw; cbn [flush_sel].
  - eapply chain_step. apply S_nofuel.
  - destruct (nth_error (w_rt w) i) as [l|] eqn:E; [|apply chain_refl].
    destruct (find (sel w) l) as [r|] eqn:F; [|apply IH; auto].
    apply find_some in F. apply nth_error_In in E.
    assert (F1 : find_ptr (r_ptr r) w = Some r).
    { apply find_ptr_iff; [apply (W_rt _ _ Hw)|]. split; auto. apply in_concat. exists l. tauto. }
    pose proof (flush_chain e w _ r Hw F1) as C. eapply chain_trans; [exact C|]. apply IH. eapply chain_W; eauto.
Qed.
Lemma flush_slot_chain : forall fuel e i w, W e w -> chain e w (flush_slot fuel i w).
Proof.
  induction fuel as [|f IH]; intros e i w Hw; cbn [flush_slot].
  - eapply chain_step. apply S_nofuel.
  - destruct (nth_error (w_rt w) i) as [l|] eqn:E; [|apply chain_refl].
    apply nth_error_In in E. destruct l as [|r l].
    { destruct (wf_slot _ _ (W_rt _ _ Hw) E) as (N & _). contradiction. }
    assert (F : find_ptr (r_ptr r) w = Some r).
    { apply find_ptr_iff; [apply (W_rt _ _ Hw)|]. split; auto. apply in_concat. exists (r :: l). simpl. auto. }
    cbv zeta. set (w1 := if r_installed r then uninstall_route (r_ptr r) w else w).
    assert (Q : quiet e w w1) by (unfold w1; destruct (r_installed r); [eapply uninstall_chain; eauto|apply quiet_refl]).
    pose proof (quiet_W _ _ _ Q Hw) as Hw1. destruct (quiet_find _ _ _ _ _ Hw Q F) as (r1 & F1 & _).
    pose proof (flush_chain e w1 _ r1 Hw1 F1) as C.
    eapply chain_trans; [apply quiet_chain; exact Q|]. eapply chain_trans; [exact C|]. apply IH. eapply chain_W; eauto.
Qed.
Lemma flush_all_chain : forall n e w, W e w -> chain e w (flush_all_loop n w).
Proof.
  induction n as [|n IH]; intros e w Hw; cbn [flush_all_loop]; [apply chain_refl|].
  pose proof (flush_slot_chain (S (length (concat (w_rt w)))) e n w Hw) as C.
  eapply chain_trans; [exact C|]. apply IH. eapply chain_W; eauto.
Qed.

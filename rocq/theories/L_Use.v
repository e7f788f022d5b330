(** L_Use.v: a destination with a usable route has a selected one. *)
From Verif Require Import Base M_Util S_Util L_Util M_Slot L_Slot M_Source S_Source L_Source
  M_Filter M_Types M_Neigh M_State M_Table M_Msg M_Route M_Xroute S_World S_Send S_Pend L_Table L_Step L_Msg L_Smooth L_Quiet
  L_Trace L_Select L_Select2 L_Chain L_Chain2 L_Chain3 L_Flush L_Update L_Update2 L_Xroute L_World L_World2 L_World4 L_Send L_Pend L_Lose L_Lose2 L_Lose3 L_Lose4.
From Coq Require Import Permutation.

(** Without smoothing, the smoothed metric is the metric. *)
Lemma smooth_off : forall now metric sm t rnd m t' rnd' b,
  smooth now 0 metric sm t rnd = (m, t', rnd', b) -> m = metric.
Proof. intros. unfold smooth in H. cbn in H. congruence. Qed.

(** Some route of finite metric to [d] is selected; without smoothing its metric is at most [m]. *)
Definition used (w : world) (d : dest) (m : Z) : Prop :=
  exists r', is_selected w d r' /\ route_metric r' < INFINITY /\ (c_half_life (w_cfg w) = 0 -> route_metric r' <= m).

Lemma used_rt : forall w w' d m, w_rt w' = w_rt w -> w_cfg w' = w_cfg w -> used w d m -> used w' d m.
Proof. intros w w' d m R C (r & S & M). exists r. split; [eapply is_sel_rt; eauto|rewrite C; auto]. Qed.
Lemma used_smw : forall w w' d m, smw w w' -> used w d m -> used w' d m.
Proof.
  intros w w' d m Sm (r & (Hr & Ir & Dr) & M).
  assert (H : Forall2 (fun r r' => core r' = core r /\ r_installed r' = r_installed r) (all_routes w) (all_routes w')).
  { destruct Sm as (_ & S). unfold all_routes. induction S as [|l l' a b H S IH]; cbn [concat]; auto. apply Forall2_app; auto. }
  assert (X : exists x, In x (all_routes w') /\ core x = core r /\ r_installed x = r_installed r).
  { clear -H Hr. induction H as [|a b l l' E H IH]; [destruct Hr|]. destruct Hr as [<-|Hr]; [exists b; simpl; tauto|].
    destruct (IH Hr) as (x & Hx & X). exists x. simpl. auto. }
  destruct X as (x & Hx & Cx & Ix). exists x. split.
  - split; auto. split; [congruence|]. rewrite <- Dr. apply (core_dest _ _ Cx).
  - rewrite (smw_cfg _ _ Sm), (core_metric _ _ Cx). auto.
Qed.
Lemma used_le : forall w d m m', m <= m' -> used w d m -> used w d m'.
Proof. intros w d m m' L (r & S & N & M). exists r. split; auto. split; auto. intros X. specialize (M X). lia. Qed.

Lemma consider_install_rt : forall e w p inst r, W e (switch_routes (option_map r_ptr inst) p w) ->
  find_ptr p (switch_routes (option_map r_ptr inst) p w) = Some r ->
  match inst with Some i => find_ptr (r_ptr i) (switch_routes (option_map r_ptr inst) p w) <> None | None => True end ->
  frame (switch_routes (option_map r_ptr inst) p w) (consider_install p inst w).
Proof.
  intros e w p inst r Hw F Fi. unfold consider_install. cbv zeta. rewrite F. pose proof (W_refs _ _ Hw) as Rf.
  destruct inst as [i|]; [|apply send_update_all_frame; auto].
  destruct (r_installed r); [|apply send_update_all_frame; auto].
  destruct (find_ptr (r_ptr i) _) as [i'|]; [|contradiction]. apply triggered_frame; auto. congruence.
Qed.

(** Considering a route never leaves a destination without a selected one. *)
Lemma switched : forall e w p r i, W e w -> find_ptr p w = Some r -> find_ptr (r_ptr i) w = Some i ->
  r_installed r = false -> r_installed i = true -> dest_of i = dest_of r -> feasible r w = true -> better_than r i ->
  let w' := consider_install p (Some i) w in
  (w_rt w' = w_rt w /\ krefused w w') \/
  (exists r', is_selected w' (dest_of r) r' /\ route_metric r' = route_metric r).
Proof.
  intros e w p r i Hw F Fi I Ii D Fe B. cbv zeta.
  assert (Np : r_ptr i <> p) by (intros E; rewrite E, F in Fi; inversion Fi; subst; congruence).
  pose proof (switch_chain e w (r_ptr i) p i r Hw Fi F Ii I D Fe B) as Q.
  destruct (switch_refused e w (r_ptr i) p i r Hw Fi F Np Ii I D) as (_ & _ & S).
  pose proof (quiet_W _ _ _ Q Hw) as Hw1.
  destruct (quiet_find _ _ _ _ _ Hw Q F) as (r1 & F1 & C1). destruct (quiet_find _ _ _ _ _ Hw Q Fi) as (i1 & Fi1 & _).
  assert (Fr : frame (switch_routes (Some (r_ptr i)) p w) (consider_install p (Some i) w)).
  { eapply (consider_install_rt e w p (Some i)); eauto. cbn [option_map]. congruence. }
  destruct S as [(R & K)|(x & Hx & Px & Ix)].
  - left. split; [rewrite (f_rt _ _ Fr); exact R|]. eapply krefused_tr; [reflexivity|exact K|]. apply (f_ktr _ _ Fr).
  - right. assert (x = r1).
    { assert (find_ptr p (switch_routes (Some (r_ptr i)) p w) = Some x) by (apply find_ptr_iff; [apply (W_rt _ _ Hw1)|auto]). congruence. }
    subst x. exists r1. split.
    + eapply is_sel_rt; [apply (f_rt _ _ Fr)|]. split; auto. split; auto. apply (core_dest _ _ C1).
    + apply (core_metric _ _ C1).
Qed.

Lemma consider_keeps : forall e w p r m, W e w -> find_ptr p w = Some r -> used w (dest_of r) m ->
  used (consider_route p w) (dest_of r) m.
Proof.
  intros e w p r m Hw F U. pose proof (consider_chain e w p r Hw F) as Q. pose proof (q_cfg _ _ (quiet_same _ _ _ Q)) as Ec. revert Q Ec. unfold consider_route.
  rewrite F. pose proof (W_rt _ _ Hw) as Wf. intros Q Ec.
  pose proof (find_In _ _ _ F) as Hr. pose proof (route_dvalid w r Wf Hr) as V.
  destruct (r_installed r) eqn:I; [auto|].
  destruct (feasible r w) eqn:Fe; cbn [negb] in *; [|auto].
  destruct (match find_xroute (rdest r) w with Some x => _ | None => false end); [auto|].
  destruct U as (r0 & S0 & N0 & M0).
  destruct (find_installed (rdest r) w) as [i|] eqn:Fi.
  2:{ exfalso. apply (find_installed_iff (dest_of r)) in S0; auto. change (dest_of r) with (rdest r) in S0. congruence. }
  assert (r0 = i).
  { apply (find_installed_iff (dest_of r)) in S0; auto. change (dest_of r) with (rdest r) in S0. congruence. }
  subst r0. destruct S0 as (Hi & Ii & Di).
  assert (Fpi : find_ptr (r_ptr i) w = Some i) by (apply find_ptr_iff; auto).
  assert (U : used w (dest_of r) m) by (exists i; split; [split; auto|auto]).
  destruct (route_metric r >=? INFINITY) eqn:Mr; [auto|].
  destruct (route_metric i >=? INFINITY) eqn:Mi.
  - destruct (switched e w p r i Hw F Fpi I Ii Di Fe) as [(R & _)|(r' & S' & M')].
    + split; [lia|]. left. lia.
    + eapply used_rt; eauto.
    + exists r'. split; auto. split; [lia|]. rewrite Ec. intros X. specialize (M0 X). lia.
  - destruct (route_metric i >=? route_metric r) eqn:Mir; [|auto].
    destruct (smoothed_spec e w (r_ptr i) i Hw Fpi) as (mi & rnd1 & E1 & Q1 & S1 & F1 & _).
    rewrite E1 in *. set (w1 := map_ptr (r_ptr i) (smooth_upd mi (sec w)) (set_w_rnd rnd1 w)) in *.
    pose proof (quiet_W _ _ _ Q1 Hw) as Hw1.
    assert (Npi : r_ptr i <> p).
    { intro E. rewrite E, F in Fpi. inversion Fpi; subst. congruence. }
    assert (Fp1 : find_ptr p w1 = Some r) by (unfold w1; rewrite find_other; auto).
    destruct (smoothed_spec e w1 p r Hw1 Fp1) as (mr & rnd2 & E2 & Q2 & S2 & F2 & _).
    rewrite E2 in *. set (w2 := map_ptr p (smooth_upd mr (sec w1)) (set_w_rnd rnd2 w1)) in *.
    pose proof (quiet_W _ _ _ Q2 Hw1) as Hw2.
    assert (U2 : used w2 (dest_of r) m) by (eapply used_smw; [exact S2|]; eapply used_smw; [exact S1|]; auto).
    destruct (mi >? mr) eqn:Mm; auto.
    set (i2 := smooth_upd mi (sec w) i) in *. set (r2 := smooth_upd mr (sec w1) r) in *.
    assert (Fi2 : find_ptr (r_ptr i2) w2 = Some i2)
      by (unfold w2, i2; cbn [r_ptr smooth_upd set_r_smoothed set_r_smoothed_time]; rewrite find_other; auto).
    assert (Ei : consider_install p (Some i) w2 = consider_install p (Some i2) w2) by reflexivity.
    rewrite Ei in *.
    destruct (switched e w2 p r2 i2 Hw2 F2 Fi2) as [(R & _)|(r' & S' & M')]; auto.
    + split; [change (route_metric r < INFINITY); lia|]. right. change (route_metric r <= route_metric i /\ mr < mi). lia.
    + eapply used_rt; [exact R| |exact U2]. rewrite Ec. rewrite (smw_cfg _ _ S2), (smw_cfg _ _ S1). reflexivity.
    + exists r'. split; [exact S'|]. change (route_metric r2) with (route_metric r) in M'. split; [lia|]. rewrite Ec. intros X. specialize (M0 X). lia.
Qed.

(** A feasible route of finite metric to a destination which is not redistributed *)
Lemma consider_used : forall e w p r, W e w -> find_ptr p w = Some r -> feasible r w = true -> route_metric r < INFINITY ->
  (forall x, ~ ours w (dest_of r) x) ->
  let w' := consider_route p w in
  used w' (dest_of r) (route_metric r) \/ krefused w w' \/ install_denied w r.
Proof.
  intros e w p r Hw F Fe Fm Nx. cbv zeta. pose proof (consider_chain e w p r Hw F) as Q. pose proof (q_cfg _ _ (quiet_same _ _ _ Q)) as Ec.
  revert Q Ec. unfold consider_route.
  rewrite F, Fe. pose proof (W_rt _ _ Hw) as Wf. intros Q Ec. cbn [negb] in *.
  pose proof (find_In _ _ _ F) as Hr. pose proof (route_dvalid w r Wf Hr) as V.
  destruct (r_installed r) eqn:I.
  { left. exists r. split; [split; auto|lia]. }
  assert (Nx1 : find_xroute (rdest r) w = None).
  { change (rdest r) with (dest_of r). destruct (find_xroute (dest_of r) w) as [x|] eqn:Ex; auto. exfalso.
    apply find_xroute_iff in Ex; [|apply (W_xr _ _ Hw)]. apply (Nx x). exact Ex. }
  rewrite Nx1 in *. replace (route_metric r >=? INFINITY) with false in * by lia.
  destruct (find_installed (rdest r) w) as [i|] eqn:Fi.
  - pose proof Fi as S0. apply (find_installed_iff (dest_of r)) in S0; auto. destruct S0 as (Hi & Ii & Di).
    assert (Fpi : find_ptr (r_ptr i) w = Some i) by (apply find_ptr_iff; auto).
    assert (U : route_metric i <= route_metric r -> used w (dest_of r) (route_metric r)) by (intros L; exists i; split; [split; auto|lia]).
    destruct (route_metric i >=? INFINITY) eqn:Mi.
    + destruct (switched e w p r i Hw F Fpi I Ii Di Fe) as [(_ & K)|(r' & S' & M')].
      * split; [lia|]. left. lia.
      * auto.
      * left. exists r'. split; auto. lia.
    + destruct (route_metric i >=? route_metric r) eqn:Mir; [|left; apply U; lia].
      destruct (smoothed_spec e w (r_ptr i) i Hw Fpi) as (mi & rnd1 & E1 & Q1 & S1 & F1 & Sm1).
      rewrite E1 in *. set (w1 := map_ptr (r_ptr i) (smooth_upd mi (sec w)) (set_w_rnd rnd1 w)) in *.
      pose proof (quiet_W _ _ _ Q1 Hw) as Hw1.
      assert (Npi : r_ptr i <> p).
      { intro E. rewrite E, F in Fpi. inversion Fpi; subst. congruence. }
      assert (Fp1 : find_ptr p w1 = Some r) by (unfold w1; rewrite find_other; auto).
      destruct (smoothed_spec e w1 p r Hw1 Fp1) as (mr & rnd2 & E2 & Q2 & S2 & F2 & Sm2).
      rewrite E2 in *. set (w2 := map_ptr p (smooth_upd mr (sec w1)) (set_w_rnd rnd2 w1)) in *.
      pose proof (quiet_W _ _ _ Q2 Hw1) as Hw2.
      set (i2 := smooth_upd mi (sec w) i) in *. set (r2 := smooth_upd mr (sec w1) r) in *.
      assert (Fi2 : find_ptr (r_ptr i2) w2 = Some i2)
        by (unfold w2, i2; cbn [r_ptr smooth_upd set_r_smoothed set_r_smoothed_time]; rewrite find_other; auto).
      destruct (mi >? mr) eqn:Mm.
      * assert (Ei : consider_install p (Some i) w2 = consider_install p (Some i2) w2) by reflexivity.
        rewrite Ei in *.
        destruct (switched e w2 p r2 i2 Hw2 F2 Fi2) as [(_ & K)|(r' & S' & M')]; auto.
        -- split; [change (route_metric r < INFINITY); lia|]. right. change (route_metric r <= route_metric i /\ mr < mi). lia.
        -- left. exists r'. split; [exact S'|]. change (route_metric r2) with (route_metric r) in M'. lia.
      * left. exists i2. split; [split; [eapply find_In; eauto|split; [exact Ii|exact Di]]|]. split; [change (route_metric i2) with (route_metric i); lia|]. rewrite (smw_cfg _ _ S2).
        change (w_cfg w1) with (w_cfg w) in *. intros X. rewrite X in Sm1, Sm2. apply smooth_off in Sm1, Sm2.
        change (route_metric i2) with (route_metric i). lia.
  - pose proof (install_chain e w p r Hw F I Fe Fi) as Qi. pose proof (quiet_W _ _ _ Qi Hw) as Hw1.
    destruct (quiet_find _ _ _ _ _ Hw Qi F) as (r1 & F1 & C1).
    assert (Fr : frame (install_route p w) (consider_install p None w)).
    { eapply (consider_install_rt e w p None); eauto. }
    destruct (install_result e w p r Hw F I Fi) as (_ & _ & _ & _ & [(_ & [K|K])|(r' & S' & C')]).
    + right. left. eapply krefused_tr; [reflexivity|exact K|]. apply (f_ktr _ _ Fr).
    + right. right. exact K.
    + left. exists r'. split; [eapply is_sel_rt; [apply (f_rt _ _ Fr)|exact S']|]. rewrite (core_metric _ _ C'). lia.
Qed.

Lemma changed_used : forall e w p r k m, W e w -> find_ptr p w = Some r -> feasible r w = true -> route_metric r < INFINITY ->
  (forall x, ~ ours w (dest_of r) x) ->
  let w' := route_changed p k m w in
  used w' (dest_of r) (route_metric r) \/ krefused w w' \/ install_denied w r.
Proof.
  intros e w p r k m Hw F Fe Fm Nx. cbv zeta. pose proof (W_rt _ _ Hw) as Wf.
  pose proof (find_In _ _ _ F) as Hr. pose proof (route_dvalid w r Wf Hr) as V.
  unfold route_changed. rewrite F. cbv zeta. destruct (r_installed r) eqn:Ir.
  2:{ rewrite F, Ir. apply (consider_used e w p r); auto. }
  left. assert (U0 : used w (dest_of r) (route_metric r)) by (exists r; split; [split; auto|lia]).
  match goal with |- used (match find_ptr p ?x with _ => _ end) _ _ => set (w1 := x) end.
  assert (X : quiet e w w1 /\ used w1 (dest_of r) (route_metric r)).
  { unfold w1. destruct (find_best_route (rdest r) true None w) as [b w2] eqn:E.
    destruct (find_best_chain true None e w (rdest r) b w2 Hw E) as (Q & S & H). pose proof (used_smw _ _ _ _ S U0) as U2.
    destruct b as [q|]; auto.
    destruct H as (rb & Fb & Ab & r0 & H0 & P0 & C0). rewrite Fb. destruct (_ <? _); auto.
    pose proof (quiet_W _ _ _ Q Hw) as Hw2. split; [eapply quiet_trans; [exact Q|]; eapply consider_chain; eauto|].
    assert (Db : dest_of rb = dest_of r).
    { change (rdest rb = rdest r). rewrite (core_dest _ _ C0). apply slot_of_iff in H0; auto. apply H0. }
    rewrite <- Db in U2 |- *. eapply consider_keeps; eauto. }
  destruct X as (Q & U1). pose proof (quiet_W _ _ _ Q Hw) as Hw1. destruct (quiet_find _ _ _ _ _ Hw Q F) as (r1 & F1 & C). rewrite F1.
  destruct (r_installed r1).
  - pose proof (triggered_frame p k m w1 (W_refs _ _ Hw1) ltac:(congruence)) as Fr.
    eapply used_rt; [apply (f_rt _ _ Fr)|apply (f_cfg _ _ Fr)|exact U1].
  - change (dest_of r) with (rdest r) in U1 |- *. rewrite <- (core_dest _ _ C) in U1 |- *. eapply consider_keeps; eauto.
Qed.

(** ** An update for a route that is already known *)
Lemma known_used : forall e w r k s seqno refmetric metric cost add hold n,
  W e w -> (length e <= 7)%nat -> In r (all_routes w) -> dest_of_key k = dest_of r ->
  get_src k (w_srcs w) = Some s -> u16_ok seqno -> 15 <= hold -> In n (map n_id (w_nbs w)) -> metric_args w refmetric cost add ->
  0 <= cost -> 0 <= add -> refmetric + cost + add < INFINITY -> update_feasible (sec w) (Some s) seqno refmetric = true ->
  (forall x, ~ ours w (dest_of r) x) ->
  let w' := update_known r k true seqno refmetric metric cost add hold n w in
  used w' (dest_of r) (refmetric + cost + add) \/ krefused w w' \/
  exists r1, r_neigh r1 = r_neigh r /\ r_src r1 = k /\ install_denied w r1.
Proof.
  intros e w r k s seqno refmetric metric cost add hold n Hw Le Hr Dk Gk Us Hh Hn Ma Pc Pa Fm Fe Nx.
  assert (Hk : In k (map s_key (w_srcs w))) by (apply get_src_keys; congruence).
  cbv zeta. unfold update_known. cbv zeta. set (p := r_ptr r). cbn [negb andb orb].
  assert (F : find_ptr p w = Some r) by (apply find_ptr_iff; [apply (W_rt _ _ Hw)|]; auto).
  pose proof (retain_chain e w k Hw ltac:(lia) Hk) as C2. pose proof (retain_env e w k Hw ltac:(lia) Hk) as Ev2. pose proof (retain_fd k w) as Fd2.
  assert (Ke2 : w_ifs (retain_source k w) = w_ifs w /\ w_xr (retain_source k w) = w_xr w /\ w_now (retain_source k w) = w_now w /\ w_ktr (retain_source k w) = w_ktr w).
  { unfold retain_source. destruct (get_src k (w_srcs w)) as [s0|]; [destruct (retain_ok s0)|]; cbn; auto 10. }
  set (w2 := retain_source k w) in *. pose proof (star_W _ _ _ _ _ C2 Hw) as Hw2.
  assert (R2 : w_rt w2 = w_rt w) by apply retain_rt.
  assert (F2 : find_ptr p w2 = Some r) by (rewrite (rt_find w w2 p R2); auto).
  set (w3a := map_ptr p (set_r_src k) w2).
  assert (S3a : mstep false (k :: e, w2) (r_src r :: e, w3a)).
  { apply S_setsrc; auto. }
  pose proof (star_W _ _ _ _ _ (star_loud _ _ _ S3a) Hw2) as Hw3a.
  assert (F3a : find_ptr p w3a = Some (set_r_src k r)) by (apply map_ptr_find; auto).
  set (T := if refmetric <? INFINITY then sec w else r_time r).
  set (w3 := map_ptr p (fun r0 => set_r_seqno seqno (set_r_time (if refmetric <? INFINITY then sec w else r_time r0) (set_r_src k r0))) w2).
  assert (E3 : w3 = map_ptr p (fun r0 => set_r_seqno seqno (set_r_time T (set_r_hold_time (r_hold_time r) r0))) w3a).
  { unfold w3, w3a. rewrite map_ptr_comp by reflexivity. eapply map_ptr_ext; [apply (W_rt _ _ Hw2)|exact F2|].
    unfold T. destruct (refmetric <? INFINITY); reflexivity. }
  assert (S3 : mstep false (r_src r :: e, w3a) (r_src r :: e, w3)) by (rewrite E3; apply S_touch; auto; apply (W_rng _ _ Hw2 r (find_In _ _ _ F2))).
  pose proof (star_W _ _ _ _ _ (star_loud _ _ _ S3) Hw3a) as Hw3.
  assert (F3 : exists r3, find_ptr p w3 = Some r3 /\ r_installed r3 = r_installed r /\ r_src r3 = k /\ r_seqno r3 = seqno /\ r_neigh r3 = r_neigh r).
  { eexists. split; [apply map_ptr_find; [reflexivity|exact F2]|repeat split; reflexivity]. }
  destruct F3 as (r3 & F3 & I3 & X3 & Q3 & N3).
  assert (Ma3 : metric_args w3 refmetric cost add).
  { apply (args_env w2); [constructor; auto|]. apply (args_env w); auto. }
  destruct (change_spec (r_src r :: e) w3 p r3 refmetric cost add Hw3 F3 Ma3) as (C4 & K4 & Oth & Sr4 & r4 & F4 & Ef).
  destruct (change_keep (r_src r :: e) w3 p r3 refmetric cost add Hw3 F3) as (A1 & A2 & A3 & A4).
  set (w4a := change_route_metric p refmetric cost add w3) in *.
  pose proof (chain_W _ _ _ C4 Hw3) as Hw4a.
  set (w4 := map_ptr p (set_r_hold_time hold) w4a).
  assert (S4 : mstep false (r_src r :: e, w4a) (r_src r :: e, w4)).
  { unfold w4. rewrite (map_ptr_ext w4a p r4 _ (fun r0 => set_r_seqno (r_seqno r4) (set_r_time (r_time r4) (set_r_hold_time hold r0)))).
    - apply S_touch; auto. pose proof (W_rng _ _ Hw4a r4 (find_In _ _ _ F4)) as G. apply G.
    - apply (W_rt _ _ Hw4a).
    - auto.
    - reflexivity. }
  pose proof (star_W _ _ _ _ _ (star_loud _ _ _ S4) Hw4a) as Hw4.
  assert (F4' : find_ptr p w4 = Some (set_r_hold_time hold r4)) by (apply map_ptr_find; auto).
  pose proof (changed_chain (r_src r :: e) w4 p _ (r_src r) (route_metric r) Hw4 F4') as Q5.
  destruct Ke2 as (B1 & B3 & B4 & B5).
  assert (Km : kmono w w4).
  { apply kmono_trans with w3; [apply kmono_same; exact B5|]. apply kmono_trans with w4a; [apply (star_log _ _ _ C4)|apply kmono_same; reflexivity]. }
  set (w5 := route_changed p (r_src r) (route_metric r) w4) in *.
  match goal with |- context [release_source (r_src r) ?x] => set (w6 := x) end.
  assert (Km5 : kmono w4 w5) by (apply (star_log _ _ _ Q5)).
  assert (Gs5 : get_src (r_src r) (w_srcs w5) <> None).
  { apply get_src_keys. rewrite (q_keys _ _ (quiet_same _ _ _ Q5)). apply (W_ref _ _ Hw4). right. simpl. auto. }
  assert (L6 : w6 = w5 \/ (find_installed (kdest k) w5 = None /\ kmono w5 w6)).
  { unfold w6. destruct (r_installed r); cbn [andb]; auto. destruct (find_installed (kdest k) w5); auto. right. split; auto.
    apply (star_log _ _ _ (lost_chain (r_src r :: e) w5 (r_src r) (route_metric r) (quiet_W _ _ _ Q5 Hw4) Gs5)). }
  destruct (released (r_src r) w6) as (Z1 & _ & _ & Z4 & _ & _ & _ & Z8 & _).
  assert (Kl : krefused w w5 -> krefused w (release_source (r_src r) w6)).
  { intros Kr. eapply refused_r; [exact Kr|]. destruct L6 as [->|(_ & L6)]; [apply kmono_same; exact Z8|].
    eapply kmono_trans; [exact L6|apply kmono_same; exact Z8]. }
  destruct Ef as [Ef|(Rt & _ & Kr)].
  2:{ right. left. apply Kl. eapply refused_r; [|exact Km5]. eapply refused_l; [apply kmono_same; exact B5|exact Kr]. }
  destruct Ef as (Ec & Ei).
  assert (Src4 : r_src r4 = k) by (rewrite <- X3; exact (f_equal r_src Ec)).
  assert (Seq4 : r_seqno r4 = seqno) by (rewrite <- Q3; exact (f_equal r_seqno Ec)).
  assert (Ng4 : r_neigh r4 = r_neigh r) by (rewrite <- N3; exact (f_equal r_neigh Ec)).
  set (r5 := set_r_hold_time hold r4) in *.
  assert (D5 : dest_of r5 = dest_of r) by (unfold dest_of at 1; change (r_src r5) with (r_src r4); rewrite Src4; exact Dk).
  assert (M5 : route_metric r5 = refmetric + cost + add).
  { unfold route_metric. change (r_refmetric r5) with (r_refmetric r4). change (r_cost r5) with (r_cost r4). change (r_add_metric r5) with (r_add_metric r4).
    assert (Y1 : r_refmetric r4 = u16 refmetric) by exact (f_equal r_refmetric Ec).
    assert (Y2 : r_cost r4 = u16 cost) by exact (f_equal r_cost Ec).
    assert (Y3 : r_add_metric r4 = u16 add) by exact (f_equal r_add_metric Ec).
    rewrite Y1, Y2, Y3. destruct Ma as (Ur & _). unfold u16_ok, INFINITY in *. unfold u16.
    rewrite !Z.mod_small by lia. lia. }
  assert (Sw4 : w_srcs w4 = w_srcs w2) by (cbn; exact Sr4).
  assert (Nw4 : w_now w4 = w_now w) by (cbn; rewrite A4; exact B4).
  assert (Fe5 : feasible r5 w4 = true).
  { unfold feasible, src_of. change (r_src r5) with (r_src r4). change (r_seqno r5) with (r_seqno r4). change (r_refmetric r5) with (r_refmetric r4).
    assert (Y1 : r_refmetric r4 = u16 refmetric) by exact (f_equal r_refmetric Ec).
    rewrite Src4, Seq4, Y1, Sw4. destruct Ma as (Ur & _). assert (u16 refmetric = refmetric) as -> by (unfold u16, u16_ok in *; apply Z.mod_small; lia).
    destruct (Fd2 k s Gk) as (s' & G' & H1 & H2 & H3). rewrite G'. unfold sec. rewrite Nw4. revert Fe. unfold update_feasible, sec.
    rewrite H1, H2, H3. auto. }
  assert (Nx4 : forall x, ~ ours w4 (dest_of r5) x).
  { intros x. rewrite D5. intros (O1 & O2). apply (Nx x). split; auto. cbn in O1. rewrite A3 in O1. change (w_xr w3) with (w_xr w2) in O1. rewrite B3 in O1. exact O1. }
  destruct (changed_used (r_src r :: e) w4 p r5 (r_src r) (route_metric r) Hw4 F4' Fe5 ltac:(lia) Nx4) as [U|[K|K]].
  - left. fold w5 in U. rewrite D5, M5 in U. assert (w6 = w5) as ->.
    { destruct L6 as [L6|(L6 & _)]; auto. exfalso. destruct U as (r' & S' & _).
      apply (find_installed_iff (dest_of r)) in S'; [|apply (W_rt _ _ (quiet_W _ _ _ Q5 Hw4))|apply (route_dvalid w r (W_rt _ _ Hw) Hr)].
      rewrite <- Dk in S'. change (dest_of_key k) with (kdest k) in S'. congruence. }
    destruct (released (r_src r) w5) as (R1 & _ & _ & R4 & _). eapply used_rt; [exact R1|exact R4|exact U].
  - right. left. apply Kl. eapply refused_l; [exact Km|]. exact K.
  - right. right. exists r5. split; [exact Ng4|]. split; [exact Src4|].
    assert (Ev4 : env w w4).
    { eapply env_trans; [exact Ev2|]. apply env_trans with w3; [constructor; auto|]. eapply env_trans; [eapply keeps_env; exact K4|]. constructor; auto. }
    eapply denied_core; [reflexivity|apply (ev_nbs _ _ Ev4)|apply (ev_ifs _ _ Ev4)|apply (ev_cfg _ _ Ev4)|exact K].
Qed.

(** ** An update *)
Lemma created_feasible : forall e w k q m s t, W e w -> m < INFINITY -> find_source (sec w) k true q (w_srcs w) = (s, t) ->
  (forall s0, get_src k (w_srcs w) = Some s0 -> update_feasible (sec w) (Some s0) q m = true) ->
  exists s1, s = Some s1 /\ get_src k t = Some s1 /\ update_feasible (sec w) s q m = true.
Proof.
  intros e w k q m s t Hw Fm E Fe. pose proof (find_source_spec (sec w) k true q (w_srcs w) (W_srcs _ _ Hw)) as S.
  destruct (get_src k (w_srcs w)) as [s0|] eqn:G.
  - rewrite S in E. injection E as <- <-. exists s0. auto.
  - destruct S as (t1 & t2 & E1 & E2 & S2). rewrite E2 in E. injection E as <- <-. eexists. split; [reflexivity|]. split.
    + apply get_src_iff; auto. split; [apply in_or_app; simpl; auto|reflexivity].
    + unfold update_feasible. cbn [s_time s_seqno s_metric]. destruct (_ <? _); auto. destruct (m >=? INFINITY); auto.
      rewrite Z.eqb_refl. replace (m <? INFINITY) with true by lia. cbn. apply orb_true_r.
Qed.

Lemma update_used : forall e w id d seqno refmetric interval n nh nb ifp, W e w -> (length e <= 7)%nat -> dvalid d -> u16_ok seqno -> u16_ok refmetric ->
  nb_if n w = Some (nb, ifp) ->
  let add := input_filter (c_infs (w_cfg w)) (Some id) d (Some (n_addr nb)) (if_ifindex ifp) in
  let cost := neighbour_cost (w_now w) ifp nb in
  0 <= add -> 0 <= cost -> refmetric + cost + add < INFINITY ->
  id <> c_myid (w_cfg w) -> martian_prefix (d_prefix d) (d_plen d) = false -> martian_prefix (d_src d) (d_splen d) = false ->
  v4mapped (d_prefix d) = v4mapped (d_src d) ->
  (forall s, get_src (mkey id d) (w_srcs w) = Some s -> update_feasible (sec w) (Some s) seqno refmetric = true) ->
  (forall x, ~ ours w d x) ->
  let w' := update_route (Some id) d seqno refmetric interval n (Some nh) w in
  used w' d (refmetric + cost + add) \/ krefused w w' \/
  exists r1, r_neigh r1 = n /\ r_src r1 = mkey id d /\ install_denied w r1.
Proof.
  intros e w id d seqno refmetric interval n nh nb ifp Hw Le V Us Ur Nb add cost Pa Pc Fm Nid M1 M2 Vm Fe Nx. cbv zeta.
  unfold update_route. cbv zeta.
  replace (beq id (c_myid (w_cfg w))) with false.
  2:{ symmetry. destruct (beq id (c_myid (w_cfg w))) eqn:B; auto. apply beq_true in B. congruence. }
  rewrite M1, M2, Vm, eqb_reflx, Nb. cbn [orb negb].
  fold add cost. replace (add >=? INFINITY) with false by (unfold u16_ok in *; lia).
  assert (Rm : refmetric < INFINITY) by lia.
  assert (Ma : metric_args w refmetric cost add).
  { split; [exact Ur|]. split; right; [|unfold add; eauto]. destruct (nb_if_In _ _ _ _ Nb) as (In1 & In2).
    exists nb, ifp. split; [exact In1|]. split; [apply in_map; exact In2|reflexivity]. }
  assert (Hn : In n (map n_id (w_nbs w))).
  { destruct (proj1 (nb_if_iff e w n nb ifp Hw) Nb) as (X1 & X2 & _). apply in_map_iff. exists nb. auto. }
  destruct (find_route d n w) as [r|] eqn:Fr.
  - destruct (find_route_In _ _ _ _ (W_rt _ _ Hw) V Fr) as (Hr & Dr & Nr).
    assert (Hk : In (r_src r) (map s_key (w_srcs w))) by (apply (W_ref _ _ Hw); left; apply in_map; auto).
    destruct (beq (k_id (r_src r)) id) eqn:B.
    + apply beq_true in B. assert (Ek : r_src r = mkey id d) by (apply key_mkey; auto).
      destruct (src_of r w) as [s|] eqn:Sr; [|exfalso; unfold src_of in Sr; apply get_src_keys in Hk; contradiction].
      unfold src_of in Sr. assert (Fe1 : update_feasible (sec w) (Some s) seqno refmetric = true) by (apply Fe; congruence).
      rewrite Fe1. destruct (known_used e w r (r_src r) s seqno refmetric (Z.min (refmetric + cost + add) INFINITY) cost add (hold_time interval) n) as [U|[K|(r1 & N1 & S1 & K)]]; auto using hold_15.
      * rewrite Dr. auto.
      * rewrite Dr in U. auto.
      * right. right. exists r1. split; [congruence|]. split; [congruence|auto].
    + destruct (find_source (sec w) (mkey id d) true seqno (w_srcs w)) as [s t] eqn:Fs.
      destruct (created_feasible e w (mkey id d) seqno refmetric s t Hw Rm Fs Fe) as (s1 & -> & G1 & Fe1).
      set (w1 := set_w_srcs t w) in *.
      assert (C1 : chain e w w1).
      { eapply chain_step. pose proof (S_find e w (mkey id d) seqno Us) as H. rewrite Fs in H. exact H. }
      pose proof (chain_W _ _ _ C1 Hw) as Hw1. rewrite Fe1.
      destruct (known_used e w1 r (mkey id d) s1 seqno refmetric (Z.min (refmetric + cost + add) INFINITY) cost add (hold_time interval) n) as [U|[K|(r1 & N1 & S1 & K)]]; auto using hold_15.
      * rewrite mkey_dest; auto.
      * rewrite Dr. auto.
      * rewrite Dr in U. auto.
      * right. right. exists r1. split; [congruence|]. split; [congruence|exact K].
  - replace (refmetric >=? INFINITY) with false by lia.
    destruct (find_source (sec w) (mkey id d) true seqno (w_srcs w)) as [s t] eqn:Fs.
    destruct (created_feasible e w (mkey id d) seqno refmetric s t Hw Rm Fs Fe) as (s1 & -> & G1 & Fe1).
    destruct (found_key _ _ _ _ _ _ (W_srcs _ _ Hw) Fs) as (Hk & _).
    set (w1 := set_w_srcs t w) in *. rewrite Fe1.
    assert (C1 : chain e w w1).
    { eapply chain_step. pose proof (S_find e w (mkey id d) seqno Us) as H. rewrite Fs in H. exact H. }
    pose proof (chain_W _ _ _ C1 Hw) as Hw1.
    pose proof (retain_chain e w1 _ Hw1 ltac:(lia) Hk) as C3.
    pose proof (retain_env e w1 _ Hw1 ltac:(lia) Hk) as Ev3. pose proof (retain_fd (mkey id d) w1) as Fd3.
    assert (R3 : w_rt (retain_source (mkey id d) w1) = w_rt w) by (rewrite retain_rt; reflexivity).
    assert (N3 : w_next (retain_source (mkey id d) w1) = w_next w /\ w_ktr (retain_source (mkey id d) w1) = w_ktr w).
    { unfold retain_source. destruct (get_src (mkey id d) (w_srcs w1)) as [x|]; [destruct (retain_ok x)|]; split; reflexivity. }
    destruct N3 as (N3 & T3).
    set (w3 := retain_source (mkey id d) w1) in *. pose proof (star_W _ _ _ _ _ C3 Hw1) as Hw3.
    rewrite N3. set (r := new_route (w_next w) (mkey id d) seqno refmetric cost add (hold_time interval) (sec w) n nh).
    set (w4 := insert_route r (set_w_next (w_next w + 1) w3)).
    assert (Src : r_src r = mkey id d) by reflexivity.
    assert (Dr : dest_of r = d) by (unfold dest_of; rewrite Src; apply mkey_dest).
    assert (S4 : istep (mkey id d :: e, w3) (e, w4)).
    { unfold w4. rewrite <- Src, <- N3. apply I_insert.
      - symmetry. exact N3.
      - reflexivity.
      - apply new_route_rng; auto. apply hold_15.
      - unfold dest_of. rewrite Src, mkey_dest. auto.
      - rewrite (ev_nbs _ _ Ev3). exact Hn.
      - intros r' Hr' D'. change (r_neigh r) with n. eapply find_route_None; [| |exact Fr| |].
        + apply (W_rt _ _ Hw).
        + auto.
        + unfold all_routes in *. rewrite R3 in Hr'. exact Hr'.
        + rewrite D'. exact Dr. }
    pose proof (W_istep _ _ S4 Hw3) as Hw4. cbn [fst snd] in Hw4.
    assert (P4 : Permutation (all_routes w4) (r :: all_routes w)).
    { unfold w4. rewrite L_Update2.insert_perm.
      - unfold all_routes. cbn [w_rt set_w_next]. rewrite R3. auto.
      - cbn [w_rt set_w_next]. rewrite R3. apply (W_rt _ _ Hw). }
    assert (F4 : find_ptr (w_next w) w4 = Some r).
    { apply find_ptr_iff; [apply (W_rt _ _ Hw4)|]. split; [|reflexivity].
      eapply Permutation_in; [symmetry; exact P4|]. simpl. auto. }
    assert (E4 : exists x, w4 = set_w_rt x (set_w_next (w_next w + 1) w3)).
    { unfold w4, insert_route. destruct (find_route_slot _ _); eexists; reflexivity. }
    destruct E4 as (x & E4).
    assert (Mr : route_metric r = refmetric + cost + add).
    { unfold route_metric. change (r_refmetric r) with refmetric. change (r_cost r) with (u16 cost). change (r_add_metric r) with (u16 add).
      unfold u16_ok, INFINITY in *. unfold u16. rewrite !Z.mod_small by lia. lia. }
    assert (Fe4 : feasible r w4 = true).
    { unfold feasible, src_of. rewrite Src, E4. cbn [w_srcs set_w_rt set_w_next].
      destruct (Fd3 (mkey id d) s1 G1) as (s' & G' & H1 & H2 & H3). fold w3 in G'. rewrite G'.
      unfold sec. cbn [w_now set_w_rt set_w_next]. rewrite (ev_now _ _ Ev3). change (w_now w1) with (w_now w).
      change (r_seqno r) with seqno. change (r_refmetric r) with refmetric. revert Fe1. unfold update_feasible, sec. rewrite H1, H2, H3. auto. }
    assert (Nx4 : forall y, ~ ours w4 (dest_of r) y).
    { intros y. rewrite Dr. intros (O1 & O2). apply (Nx y). split; auto. rewrite E4 in O1. cbn in O1. rewrite (ev_xr _ _ Ev3) in O1. exact O1. }
    change (r_ptr r) with (w_next w).
    destruct (consider_used e w4 (w_next w) r Hw4 F4 Fe4 ltac:(lia) Nx4) as [U|[K|K]].
    + left. rewrite Dr, Mr in U. exact U.
    + right. left. eapply refused_l; [|exact K]. apply kmono_same. rewrite E4. exact T3.
    + right. right. exists r. split; [reflexivity|]. split; [reflexivity|].
      eapply denied_core; [reflexivity| | | |exact K]; rewrite E4; cbn [w_nbs w_ifs w_cfg set_w_rt set_w_next].
      * apply (ev_nbs _ _ Ev3).
      * apply (ev_ifs _ _ Ev3).
      * apply (ev_cfg _ _ Ev3).
Qed.

(** ** The cost of the link changes *)
Lemma urm_used : forall e w p r r', W e w -> find_ptr p w = Some r -> feasible r w = true ->
  (forall x, ~ ours w (dest_of r) x) ->
  let w' := update_route_metric p w in
  find_ptr p w' = Some r' -> route_metric r' < INFINITY -> route_metric r' <> route_metric r ->
  used w' (dest_of r) (route_metric r') \/ krefused w w' \/ install_denied w r.
Proof.
  intros e w p r r' Hw F Fe Nx. cbv zeta. pose proof (W_rng _ _ Hw r (find_In _ _ _ F)) as Rg.
  destruct (urm_spec e w p r Hw F) as (_ & rz & Fz & [Rf|(_ & Kr)]); [|intros; right; left; exact Kr].
  intros F' Fm Df. rewrite F' in Fz. injection Fz as <-.
  assert (Exp : route_expired r w = false).
  { unfold refreshed in Rf. destruct (route_expired r w); auto. exfalso. destruct (r_refmetric r <? INFINITY) eqn:R1.
    - destruct Rf as (s & _ & E). apply effect_inf in E. change (route_metric (set_r_installed (r_installed r) r')) with (route_metric r') in E. lia.
    - apply Df. apply core_metric. exact Rf. }
  clear Rf. revert F'. unfold update_route_metric. rewrite F, Exp.
  destruct (smoothed_spec e w p r Hw F) as (m & rnd & E1 & Q & SW & F1 & _).
  set (w1 := map_ptr p (smooth_upd m (sec w)) (set_w_rnd rnd w)) in *. rewrite E1. clearbody w1.
  set (r1 := smooth_upd m (sec w) r) in *.
  pose proof (quiet_W _ _ _ Q Hw) as Hw1.
  destruct (W_nbif_ _ _ _ Hw1 (find_In _ _ _ F1)) as (n & i & Nb). change (r_neigh r1) with (r_neigh r) in Nb.
  rewrite Nb. cbv zeta.
  match goal with |- context [change_route_metric p ?a ?b ?c w1] => set (A := a); set (B := b); set (D := c) end.
  set (w2 := change_route_metric p A B D w1).
  assert (Ma : metric_args w1 A B D).
  { split; [pose proof (W_rng _ _ Hw1 r1 (find_In _ _ _ F1)) as G; apply G|].
    split; right; [|unfold D; eauto]. destruct (nb_if_In _ _ _ _ Nb) as (In1 & In2).
    exists n, i. split; [exact In1|]. split; [apply in_map; exact In2|reflexivity]. }
  destruct (change_spec e w1 p r1 A B D Hw1 F1 Ma) as (C2 & K2 & _ & S2 & r2 & F2 & E2). fold w2 in C2, K2, S2, F2, E2.
  pose proof (chain_W _ _ _ C2 Hw1) as Hw2. rewrite F2.
  assert (KL : kmono w w2) by (apply kmono_trans with w1; [apply (star_log _ _ _ Q)|apply (star_log _ _ _ C2)]).
  assert (Same : forall x, quiet e w2 x -> find_ptr p x = Some r' -> core r' = core r2).
  { intros x Qx Fx. destruct (quiet_find _ _ _ _ _ Hw2 Qx F2) as (y & Fy & Cy). congruence. }
  destruct (negb (route_metric r2 =? route_metric r)) eqn:Dm.
  2:{ intros F'. exfalso. apply Df.
      match type of F' with find_ptr p ?x = _ => assert (Qx : quiet e w2 x) end.
      { destruct (smoothed_spec e w2 p r2 Hw2 F2) as (m3 & rnd3 & E3 & Q3 & _ & F3 & _). rewrite E3.
        destruct (negb (m3 =? m)); [|exact Q3]. eapply quiet_trans; [exact Q3|]. eapply changed_chain; eauto. eapply quiet_W; eauto. }
      rewrite (core_metric _ _ (Same _ Qx F')). lia. }
  intros F'. pose proof (Same _ (changed_chain e w2 p r2 _ _ Hw2 F2) F') as C'.
  destruct E2 as [E2|(_ & _ & Kr)].
  2:{ right. left. eapply refused_r; [eapply refused_l; [apply (star_log _ _ _ Q)|exact Kr]|].
      apply (star_log _ _ _ (changed_chain e w2 p r2 (r_src r) (route_metric r) Hw2 F2)). }
  destruct E2 as (Ec & Ei).
  assert (Y0 : r_src r2 = r_src r) by (exact (f_equal r_src Ec)).
  assert (Y1 : r_seqno r2 = r_seqno r) by (exact (f_equal r_seqno Ec)).
  assert (Y2 : r_refmetric r2 = r_refmetric r).
  { assert (X : r_refmetric r2 = u16 (r_refmetric r)) by (exact (f_equal r_refmetric Ec)). rewrite X. unfold u16.
    apply Z.mod_small. apply Rg. }
  assert (Y3 : r_neigh r2 = r_neigh r) by (exact (f_equal r_neigh Ec)).
  assert (D2 : dest_of r2 = dest_of r) by (unfold dest_of; rewrite Y0; auto).
  assert (N2 : w_now w2 = w_now w) by (rewrite (kp_now _ _ K2); apply (smw_now _ _ SW)).
  assert (Fe2 : feasible r2 w2 = true).
  { unfold feasible, src_of, sec. rewrite Y0, Y1, Y2, S2, N2, (smw_srcs _ _ SW). exact Fe. }
  assert (Nx2 : forall x, ~ ours w2 (dest_of r2) x).
  { intros x. rewrite D2. intros (O1 & O2). apply (Nx x). split; auto.
    rewrite (ev_xr _ _ (keeps_env _ _ K2)), (smw_xr _ _ SW) in O1. exact O1. }
  rewrite (core_metric _ _ C') in Fm |- *.
  destruct (changed_used e w2 p r2 (r_src r) (route_metric r) Hw2 F2 Fe2 Fm Nx2) as [U|[K|K]].
  - left. rewrite D2 in U. exact U.
  - right. left. eapply refused_l; [exact KL|exact K].
  - right. right. destruct K as (nb & i0 & H1 & H2 & H3 & H4 & H5).
    destruct (denied_core w w2 r2 r2 eq_refl) as (nb' & i' & G1 & G2 & G3 & G4 & G5).
    + rewrite (kp_nbs _ _ K2). rewrite (sm_eq _ _ SW). reflexivity.
    + rewrite (kp_ifs _ _ K2). rewrite (sm_eq _ _ SW). reflexivity.
    + rewrite (kp_cfg _ _ K2). apply (smw_cfg _ _ SW).
    + exists nb, i0. auto.
    + exists nb', i'. rewrite Y0, D2 in G5. split; auto. split; [congruence|]. auto.
Qed.

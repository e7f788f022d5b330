(** L_Lose5.v: an unfeasible update from another router unselects the selected route. *)
From Verif Require Import Base M_Util S_Util L_Util M_Slot L_Slot M_Source S_Source L_Source
  M_Filter M_Types M_Neigh M_State M_Table M_Msg M_Route M_Xroute S_World S_Send S_Pend L_Table L_Step L_Msg L_Smooth L_Quiet
  L_Trace L_Select L_Select2 L_Chain L_Chain2 L_Chain3 L_Flush L_Update L_Update2 L_Xroute M_Daemon L_Daemon L_Inv L_World L_World2 L_World4 L_Send L_Resend4 L_Out L_Request L_Pend
  L_Lose L_Lose2 L_Lose3 L_Lose4.
From Coq Require Import Permutation.

Lemma smw_back : forall w w' r', smw w w' -> In r' (all_routes w') ->
  exists r, In r (all_routes w) /\ core r' = core r /\ r_installed r' = r_installed r.
Proof.
  intros w w' r' Sm H. destruct (dest_dec (dest_of r') (mkDest [] 0 [] 0)) as [E|E].
  - destruct (others_smw (mkDest [] 1 [] 0) _ _ Sm) as (_ & O). apply (O r' H). rewrite E. discriminate.
  - destruct (others_smw (mkDest [] 0 [] 0) _ _ Sm) as (_ & O). apply (O r' H E).
Qed.
Lemma request_resend_rt : forall e d q id w, W e w -> dvalid d -> exists w1, smw w w1 /\ w_rt (send_request_resend d q id w) = w_rt w1.
Proof.
  intros e d q id w Hw V. unfold send_request_resend. pose proof (best_digest e w d false None Hw V) as B.
  destruct (find_best_route d false None w) as [[b|] w2].
  - destruct B as (Sm & Q & r0 & r1 & Hr0 & D0 & A0 & F0 & F1 & C1 & I1). rewrite F1. pose proof (quiet_W _ _ _ Q Hw) as Hw2.
    destruct (W_nbif_ e w2 r1 Hw2 (find_In _ _ _ F1)) as (n & i & Nb). pose proof (nb_if_get _ _ _ _ Nb) as (G1 & G2). rewrite G1.
    exists w2. split; auto.
    assert (Fr : frame w2 (send_unicast_multihop_request (r_neigh r1) d q id 127 w2)).
    { apply unicast_multihop_frame; [eapply W_refs; eauto|]. unfold has_nb. congruence. }
    match goal with |- w_rt ?x = _ => assert (Fr2 : frame w2 x) end.
    { eapply frame_trans; [exact Fr|]. apply record_frame. eapply frame_has_if; [exact Fr|]. eapply get_if_has; eauto. }
    apply (f_rt _ _ Fr2).
  - destruct B as (-> & _). exists w. split; [apply smw_refl|].
    match goal with |- w_rt ?x = _ => assert (Fr2 : frame w x) end.
    { apply frame_fold. intros j w2 Hj F. pose proof (all_ifs _ _ Hj _ F) as Gj.
      apply get_if_iff in Gj. destruct (get_if j w2) as [x|]; [|contradiction]. destruct (if_up x); [apply multihop_frame|apply frame_refl]. }
    apply (f_rt _ _ Fr2).
Qed.

(** After route_lost the selected route, if any, was acceptable before. *)
Lemma lost_selected : forall e w k m r', W e w -> dvalid (kdest k) -> (forall r, ~ is_selected w (kdest k) r) ->
  is_selected (route_lost k m w) (kdest k) r' ->
  exists r, In r (all_routes w) /\ r_ptr r = r_ptr r' /\ acceptable r true None w = true.
Proof.
  intros e w k m r' Hw V Ns. unfold route_lost. set (d := kdest k) in *.
  assert (No : forall w1, smw w w1 -> forall w2, w_rt w2 = w_rt w1 -> is_selected w2 d r' -> False).
  { intros w1 Sm w2 E (H1 & H2 & H3). unfold all_routes in H1. rewrite E in H1. destruct (smw_back _ _ _ Sm H1) as (r & H & C & Ii).
    apply (Ns r). split; auto. split; [congruence|]. rewrite <- H3. symmetry. apply (core_dest _ _ C). }
  pose proof (best_digest e w d true None Hw V) as B. destruct (find_best_route d true None w) as [[b|] w1].
  - destruct B as (Sm & Q & r0 & r1 & Hr0 & D0 & A0 & F0 & F1 & C1 & I1). rewrite F1.
    pose proof (quiet_W _ _ _ Q Hw) as Hw1. destruct (smw_keep _ _ Sm) as (K1 & K2 & K3 & K4 & K5).
    assert (Fe : feasible r1 w1 = true).
    { assert (Aa : acceptable r1 true None w1 = true) by (rewrite (acceptable_core r0 r1 true None w w1); auto using smw_srcs, smw_now).
      unfold acceptable in Aa. destruct (route_expired r1 w1); [discriminate Aa|]. cbn [andb] in Aa.
      destruct (feasible r1 w1); auto. }
    rewrite Fe. assert (D1 : dest_of r1 = d) by (rewrite <- D0; apply (core_dest _ _ C1)).
    unfold consider_route. rewrite F1, Fe. cbn [negb].
    destruct (r_installed r1) eqn:Ii; [intros X; exfalso; apply (No w1 Sm w1 eq_refl X)|].
    destruct (match find_xroute _ _ with Some _ => _ | None => _ end); [intros X; exfalso; apply (No w1 Sm w1 eq_refl X)|].
    change (rdest r1) with (dest_of r1). rewrite D1.
    assert (Ns1 : find_installed d w1 = None).
    { destruct (find_installed d w1) as [h|] eqn:E; auto. exfalso. apply (find_installed_iff d) in E; [|apply (W_rt _ _ Hw1)|auto].
      destruct (smw_back _ _ h Sm (proj1 E)) as (h0 & X1 & X2 & X3). destruct E as (E1 & E2 & E3). apply (Ns h0). split; auto. split; [congruence|].
      rewrite <- E3. symmetry. apply (core_dest _ _ X2). }
    rewrite Ns1. unfold consider_install. cbn [option_map]. cbv zeta. cbn [switch_routes].
    destruct (install_result e w1 b r1 Hw1 F1 Ii) as (R1 & R2 & R3 & R4 & R5); [change (rdest r1) with (dest_of r1); rewrite D1; auto|]. rewrite D1 in *.
    pose proof (install_any e w1 b r1 Hw1 F1 Fe) as Q2. pose proof (quiet_W _ _ _ Q2 Hw1) as Hw2.
    destruct (quiet_find e w1 (install_route b w1) b r1 Hw1 Q2 F1) as (r2 & F2 & C2). rewrite F2.
    set (w2 := install_route b w1) in *. pose proof (send_update_all_frame true (rdest r2) w2 (W_refs _ _ Hw2)) as Fr.
    intros Sr. apply (is_sel_rt _ w2) in Sr; [|symmetry; apply (f_rt _ _ Fr)].
    destruct R5 as [(Rt & _)|(r3 & S3 & C3)]; [exfalso; apply (No w1 Sm w2 Rt Sr)|].
    exists r0. split; auto. split; auto.
    apply (find_installed_iff d) in S3; [|apply (W_rt _ _ Hw2)|auto]. apply (find_installed_iff d) in Sr; [|apply (W_rt _ _ Hw2)|auto].
    rewrite Sr in S3. injection S3 as ->. rewrite (core_ptr _ _ C3), (core_ptr _ _ C1). auto.
  - destruct B as (-> & Na). intros Sr. exfalso. destruct (m <? INFINITY); [|apply (No w (smw_refl w) w eq_refl Sr)]. cbv zeta in Sr.
    pose proof (send_update_resend_frame d w (W_refs _ _ Hw)) as Fr. set (w1 := send_update_resend d w) in *.
    assert (Hw1 : W e w1) by (eapply W_frame; eauto).
    destruct (m <=? INFINITY / 2); [|apply (No w (smw_refl w) w1 (f_rt _ _ Fr) Sr)].
    destruct (get_src k (w_srcs w1)) as [s|]; [|apply (No w (smw_refl w) _ (f_rt _ _ Fr) Sr)].
    destruct (request_resend_rt e d (wanted_seqno s) (k_id k) w1 Hw1 V) as (w2 & Sm2 & E2).
    destruct Sr as (H1 & H2 & H3). unfold all_routes in H1. rewrite E2 in H1. destruct (smw_back _ _ _ Sm2 H1) as (x & Hx & Cx & Ix).
    apply (Ns x). unfold all_routes in Hx. rewrite (f_rt _ _ Fr) in Hx. split; auto. split; [congruence|]. rewrite <- H3. symmetry. apply (core_dest _ _ Cx).
Qed.

Lemma known_unselected : forall e w r k s seqno refmetric metric cost add hold n r',
  W e w -> (length e <= 7)%nat -> In r (all_routes w) -> dest_of_key k = dest_of r ->
  In k (map s_key (w_srcs w)) -> u16_ok seqno -> 15 <= hold -> In n (map n_id (w_nbs w)) -> metric_args w refmetric cost add ->
  r_installed r = true -> k <> r_src r -> get_src k (w_srcs w) = Some s -> update_feasible (sec w) (Some s) seqno refmetric = false ->
  is_selected (update_known r k false seqno refmetric metric cost add hold n w) (dest_of r) r' -> r_ptr r' <> r_ptr r.
Proof.
  intros e w r k s seqno refmetric metric cost add hold n r' Hw Le Hr Dk Hk Us Hh Hn Ma Ir Nk Gs Nf.
  unfold update_known. cbv zeta. set (p := r_ptr r). rewrite Ir.
  assert (Nk' : skey_eqb k (r_src r) = false).
  { destruct (skey_eqb k (r_src r)) eqn:E; auto. apply skey_eqb_true in E. congruence. }
  rewrite Nk'. cbn [negb andb orb].
  assert (F : find_ptr p w = Some r) by (apply find_ptr_iff; [apply (W_rt _ _ Hw)|]; auto).
  pose proof (uninstall_chain e w p r Hw F) as Q1. pose proof (uninstall_find e w p r Hw F) as F1.
  pose proof (quiet_W _ _ _ Q1 Hw) as Hw1. pose proof (quiet_env _ _ _ Q1) as Ev1.
  assert (Ks1 : w_srcs (uninstall_route p w) = w_srcs w /\ w_now (uninstall_route p w) = w_now w /\
    forall q, q <> p -> find_ptr q (uninstall_route p w) = find_ptr q w).
  { unfold uninstall_route. rewrite F, Ir. cbn [negb]. destruct (W_nbif_ _ _ _ Hw Hr) as (nb & i & Nb). rewrite Nb.
    match goal with |- context [change_route_flush ?a ?b ?c ?d] => destruct (change_route_flush a b c d) as [rc w1] eqn:K end.
    apply change_route_flush_frame in K. destruct K as (? & ? & ->). split; [reflexivity|]. split; [reflexivity|]. intros q Nq. change (find_ptr q (map_ptr p (set_r_installed false) w) = find_ptr q w). rewrite find_other; auto. }
  destruct Ks1 as (Ks1 & Kn1 & Ko1).
  set (w1 := uninstall_route p w) in *. set (r1 := set_r_installed false r) in *.
  assert (Hk1 : In k (map s_key (w_srcs w1))) by (rewrite Ks1; auto).
  pose proof (retain_chain e w1 k Hw1 ltac:(lia) Hk1) as C2. pose proof (retain_env e w1 k Hw1 ltac:(lia) Hk1) as Ev2. pose proof (retain_fd k w1) as Fd2.
  assert (Kn2 : w_now (retain_source k w1) = w_now w1).
  { unfold retain_source. destruct (get_src k (w_srcs w1)) as [s0|]; [destruct (retain_ok s0)|]; cbn; auto 10. }
  set (w2 := retain_source k w1) in *. pose proof (star_W _ _ _ _ _ C2 Hw1) as Hw2.
  assert (R2 : w_rt w2 = w_rt w1) by apply retain_rt.
  assert (F2 : find_ptr p w2 = Some r1) by (rewrite (rt_find w1 w2 p R2); auto).
  set (T := if refmetric <? INFINITY then sec w else r_time r).
  set (w3a := map_ptr p (set_r_src k) w2).
  assert (S3a : mstep false (k :: e, w2) (r_src r :: e, w3a)).
  { change (r_src r) with (r_src r1). apply S_setsrc; auto. }
  pose proof (star_W _ _ _ _ _ (star_loud _ _ _ S3a) Hw2) as Hw3a.
  assert (F3a : find_ptr p w3a = Some (set_r_src k r1)) by (apply map_ptr_find; auto).
  set (w3 := map_ptr p (fun r0 => set_r_seqno seqno (set_r_time (if refmetric <? INFINITY then sec w else r_time r0) (set_r_src k r0))) w2).
  assert (E3 : w3 = map_ptr p (fun r0 => set_r_seqno seqno (set_r_time T (set_r_hold_time (r_hold_time r1) r0))) w3a).
  { unfold w3, w3a. rewrite map_ptr_comp by reflexivity. eapply map_ptr_ext; [apply (W_rt _ _ Hw2)|exact F2|]. reflexivity. }
  assert (S3 : mstep false (r_src r :: e, w3a) (r_src r :: e, w3)) by (rewrite E3; apply S_touch; auto; apply (W_rng _ _ Hw2 r1 (find_In _ _ _ F2))).
  pose proof (star_W _ _ _ _ _ (star_loud _ _ _ S3) Hw3a) as Hw3.
  assert (F3 : exists r3, find_ptr p w3 = Some r3 /\ r_installed r3 = false /\ r_src r3 = k /\ r_seqno r3 = seqno).
  { eexists. split; [apply map_ptr_find; [reflexivity|exact F2]|split; [reflexivity|split; reflexivity]]. }
  destruct F3 as (r3 & F3 & I3 & X3 & Y3).
  assert (Ma3 : metric_args w3 refmetric cost add).
  { apply (args_env w2); [constructor; auto|]. apply (args_env w1); auto. apply (args_env w); auto. }
  destruct (change_spec (r_src r :: e) w3 p r3 refmetric cost add Hw3 F3 Ma3) as (C4 & K4 & Oth & Sr4 & r4 & F4 & Ef).
  destruct (change_keep (r_src r :: e) w3 p r3 refmetric cost add Hw3 F3) as (A1 & A2 & A3 & A4).
  set (w4a := change_route_metric p refmetric cost add w3) in *.
  pose proof (chain_W _ _ _ C4 Hw3) as Hw4a.
  destruct Ef as [Ef|(_ & X & _)]; [|congruence].
  set (w4 := map_ptr p (set_r_hold_time hold) w4a).
  assert (S4 : mstep false (r_src r :: e, w4a) (r_src r :: e, w4)).
  { unfold w4. rewrite (map_ptr_ext w4a p r4 _ (fun r0 => set_r_seqno (r_seqno r4) (set_r_time (r_time r4) (set_r_hold_time hold r0)))).
    - apply S_touch; auto. pose proof (W_rng _ _ Hw4a r4 (find_In _ _ _ F4)) as G. apply G.
    - apply (W_rt _ _ Hw4a).
    - auto.
    - reflexivity. }
  pose proof (star_W _ _ _ _ _ (star_loud _ _ _ S4) Hw4a) as Hw4.
  set (r5 := set_r_hold_time hold r4).
  assert (F5 : find_ptr p w4 = Some r5) by (apply map_ptr_find; auto).
  assert (I5 : r_installed r5 = false) by (destruct Ef as (_ & Ef); cbn; congruence).
  assert (Fe5 : feasible r5 w4 = false).
  { destruct Ef as (Ef & _). assert (B1 : r_src r4 = r_src r3) by exact (f_equal r_src Ef). assert (B2 : r_seqno r4 = r_seqno r3) by exact (f_equal r_seqno Ef).
    assert (B3 : r_refmetric r4 = u16 refmetric) by exact (f_equal r_refmetric Ef).
    unfold feasible, src_of, sec. cbn [r_src r_seqno r_refmetric set_r_hold_time r5]. rewrite B1, B2, B3, X3, Y3.
    assert (En : w_now w4 = w_now w) by (cbn; rewrite A4; change (w_now w3) with (w_now w2); congruence). rewrite En.
    assert (Es : w_srcs w4 = w_srcs w2) by (cbn; rewrite Sr4; reflexivity). rewrite Es. 
    rewrite <- Ks1 in Gs. destruct (Fd2 _ _ Gs) as (s' & G' & H1 & H2 & H3). rewrite G'.
    destruct Ma as (Ma & _). unfold u16, u16_ok in *. rewrite Z.mod_small by lia.
    rewrite <- Nf. unfold update_feasible, sec. rewrite H1, H2, H3. auto. }
  unfold route_changed. rewrite F5, I5, F5, I5. unfold consider_route at 1. rewrite F5, I5, Fe5. cbn [negb].
  set (w6 := route_lost (r_src r) (route_metric r) w4).
  intros (H1 & H2 & H3). unfold all_routes in H1. rewrite release_rt in H1. intros Pp.
  assert (Kd : kdest (r_src r) = dest_of r) by reflexivity.
  destruct (lost_selected (r_src r :: e) w4 (r_src r) (route_metric r) r' Hw4) as (x & Hx & Px & Ax).
  - rewrite Kd. apply (route_dvalid w r (W_rt _ _ Hw) Hr).
  - rewrite Kd. intros h (G1 & G2 & G3). destruct (Z.eq_dec (r_ptr h) p) as [E|E].
    + assert (find_ptr p w4 = Some h) by (apply find_ptr_iff; [apply (W_rt _ _ Hw4)|auto]). congruence.
    + assert (Fh : find_ptr (r_ptr h) w4 = Some h) by (apply find_ptr_iff; [apply (W_rt _ _ Hw4)|auto]).
      unfold w4 in Fh. rewrite find_other in Fh by auto. rewrite Oth in Fh by auto. unfold w3 in Fh. rewrite find_other in Fh by auto.
      rewrite (rt_find w1 w2 _ R2) in Fh. rewrite Ko1 in Fh by auto. apply find_In in Fh.
      apply E. unfold p. f_equal. apply (selected_unique w (dest_of r) h r (W_rt _ _ Hw)); split; auto.
  - split; auto.
  - assert (find_ptr p w4 = Some x) by (apply find_ptr_iff; [apply (W_rt _ _ Hw4)|split; [auto|congruence]]).
    assert (x = r5) by congruence. subst x. unfold acceptable in Ax. rewrite Fe5 in Ax. destruct (route_expired r5 w4); discriminate Ax.
Qed.

Lemma update_unselects : forall e w id d seqno refmetric interval n nexthop r r' s nb ifp, W e w -> (length e <= 7)%nat -> dvalid d -> u16_ok seqno -> u16_ok refmetric ->
  nb_if n w = Some (nb, ifp) -> input_filter (c_infs (w_cfg w)) (Some id) d (Some (n_addr nb)) (if_ifindex ifp) < INFINITY ->
  id <> c_myid (w_cfg w) -> martian_prefix (d_prefix d) (d_plen d) = false -> martian_prefix (d_src d) (d_splen d) = false ->
  v4mapped (d_prefix d) = v4mapped (d_src d) ->
  is_selected w d r -> r_neigh r = n -> id <> k_id (r_src r) ->
  get_src (mkey id d) (w_srcs w) = Some s -> update_feasible (sec w) (Some s) seqno refmetric = false ->
  is_selected (update_route (Some id) d seqno refmetric interval n nexthop w) d r' -> r_ptr r' <> r_ptr r.
Proof.
  intros e w id d seqno refmetric interval n nexthop r r' s nb ifp Hw Le V Us Ur Nb Inp Nid M1 M2 Vm (Hr & Ir & Dr) Nr Ni Gs Nf.
  unfold update_route. cbv zeta.
  replace (beq id (c_myid (w_cfg w))) with false.
  2:{ symmetry. destruct (beq id (c_myid (w_cfg w))) eqn:B; auto. apply beq_true in B. congruence. }
  rewrite M1, M2, Vm, eqb_reflx, Nb. cbn [orb negb].
  set (add := input_filter _ _ _ _ _) in *. replace (add >=? INFINITY) with false by lia. set (cost := neighbour_cost _ _ _).
  assert (Ma : metric_args w refmetric cost add).
  { split; [auto|]. split; right; [|unfold add; eauto]. destruct (nb_if_In _ _ _ _ Nb) as (In1 & In2).
    exists nb, ifp. split; [exact In1|]. split; [apply in_map; exact In2|reflexivity]. }
  assert (Hn : In n (map n_id (w_nbs w))).
  { destruct (proj1 (nb_if_iff e w n nb ifp Hw) Nb) as (X1 & X2 & _). apply in_map_iff. exists nb. auto. }
  assert (Fr : find_route d n w = Some r).
  { pose proof (find_route_iff d n w (W_rt _ _ Hw) V) as Fi. destruct (find_route d n w) as [x|] eqn:Fx.
    - destruct (find_route_In _ _ _ _ (W_rt _ _ Hw) V Fx) as (H1 & H2 & H3). f_equal.
      apply (one_route w x r (W_rt _ _ Hw)); auto; congruence.
    - exfalso. assert (X : exists r0, In r0 (all_routes w) /\ dest_of r0 = d /\ r_neigh r0 = n) by eauto.
      apply Fi in X. apply X. reflexivity. }
  rewrite Fr. replace (beq (k_id (r_src r)) id) with false.
  2:{ symmetry. destruct (beq (k_id (r_src r)) id) eqn:B; auto. apply beq_true in B. congruence. }
  pose proof (find_source_spec (sec w) (mkey id d) true seqno (w_srcs w) (W_srcs _ _ Hw)) as Fs. rewrite Gs in Fs. rewrite Fs, Nf.
  set (w1 := set_w_srcs (w_srcs w) w).
  assert (Ew : w1 = w) by (unfold w1; destruct w; reflexivity). rewrite Ew. rewrite <- Dr.
  apply (known_unselected e w r (mkey id (dest_of r)) s); auto using hold_15.
  - rewrite Dr. apply get_src_keys. congruence.
  - intros E. apply Ni. rewrite <- E. reflexivity.
  - rewrite Dr. auto.
Qed.

(** P_Use.v: C72, a usable route is used. *)
From Verif Require Import Base M_Util S_Util M_Filter S_Filter L_Filter M_Source S_Source L_Source M_Types M_Neigh S_Neigh M_State M_Table M_Msg M_Route M_Xroute M_Daemon S_World S_Xroute S_Send S_Pend
  L_Neigh L_Slot L_Table L_Step L_Msg L_Trace L_Select L_Chain L_Chain2 L_Chain3 L_Update2 L_Xroute L_Inv L_Daemon L_World L_World2 L_World4 L_Pend L_Lose L_Lose2 L_Lose3 L_Lose4 L_Lose5 L_Use X_Run P_Lose.

(** Some route of finite metric to [d] is selected; if metrics are not smoothed, its
    metric is at most [m]. *)
Definition in_use (w : world) (d : dest) (m : Z) : Prop :=
  exists r, is_selected w d r /\ finite r /\ (c_half_life (w_cfg w) = 0 -> metric_of r <= m).

Lemma used_in_use : forall w d m, used w d m -> in_use w d m.
Proof. intros w d m (r & S & M). exists r. split; [exact S|exact M]. Qed.

(** ** An update is received *)
Theorem C72_update : forall c w id d q m iv n nh nb ifp add a, c_half_life c <> 2 -> reach c w ->
  allowed (EvUpdate (Some id) d q m iv n (Some nh)) w ->
  Forall filt_ok (c_infs c) -> dest_ok d ->
  In nb (w_nbs w) -> n_id nb = n -> In ifp (w_ifs w) -> if_id ifp = n_if nb ->
  id <> c_myid c ->
  martian_prefix (d_prefix d) (d_plen d) = false -> martian_prefix (d_src d) (d_splen d) = false ->
  v4mapped (d_prefix d) = v4mapped (d_src d) ->
  chain_spec 0 (c_infs c) (Some id) d (Some (n_addr nb)) (if_ifindex ifp) 0 add a ->
  m + neighbour_cost (w_now w) ifp nb + add < 65535 ->
  (forall s, In s (w_srcs w) -> dest_of_key (s_key s) = d -> k_id (s_key s) = id -> feas_cond (now_s w) s q m) ->
  (forall x, ~ ours w d x) ->
  let w' := run1 (EvUpdate (Some id) d q m iv n (Some nh)) w in
  in_use w' d (m + neighbour_cost (w_now w) ifp nb + add) \/ krefused w w' \/
  65535 <= fst (install_filter (c_instfs c) (Some id) d (if_ifindex ifp)).
Proof.
  intros c w id d q m iv n nh nb ifp add a Hl R A Fo Do Hnb Nid Hif Iid I1 M1 M2 V Ch Fm Fe Nx. cbv zeta.
  destruct (update_env c w (Some id) d q m iv n (Some nh) nb ifp add a Hl R A Fo Do Hnb Nid Hif Iid Ch) as (Nb & Inp).
  destruct (reach_W c w Hl R) as (Hw & Ec). pose proof (reach_rng c w Hl R) as G.
  pose proof A as (A1 & A2 & A3 & A4). cbn [run1].
  pose proof (cost_in (w_now w) ifp nb (rg_ifs _ G _ Hif) (rg_nbs _ G _ Hnb)) as (Co & _).
  pose proof (input_filter_range (c_infs c) (Some id) d (Some (n_addr nb)) (if_ifindex ifp) Fo Do) as Ra.
  rewrite Ec in Inp. rewrite Inp in Ra.
  assert (U := update_used [] w id d q m iv n nh nb ifp Hw ltac:(simpl; lia) A2 A3 A4 Nb). cbv zeta in U.
  rewrite Ec, Inp in U.
  assert (Fs : forall s, get_src (mkey id d) (w_srcs w) = Some s -> update_feasible (sec w) (Some s) q m = true).
  { intros s Gs. apply get_src_In in Gs. destruct Gs as (Hs & Ks).
    apply feasible_iff; [apply (rg_srcs _ G); auto|exact A3|].
    apply (Fe s Hs); rewrite Ks; [destruct d|]; reflexivity. }
  specialize (U ltac:(lia) ltac:(lia) Fm I1 M1 M2 V Fs Nx).
  destruct U as [U|[U|(r1 & N1 & S1 & nb1 & i1 & H1 & E1 & H2 & E2 & D)]]; auto.
  right. right. assert (nb1 = nb) by (eapply NoDup_map_inj; [apply (W_nbs _ _ Hw)| | |]; auto; congruence). subst nb1.
  assert (i1 = ifp) by (eapply NoDup_map_inj; [apply (W_ifs _ _ Hw)| | |]; auto; congruence). subst i1.
  unfold dest_of in D. rewrite Ec, S1 in D. destruct d. exact D.
Qed.
Print Assumptions C72_update.

(** ** The cost of a link changes, for instance because the link comes up *)
Theorem C72_metric : forall c w r r', c_half_life c <> 2 -> reach c w ->
  In r (all_routes w) -> feasible_in w r -> (forall x, ~ ours w (dest_of r) x) ->
  let w' := update_route_metric (r_ptr r) w in
  In r' (all_routes w') -> r_ptr r' = r_ptr r -> finite r' -> metric_of r' <> metric_of r ->
  in_use w' (dest_of r) (metric_of r') \/ krefused w w' \/ install_denied w r.
Proof.
  intros c w r r' Hl R Hr Fe Nx. destruct (reach_W c w Hl R) as (Hw & Ec). pose proof (reach_rng c w Hl R) as G.
  cbv zeta. intros Hr' P' Fi Df.
  apply (feasible_in_iff [] w r Hw G Hr) in Fe.
  assert (Hw' : W [] (update_route_metric (r_ptr r) w)).
  { destruct (urm_spec [] w (r_ptr r) r Hw (proj2 (find_ptr_iff _ _ _ (W_rt _ _ Hw)) (conj Hr eq_refl))) as (X & _). exact (only_W _ _ _ _ X Hw). }
  destruct (urm_used [] w (r_ptr r) r r' Hw (proj2 (find_ptr_iff _ _ _ (W_rt _ _ Hw)) (conj Hr eq_refl)) Fe Nx) as [U|[U|U]]; auto.
  exact (proj2 (find_ptr_iff _ _ _ (W_rt _ _ Hw')) (conj Hr' P')).
Qed.
Print Assumptions C72_metric.

(** ** Nothing looks at the routes again when time alone makes one usable
    An update that is not feasible is kept.  Once the feasibility distance is more than
    200 s old the condition holds, but nothing selects the route until something about
    the destination changes or the neighbour announces it again. *)
Definition r_evs : list event := x_up ++
  [EvUpdate (Some (x_id 7)) (xd 1) 40 300 1600 1 (x_nh 51); EvClock (mkTv 1003 0); EvFlushUpdates 1; EvFlushUpdates 2;
   EvUpdate (Some (x_id 7)) (xd 1) 40 65535 1600 1 (x_nh 51); EvClock (mkTv 1004 0); EvFlushUpdates 1; EvFlushUpdates 2;
   EvClock (mkTv 1160 0); EvExpireRoutes; EvHello 2 false 202 6000; EvIhu 2 128 6000;
   EvUpdate (Some (x_id 7)) (xd 1) 40 500 6000 2 (x_nh 52); EvClock (mkTv 1210 0)].
Definition r_w : world := run r_evs x_boot.
Lemma r_reach : reach x_conf r_w.
Proof. apply reach_list; [apply x_boot_reach|]. vm_compute. reflexivity. Qed.
Lemma r_R : map (fun r => (dest_of r, r_installed r, route_metric r, acceptable r true None r_w)) (all_routes r_w) = [(xd 1, false, 628, true)].
Proof. vm_compute. reflexivity. Qed.
Definition r_w' : world := run [EvCheckNeighbours; EvExpireRoutes; EvExpireSources] r_w.
Lemma r_R' : map r_installed (all_routes r_w') = [false].
Proof. vm_compute. reflexivity. Qed.
Lemma r_X : w_xr r_w = [].
Proof. vm_compute. reflexivity. Qed.
Lemma r_K : forallb (fun e => match e with KAdd _ rc | KDel _ rc => rc =? 0 | KFail _ _ => false end) (w_ktr r_w') = true.
Proof. vm_compute. reflexivity. Qed.
Lemma r_D : forallb (fun nb => forallb (fun i => fst (install_filter (c_instfs (w_cfg r_w)) (Some (x_id 7)) (xd 1) (if_ifindex i)) <? 65535) (w_ifs r_w)) (w_nbs r_w) = true.
Proof. vm_compute. reflexivity. Qed.
Lemma r_S : map (fun r => k_id (r_src r)) (all_routes r_w) = [x_id 7].
Proof. vm_compute. reflexivity. Qed.

Lemma r_general : forall c w w', c_half_life c <> 2 -> reach c w ->
  run [EvCheckNeighbours; EvExpireRoutes; EvExpireSources] w = w' ->
  map (fun r => (dest_of r, r_installed r, route_metric r, acceptable r true None w)) (all_routes w) = [(xd 1, false, 628, true)] ->
  map r_installed (all_routes w') = [false] -> w_xr w = [] ->
  forallb (fun e => match e with KAdd _ rc | KDel _ rc => rc =? 0 | KFail _ _ => false end) (w_ktr w') = true ->
  forallb (fun nb => forallb (fun i => fst (install_filter (c_instfs (w_cfg w)) (Some (x_id 7)) (xd 1) (if_ifindex i)) <? 65535) (w_ifs w)) (w_nbs w) = true ->
  map (fun r => k_id (r_src r)) (all_routes w) = [x_id 7] ->
  exists c w r, c_half_life c <> 2 /\ reach c w /\ In r (all_routes w) /\ finite r /\ eligible w true None r /\
  ~ install_denied w r /\ (forall x, ~ ours w (dest_of r) x) /\ (forall r', ~ is_selected w (dest_of r) r') /\
  let w' := run [EvCheckNeighbours; EvExpireRoutes; EvExpireSources] w in
  (forall r', ~ is_selected w' (dest_of r) r') /\ ~ krefused w w'.
Proof.
  intros c w w' Hl R E' Rs Rs' Xs Ks Ds Ss. destruct (reach_W _ _ Hl R) as (Hw & _). pose proof (reach_rng _ _ Hl R) as G.
  destruct (all_routes w) as [|r [|r1 l]] eqn:Er; try discriminate Rs.
  assert (E1 : (dest_of r, r_installed r, route_metric r, acceptable r true None w) = (xd 1, false, 628, true))
    by exact (f_equal (hd (xd 1, false, 0, false)) Rs).
  assert (D1 : dest_of r = xd 1) by exact (f_equal (fun x => fst (fst (fst x))) E1).
  assert (I1 : r_installed r = false) by exact (f_equal (fun x => snd (fst (fst x))) E1).
  assert (M1 : route_metric r = 628) by exact (f_equal (fun x => snd (fst x)) E1).
  assert (A1 : acceptable r true None w = true) by exact (f_equal snd E1).
  assert (S1 : k_id (r_src r) = x_id 7) by exact (f_equal (hd []) Ss).
  assert (Hr : In r (all_routes w)) by (rewrite Er; simpl; auto).
  exists c, w, r. split; [exact Hl|]. split; [exact R|]. split; [exact Hr|].
  split; [change (route_metric r < 65535); lia|].
  split; [apply (eligible_iff [] w r true None Hw G Hr); exact A1|].
  split.
  { intros (nb & i & H1 & _ & H2 & _ & H3). rewrite forallb_forall in Ds. specialize (Ds nb H1). rewrite forallb_forall in Ds.
    specialize (Ds i H2). cbv beta in Ds. rewrite S1, D1 in H3. apply Z.ltb_lt in Ds. lia. }
  split; [intros x (Hx & _); rewrite Xs in Hx; destruct Hx|].
  split.
  { intros r' (H' & I' & _). rewrite Er in H'. destruct H' as [<-|[]]. congruence. }
  cbv zeta. rewrite E'. split.
  - intros r' (H' & I' & _). apply (in_map r_installed) in H'. rewrite Rs', I' in H'. destruct H' as [H'|[]]. discriminate H'.
  - intros (k & ev & Ek & Hk & Fk). rewrite forallb_forall in Ks. specialize (Ks ev). rewrite Ek in Ks.
    assert (B := Ks ltac:(apply in_or_app; auto)). destruct ev; cbn in Fk; try discriminate B; lia.
Qed.
Theorem C72_at_rest_refuted : exists c w r, c_half_life c <> 2 /\ reach c w /\ In r (all_routes w) /\ finite r /\ eligible w true None r /\
  ~ install_denied w r /\ (forall x, ~ ours w (dest_of r) x) /\ (forall r', ~ is_selected w (dest_of r) r') /\
  let w' := run [EvCheckNeighbours; EvExpireRoutes; EvExpireSources] w in
  (forall r', ~ is_selected w' (dest_of r) r') /\ ~ krefused w w'.
Proof. exact (r_general x_conf r_w r_w' x_hl r_reach eq_refl r_R r_R' r_X r_K r_D r_S). Qed.
Print Assumptions C72_at_rest_refuted.

(** ** Examples
    In [r_w], nothing is selected for 10.1.0.0/16.  When the neighbour announces the
    route again it is selected; so it is when it announces a newer sequence number
    before the 200 s are over. *)
Example C72_ex_update :
  allowedb (EvUpdate (Some (x_id 7)) (xd 1) 40 500 1600 2 (x_nh 52)) r_w = true /\
  map (fun r => (r_neigh r, dest_of r, r_installed r, metric_of r))
    (all_routes (run1 (EvUpdate (Some (x_id 7)) (xd 1) 40 500 1600 2 (x_nh 52)) r_w)) = [(2, xd 1, true, 628)] /\
  map (fun s => (k_id (s_key s), dest_of_key (s_key s), s_seqno s, s_metric s, now_s r_w - s_time s)) (w_srcs r_w) =
    [(x_id 7, xd 1, 40, 396, 207)] /\
  map (fun nb => match get_if (n_if nb) r_w with Some i => neighbour_cost (w_now r_w) i nb | None => 0 end) (w_nbs r_w) = [128; 65535].
Proof. split; [|split; [|split]]; vm_compute; reflexivity. Qed.
(** With an empty table and metrics that are not smoothed, a second neighbour's better
    route is taken at once. *)
Definition y_conf : conf := set_c_half_life 0 x_conf.
Definition y_w : world := run (x_up ++ [EvUpdate (Some (x_id 7)) (xd 1) 40 300 1600 1 (x_nh 51)]) (boot y_conf (mkTv 1000 0) [x_if 1; x_if 2] 17).
Lemma y_reach : reach y_conf y_w.
Proof.
  apply reach_list; [|vm_compute; reflexivity].
  apply reach_boot; [repeat constructor; simpl; lia| |unfold tv_ok; simpl; lia|unfold u16_ok; simpl; lia].
  repeat constructor; simpl; lia.
Qed.
Example C72_ex_better : reach y_conf y_w /\
  map (fun r => (r_neigh r, r_installed r, metric_of r)) (all_routes y_w) = [(1, true, 396)] /\
  map (fun r => (r_neigh r, r_installed r, metric_of r))
    (all_routes (run1 (EvUpdate (Some (x_id 7)) (xd 1) 40 260 1600 2 (x_nh 52)) y_w)) = [(2, true, 388); (1, false, 396)].
Proof. split; [apply y_reach|]. split; vm_compute; reflexivity. Qed.
(** The interface of neighbour 2 goes down and comes back. *)
Definition y_down : world := run [EvUpdate (Some (x_id 8)) (xd 2) 50 0 1600 2 (x_nh 52);
  EvInterface (set_if_flags 0 (x_if 2)); EvIhu 2 129 1200; EvInterface (x_if 2)] y_w.
Lemma y_reach2 : reach y_conf y_down.
Proof.
  unfold y_down. cbn [run fold_left].
  assert (K : forall i w, map if_id (w_ifs w) = [1; 2] -> knownb [1; 2] (if_id i) = true -> known_if (if_id i) w).
  { intros i w E K. unfold known_if. rewrite E. apply knownb_In. exact K. }
  assert (I : iface_in (x_if 2)) by (intros _; repeat split; simpl; lia).
  assert (J : iface_in (set_if_flags 0 (x_if 2))) by (intros U; discriminate U).
  do 4 (apply reach_run; [|shelve]). apply y_reach. Unshelve.
  - split; [apply K; vm_compute; reflexivity|exact I].
  - apply allowedb_ok. vm_compute. reflexivity.
  - split; [apply K; vm_compute; reflexivity|exact J].
  - apply allowedb_ok. vm_compute. reflexivity.
Qed.
Example C72_ex_metric : reach y_conf y_down /\
  map (fun r => (r_ptr r, dest_of r, r_neigh r, r_installed r, metric_of r, feasible r y_down)) (all_routes y_down) =
    [(1, xd 1, 1, true, 396, true); (2, xd 2, 2, true, 65535, true)] /\
  map (fun r => (r_ptr r, r_installed r, metric_of r)) (all_routes (update_route_metric 2 y_down)) =
    [(1, true, 396); (2, true, 129)].
Proof. split; [apply y_reach2|]. split; vm_compute; reflexivity. Qed.

(** P_Lose.v: C25 and C27, what happens when the selected route is lost. *)
From Verif Require Import Base M_Util S_Util M_Filter S_Filter L_Filter M_Source S_Source L_Source M_Types M_Neigh M_State M_Table M_Msg M_Route M_Xroute M_Daemon S_World S_Xroute S_Send S_Pend
  L_Slot L_Table L_Step L_Msg L_Trace L_Select L_Update2 L_Xroute L_Inv L_Daemon L_World L_World2 L_World4 L_Pend L_Lose L_Lose2 L_Lose3 L_Lose4 L_Lose5 X_Run.

Definition queues_fine (w : world) : Prop := forall i, In i (w_ifs w) -> Forall dvalid (if_pend i).

Lemma outcome_taken : forall c w w' r, c_half_life c <> 2 -> reach c w -> outcome w w' r -> taken_over w w' r.
Proof.
  intros c w w' r Hl R [K|(A & r' & H' & B)]; [left; exact K|right]. split; [exact A|]. exists r'. split; [exact H'|].
  destruct B as [B|(P & B)]; [left; exact B|right]. split; [exact P|]. intros r1 r1' H1 D1 N1 E1 F1.
  apply B; auto. destruct (reach_W _ _ Hl R) as (Hw & _). apply (eligible_iff [] w r1 true None Hw (reach_rng _ _ Hl R) H1). exact E1.
Qed.

(** ** C25: the selected route is flushed *)
Theorem C25_flush : forall c w d r, c_half_life c <> 2 -> reach c w -> is_selected w d r -> finite r ->
  (forall x, ~ ours w d x) -> queues_fine w ->
  exists s, In s (w_srcs w) /\ s_key s = r_src r /\
  let w' := flush_route (r_ptr r) w in
  announced w w' d /\ (forall x, In x (all_routes w') -> r_ptr x <> r_ptr r) /\
  ((exists r1, In r1 (all_routes w) /\ r1 <> r /\ dest_of r1 = d /\ eligible w true None r1) ->
   (exists r', is_selected w' d r') \/ krefused w w' \/
   exists r1, In r1 (all_routes w) /\ r1 <> r /\ dest_of r1 = d /\ install_denied w r1) /\
  ((forall r1, In r1 (all_routes w) -> r1 <> r -> dest_of r1 = d -> ~ eligible w true None r1) ->
   (forall r', ~ is_selected w' d r') /\
   (metric_of r <= 32767 -> request_sent w w' d (next_seqno s) (k_id (r_src r)))).
Proof.
  intros c w d r Hl R (Hr & Ir & Dr) Fi Nx Q. subst d. destruct (reach_W _ _ Hl R) as (Hw & _). pose proof (reach_rng _ _ Hl R) as G.
  destruct (flush_lost [] w r Hw Hr Ir Fi Nx Q) as (s & Es & A1 & A2 & A3 & A4).
  apply get_src_In in Es. destruct Es as (Hs & Ks). exists s. split; [exact Hs|]. split; [exact Ks|]. cbv zeta.
  split; [exact A1|]. split; [exact A2|]. split.
  - intros (r1 & H1 & N1 & D1 & E1). apply A3. exists r1. split; auto. split; auto. split; auto. apply (eligible_iff [] w r1 true None Hw G H1). exact E1.
  - intros N. apply A4. intros r1 H1 N1 D1. apply not_true_is_false. intros E1. apply (N r1 H1 N1 D1).
    apply (eligible_iff [] w r1 true None Hw G H1). exact E1.
Qed.
Print Assumptions C25_flush.

(** The neighbour of the selected route is lost *)
Theorem C25_retracted : forall c w d r, c_half_life c <> 2 -> reach c w -> is_selected w d r -> finite r ->
  (forall x, ~ ours w d x) -> queues_fine w ->
  taken_over w (retract1 (r_ptr r) w) r.
Proof.
  intros c w d r Hl R (Hr & Ir & Dr) Fi Nx Q. subst d. destruct (reach_W _ _ Hl R) as (Hw & _).
  apply (outcome_taken c); auto. apply (retract1_lost [] w r Hw Hr Ir Fi Nx Q).
Qed.
Print Assumptions C25_retracted.

(** The cost of its link becomes infinite, or the route is found to have expired *)
Theorem C25_metric : forall c w d r r', c_half_life c <> 2 -> reach c w -> is_selected w d r -> finite r ->
  (forall x, ~ ours w d x) -> queues_fine w ->
  let w' := update_route_metric (r_ptr r) w in
  In r' (all_routes w') -> r_ptr r' = r_ptr r -> ~ finite r' -> taken_over w w' r.
Proof.
  intros c w d r r' Hl R (Hr & Ir & Dr) Fi Nx Q. subst d. destruct (reach_W _ _ Hl R) as (Hw & _). cbv zeta. intros Hr' P' F'.
  apply (outcome_taken c); auto. apply (urm_lost [] w r r' Hw Hr Ir Fi Nx Q Hr' P'). unfold finite in F'.
  change (metric_of r' >= 65535). lia.
Qed.
Print Assumptions C25_metric.

Lemma update_env : forall c w id d q m iv n nh nb ifp add a, c_half_life c <> 2 -> reach c w ->
  allowed (EvUpdate id d q m iv n nh) w -> Forall filt_ok (c_infs c) -> dest_ok d ->
  In nb (w_nbs w) -> n_id nb = n -> In ifp (w_ifs w) -> if_id ifp = n_if nb ->
  chain_spec 0 (c_infs c) id d (Some (n_addr nb)) (if_ifindex ifp) 0 add a ->
  nb_if n w = Some (nb, ifp) /\ input_filter (c_infs (w_cfg w)) id d (Some (n_addr nb)) (if_ifindex ifp) = add.
Proof.
  intros c w id d q m iv n nh nb ifp add a Hl R A Fo Do Hnb Nid Hif Iid Ch.
  destruct (reach_W c w Hl R) as (Hw & Ec). split.
  - unfold nb_if, get_nb, get_if.
    destruct (find (fun x => n_id x =? n) (w_nbs w)) as [x|] eqn:F.
    2:{ pose proof (find_none _ _ F nb Hnb) as X. cbn in X. lia. }
    apply find_some in F. destruct F as (F & X).
    assert (x = nb) by (eapply NoDup_map_inj; [apply (W_nbs _ _ Hw)| | |]; auto; lia). subst x.
    destruct (find (fun x => if_id x =? n_if nb) (w_ifs w)) as [y|] eqn:Fi.
    2:{ pose proof (find_none _ _ Fi ifp Hif) as Y. cbn in Y. lia. }
    apply find_some in Fi. destruct Fi as (Fi & Y).
    assert (y = ifp) by (eapply NoDup_map_inj; [apply (W_ifs _ _ Hw)| | |]; auto; lia). subst y. reflexivity.
  - rewrite Ec. destruct (input_chain (c_infs c) id d (Some (n_addr nb)) (if_ifindex ifp) Fo Do) as (r0 & Ch').
    destruct Ch as [(x & F1 & E1 & _)|(F1 & E1 & _)], Ch' as [(y & F2 & E2 & _)|(F2 & E2 & _)];
      pose proof (first_match_det _ _ _ _ _ _ _ _ F1 F2) as D; try discriminate D; congruence.
Qed.

(** The neighbour withdraws the selected route *)
Theorem C25_withdrawn : forall c w id d q iv n nh nb ifp add a r, c_half_life c <> 2 -> reach c w ->
  allowed (EvUpdate id d q 65535 iv n nh) w ->
  Forall filt_ok (c_infs c) -> dest_ok d ->
  In nb (w_nbs w) -> n_id nb = n -> In ifp (w_ifs w) -> if_id ifp = n_if nb ->
  id <> Some (c_myid c) ->
  martian_prefix (d_prefix d) (d_plen d) = false -> martian_prefix (d_src d) (d_splen d) = false ->
  v4mapped (d_prefix d) = v4mapped (d_src d) ->
  chain_spec 0 (c_infs c) id d (Some (n_addr nb)) (if_ifindex ifp) 0 add a -> add < 65535 ->
  is_selected w d r -> r_neigh r = n -> finite r ->
  (forall x, ~ ours w d x) -> queues_fine w ->
  taken_over w (run1 (EvUpdate id d q 65535 iv n nh) w) r.
Proof.
  intros c w id d q iv n nh nb ifp add a r Hl R A Fo Do Hnb Nid Hif Iid I1 M1 M2 V Ch Ad Sl Nr Fi Nx Q.
  destruct (update_env c w id d q 65535 iv n nh nb ifp add a Hl R A Fo Do Hnb Nid Hif Iid Ch) as (Nb & Inp).
  destruct (reach_W c w Hl R) as (Hw & Ec). destruct A as (A1 & A2 & A3 & A4). cbn [run1].
  apply (outcome_taken c); auto. apply (update_retracted [] w id d q iv n nh r nb ifp); auto; try (simpl; lia).
  - rewrite Inp. exact Ad.
  - rewrite Ec. exact I1.
Qed.
Print Assumptions C25_withdrawn.

(** ** C27: an update with another router-id that is not feasible unselects the route *)
Theorem C27_unselects : forall c w id d q m iv n nh nb ifp add a r r' s, c_half_life c <> 2 -> reach c w ->
  allowed (EvUpdate (Some id) d q m iv n nh) w ->
  Forall filt_ok (c_infs c) -> dest_ok d ->
  In nb (w_nbs w) -> n_id nb = n -> In ifp (w_ifs w) -> if_id ifp = n_if nb ->
  id <> c_myid c ->
  martian_prefix (d_prefix d) (d_plen d) = false -> martian_prefix (d_src d) (d_splen d) = false ->
  v4mapped (d_prefix d) = v4mapped (d_src d) ->
  chain_spec 0 (c_infs c) (Some id) d (Some (n_addr nb)) (if_ifindex ifp) 0 add a -> add < 65535 ->
  is_selected w d r -> r_neigh r = n -> id <> k_id (r_src r) ->
  In s (w_srcs w) -> dest_of_key (s_key s) = d -> k_id (s_key s) = id -> ~ feas_cond (now_s w) s q m ->
  is_selected (run1 (EvUpdate (Some id) d q m iv n nh) w) d r' -> r_neigh r' <> n.
Proof.
  intros c w id d q m iv n nh nb ifp add a r r' s Hl R A Fo Do Hnb Nid Hif Iid I1 M1 M2 V Ch Ad Sl Nr Ni Hs Ds Is Nf Sl'.
  assert (R' : reach c (run1 (EvUpdate (Some id) d q m iv n nh) w)) by (apply reach_run; auto).
  destruct (update_env c w (Some id) d q m iv n nh nb ifp add a Hl R A Fo Do Hnb Nid Hif Iid Ch) as (Nb & Inp).
  destruct (reach_W c w Hl R) as (Hw & Ec). destruct (reach_W c _ Hl R') as (Hw' & _). pose proof (reach_rng c w Hl R) as G.
  pose proof A as (A1 & A2 & A3 & A4). cbn [run1] in *.
  assert (Ks : s_key s = mkey id d).
  { destruct s as [k ? ? ? ?], k. subst d id. reflexivity. }
  assert (Gs : get_src (mkey id d) (w_srcs w) = Some s).
  { destruct (get_src (mkey id d) (w_srcs w)) as [s'|] eqn:E.
    - apply get_src_In in E. destruct E as (E1 & E2). f_equal. eapply src_unique; eauto; [apply (W_srcs _ _ Hw)|congruence].
    - exfalso. assert (K : get_src (mkey id d) (w_srcs w) <> None) by (apply get_src_keys; rewrite <- Ks; apply in_map; auto). auto. }
  assert (Uf : update_feasible (sec w) (Some s) q m = false).
  { apply not_true_is_false. intros E. apply feasible_iff in E; auto. apply (rg_srcs _ G); auto. }
  assert (P : r_ptr r' <> r_ptr r).
  { apply (update_unselects [] w id d q m iv n nh r r' s nb ifp); auto; try (simpl; lia).
    - rewrite Inp. exact Ad.
    - rewrite Ec. exact I1. }
  intros N'. apply P.
  destruct (update_recorded c w (Some id) d q m iv n nh nb ifp add a Hl R A Fo Do Hnb Nid Hif Iid
    ltac:(congruence) ltac:(discriminate) M1 M2 V Ch Ad) as (_ & _ & _ & U).
  destruct Sl as (Hr & _ & Dr). destruct Sl' as (Hr' & _ & Dr').
  destruct (U r' Hr' (conj Dr' N')) as (_ & _ & _ & _ & U1 & _). apply (U1 r Hr (conj Dr Nr)).
Qed.
Print Assumptions C27_unselects.

(** ** The exception: the destination is also redistributed
    With allow-duplicates, a learned route may be selected beside a redistributed one, and
    is what the neighbours are told about when the latter's metric exceeds the kernel
    metric.  When the selected route is flushed while an alternative exists, the search
    stops at the redistributed route: nothing is selected, nothing is announced. *)
Definition l_conf : conf :=
  mkConf [1;1;1;1;1;1;1;1] 100 false 100 4 [] []
    (finalise_redistribute
      [mkFilt 0 None None (Some (mapped 10 9 0 0, 112)) 0 128 None 0 128 None 0 (mkRes 128 None 0 None)])
    (finalise_install []) 254 2000 true.
Definition l_boot : world := boot l_conf (mkTv 1000 0) [x_if 1; x_if 2] 17.
Definition l_evs : list event := x_up ++
  [EvUpdate (Some (x_id 7)) (xd 9) 40 300 1600 1 (x_nh 51);
   EvClock (mkTv 1003 0); EvFlushUpdates 1; EvFlushUpdates 2;
   EvUpdate (Some (x_id 7)) (xd 9) 40 100 1600 2 (x_nh 52);
   EvClock (mkTv 1030 0);
   EvUpdate (Some (x_id 7)) (xd 9) 40 100 1600 2 (x_nh 52);
   EvKernel true (mkKr (xd 9) 0 3 4); EvClock (mkTv 1032 0); EvFlushUpdates 1; EvFlushUpdates 2].
Definition l_w : world := run l_evs l_boot.
Definition l_w' : world := flush_route 1 l_w.
Lemma l_reach : reach l_conf l_w.
Proof.
  apply reach_list; [|vm_compute; reflexivity].
  apply reach_boot; [repeat constructor; simpl; lia| |unfold tv_ok; simpl; lia|unfold u16_ok; simpl; lia].
  repeat constructor; simpl; lia.
Qed.
Lemma l_hl : c_half_life l_conf <> 2. Proof. simpl. lia. Qed.
Lemma l_R : map (fun r => (r_ptr r, dest_of r, r_installed r, route_metric r, acceptable r true None l_w)) (all_routes l_w) =
  [(1, xd 9, true, 396, true); (2, xd 9, false, 228, true)].
Proof. vm_compute. reflexivity. Qed.
Lemma l_R' : map r_installed (all_routes l_w') = [false]. Proof. vm_compute. reflexivity. Qed.
Lemma l_P : map if_pend (w_ifs l_w) = [[]; []]. Proof. vm_compute. reflexivity. Qed.
Lemma l_P' : map if_pend (w_ifs l_w') = [[]; []]. Proof. vm_compute. reflexivity. Qed.
Lemma l_U : forallb if_up (w_ifs l_w) = true. Proof. vm_compute. reflexivity. Qed.
Lemma l_O : w_out l_w' = w_out l_w. Proof. vm_compute. reflexivity. Qed.
Lemma l_K : length (w_ktr l_w') = S (length (w_ktr l_w)) /\ nth_error (w_ktr l_w') (length (w_ktr l_w)) <> None /\
  forallb (fun e => match e with KAdd _ rc | KDel _ rc => rc =? 0 | KFail _ _ => false end) (w_ktr l_w') = true.
Proof. split; [vm_compute; reflexivity|split; [vm_compute; discriminate|vm_compute; reflexivity]]. Qed.
(** The last thing the neighbours were told *)
Lemma l_T : skipn 2 (w_out l_w) = [(BIf 1, TUpdate (x_id 7) (xd 9) 40 396 160); (BIf 2, TUpdate (x_id 7) (xd 9) 40 396 160)].
Proof. vm_compute. reflexivity. Qed.

Lemma l_general : forall c w w', c_half_life c <> 2 -> reach c w -> flush_route 1 w = w' ->
  map (fun r => (r_ptr r, dest_of r, r_installed r, route_metric r, acceptable r true None w)) (all_routes w) =
    [(1, xd 9, true, 396, true); (2, xd 9, false, 228, true)] ->
  map r_installed (all_routes w') = [false] -> map if_pend (w_ifs w) = [[]; []] -> map if_pend (w_ifs w') = [[]; []] ->
  forallb if_up (w_ifs w) = true -> w_out w' = w_out w ->
  forallb (fun e => match e with KAdd _ rc | KDel _ rc => rc =? 0 | KFail _ _ => false end) (w_ktr w') = true ->
  skipn 2 (w_out w) = [(BIf 1, TUpdate (x_id 7) (xd 9) 40 396 160); (BIf 2, TUpdate (x_id 7) (xd 9) 40 396 160)] ->
  exists c w d r r1, c_half_life c <> 2 /\ reach c w /\ is_selected w d r /\ finite r /\ queues_fine w /\
  (exists i, In i (w_ifs w) /\ if_up i = true) /\
  In r1 (all_routes w) /\ r1 <> r /\ dest_of r1 = d /\ eligible w true None r1 /\ finite r1 /\
  (exists out, w_out w = out ++ [(BIf 1, TUpdate (x_id 7) d 40 396 160); (BIf 2, TUpdate (x_id 7) d 40 396 160)]) /\
  let w' := flush_route (r_ptr r) w in
  (forall r', ~ is_selected w' d r') /\ ~ krefused w w' /\ w_out w' = w_out w /\ forall ifp d', ~ pending w' ifp d'.
Proof.
  intros c w w' Hl R E' Rs Rs' Ps Ps' Us Os Ks Ts. destruct (reach_W _ _ Hl R) as (Hw & _). pose proof (reach_rng _ _ Hl R) as G.
  assert (Ne : all_routes w <> []) by (intros E; rewrite E in Rs; discriminate Rs).
  destruct (all_routes w) as [|r [|r1 [|r2 l]]] eqn:Er; try discriminate Rs.
  assert (E1 : (r_ptr r, dest_of r, r_installed r, route_metric r, acceptable r true None w) = (1, xd 9, true, 396, true))
    by exact (f_equal (hd (0, xd 9, false, 0, false)) Rs).
  assert (E2 : (r_ptr r1, dest_of r1, r_installed r1, route_metric r1, acceptable r1 true None w) = (2, xd 9, false, 228, true))
    by exact (f_equal (fun l => hd (0, xd 9, false, 0, false) (tl l)) Rs).
  assert (P1 : r_ptr r = 1) by exact (f_equal (fun x => fst (fst (fst (fst x)))) E1).
  assert (P2 : r_ptr r1 = 2) by exact (f_equal (fun x => fst (fst (fst (fst x)))) E2).
  assert (D1 : dest_of r = xd 9) by exact (f_equal (fun x => snd (fst (fst (fst x)))) E1).
  assert (D2 : dest_of r1 = xd 9) by exact (f_equal (fun x => snd (fst (fst (fst x)))) E2).
  assert (I1 : r_installed r = true) by exact (f_equal (fun x => snd (fst (fst x))) E1).
  assert (M1 : route_metric r = 396) by exact (f_equal (fun x => snd (fst x)) E1).
  assert (M2 : route_metric r1 = 228) by exact (f_equal (fun x => snd (fst x)) E2).
  assert (A2 : acceptable r1 true None w = true) by exact (f_equal snd E2).
  assert (Hr : In r (all_routes w)) by (rewrite Er; simpl; auto).
  assert (Hr1 : In r1 (all_routes w)) by (rewrite Er; simpl; auto).
  exists c, w, (xd 9), r, r1. split; [exact Hl|]. split; [exact R|]. split; [exact (conj Hr (conj I1 D1))|].
  split; [change (route_metric r < 65535); lia|]. split.
  { intros i Hi. apply (in_map if_pend) in Hi. rewrite Ps in Hi. destruct Hi as [Hi|[Hi|[]]]; rewrite <- Hi; constructor. }
  split.
  { destruct (w_ifs w) as [|i l]; [discriminate Ps|]. exists i. split; [left; reflexivity|]. rewrite forallb_forall in Us. apply Us. left. reflexivity. }
  split; [exact Hr1|]. split; [intros E; rewrite E, P1 in P2; discriminate P2|]. split; [exact D2|].
  split; [apply (eligible_iff [] w r1 true None Hw G Hr1); exact A2|]. split; [change (route_metric r1 < 65535); lia|].
  split; [exists (firstn 2 (w_out w)); rewrite <- Ts; symmetry; apply firstn_skipn|].
  cbv zeta. rewrite P1, E'. split; [|split; [|split]].
  - intros r' (H' & I' & _). apply (in_map r_installed) in H'. rewrite Rs', I' in H'. destruct H' as [H'|[]]. discriminate H'.
  - intros (k & ev & Ek & Hk & Fk). rewrite forallb_forall in Ks. specialize (Ks ev). rewrite Ek in Ks.
    assert (B := Ks ltac:(apply in_or_app; auto)). destruct ev; cbn in Fk; try discriminate B; lia.
  - exact Os.
  - intros ifp d' (i & Hi & _ & Hd). apply (in_map if_pend) in Hi. rewrite Ps' in Hi.
    destruct Hi as [Hi|[Hi|[]]]; rewrite <- Hi in Hd; destruct Hd.
Qed.
Theorem C25_redistributed_refuted : exists c w d r r1, c_half_life c <> 2 /\ reach c w /\ is_selected w d r /\ finite r /\ queues_fine w /\
  (exists i, In i (w_ifs w) /\ if_up i = true) /\
  In r1 (all_routes w) /\ r1 <> r /\ dest_of r1 = d /\ eligible w true None r1 /\ finite r1 /\
  (exists out, w_out w = out ++ [(BIf 1, TUpdate (x_id 7) d 40 396 160); (BIf 2, TUpdate (x_id 7) d 40 396 160)]) /\
  let w' := flush_route (r_ptr r) w in
  (forall r', ~ is_selected w' d r') /\ ~ krefused w w' /\ w_out w' = w_out w /\ forall ifp d', ~ pending w' ifp d'.
Proof. exact (l_general l_conf l_w l_w' l_hl l_reach eq_refl l_R l_R' l_P l_P' l_U l_O (proj2 (proj2 l_K)) l_T). Qed.
Print Assumptions C25_redistributed_refuted.

(** ** Examples *)
(** In [x_w2], 10.1.0.0/16 is selected via neighbour 2 with an alternative via neighbour 1;
    10.2.0.0/16 has one route; neither is redistributed; the queues are fine. *)
Example C25_ex : reach x_conf x_w2 /\ map x_dest (w_xr x_w2) = [xd 9] /\
  map (fun r => (r_ptr r, dest_of r, r_neigh r, r_installed r, route_metric r)) (all_routes x_w2) =
    [(3, xd 1, 2, true, 228); (1, xd 1, 1, false, 396); (2, xd 2, 1, true, 96)] /\
  map (fun i => forallb dvalidb (if_pend i)) (w_ifs x_w2) = [true; true].
Proof. split; [apply x_reach2|]. split; [|split]; vm_compute; reflexivity. Qed.
(** Flushing the first selects the alternative; flushing the second sends a request
    on both interfaces. *)
Example C25_ex_flush :
  map (fun r => (r_ptr r, r_installed r)) (all_routes (flush_route 3 x_w2)) = [(1, true); (2, true)] /\
  map (fun r => (r_ptr r, r_installed r)) (all_routes (flush_route 2 x_w2)) = [(3, true); (1, false)] /\
  skipn (length (w_out x_w2)) (w_out (flush_route 2 x_w2)) =
    [(BIf 1, TMhRequest (xd 2) 51 127 (x_id 8)); (BIf 2, TMhRequest (xd 2) 51 127 (x_id 8))].
Proof. split; [|split]; vm_compute; reflexivity. Qed.
Example C25_ex_retracted :
  map (fun r => (r_ptr r, r_installed r, route_metric r)) (all_routes (retract1 3 x_w2)) =
    [(1, true, 396); (3, false, 65535); (2, true, 96)].
Proof. vm_compute. reflexivity. Qed.
Example C25_ex_withdrawn :
  allowedb (EvUpdate (Some (x_id 7)) (xd 1) 40 65535 1600 2 (x_nh 52)) x_w2 = true /\
  map (fun r => (r_ptr r, r_installed r, route_metric r))
    (all_routes (run1 (EvUpdate (Some (x_id 7)) (xd 1) 40 65535 1600 2 (x_nh 52)) x_w2)) =
    [(1, true, 396); (3, false, 65535); (2, true, 96)].
Proof. split; vm_compute; reflexivity. Qed.
(** Neighbour 2 reports that it does not hear us. *)
Example C25_ex_metric : let w := run [EvIhu 2 65535 1200] x_w2 in
  map (fun r => (r_ptr r, r_installed r, route_metric r)) (all_routes (update_route_metric 3 w)) =
    [(1, true, 396); (3, false, 65535); (2, true, 96)].
Proof. vm_compute. reflexivity. Qed.

(** Neighbour 1, whose route with router-id 9 is selected, announces router-id 7 with a
    metric above the feasibility distance (40, 396). *)
Definition u_evs : list event :=
  [EvUpdate (Some (x_id 9)) (xd 1) 40 100 1600 1 (x_nh 51); EvFlushUpdates 1; EvFlushUpdates 2;
   EvUpdate (Some (x_id 9)) (xd 1) 40 65535 1600 2 (x_nh 52); EvClock (mkTv 1062 0); EvFlushUpdates 1; EvFlushUpdates 2;
   EvUpdate (Some (x_id 7)) (xd 1) 41 100 1600 2 (x_nh 52)].
Definition u_w : world := run u_evs x_w2.
Lemma u_reach : reach x_conf u_w.
Proof. apply reach_list; [apply x_reach2|]. vm_compute. reflexivity. Qed.
Example C27_ex :
  map (fun r => (r_neigh r, dest_of r, r_installed r, k_id (r_src r))) (all_routes u_w) =
    [(1, xd 1, true, x_id 9); (2, xd 1, false, x_id 7); (1, xd 2, true, x_id 8)] /\
  map (fun s => (k_id (s_key s), dest_of_key (s_key s), s_seqno s, s_metric s)) (w_srcs u_w) =
    [(x_id 7, xd 1, 40, 396); (x_id 8, xd 2, 50, 96); (x_id 9, xd 1, 40, 196)] /\
  allowedb (EvUpdate (Some (x_id 7)) (xd 1) 40 500 1600 1 (x_nh 51)) u_w = true /\
  map (fun r => (r_neigh r, dest_of r, r_installed r, k_id (r_src r)))
    (all_routes (run1 (EvUpdate (Some (x_id 7)) (xd 1) 40 500 1600 1 (x_nh 51)) u_w)) =
    [(2, xd 1, true, x_id 7); (1, xd 1, false, x_id 7); (1, xd 2, true, x_id 8)].
Proof. split; [|split; [|split]]; vm_compute; reflexivity. Qed.

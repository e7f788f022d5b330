(** L_World3.v: updates that are ignored, and removal of neighbours and interfaces. *)
From Coq Require Import Sorting.Permutation.
From Verif Require Import Base M_Util M_Slot M_Source M_Filter M_Types M_Neigh M_State M_Table M_Msg
  M_Route S_Util S_Source S_Filter S_Neigh S_World M_Xroute M_Daemon L_Util L_Source L_Slot L_Filter L_Table L_Step L_Quiet
  L_Select L_Select2 L_Flush L_Update2 L_Daemon L_Inv L_World L_World2.

Lemma update_ignored : forall id d q m iv n nh w nb i,
  nb_if n w = Some (nb, i) -> Forall filt_ok (c_infs (w_cfg w)) -> dest_ok d ->
  (id = Some (c_myid (w_cfg w)) \/ (id = None /\ m < 65535) \/
   martian_prefix (d_prefix d) (d_plen d) = true \/ martian_prefix (d_src d) (d_splen d) = true \/
   v4mapped (d_prefix d) <> v4mapped (d_src d) \/
   (exists a, first_match (c_infs (w_cfg w)) id d (Some (n_addr nb)) (if_ifindex i) 0 (Some a) /\ fr_add_metric a = 65535)) ->
  update_route id d q m iv n nh w = w.
Proof.
  intros id d q m iv n nh w nb i N Fo Do H. unfold update_route. cbv zeta.
  destruct (match id with None => m <? INFINITY | Some x => beq x (c_myid (w_cfg w)) end) eqn:E1; auto.
  destruct (martian_prefix (d_prefix d) (d_plen d) || martian_prefix (d_src d) (d_splen d)) eqn:E2; auto.
  destruct (negb (eqb (v4mapped (d_prefix d)) (v4mapped (d_src d)))) eqn:E3; auto. rewrite N.
  destruct H as [H|[(H & Hm)|[H|[H|[H|H]]]]].
  - subst. rewrite beq_refl in E1. discriminate.
  - subst. unfold INFINITY in E1. lia.
  - rewrite H in E2. discriminate.
  - rewrite H, orb_true_r in E2. discriminate.
  - destruct (v4mapped (d_prefix d)), (v4mapped (d_src d)); cbn in E3; congruence.
  - destruct H as (a & M & A).
    destruct (input_chain (c_infs (w_cfg w)) id d (Some (n_addr nb)) (if_ifindex i) Fo Do) as (r & [(a' & M' & R & _)|(M' & _)]).
    + assert (a' = a) by (pose proof (first_match_det _ _ _ _ _ _ _ _ M M'); congruence). subst a'.
      rewrite R, A. reflexivity.
    + pose proof (first_match_det _ _ _ _ _ _ _ _ M M'). discriminate.
Qed.

Lemma through_if_iff : forall e w i r, W e w -> through_if i w r = true <-> via_if w i r.
Proof.
  intros e w i r Hw. unfold through_if, via_if. split.
  - destruct (get_nb (r_neigh r) w) as [n|] eqn:G; [|discriminate]. intros H. unfold get_nb in G. apply find_some in G.
    destruct G as (Hn & E). exists n. split; auto. lia.
  - intros (n & Hn & E & I). destruct (get_nb (r_neigh r) w) as [n'|] eqn:G.
    + unfold get_nb in G. apply find_some in G. destruct G as (Hn' & E').
      assert (n' = n). { eapply NoDup_map_inj with (f := n_id); eauto; [apply (W_nbs _ _ Hw)|lia]. }
      subst. lia.
    + unfold get_nb in G. apply (find_none _ _ G) in Hn. lia.
Qed.

Lemma kept_by_core : forall (w w' : world) (f : route -> bool),
  Permutation (map core (all_routes w')) (map core (filter f (all_routes w))) ->
  (forall r', In r' (all_routes w') -> exists r, In r (all_routes w) /\ f r = true /\ core r' = core r) /\
  (forall r, In r (all_routes w) -> f r = true -> exists r', In r' (all_routes w') /\ core r' = core r).
Proof.
  intros w w' f P. split.
  - intros r' H. apply (in_map core) in H. apply (Permutation_in _ P) in H. apply in_map_iff in H.
    destruct H as (r & E & H). apply filter_In in H. exists r. destruct H. auto.
  - intros r H F. assert (K : In (core r) (map core (all_routes w'))).
    { eapply Permutation_in; [symmetry; exact P|]. apply in_map. apply filter_In. auto. }
    apply in_map_iff in K. destruct K as (r' & E & K). eauto.
Qed.

Lemma core_same_route : forall r r', core r' = core r -> same_route r r'.
Proof. intros r r' C. destruct r, r'. cbn in *. inversion C; subst. repeat split. Qed.

Lemma neighbour_gone : forall c w n, c_half_life c <> 2 -> reach c w ->
  let w' := flush_neighbour n w in
  (forall r, In r (all_routes w') -> r_neigh r <> n) /\ (forall x, In x (w_nbs w') -> n_id x <> n) /\
  (forall r, In r (all_routes w) -> r_neigh r <> n -> exists r', In r' (all_routes w') /\ same_route r r') /\
  (forall x, In x (w_nbs w) -> n_id x <> n -> In x (w_nbs w')).
Proof.
  intros c w n H R. destruct (reach_W c w H R) as (Hw & _). cbv zeta.
  destruct (flush_neighbour_spec [] w n Hw) as (C & P & N & _). destruct (kept_by_core _ _ _ P) as (A & B).
  split; [|split; [|split]].
  - intros r Hr. destruct (A r Hr) as (r0 & _ & E & Cr). apply core_same_route in Cr. destruct Cr as (_ & _ & Cr & _). rewrite Cr. lia.
  - intros x Hx. rewrite N in Hx. apply filter_In in Hx. lia.
  - intros r Hr E. destruct (B r Hr) as (r' & Hr' & Cr); [lia|]. exists r'. split; auto. apply core_same_route; auto.
  - intros x Hx E. rewrite N. apply filter_In. split; auto. lia.
Qed.

Lemma interface_gone : forall c w i, c_half_life c <> 2 -> reach c w ->
  let w' := flush_interface_routes i false w in
  (forall r, In r (all_routes w') -> ~ via_if w' i r) /\ w_nbs w' = w_nbs w /\
  (forall r, In r (all_routes w) -> ~ via_if w i r -> exists r', In r' (all_routes w') /\ same_route r r').
Proof.
  intros c w i H R. destruct (reach_W c w H R) as (Hw & _). cbv zeta.
  destruct (flush_interface_routes_spec [] w i false Hw) as (C & Ev & P). destruct (kept_by_core _ _ _ P) as (A & B).
  pose proof (ev_nbs _ _ Ev) as N.
  split; [|split; auto].
  - intros r Hr V. destruct (A r Hr) as (r0 & _ & E & Cr). apply core_same_route in Cr. destruct Cr as (_ & _ & Cr & _).
    cbn [negb orb] in E. rewrite andb_true_r in E. apply negb_true_iff in E.
    assert (via_if w i r0) by (unfold via_if in *; rewrite N, Cr in V; auto).
    apply (through_if_iff [] w i r0 Hw) in H0. congruence.
  - intros r Hr V. destruct (B r Hr) as (r' & Hr' & Cr).
    + cbn [negb orb]. rewrite andb_true_r. apply negb_true_iff. destruct (through_if i w r) eqn:T; auto.
      exfalso. apply V. apply (through_if_iff [] w i r Hw). auto.
    + exists r'. split; auto. apply core_same_route; auto.
Qed.

(** Shutdown empties the route table. *)
Lemma shutdown_empty : forall c w, c_half_life c <> 2 -> reach c w -> all_routes (flush_all_routes w) = [].
Proof.
  intros c w H R. destruct (reach_W c w H R) as (Hw & _). destruct (flush_all_spec (length (w_rt w)) [] w Hw eq_refl) as (_ & E).
  unfold all_routes, flush_all_routes in *. rewrite E. reflexivity.
Qed.

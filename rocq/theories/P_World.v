(** P_World.v: property theorems about all executions of the daemon: C05 (tables),
    C19 (selection), C20, C21, C23, C24, C26, C31.

    The hypothesis [c_half_life c <> 2] excludes the configuration for which the
    smoothing of metrics may overflow (see C29). *)
From Coq Require Import Sorting.Sorted Sorting.Permutation.
From Verif Require Import Base M_Util M_Slot M_Source M_Filter M_Types M_Neigh M_State M_Table M_Msg
  M_Route S_Util S_Source S_Filter S_Neigh S_World M_Xroute M_Daemon L_Update2 L_Daemon L_Inv L_World L_World2 L_World3
  L_Util X_Run.

(** C05: no learned route is for a martian destination or source prefix, and no
    redistributed route for a martian destination, in any reachable state. *)
Theorem C05_no_martian_learned : forall c w r, c_half_life c <> 2 -> reach c w -> In r (all_routes w) ->
  martian_prefix (d_prefix (dest_of r)) (d_plen (dest_of r)) = false /\
  martian_prefix (d_src (dest_of r)) (d_splen (dest_of r)) = false.
Proof. exact (fun c w r H R I => match reach_admissible c w H R r I with conj a (conj b _) => conj a b end). Qed.
Print Assumptions C05_no_martian_learned.

Theorem C05_no_martian_redistributed : forall c w x, c_half_life c <> 2 -> reach c w -> In x (w_xr w) ->
  martian_prefix (d_prefix (x_dest x)) (d_plen (x_dest x)) = false.
Proof. exact (fun c w x H R I => reach_xr c w H R x I). Qed.
Print Assumptions C05_no_martian_redistributed.

Example C05_ex2 : reach x_conf x_w /\ length (all_routes x_w) = 3%nat /\ length (w_xr x_w) = 1%nat.
Proof. split; [exact x_reach|]. split; vm_compute; reflexivity. Qed.

(** C19: after any event in any reachable state, a selected route was already
    selected before, or its selection during the event was legitimate: the route was
    feasible at that moment (and better than the one it replaced). *)
Theorem C19_selected_only_if_feasible : forall c w ev, c_half_life c <> 2 -> reach c w -> allowed ev w ->
  exists l, w_sel (run1 ev w) = w_sel w ++ l /\ Forall sel_fine l /\
    forall r, In r (all_routes (run1 ev w)) -> r_installed r = true ->
      (exists r0, In r0 (all_routes w) /\ r_ptr r0 = r_ptr r /\ r_installed r0 = true) \/
      (exists e, In e l /\ r_ptr (e_new e) = r_ptr r).
Proof. exact selected_feasible. Qed.
Print Assumptions C19_selected_only_if_feasible.

(** A candidate that is selected by route selection is feasible. *)
Theorem C19_candidate_feasible : forall c w p r r', c_half_life c <> 2 -> reach c w ->
  find_ptr p w = Some r -> r_installed r = false ->
  In r' (all_routes (consider_route p w)) -> r_ptr r' = p -> r_installed r' = true -> feasible_in w r.
Proof.
  exact (fun c w p r r' H R F I => proj1 (considered [] w p r (proj1 (reach_W c w H R)) (reach_rng c w H R) F I) r').
Qed.
Print Assumptions C19_candidate_feasible.

Example C19_ex2 : reach x_conf x_w2 /\
  map (fun e => (r_ptr (e_new e), option_map r_ptr (e_old e))) (w_sel x_w2) = [(1, None); (2, None); (3, Some 1)] /\
  allowed (EvUpdate (Some (x_id 7)) (xd 1) 40 100 1600 2 (x_nh 52)) (run [EvClock (mkTv 1060 0)] x_w).
Proof. split; [exact x_reach2|]. split; [vm_compute; reflexivity|]. apply allowedb_ok. vm_compute. reflexivity. Qed.

(** C20: references to sources, neighbours and interfaces, in every reachable state.
    [w_bad] is the mark left by any use of a dangling reference. *)
Theorem C20_references_live : forall c w, c_half_life c <> 2 -> reach c w ->
  (forall s, In s (w_srcs w) -> s_count s = Z.of_nat (users (s_key s) w)) /\
  (forall r, In r (all_routes w) -> exists s, In s (w_srcs w) /\ s_key s = r_src r) /\
  (forall r, In r (all_routes w) -> exists n, In n (w_nbs w) /\ n_id n = r_neigh r) /\
  (forall n, In n (w_nbs w) -> exists i, In i (w_ifs w) /\ if_id i = n_if n) /\
  (forall r i, In r (w_rsd w) -> rs_ifp r = Some i -> exists x, In x (w_ifs w) /\ if_id x = i) /\
  w_bad w = false.
Proof. exact refs_ok. Qed.
Print Assumptions C20_references_live.

Theorem C20_expire_only_unused : forall w s, In s (w_srcs w) ->
  ~ In (s_key s) (map s_key (w_srcs (run1 EvExpireSources w))) ->
  s_count s = 0 /\ Z.min (s_time s) (now_s w) < now_s w - 200.
Proof. exact expire_unused. Qed.
Print Assumptions C20_expire_only_unused.

Example C20_ex : map s_count (w_srcs x_w) = [2; 1] /\
  map (fun s => (users (s_key s) x_w)) (w_srcs x_w) = [2%nat; 1%nat] /\
  (let w := run [EvFlushAll; EvClock (mkTv 1204 0)] x_w in
   length (w_srcs w) = 2%nat /\ w_srcs (run1 EvExpireSources w) = []).
Proof. repeat split; vm_compute; reflexivity. Qed.

(** C21: shape of the route table in every reachable state. *)
Theorem C21_table_wellformed : forall c w, c_half_life c <> 2 -> reach c w ->
  StronglySorted (fun l l' => forall r r', In r l -> In r' l' -> dest_before (dest_of r) (dest_of r')) (w_rt w) /\
  Forall slot_wf (w_rt w) /\
  (forall d r r', is_selected w d r -> is_selected w d r' -> r = r') /\
  (forall d r, dvalid d -> find_installed d w = Some r <-> is_selected w d r).
Proof. exact table_wf. Qed.
Print Assumptions C21_table_wellformed.
Example C21_ex : reach x_conf x_w2 /\ map (map r_ptr) (w_rt x_w2) = [[3; 1]; [2]] /\
  option_map r_ptr (find_installed (xd 1) x_w2) = Some 3 /\ dvalid (xd 1).
Proof.
  split; [exact x_reach2|]. split; [vm_compute; reflexivity|]. split; [vm_compute; reflexivity|].
  apply dvalidb_ok. reflexivity.
Qed.

(** C23: the search for the best route.  It may bring smoothed metrics up to date
    ([same_routes]: nothing else changes). *)
Theorem C23_best_route_minimal : forall c w d feas ex, c_half_life c <> 2 -> reach c w -> dvalid d ->
  match find_best_route d feas ex w with
  | (None, w') => w' = w /\ forall r, In r (all_routes w) -> dest_of r = d -> ~ eligible w feas ex r
  | (Some b, w') =>
      (w_now w' = w_now w /\ w_srcs w' = w_srcs w /\ w_ktr w' = w_ktr w /\ w_out w' = w_out w /\ same_routes w w') /\
      exists rb, In rb (all_routes w') /\ r_ptr rb = b /\ dest_of rb = d /\ eligible w' feas ex rb /\
        forall r, In r (all_routes w') -> dest_of r = d -> eligible w' feas ex r -> r <> rb ->
          fst (smoothed_metric b w') = r_smoothed rb /\ fst (smoothed_metric (r_ptr r) w') = r_smoothed r /\
          r_smoothed rb <= r_smoothed r
  end.
Proof. exact best_route. Qed.
Print Assumptions C23_best_route_minimal.
Example C23_ex : fst (find_best_route (xd 1) true None x_w2) = Some 3 /\
  fst (find_best_route (xd 1) false (Some 2) x_w2) = Some 1 /\ fst (find_best_route (xd 3) false None x_w2) = None.
Proof. repeat split; vm_compute; reflexivity. Qed.

(** C24: considering a candidate [r] for a destination whose selected route is [i]:
    [i] stays selected, or the candidate is finite, not worse in metric, and
    strictly better in smoothed metric, unless [i] is infinite. *)
Theorem C24_replaced_only_by_better : forall c w p r i, c_half_life c <> 2 -> reach c w ->
  find_ptr p w = Some r -> r_installed r = false -> is_selected w (dest_of r) i ->
  (exists i', is_selected (consider_route p w) (dest_of r) i' /\ r_ptr i' = r_ptr i) \/
  (finite r /\ (finite i -> metric_of r <= metric_of i /\
     exists r' i', In r' (all_routes (consider_route p w)) /\ In i' (all_routes (consider_route p w)) /\
       r_ptr r' = p /\ r_ptr i' = r_ptr i /\ r_smoothed r' < r_smoothed i')).
Proof.
  exact (fun c w p r i H R F I => proj2 (considered [] w p r (proj1 (reach_W c w H R)) (reach_rng c w H R) F I) i).
Qed.
Print Assumptions C24_replaced_only_by_better.

(** The same for every replacement in the whole execution, whatever caused it. *)
Theorem C24_every_replacement_fine : forall c w, c_half_life c <> 2 -> reach c w -> Forall sel_fine (w_sel w).
Proof. exact log_fine. Qed.
Print Assumptions C24_every_replacement_fine.
Example C24_ex : map (fun e => match e_old e with
    Some o => (route_metric (e_new e), r_smoothed (e_new e), route_metric o, r_smoothed o) | None => (0,0,0,0) end)
  (w_sel x_w2) = [(0,0,0,0); (0,0,0,0); (228, 264, 396, 423)].
Proof. vm_compute. reflexivity. Qed.

(** C26 *)
Theorem C26_ignored_updates : forall id d q m iv n nh w nb i,
  nb_if n w = Some (nb, i) -> Forall filt_ok (c_infs (w_cfg w)) -> dest_ok d ->
  (id = Some (c_myid (w_cfg w)) \/ (id = None /\ m < 65535) \/
   martian_prefix (d_prefix d) (d_plen d) = true \/ martian_prefix (d_src d) (d_splen d) = true \/
   v4mapped (d_prefix d) <> v4mapped (d_src d) \/
   (exists a, first_match (c_infs (w_cfg w)) id d (Some (n_addr nb)) (if_ifindex i) 0 (Some a) /\ fr_add_metric a = 65535)) ->
  run1 (EvUpdate id d q m iv n nh) w = w.
Proof. exact update_ignored. Qed.
Print Assumptions C26_ignored_updates.

(** A denied prefix (10.7.0.0/16), our own router-id, a martian prefix. *)
Example C26_ex : (exists nb i, nb_if 1 x_w = Some (nb, i) /\ first_match (c_infs x_conf) (Some (x_id 7)) (xd 7) (Some (n_addr nb)) (if_ifindex i) 0 (Some (mkRes INFINITY None 0 None))) /\ Forall filt_ok (c_infs x_conf) /\ dest_ok (xd 7) /\ martian_prefix (mapped 127 1 0 0) 112 = true.
Proof.
  split; [|split; [|split]].
  - destruct (nb_if 1 x_w) as [[nb i]|] eqn:E; [|vm_compute in E; discriminate]. exists nb, i. split; [reflexivity|]. clear E.
    pose (f := mkFilt 0 None None (Some (mapped 10 7 0 0, 112)) 0 128 None 0 128 None 0 (mkRes INFINITY None 0 None)).
    change (Some (mkRes INFINITY None 0 None)) with (Some (f_action f)).
    apply fm_some with (fs1 := []) (fs2 := []); [reflexivity|intros g []|].
    constructor; cbn; try discriminate; try lia; try (split; discriminate).
    intros p l H. inversion H; subst. split; [lia|]. intros k Hk. reflexivity.
  - constructor; [|constructor]. split; [left; reflexivity|]. split.
    { intros p l H. cbn in H. injection H as <- <-. split; [|lia]. split; [reflexivity|].
      repeat constructor; unfold byte_ok; lia. }
    split; [cbn; discriminate|]. cbn. unfold INFINITY. lia.
  - unfold dest_ok, addr_ok. cbn. repeat split; try lia; repeat constructor; unfold byte_ok; lia.
  - reflexivity.
Qed.

(** C31 *)
Theorem C31_neighbour_removed : forall c w n, c_half_life c <> 2 -> reach c w ->
  let w' := flush_neighbour n w in
  (forall r, In r (all_routes w') -> r_neigh r <> n) /\ (forall x, In x (w_nbs w') -> n_id x <> n) /\
  (forall r, In r (all_routes w) -> r_neigh r <> n -> exists r', In r' (all_routes w') /\ same_route r r') /\
  (forall x, In x (w_nbs w) -> n_id x <> n -> In x (w_nbs w')).
Proof. exact neighbour_gone. Qed.
Print Assumptions C31_neighbour_removed.

Theorem C31_interface_down : forall c w i, c_half_life c <> 2 -> reach c w ->
  let w' := flush_interface_routes i false w in
  (forall r, In r (all_routes w') -> ~ via_if w' i r) /\ w_nbs w' = w_nbs w /\
  (forall r, In r (all_routes w) -> ~ via_if w i r -> exists r', In r' (all_routes w') /\ same_route r r').
Proof. exact interface_gone. Qed.
Print Assumptions C31_interface_down.

(** What is false: removing an interface (flush_interface: the routes through it are
    flushed, then it is freed) leaves neighbours that refer to it. *)
Theorem C31_no_dangling_interface_refuted : exists c w i, c_half_life c <> 2 /\ reach c w /\ let w' := run1 (EvFlushInterface i) (flush_interface_routes i false w) in
  exists n, In n (w_nbs w') /\ n_if n = i /\ forall x, In x (w_ifs w') -> if_id x <> i.
Proof. exact dangling_interface. Qed.
Print Assumptions C31_no_dangling_interface_refuted.

Example C31_ex : reach x_conf x_w2 /\ map r_ptr (all_routes x_w2) = [3; 1; 2] /\ map r_ptr (all_routes (flush_neighbour 1 x_w2)) = [3] /\ map r_ptr (all_routes (flush_interface_routes 2 false x_w2)) = [1; 2].
Proof. split; [exact x_reach2|]. repeat split; vm_compute; reflexivity. Qed.

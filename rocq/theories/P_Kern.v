(** P_Kern.v: updates and the kernel's table (C22, C30, C32, C59). *)
From Verif Require Import Base M_Util M_Filter M_Source M_Types M_Neigh M_State M_Table M_Msg M_Route
  M_Xroute S_Util S_Source S_Filter S_Neigh S_World S_Kern M_Daemon L_World3 L_World4 L_Kern X_Run X_Run2.

(** C22 *)
Theorem C22_kernel_mirrors_selection : forall c w, c_half_life c <> 2 -> static_install c -> filters_ok c -> kreach c w ->
  exists F, kernel_table (w_ktr w) = Some F /\
   forall q, In q F <-> exists r n i, In r (all_routes w) /\ r_installed r = true /\ In n (w_nbs w) /\ n_id n = r_neigh r /\
     In i (w_ifs w) /\ if_id i = n_if n /\ kent c (if_ifindex i) r = Some q.
Proof. exact kernel_mirror. Qed.
Print Assumptions C22_kernel_mirrors_selection.

(** Two routes to two destinations are selected, two entries are in the kernel. *)
Example C22_ex : c_half_life x_conf <> 2 /\ static_install x_conf /\ filters_ok x_conf /\ kreach x_conf x_w2 /\
  map (fun r => (r_ptr r, r_installed r)) (all_routes x_w2) = [(3, true); (1, false); (2, true)] /\
  option_map (map (fun q => (q_table q, q_prefix q, q_plen q, q_prio q, q_via q))) (kernel_table (w_ktr x_w2)) =
    Some [(254, mapped 10 1 0 0, 112, 1024, Some (102, mapped 192 168 0 52, None));
          (254, mapped 10 2 0 0, 112, 1024, Some (101, mapped 192 168 0 51, None))].
Proof.
  split; [apply x_hl|]. split; [apply x_static|]. split; [apply x_filters|]. split; [apply x_kreach2|].
  split; vm_compute; reflexivity.
Qed.

(** What is false without the condition on the install rules: a switch between two
    routes asks for the new entry in the table of the old one. *)
Theorem C22_install_table_refuted : exists c w F r n i q, c_half_life c <> 2 /\ filters_ok c /\ kreach c w /\
  kernel_table (w_ktr w) = Some F /\ In r (all_routes w) /\ r_installed r = true /\
  nb_if (r_neigh r) w = Some (n, i) /\ kent c (if_ifindex i) r = Some q /\ ~ In q F.
Proof. exact wrong_table. Qed.
Print Assumptions C22_install_table_refuted.

(** What is false if an IPv6 destination is announced with an IPv4 next hop: the old
    entry is removed from the kernel, the new one is refused, and the daemon keeps
    the route selected. *)
Theorem C22_next_hop_family_refuted : exists c w r n i q, c_half_life c <> 2 /\ filters_ok c /\ static_install c /\
  reach c w /\ w_kresp w = [] /\ kernel_table (w_ktr w) = Some [] /\ In r (all_routes w) /\ r_installed r = true /\
  nb_if (r_neigh r) w = Some (n, i) /\ kent c (if_ifindex i) r = Some q.
Proof. exact wrong_family. Qed.
Print Assumptions C22_next_hop_family_refuted.

(** C59, and the first part of C30 *)
Theorem C59_update_recorded : forall c w id d q m iv n nh nb ifp add a, c_half_life c <> 2 -> reach c w ->
  allowed (EvUpdate id d q m iv n nh) w ->
  Forall filt_ok (c_infs c) -> dest_ok d ->
  In nb (w_nbs w) -> n_id nb = n -> In ifp (w_ifs w) -> if_id ifp = n_if nb ->
  id <> Some (c_myid c) -> (id = None -> m = 65535) ->
  martian_prefix (d_prefix d) (d_plen d) = false -> martian_prefix (d_src d) (d_splen d) = false ->
  v4mapped (d_prefix d) = v4mapped (d_src d) ->
  chain_spec 0 (c_infs c) id d (Some (n_addr nb)) (if_ifindex ifp) 0 add a -> add < 65535 ->
  recorded id d q m iv n nh (neighbour_cost (w_now w) ifp nb) add w (run1 (EvUpdate id d q m iv n nh) w).
Proof. exact update_recorded. Qed.
Print Assumptions C59_update_recorded.

(** An update for 10.1.0.0/16 from neighbour 2 meets the hypotheses and is recorded
    with link cost 128. *)
Example C59_ex : allowed (EvUpdate (Some (x_id 9)) (xd 1) 41 77 1600 2 (x_nh 60)) x_w2 /\ dest_ok (xd 1) /\
  martian_prefix (d_prefix (xd 1)) (d_plen (xd 1)) = false /\ martian_prefix (d_src (xd 1)) (d_splen (xd 1)) = false /\
  map (fun r => (r_neigh r, r_seqno r, r_refmetric r, r_cost r, route_metric r, k_id (r_src r)))
    (filter (fun r => r_neigh r =? 2) (all_routes (run1 (EvUpdate (Some (x_id 9)) (xd 1) 41 77 1600 2 (x_nh 60)) x_w2))) =
    [(2, 41, 77, 128, 205, x_id 9)].
Proof.
  split; [apply allowedb_ok; vm_compute; reflexivity|]. split.
  { unfold dest_ok, addr_ok. cbn. repeat split; try lia; repeat constructor; unfold byte_ok; lia. }
  split; [reflexivity|]. split; [reflexivity|]. vm_compute. reflexivity.
Qed.

(** C30: the priority of selected routes in the kernel *)
Theorem C30_kernel_priority : forall c w r, c_half_life c <> 2 -> static_install c -> filters_ok c -> kreach c w ->
  c_reflect c = false -> c_kernel_metric c < 65535 -> In r (all_routes w) -> r_installed r = true ->
  0 <= metric_of r <= 65535 /\ metric_of r = Z.min (r_refmetric r + r_cost r + r_add_metric r) 65535 /\
  exists F, kernel_table (w_ktr w) = Some F /\
   (metric_of r < 65535 -> exists q i g, In q F /\ q_prefix q = d_prefix (dest_of r) /\ q_plen q = d_plen (dest_of r) /\
      q_prio q = c_kernel_metric c /\ q_via q = Some (i, r_nexthop r, g)) /\
   (metric_of r = 65535 -> forall q, In q F -> q_prefix q = d_prefix (dest_of r) -> q_plen q = d_plen (dest_of r) ->
      (q_src q = None <-> is_default (d_src (dest_of r)) (d_splen (dest_of r)) = true) ->
      (forall s, q_src q = Some s -> s = (d_src (dest_of r), d_splen (dest_of r))) -> q_via q = None /\ q_prio q = -1).
Proof. exact kernel_priority. Qed.
Print Assumptions C30_kernel_priority.

(** With reflect-kernel-metric, a finite route can get the priority of unreachable
    routes (kernel priority 60000, metric 6000). *)
Theorem C30_reflect_refuted : exists c r, c_reflect c = true /\ c_kernel_metric c < 65535 /\ metric_of r < 65535 /\
  forall i, exists q, kent c i r = Some q /\ q_via q = None.
Proof. exact reflect_saturates. Qed.
Print Assumptions C30_reflect_refuted.

Example C30_ex : kreach x_conf x_w2 /\ c_reflect x_conf = false /\ c_kernel_metric x_conf = 1024 /\
  exists r, In r (all_routes x_w2) /\ r_installed r = true /\ metric_of r = 228.
Proof.
  split; [apply x_kreach2|]. split; [reflexivity|]. split; [reflexivity|].
  destruct (all_routes x_w2) as [|r l] eqn:E; [vm_compute in E; discriminate|]. exists r. split; [left; auto|].
  assert (X : map (fun r => (r_installed r, metric_of r)) (all_routes x_w2) = [(true, 228); (false, 396); (true, 96)]) by (vm_compute; reflexivity).
  rewrite E in X. cbn [map] in X. inversion X. auto.
Qed.

(** C32 *)
Theorem C32_shutdown_table_empty : forall c w, c_half_life c <> 2 -> reach c w -> all_routes (flush_all_routes w) = [].
Proof. exact shutdown_empty. Qed.
Print Assumptions C32_shutdown_table_empty.
Theorem C32_shutdown_kernel_empty : forall c w, c_half_life c <> 2 -> static_install c -> filters_ok c -> kreach c w ->
  kernel_table (w_ktr (flush_all_routes w)) = Some [].
Proof. exact kernel_shutdown. Qed.
Print Assumptions C32_shutdown_kernel_empty.
Example C32_ex : kreach x_conf x_w2 /\ length (w_ktr x_w2) = 4%nat /\ length (w_ktr (flush_all_routes x_w2)) = 6%nat.
Proof. split; [apply x_kreach2|]. split; vm_compute; reflexivity. Qed.

(** C27: false as stated; the positive part is C05 and C21. *)
Theorem C27_selected_unfeasible_refuted : exists c w r, c_half_life c <> 2 /\ reach c w /\ In r (all_routes w) /\
  r_installed r = true /\ ~ feasible_in w r.
Proof. exact unfeasible_selected. Qed.
Print Assumptions C27_selected_unfeasible_refuted.

(** C28: the next hop of a route is that of the update that created it; an update for a
    known route never changes it. *)
Theorem C28_next_hop_of_creation : forall c w id d q m iv n nh nb ifp add a, c_half_life c <> 2 -> reach c w ->
  allowed (EvUpdate id d q m iv n nh) w ->
  Forall filt_ok (c_infs c) -> dest_ok d ->
  In nb (w_nbs w) -> n_id nb = n -> In ifp (w_ifs w) -> if_id ifp = n_if nb ->
  id <> Some (c_myid c) -> (id = None -> m = 65535) ->
  martian_prefix (d_prefix d) (d_plen d) = false -> martian_prefix (d_src d) (d_splen d) = false ->
  v4mapped (d_prefix d) = v4mapped (d_src d) ->
  chain_spec 0 (c_infs c) id d (Some (n_addr nb)) (if_ifindex ifp) 0 add a -> add < 65535 ->
  let w' := run1 (EvUpdate id d q m iv n nh) w in
  forall r', In r' (all_routes w') -> dest_of r' = d -> r_neigh r' = n ->
    (exists r, In r (all_routes w) /\ r_ptr r = r_ptr r' /\ r_nexthop r = r_nexthop r') \/
    ((forall r, In r (all_routes w) -> dest_of r = d -> r_neigh r <> n) /\ nh = Some (r_nexthop r')).
Proof. exact next_hop_of_creation. Qed.
Print Assumptions C28_next_hop_of_creation.
Theorem C28_most_recent_refuted : exists c w id d q m iv n nh r, c_half_life c <> 2 /\ reach c w /\
  allowed (EvUpdate id d q m iv n (Some nh)) w /\ m < 65535 /\
  let w' := run1 (EvUpdate id d q m iv n (Some nh)) w in
  w_kresp w' = [] /\ In r (all_routes w') /\ dest_of r = d /\ r_neigh r = n /\ r_seqno r = q /\ r_refmetric r = m /\ r_installed r = true /\
  r_nexthop r <> nh.
Proof. exact old_next_hop. Qed.
Print Assumptions C28_most_recent_refuted.

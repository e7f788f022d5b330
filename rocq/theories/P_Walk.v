(** P_Walk.v: operations on all the routes of a neighbour (C57, C60). *)
From Verif Require Import Base M_Util S_Util M_Source M_Filter M_Types M_Neigh M_State M_Table M_Msg M_Route M_Xroute M_Daemon
  S_Source S_Filter S_Neigh S_World L_Walk X_Run.

(** C57 *)
Theorem C57_wildcard_retraction : forall c w n, c_half_life c <> 2 -> reach c w ->
  let w' := run1 (EvWithdraw n) w in
  length (all_routes w') = length (all_routes w) /\
  (forall r, In r (all_routes w) -> r_neigh r <> n -> exists r', In r' (all_routes w') /\ same_entry r r') /\
  (forall r, In r (all_routes w) -> r_neigh r = n ->
     exists r', In r' (all_routes w') /\ ident_kept r r' /\
       ((r_seqno r' = r_seqno r /\ r_refmetric r' = 65535 /\ metric_of r' = 65535) \/ krefused w w')).
Proof. exact withdrawn. Qed.
Print Assumptions C57_wildcard_retraction.
(** The first neighbour withdraws its two routes, one of which is selected. *)
Example C57_ex : reach x_conf x_w2 /\
  map (fun r => (r_neigh r, r_refmetric r, r_installed r)) (all_routes x_w2) = [(2, 100, true); (1, 300, false); (1, 0, true)] /\
  map (fun r => (r_neigh r, r_refmetric r)) (all_routes (run1 (EvWithdraw 1) x_w2)) = [(2, 100); (1, 65535); (1, 65535)] /\
  forallb (fun k => match k with KAdd _ rc | KDel _ rc => rc =? 0 | KFail _ _ => false end) (w_ktr (run1 (EvWithdraw 1) x_w2)) = true.
Proof. split; [apply x_reach2|]. split; [vm_compute; reflexivity|]. split; vm_compute; reflexivity. Qed.

(** C60 *)
Theorem C60_ihu_cost_applied : forall c w n cost iv nb nb' i, c_half_life c <> 2 -> reach c w -> allowed (EvIhu n cost iv) w ->
  In nb (w_nbs w) -> n_id nb = n -> n_txcost nb <> cost ->
  let w' := run1 (EvIhu n cost iv) w in
  In nb' (w_nbs w') -> n_id nb' = n -> In i (w_ifs w') -> if_id i = n_if nb' ->
  n_txcost nb' = cost /\
  forall r, In r (all_routes w') -> r_neigh r = n -> now_s w' <= r_time r + r_hold_time r ->
    r_cost r = neighbour_cost (w_now w') i nb' \/ krefused w w'.
Proof. exact ihu_applied. Qed.
Print Assumptions C60_ihu_cost_applied.
Example C60_ex : reach x_conf x_w2 /\ allowed (EvIhu 1 200 1200) x_w2 /\
  map (fun n => (n_id n, n_txcost n)) (w_nbs x_w2) = [(2, 128); (1, 96)] /\
  map (fun r => (r_neigh r, r_cost r)) (all_routes (run1 (EvIhu 1 200 1200) x_w2)) = [(2, 128); (1, 200); (1, 200)].
Proof.
  split; [apply x_reach2|]. split; [apply allowedb_ok; vm_compute; reflexivity|]. split; vm_compute; reflexivity.
Qed.

(** S_World.v: vocabulary for the properties of the route table. *)
From Verif Require Import Base M_Util S_Util M_Filter M_Source S_Source M_Types M_State.

(** All the learned routes. *)
Definition all_routes (w : world) : list route := concat (w_rt w).

(** The destination of a route: prefix and source prefix. *)
Definition dest_of_key (k : skey) : dest := mkDest (k_prefix k) (k_plen k) (k_src k) (k_splen k).
Definition dest_of (r : route) : dest := dest_of_key (r_src r).

(** The form in which "any source" is written in a destination: 0::/0, or
    0.0.0.0/0 for an IPv4 destination. *)
Definition dvalid (d : dest) : Prop :=
  is_default (d_src d) (d_splen d) = true ->
  (d_src d, d_splen d) = if v4mapped (d_prefix d) then (v4prefix, 96) else (zeroes 16, 0).

(** The metric of a route. *)
Definition metric_of (r : route) : Z := Z.min (r_refmetric r + r_cost r + r_add_metric r) 65535.
Definition finite (r : route) : Prop := metric_of r < 65535.

(** 16-bit fields *)
Definition u16_ok (x : Z) : Prop := 0 <= x < 65536.
Definition route_rng (r : route) : Prop :=
  u16_ok (r_refmetric r) /\ u16_ok (r_cost r) /\ u16_ok (r_add_metric r) /\
  u16_ok (r_seqno r) /\ u16_ok (r_smoothed r) /\ 15 <= r_hold_time r.

(** One group of routes, all to the same destination: not empty, at most one route
    per neighbour, only the first may be selected. *)
Definition slot_wf (l : list route) : Prop :=
  l <> [] /\
  (forall r r', In r l -> In r' l -> dest_of r = dest_of r') /\
  (forall r, In r l -> dvalid (dest_of r)) /\
  NoDup (map r_neigh l) /\
  (forall r, In r (tl l) -> r_installed r = false).

(** How many routes use the source entry [k]. *)
Definition users (k : skey) (w : world) : nat :=
  count_occ skey_dec (map r_src (all_routes w)) k.

(** The order of destinations: first those with a source prefix, then by prefix, by
    length, by source prefix and its length. *)
Inductive bytes_lt : list Z -> list Z -> Prop :=
| bl_short : forall y b, bytes_lt [] (y :: b)
| bl_less : forall x y a b, x < y -> bytes_lt (x :: a) (y :: b)
| bl_same : forall x a b, bytes_lt a b -> bytes_lt (x :: a) (x :: b).
Definition any_source (d : dest) : Prop :=
  d_splen d = 0 \/ (d_splen d = 96 /\ firstn 12 (d_src d) = firstn 12 v4prefix).
Inductive dest_before (a b : dest) : Prop :=
| db_specific : ~ any_source a -> any_source b -> dest_before a b
| db_prefix : (any_source a <-> any_source b) -> bytes_lt (d_prefix a) (d_prefix b) -> dest_before a b
| db_plen : (any_source a <-> any_source b) -> d_prefix a = d_prefix b -> d_plen a < d_plen b -> dest_before a b
| db_src : ~ any_source a -> ~ any_source b -> d_prefix a = d_prefix b -> d_plen a = d_plen b ->
    bytes_lt (d_src a) (d_src b) -> dest_before a b
| db_splen : ~ any_source a -> ~ any_source b -> d_prefix a = d_prefix b -> d_plen a = d_plen b ->
    d_src a = d_src b -> d_splen a < d_splen b -> dest_before a b.

(** The feasibility condition for a route with sequence number [seqno] and announced
    metric [refmetric] against the source entry [s]. *)
Definition feas_cond (now : Z) (s : source) (seqno refmetric : Z) : Prop :=
  s_time s < now - 200 \/ refmetric >= 65535 \/ 1 <= ahead seqno (s_seqno s) <= 32768 \/
  (seqno = s_seqno s /\ refmetric < s_metric s).
Definition now_s (w : world) : Z := tv_sec (w_now w).
Definition feasible_in (w : world) (r : route) : Prop :=
  exists s, In s (w_srcs w) /\ s_key s = r_src r /\ feas_cond (now_s w) s (r_seqno r) (r_refmetric r).

(** A route that may be used: heard of during its hold time, feasible if [feas], not
    through neighbour [ex]. *)
Definition eligible (w : world) (feas : bool) (ex : option Z) (r : route) : Prop :=
  now_s w <= r_time r + r_hold_time r /\ (feas = true -> feasible_in w r) /\ ex <> Some (r_neigh r).

(** The selected route of a destination. *)
Definition is_selected (w : world) (d : dest) (r : route) : Prop :=
  In r (all_routes w) /\ r_installed r = true /\ dest_of r = d.

(** A selection in the log [w_sel] was legitimate: feasible when it was made and, if
    it replaced a route, better than the replaced one. *)
Definition sel_fine (ev : selev) : Prop :=
  (exists s, e_src ev = Some s /\ s_key s = r_src (e_new ev) /\
     feas_cond (e_now ev) s (r_seqno (e_new ev)) (r_refmetric (e_new ev))) /\
  (forall o, e_old ev = Some o -> dest_of o = dest_of (e_new ev) /\ finite (e_new ev) /\
     (finite o -> metric_of (e_new ev) <= metric_of o /\ r_smoothed (e_new ev) < r_smoothed o)).

(** A route through an interface *)
Definition via_if (w : world) (i : Z) (r : route) : Prop := exists n, In n (w_nbs w) /\ n_id n = r_neigh r /\ n_if n = i.

(** Same route: identity, destination, next hop, neighbour *)
Definition same_route (r r' : route) : Prop :=
  r_ptr r' = r_ptr r /\ r_src r' = r_src r /\ r_neigh r' = r_neigh r /\ r_nexthop r' = r_nexthop r /\
  r_refmetric r' = r_refmetric r /\ r_seqno r' = r_seqno r.

(** The identity of a route and the time of its last update are kept. *)
Definition ident_kept (r r' : route) : Prop :=
  r_ptr r' = r_ptr r /\ r_src r' = r_src r /\ r_neigh r' = r_neigh r /\ r_nexthop r' = r_nexthop r /\
  r_time r' = r_time r /\ r_hold_time r' = r_hold_time r.

(** Between [w] and [w'] the kernel (or kernel_route itself) refused a request. *)
Definition failed (e : kev) : Prop := match e with KAdd _ rc | KDel _ rc => rc <> 0 | KFail _ _ => True end.
Definition krefused (w w' : world) : Prop := exists l e, w_ktr w' = w_ktr w ++ l /\ In e l /\ failed e.

(** All fields the same, except those of selection and smoothing *)
Definition same_entry (r r' : route) : Prop :=
  same_route r r' /\ r_cost r' = r_cost r /\ r_add_metric r' = r_add_metric r /\ r_time r' = r_time r /\
  r_hold_time r' = r_hold_time r.

(** What the table must hold after an update with the given fields, received from a
    neighbour with link cost [cost] and filter cost [add]. *)
Definition recorded (id : option (list Z)) (d : dest) (q m iv n : Z) (nh : option (list Z)) (cost add : Z)
    (w w' : world) : Prop :=
  let mine r := dest_of r = d /\ r_neigh r = n in
  (forall r, In r (all_routes w) -> ~ mine r -> exists r', In r' (all_routes w') /\ same_entry r r') /\
  (forall r', In r' (all_routes w') -> ~ mine r' -> exists r, In r (all_routes w) /\ same_entry r r') /\
  ((exists r', In r' (all_routes w') /\ mine r') <->
   ((exists r, In r (all_routes w) /\ mine r) \/ (m < 65535 /\ nh <> None))) /\
  (forall r', In r' (all_routes w') -> mine r' ->
     r_seqno r' = q /\ (forall i, id = Some i -> k_id (r_src r') = i) /\ (m < 65535 -> r_time r' = now_s w) /\
     r_hold_time r' = Z.max (4 * iv / 100 + iv / 50) 15 /\
     (forall r, In r (all_routes w) -> mine r -> r_ptr r' = r_ptr r /\ r_nexthop r' = r_nexthop r) /\
     ((forall r, In r (all_routes w) -> ~ mine r) -> nh = Some (r_nexthop r')) /\
     ((r_refmetric r' = m /\ r_cost r' = cost /\ metric_of r' = Z.min (m + cost + add) 65535) \/ krefused w w')).

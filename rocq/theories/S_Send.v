(** S_Send.v: vocabulary for the properties of pending updates. *)
From Verif Require Import Base M_Util S_Util M_Filter M_Source S_Source M_Types M_Neigh M_State M_Table S_World.

(** A redistributed route of ours for the destination *)
Definition ours (w : world) (d : dest) (x : xroute) : Prop := In x (w_xr w) /\ x_dest x = d.

(** Split horizon applies to the route on interface [i]. *)
Definition split_horizon (w : world) (i : iface) (r : route) : Prop :=
  flag i IF_SPLIT_HORIZON = true /\ via_if w (if_id i) r.

(** What there is to say about a destination on interface [i]: router-id, sequence
    number and metric, or nothing. *)
Inductive says (w : world) (i : iface) (d : dest) : option (list Z * Z * Z) -> Prop :=
| says_ours : forall x, ours w d x ->
    (forall r, is_selected w d r -> x_metric x <= c_kernel_metric (w_cfg w)) ->
    says w i d (Some (c_myid (w_cfg w), w_seqno w, x_metric x))
| says_route : forall r, is_selected w d r ->
    (forall x, ours w d x -> c_kernel_metric (w_cfg w) < x_metric x) -> ~ split_horizon w i r ->
    says w i d (Some (k_id (r_src r), r_seqno r, metric_of r))
| says_split : forall r, is_selected w d r ->
    (forall x, ours w d x -> c_kernel_metric (w_cfg w) < x_metric x) -> split_horizon w i r ->
    says w i d None
| says_lost : (forall x, ~ ours w d x) -> (forall r, ~ is_selected w d r) ->
    says w i d (Some (c_myid (w_cfg w), w_seqno w, 65535)).

(** Where the messages of an interface go: to the group, or to each neighbour on it. *)
Definition goes_to (w : world) (i : iface) (bs : list obuf) : Prop :=
  (flag i IF_UNICAST = false /\ bs = [BIf (if_id i)]) \/
  (flag i IF_UNICAST = true /\
   exists ns, bs = map (fun n => BNb (n_id n)) ns /\ ns = filter (fun n => n_if n =? if_id i) (w_nbs w)).

(** The interface cannot carry the destination: specific routes on an interface
    restricted to RFC 6126; IPv4 without an IPv4 address or v4-via-v6. *)
Definition cannot_carry (i : iface) (d : dest) : Prop :=
  (~ any_source d /\ flag i IF_RFC6126 = true) \/
  (96 <= d_plen d /\ firstn 12 (d_prefix d) = firstn 12 v4prefix /\
   if_ipv4 i = None /\ flag i IF_V4VIAV6 = false).

(** The messages that say it, after the output filter. *)
Inductive told (w : world) (i : iface) (d : dest) : list (obuf * tlv) -> Prop :=
| told_nothing : says w i d None -> told w i d []
| told_filtered : forall id q m, says w i d (Some (id, q, m)) ->
    65535 <= output_filter (c_outfs (w_cfg w)) (Some id) d (if_ifindex i) \/ cannot_carry i d ->
    told w i d []
| told_update : forall id q m add bs, says w i d (Some (id, q, m)) ->
    add = output_filter (c_outfs (w_cfg w)) (Some id) d (if_ifindex i) ->
    add < 65535 -> ~ cannot_carry i d -> goes_to w i bs ->
    told w i d (map (fun b => (b, TUpdate id d q (Z.min (m + add) 65535)
                                 (u16 ((if_update_interval i + 5) / 10)))) bs).

(** Sorted by a comparison function *)
Inductive sorted_by {A} (cmp : A -> A -> Z) : list A -> Prop :=
| sb_nil : sorted_by cmp []
| sb_cons : forall x l, (forall y, In y l -> cmp x y <= 0) -> sorted_by cmp l -> sorted_by cmp (x :: l).

(** The feasibility distance [s], just refreshed, is at least as good as a sequence
    number and metric. *)
Definition covers (now : Z) (s : source) (q m : Z) : Prop :=
  s_time s = now /\ ((s_seqno s = q /\ s_metric s <= m) \/ 32768 <= ahead q (s_seqno s)).

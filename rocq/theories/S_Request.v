(** S_Request.v: what is said about requests for a new sequence number. *)
From Verif Require Import Base M_Util S_Util M_Source S_Source M_Filter M_Types M_Neigh M_State M_Table S_World S_Send S_Resend.

(** The interface of a neighbour *)
Definition heard_on (w : world) (n : Z) (i : iface) : Prop :=
  In i (w_ifs w) /\ exists nb, In nb (w_nbs w) /\ n_id nb = n /\ n_if nb = if_id i.

(** [q] comes after [s]: at most half a circle ahead. *)
Definition newer (q s : Z) : Prop := 1 <= ahead q s <= 32768.
(** ... by more than 100, which is not taken seriously *)
Definition way_ahead (q s : Z) : Prop := 101 <= ahead q s <= 32767.

(** The destination is one that we redistribute, in preference to learned routes. *)
Definition ours_first (w : world) (d : dest) : Prop :=
  exists x, ours w d x /\ forall r, is_selected w d r -> x_metric x <= c_kernel_metric (w_cfg w).

(** The selected route answers the request: it is from another router, or its
    sequence number is what was asked for or better. *)
Definition meets (q : Z) (id : list Z) (r : route) : Prop := k_id (r_src r) <> id \/ ~ newer q (r_seqno r).

(** An update for [d] was put among the updates waiting on interface [i], and will
    be sent within 200 ms. *)
Definition soon (w : world) (i : iface) (d : dest) (w' : world) : Prop :=
  exists i', In i' (w_ifs w') /\ if_id i' = if_id i /\ In d (if_pend i') /\
    exists t, deadline (if_flush_timeout i') = Some t /\ t <= us (w_now w) + 200000.

(** No messages but updates *)
Definition only_updates (l : list (obuf * tlv)) : Prop :=
  forall b t, In (b, t) l -> exists id d q m iv, t = TUpdate id d q m iv.

(** A neighbour to which the request may be forwarded: the next hop of the selected
    route or of another route that has not expired *)
Definition next_hop_for (w : world) (d : dest) (s : Z) : Prop :=
  exists r, In r (all_routes w) /\ dest_of r = d /\ finite r /\ r_neigh r = s /\
    (r_installed r = true \/ now_s w <= r_time r + r_hold_time r).

(** A pending request on account of which one from interface [i] is not forwarded *)
Definition suppressing (w : world) (i : iface) (d : dest) (q : Z) (id : list Z) (r : resend) : Prop :=
  pending 1 d w r /\ timeval_minus_msec (w_now w) (rs_time r) < 65000 /\
  ~ (rs_id r = id /\ newer (rs_seqno r) q) /\ (rs_ifp r = None \/ rs_ifp r = Some (if_id i)) /\
  (0 < rs_max r \/ timeval_minus_msec (w_now w) (rs_time r) < Z.min (if_hello_interval i) 1000).

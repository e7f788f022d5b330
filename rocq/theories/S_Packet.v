(** S_Packet.v: vocabulary for what a datagram does to the state. *)
From Verif Require Import Base M_Util S_Util M_Filter M_Types M_Neigh S_Neigh M_State S_World M_Daemon M_Wire S_Wire L_Wire2 M_Packet.
Import M_Daemon.

(** A MAC TLV in the trailer of the packet with the keyed hash of the addresses, ports,
    header and body. *)
Definition signed {key} (mac : key -> list Z -> option (list Z)) (k : key) (port from to_ pkt : list Z) : Prop :=
  exists a h b, pkt = a ++ (16 :: zlen h :: h) ++ b /\ 4 + body_len pkt <= zlen a /\
    mac k (from ++ port ++ to_ ++ port ++ firstn 4 pkt ++ body pkt) = Some h.

(** The first packet counter of the body [b] carries the index known for the neighbour and
    a larger counter than the last one of its class; or the packet answers the pending
    challenge before its deadline.  [ts]: the times read. *)
Definition counter_ok (mcast : bool) (pc : pcst) (ts : list timeval) (b : list Z) : Prop :=
  exists fs full p ix, frames b fs full /\ find (fun f => fst f =? 17) fs = Some (17, be32 p ++ ix) /\ 0 <= p < 4294967296 /\
    ((pc_index pc = Some ix /\ (if mcast then pc_m pc else pc_u pc) < p) \/
     (In (19, pc_nonce pc) fs /\ exists t, In t ts /\ timeval_compare t (pc_deadline pc) <= 0)).

(** Only the clock moved. *)
Definition only_clock (w w' : world) : Prop := exists t, w' = set_w_now t w.

(** Of a neighbour, only the state of challenges changed: not the counters, nor the index. *)
Definition pc_kept (x y : neigh) : Prop :=
  y = set_n_pc (n_pc y) x /\ pc_u (n_pc y) = pc_u (n_pc x) /\ pc_m (n_pc y) = pc_m (n_pc x) /\
  pc_index (n_pc y) = pc_index (n_pc x).
(** Routes, sources, requests, redistributed routes, messages, kernel: all as before; the
    neighbours too, except for challenges, and the sender may have been added to them. *)
Definition quiet (from : list Z) (ifp : Z) (w w' : world) : Prop := exists t l, w' = set_w_now t (set_w_nbs l w) /\
  (Forall2 pc_kept (w_nbs w) l \/ exists t0 id, ~ In id (map n_id (w_nbs w)) /\
     Forall2 pc_kept (new_neigh t0 id from ifp :: w_nbs w) l).

(** All that a neighbour announced has been retracted. *)
Definition low (n : Z) (w : world) : Prop := forall r, In r (all_routes w) -> r_neigh r = n -> r_refmetric r = 65535.

(** All that anybody at the address [from] on the interface [ifp] announced has been. *)
Definition lowat (from : list Z) (ifp : Z) (w : world) : Prop :=
  forall nb, In nb (w_nbs w) -> n_addr nb = from -> n_if nb = ifp -> low (n_id nb) w.

(** The receiver goes from one state to the other and meanwhile hears the datagrams
    [l] of the sender [r_from cx] on the interface [ifid], all of them, in order and once; anything
    else may happen in between: timers, the kernel, and datagrams of other senders, or
    on other interfaces. *)
Section Hears.
Variable key : Type.
Variable mac : key -> list Z -> option (list Z).
Variable port : list Z.
Variable keys : Z -> option key.
Variable cx : rctx.
Variable ifid : Z.
Definition receiver (g : datagram) (w : world) : option iface :=
  find (fun i => if_up i && (if_ifindex i =? g_scope g)) (w_ifs w).
Definition sane (g : datagram) (clk : list timeval) (w : world) : Prop :=
  Z.of_nat (length (w_nbs w)) < 64999 /\ addr_ok (g_from g) /\ bytes_ok (g_data g) /\
  4 <= Z.of_nat (length (g_data g)) /\ Forall tv_ok clk.
Inductive hears : world -> list (list Z) -> world -> Prop :=
| hears_end : forall w, hears w [] w
| hears_event : forall w ev l w', from_packet ev = false -> allowed ev w -> hears (run1 ev w) l w' -> hears w l w'
| hears_other : forall w g clk rnd w1 l w', sane g clk w ->
    (forall i, receiver g w = Some i -> if_id i = ifid -> g_from g <> r_from cx) ->
    receive key mac port (r_46 cx) keys g clk rnd w = Ret w1 -> hears w1 l w' -> hears w l w'
| hears_own : forall w g clk rnd w1 l w' i, sane g clk w ->
    receiver g w = Some i -> if_id i = ifid -> if_ll i = r_lls cx -> g_from g = r_from cx ->
    receive key mac port (r_46 cx) keys g clk rnd w = Ret w1 -> hears w1 l w' -> hears w (g_data g :: l) w'.
End Hears.

(** M_Daemon.v: executions of the daemon.  What happens to the state between two
    points of the main loop (babeld.c:588-787) is a sequence of events; each event
    is one call of a function of the model, or a change made from outside (time,
    random numbers, answers of the kernel, interfaces).  The order of events is
    arbitrary: timers (babeld.c:740-775) only restrict it.
    Not modelled here: changes of the configuration at run time (local.c), and
    flush_interface (interface.c:100-132, a "flush interface" command) while a
    neighbour or a pending retransmission refers to the interface. *)
From Verif Require Import Base M_Util M_Filter M_Source M_Types M_Neigh M_State M_Table M_Msg M_Route
  M_Xroute S_Util S_Neigh S_World.

Inductive event :=
| EvClock (t : timeval)                         (* gettime(&now) *)
| EvOracle (rnd kresp : list Z)                 (* future random numbers and kernel answers *)
| EvUpdate (id : option (list Z)) (d : dest) (seqno refmetric interval n : Z) (nh : option (list Z))
| EvWithdraw (n : Z)                            (* wildcard retraction, message.c:930-943 *)
| EvRequest (n : Z) (d : option dest)           (* message.c:982-1010 *)
| EvSeqnoRequest (n : Z) (d : dest) (hops seqno : Z) (id : list Z)  (* message.c:1047 *)
| EvHello (n : Z) (unicast : bool) (seqno interval : Z)
| EvTimestamp (n us : Z)
| EvIhu (n txcost interval : Z)
| EvRtt (n send_us receive_us : Z)
| EvNeighbour (addr : list Z) (ifp : Z)         (* find_neighbour *)
| EvPc (n : Z) (pc : pcst)                      (* packet counters, preparse_packet *)
| EvCheckNeighbours
| EvInterface (i : iface)                       (* any change of an interface *)
| EvNewInterface (i : iface)
| EvFlushInterface (ifp : Z)
| EvInterfaceMetric (ifp : Z)
| EvFlushInterfaceRoutes (ifp : Z) (v4only : bool)
| EvExpireRoutes
| EvExpireSources
| EvKernel (add : bool) (k : kroute)
| EvScan (addrs : list (list Z * Z)) (routes : list kroute) (send : bool)
| EvFlushUpdates (ifp : Z)
| EvSendUpdate (ifp : Z) (urgent : bool) (d : option dest)
| EvSendUpdateAll (urgent : bool) (d : dest)
| EvSelfUpdate (ifp : Z)
| EvWildRetraction (ifp : Z)
| EvSendRequest (ifp : Z) (d : option dest)
| EvResend
| EvExpireResend
| EvSeqno                                       (* update_myseqno *)
| EvFlushAll.                                   (* shutdown *)

(** neighbour.c:76-128 find_neighbour; a new neighbour is put first.  Allocation is
    assumed to succeed. *)
Definition fresh_nb (w : world) : Z := 1 + fold_right Z.max 0 (map n_id (w_nbs w)).
Definition find_neighbour (addr : list Z) (ifp : Z) (w : world) : world :=
  if existsb (fun n => beq addr (n_addr n) && (n_if n =? ifp)) (w_nbs w) then w
  else set_w_nbs (new_neigh (w_now w) (fresh_nb w) addr ifp :: w_nbs w) w.

(** message.c:692-720: a hello, 743-754: an IHU, 1068-1103: a RTT sample *)
Definition on_nb (n : Z) (f : neigh -> neigh * bool) (w : world) : world :=
  match get_nb n w with
  | None => fault w
  | Some nb => let '(nb', changed) := f nb in update_neighbour_metric n changed (map_nb n (fun _ => nb') w)
  end.
Definition recv_hello (n : Z) (unicast : bool) (seqno interval : Z) (w : world) : world :=
  on_nb n (fun nb =>
    if unicast then let '(h, c) := update_hist (w_now w) (n_uhello nb) seqno interval in (set_n_uhello h nb, c)
    else let '(h, c) := update_hist (w_now w) (n_hello nb) seqno interval in (set_n_hello h nb, c)) w.
Definition recv_ihu (n txcost interval : Z) (w : world) : world :=
  on_nb n (fun nb => (set_n_txcost txcost (set_n_ihu_time (w_now w) (set_n_ihu_interval interval nb)),
                      negb (txcost =? n_txcost nb))) w.
Definition recv_rtt (n send_us receive_us : Z) (w : world) : world :=
  match nb_if n w with
  | None => fault w
  | Some (nb, i) =>
      match rtt_sample nb send_us receive_us with
      | None => w
      | Some rtt =>
          let nb1 := set_n_rtt (rtt_update (w_now w) i nb rtt) nb in
          let changed := negb (rttcost (w_now w) i nb1 =? rttcost (w_now w) i nb) in
          map_nb n (set_n_rtt_time (w_now w)) (update_neighbour_metric n changed (map_nb n (fun _ => nb1) w))
      end
  end.

(** message.c:992-1001: a wildcard request *)
Definition recv_request (n : Z) (d : option dest) (w : world) : world :=
  match nb_if n w with
  | None => fault w
  | Some (_, i) =>
      match d with
      | None => if if_last_update i <? sec w - Z.max (Z.quot (if_hello_interval i) 100) 1
                then send_update_full (if_id i) false w else w
      | Some d => send_update_if (if_id i) false d w
      end
  end.

Definition run1 (ev : event) (w : world) : world :=
  match ev with
  | EvClock t => set_w_now t w
  | EvOracle r k => set_w_rnd r (set_w_kresp k w)
  | EvUpdate id d q m iv n nh => update_route id d q m iv n nh w
  | EvWithdraw n => retract_neighbour_routes n w
  | EvRequest n d => recv_request n d w
  | EvSeqnoRequest n d h q id => handle_request n d h q id w
  | EvHello n u q iv => recv_hello n u q iv w
  | EvTimestamp n us => map_nb n (fun nb => set_n_hello_send_us us (set_n_hello_rtt_time (w_now w) nb)) w
  | EvIhu n c iv => recv_ihu n c iv w
  | EvRtt n a b => recv_rtt n a b w
  | EvNeighbour a i => find_neighbour a i w
  | EvPc n pc => map_nb n (set_n_pc pc) w
  | EvCheckNeighbours => snd (check_neighbours w)
  | EvInterface i => map_if (if_id i) (fun _ => i) w
  | EvNewInterface i => set_w_ifs (w_ifs w ++ [i]) w
  | EvFlushInterface i => set_w_ifs (filter (fun x => negb (if_id x =? i)) (w_ifs w)) w
  | EvInterfaceMetric i => update_interface_metric i w
  | EvFlushInterfaceRoutes i v => flush_interface_routes i v w
  | EvExpireRoutes => expire_routes w
  | EvExpireSources => set_w_srcs (expire_sources (sec w) (w_srcs w)) w
  | EvKernel b k => kernel_route_notify b k w
  | EvScan a r s => check_xroutes a r s w
  | EvFlushUpdates i => flushupdates i w
  | EvSendUpdate i u None => send_update_full i u w
  | EvSendUpdate i u (Some d) => send_update_if i u d w
  | EvSendUpdateAll u d => send_update_all u d w
  | EvSelfUpdate i => send_self_update_if i w
  | EvWildRetraction i => send_wildcard_retraction i w
  | EvSendRequest i d => send_multicast_request_if d i w
  | EvResend => do_resend w
  | EvExpireResend => expire_resend w
  | EvSeqno => update_myseqno w
  | EvFlushAll => flush_all_routes w
  end.

(** The conditions that the callers of these functions establish: the neighbour and
    the interface exist, the destination is in the form built by the parser, sizes
    of fields.  The number of neighbours is bounded by the counter of references
    of sources, an unsigned short (source.h:31). *)
Definition known_nb (n : Z) (w : world) : Prop := In n (map n_id (w_nbs w)).
Definition known_if (i : Z) (w : world) : Prop := In i (map if_id (w_ifs w)).
Definition allowed (ev : event) (w : world) : Prop :=
  match ev with
  | EvUpdate id d q m iv n nh => known_nb n w /\ dvalid d /\ u16_ok q /\ u16_ok m
  | EvClock t => tv_ok t
  | EvRequest n _ | EvSeqnoRequest n _ _ _ _ | EvRtt n _ _ => known_nb n w
  | EvHello n _ q iv => known_nb n w /\ u16_ok q /\ u16_ok iv
  | EvIhu n c iv => known_nb n w /\ u16_ok c /\ u16_ok iv
  | EvNeighbour _ i => known_if i w /\ Z.of_nat (length (w_nbs w)) < 64999
  | EvInterface i => known_if (if_id i) w /\ iface_in i
  | EvNewInterface i => ~ known_if (if_id i) w /\ iface_in i
  | EvFlushInterface i =>
      (forall n, In n (w_nbs w) -> n_if n <> i) /\ (forall r, In r (w_rsd w) -> rs_ifp r <> Some i)
  | EvFlushUpdates i | EvSendUpdate i _ _ | EvSelfUpdate i | EvWildRetraction i | EvSendRequest i _ =>
      known_if i w
  | _ => True
  end.

(** babeld.c:122-586: at start all tables are empty. *)
Definition boot (c : conf) (now : timeval) (ifs : list iface) (seqno : Z) : world :=
  mkW now c ifs [] [] [] 1 [] [] tv0 seqno tv0 [] [] [] [] [] false false.

(** Executions of a daemon with configuration [c]. *)
Inductive reach (c : conf) : world -> Prop :=
| reach_boot : forall now ifs seqno, NoDup (map if_id ifs) -> Forall iface_in ifs -> tv_ok now -> u16_ok seqno ->
    reach c (boot c now ifs seqno)
| reach_run : forall w ev, reach c w -> allowed ev w -> reach c (run1 ev w).

(** Executing a list of events. *)
Definition run (evs : list event) (w : world) : world := fold_left (fun w ev => run1 ev w) evs w.

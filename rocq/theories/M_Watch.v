(** M_Watch.v: what a client of the configuration socket that has sent "monitor" is told about
    neighbours: the calls of local_notify_neighbour along the events of M_Daemon.v.
    Simplification: the lines about neighbours are listed apart from those about routes
    (M_Monitor.v); how the two are interleaved is not modelled. *)
From Verif Require Import Base M_Util M_Filter M_Source M_Types M_Neigh M_State M_Table M_Msg M_Route M_Xroute M_Daemon M_Monitor.

(** local.c:142-183 local_notify_neighbour_1: the contents of a line.  The neighbour is
    identified by its address in memory.  None for the RTT if it is not valid (149). *)
Record nshown := mkNs { ns_addr : list Z; ns_if : Z; ns_reach : Z; ns_ureach : Z; ns_rxcost : Z; ns_txcost : Z;
                        ns_rtt : option (Z * Z); ns_cost : Z }.
Inductive nnote := NNb (k : kind) (n : Z) (a : nshown).
Definition nshow (now : timeval) (i : iface) (x : neigh) : nshown :=
  mkNs (n_addr x) (n_if x) (h_reach (n_hello x)) (h_reach (n_uhello x)) (neighbour_rxcost now i x) (n_txcost x)
    (if valid_rtt now x then Some (n_rtt x, rttcost now i x) else None) (neighbour_cost now i x).
(** local.c:186-194 local_notify_neighbour, of the neighbour [n] in state [w] *)
Definition nbnote (k : kind) (n : Z) (w : world) : list nnote :=
  match nb_if n w with Some (x, i) => [NNb k n (nshow (w_now w) i x)] | None => [] end.

(** local.c:290-292: at the command "monitor" *)
Definition told_nbs (w : world) : list nnote := flat_map (fun x => nbnote Add (n_id x) w) (w_nbs w).

(** neighbour.c:76-128 find_neighbour; line 126 *)
Definition g_find (addr : list Z) (ifp : Z) (w : world) : list nnote :=
  if existsb (fun n => beq addr (n_addr n) && (n_if n =? ifp)) (w_nbs w) then []
  else nbnote Add (fresh_nb w) (find_neighbour addr ifp w).

(** route.c:789-807 update_neighbour_metric; line 806, after the routes are updated *)
Definition g_unm (n : Z) (changed : bool) (w : world) : list nnote := nbnote Change n (update_neighbour_metric n changed w).

(** neighbour.c:57-74 flush_neighbour; line 71: the structure is still there, out of the list *)
Definition g_flush (n : Z) (w : world) : list nnote := nbnote Flush n (flush_neighbour_routes n w).

(** neighbour.c:227-266 check_neighbours *)
Definition g_check1 (mw : Z * world) (n : Z) : list nnote :=
  let '(msecs, w) := mw in
  match get_nb n w with
  | None => []
  | Some nb =>
      match check_neigh1 (w_now w) nb with
      | None =>
          let h := fst (update_hist (w_now w) (n_hello nb) (-1) 0) in
          let u := fst (update_hist (w_now w) (n_uhello nb) (-1) 0) in
          g_flush n (map_nb n (fun x => set_n_uhello u (set_n_hello h x)) w)
      | Some (nb', changed) => g_unm n changed (map_nb n (fun _ => nb') w)
      end
  end.
Fixpoint g_checks (l : list Z) (mw : Z * world) : list nnote :=
  match l with
  | [] => []
  | n :: l' => g_check1 mw n ++ g_checks l' (check_neighbour1 mw n)
  end.

(** message.c:707-711 (a Hello), 743-751 (an IHU), 1068-1103 (a RTT sample) *)
Definition g_on_nb (n : Z) (f : neigh -> neigh * bool) (w : world) : list nnote :=
  match get_nb n w with
  | None => []
  | Some nb => let '(nb', changed) := f nb in g_unm n changed (map_nb n (fun _ => nb') w)
  end.
Definition g_hello (n : Z) (unicast : bool) (seqno interval : Z) (w : world) : list nnote :=
  g_on_nb n (fun nb =>
    if unicast then let '(h, c) := update_hist (w_now w) (n_uhello nb) seqno interval in (set_n_uhello h nb, c)
    else let '(h, c) := update_hist (w_now w) (n_hello nb) seqno interval in (set_n_hello h nb, c)) w.
Definition g_ihu (n txcost interval : Z) (w : world) : list nnote :=
  g_on_nb n (fun nb => (set_n_txcost txcost (set_n_ihu_time (w_now w) (set_n_ihu_interval interval nb)),
                        negb (txcost =? n_txcost nb))) w.
Definition g_rtt (n send_us receive_us : Z) (w : world) : list nnote :=
  match nb_if n w with
  | None => []
  | Some (nb, i) =>
      match rtt_sample nb send_us receive_us with
      | None => []
      | Some rtt =>
          let nb1 := set_n_rtt (rtt_update (w_now w) i nb rtt) nb in
          let changed := negb (rttcost (w_now w) i nb1 =? rttcost (w_now w) i nb) in
          g_unm n changed (map_nb n (fun _ => nb1) w)
      end
  end.

(** babeld.c:588-787, as in M_Daemon; the other events notify nothing about neighbours *)
Definition g_run1 (ev : event) (w : world) : list nnote :=
  match ev with
  | EvHello n u q iv => g_hello n u q iv w
  | EvIhu n c iv => g_ihu n c iv w
  | EvRtt n a b => g_rtt n a b w
  | EvNeighbour a i => g_find a i w
  | EvCheckNeighbours => g_checks (map n_id (w_nbs w)) (50000, w)
  | _ => []
  end.
Fixpoint g_run (evs : list event) (w : world) : list nnote :=
  match evs with
  | [] => []
  | ev :: evs' => g_run1 ev w ++ g_run evs' (run1 ev w)
  end.

(** M_Types.v: the records of babeld's state, with one update function per field
    (generated text). *)
From Verif Require Import Base M_Util M_Filter M_Source.

(** neighbour.h:23-28 struct hello_history; seqno is -1 when unknown *)
Record hist := mkHist { h_reach : Z; h_interval : Z; h_seqno : Z; h_time : timeval }.
Definition set_h_reach (v : Z) (x : hist) : hist := mkHist v (h_interval x) (h_seqno x) (h_time x).
Definition set_h_interval (v : Z) (x : hist) : hist := mkHist (h_reach x) v (h_seqno x) (h_time x).
Definition set_h_seqno (v : Z) (x : hist) : hist := mkHist (h_reach x) (h_interval x) v (h_time x).
Definition set_h_time (v : timeval) (x : hist) : hist := mkHist (h_reach x) (h_interval x) (h_seqno x) v.

(** The authentication state of a neighbour, neighbour.h:50-56: packet
    counters (4 bytes each, as numbers), index (None when index_len is -1), nonce of
    the last challenge and its deadlines. *)
Record pcst := mkPc { pc_u : Z; pc_m : Z; pc_index : option (list Z); pc_nonce : list Z; pc_deadline : timeval; pc_req_lim : timeval; pc_rep_lim : timeval }.
Definition set_pc_u (v : Z) (x : pcst) : pcst := mkPc v (pc_m x) (pc_index x) (pc_nonce x) (pc_deadline x) (pc_req_lim x) (pc_rep_lim x).
Definition set_pc_m (v : Z) (x : pcst) : pcst := mkPc (pc_u x) v (pc_index x) (pc_nonce x) (pc_deadline x) (pc_req_lim x) (pc_rep_lim x).
Definition set_pc_index (v : option (list Z)) (x : pcst) : pcst := mkPc (pc_u x) (pc_m x) v (pc_nonce x) (pc_deadline x) (pc_req_lim x) (pc_rep_lim x).
Definition set_pc_nonce (v : list Z) (x : pcst) : pcst := mkPc (pc_u x) (pc_m x) (pc_index x) v (pc_deadline x) (pc_req_lim x) (pc_rep_lim x).
Definition set_pc_deadline (v : timeval) (x : pcst) : pcst := mkPc (pc_u x) (pc_m x) (pc_index x) (pc_nonce x) v (pc_req_lim x) (pc_rep_lim x).
Definition set_pc_req_lim (v : timeval) (x : pcst) : pcst := mkPc (pc_u x) (pc_m x) (pc_index x) (pc_nonce x) (pc_deadline x) v (pc_rep_lim x).
Definition set_pc_rep_lim (v : timeval) (x : pcst) : pcst := mkPc (pc_u x) (pc_m x) (pc_index x) (pc_nonce x) (pc_deadline x) (pc_req_lim x) v.

(** neighbour.h:32-59 struct neighbour.  [n_id] stands for the address of the
    structure, [n_if] for the ifp pointer.  The output buffer is modelled separately. *)
Record neigh := mkNeigh { n_id : Z; n_addr : list Z; n_hello : hist; n_uhello : hist; n_txcost : Z; n_ihu_time : timeval; n_ihu_interval : Z; n_hello_send_us : Z; n_hello_rtt_time : timeval; n_rtt : Z; n_rtt_time : timeval; n_pc : pcst; n_if : Z }.
Definition set_n_id (v : Z) (x : neigh) : neigh := mkNeigh v (n_addr x) (n_hello x) (n_uhello x) (n_txcost x) (n_ihu_time x) (n_ihu_interval x) (n_hello_send_us x) (n_hello_rtt_time x) (n_rtt x) (n_rtt_time x) (n_pc x) (n_if x).
Definition set_n_addr (v : list Z) (x : neigh) : neigh := mkNeigh (n_id x) v (n_hello x) (n_uhello x) (n_txcost x) (n_ihu_time x) (n_ihu_interval x) (n_hello_send_us x) (n_hello_rtt_time x) (n_rtt x) (n_rtt_time x) (n_pc x) (n_if x).
Definition set_n_hello (v : hist) (x : neigh) : neigh := mkNeigh (n_id x) (n_addr x) v (n_uhello x) (n_txcost x) (n_ihu_time x) (n_ihu_interval x) (n_hello_send_us x) (n_hello_rtt_time x) (n_rtt x) (n_rtt_time x) (n_pc x) (n_if x).
Definition set_n_uhello (v : hist) (x : neigh) : neigh := mkNeigh (n_id x) (n_addr x) (n_hello x) v (n_txcost x) (n_ihu_time x) (n_ihu_interval x) (n_hello_send_us x) (n_hello_rtt_time x) (n_rtt x) (n_rtt_time x) (n_pc x) (n_if x).
Definition set_n_txcost (v : Z) (x : neigh) : neigh := mkNeigh (n_id x) (n_addr x) (n_hello x) (n_uhello x) v (n_ihu_time x) (n_ihu_interval x) (n_hello_send_us x) (n_hello_rtt_time x) (n_rtt x) (n_rtt_time x) (n_pc x) (n_if x).
Definition set_n_ihu_time (v : timeval) (x : neigh) : neigh := mkNeigh (n_id x) (n_addr x) (n_hello x) (n_uhello x) (n_txcost x) v (n_ihu_interval x) (n_hello_send_us x) (n_hello_rtt_time x) (n_rtt x) (n_rtt_time x) (n_pc x) (n_if x).
Definition set_n_ihu_interval (v : Z) (x : neigh) : neigh := mkNeigh (n_id x) (n_addr x) (n_hello x) (n_uhello x) (n_txcost x) (n_ihu_time x) v (n_hello_send_us x) (n_hello_rtt_time x) (n_rtt x) (n_rtt_time x) (n_pc x) (n_if x).
Definition set_n_hello_send_us (v : Z) (x : neigh) : neigh := mkNeigh (n_id x) (n_addr x) (n_hello x) (n_uhello x) (n_txcost x) (n_ihu_time x) (n_ihu_interval x) v (n_hello_rtt_time x) (n_rtt x) (n_rtt_time x) (n_pc x) (n_if x).
Definition set_n_hello_rtt_time (v : timeval) (x : neigh) : neigh := mkNeigh (n_id x) (n_addr x) (n_hello x) (n_uhello x) (n_txcost x) (n_ihu_time x) (n_ihu_interval x) (n_hello_send_us x) v (n_rtt x) (n_rtt_time x) (n_pc x) (n_if x).
Definition set_n_rtt (v : Z) (x : neigh) : neigh := mkNeigh (n_id x) (n_addr x) (n_hello x) (n_uhello x) (n_txcost x) (n_ihu_time x) (n_ihu_interval x) (n_hello_send_us x) (n_hello_rtt_time x) v (n_rtt_time x) (n_pc x) (n_if x).
Definition set_n_rtt_time (v : timeval) (x : neigh) : neigh := mkNeigh (n_id x) (n_addr x) (n_hello x) (n_uhello x) (n_txcost x) (n_ihu_time x) (n_ihu_interval x) (n_hello_send_us x) (n_hello_rtt_time x) (n_rtt x) v (n_pc x) (n_if x).
Definition set_n_pc (v : pcst) (x : neigh) : neigh := mkNeigh (n_id x) (n_addr x) (n_hello x) (n_uhello x) (n_txcost x) (n_ihu_time x) (n_ihu_interval x) (n_hello_send_us x) (n_hello_rtt_time x) (n_rtt x) (n_rtt_time x) v (n_if x).
Definition set_n_if (v : Z) (x : neigh) : neigh := mkNeigh (n_id x) (n_addr x) (n_hello x) (n_uhello x) (n_txcost x) (n_ihu_time x) (n_ihu_interval x) (n_hello_send_us x) (n_hello_rtt_time x) (n_rtt x) (n_rtt_time x) (n_pc x) v.

(** interface.h:123-154 struct interface.  [if_id] stands for the address of the
    structure; [if_pend] is buffered_updates; [if_cap] is buf.size.  The output
    buffer itself, name and conf are modelled separately. *)
Record iface := mkIf { if_id : Z; if_ifindex : Z; if_flags : Z; if_cost : Z; if_hello_timeout : timeval; if_update_timeout : timeval; if_flush_timeout : timeval; if_ipv4 : option (list Z); if_ll : list (list Z); if_cap : Z; if_pend : list dest; if_bufsize : Z; if_last_update : Z; if_hello_interval : Z; if_update_interval : Z; if_rtt_decay : Z; if_rtt_min : Z; if_rtt_max : Z; if_max_rtt_penalty : Z }.
Definition set_if_id (v : Z) (x : iface) : iface := mkIf v (if_ifindex x) (if_flags x) (if_cost x) (if_hello_timeout x) (if_update_timeout x) (if_flush_timeout x) (if_ipv4 x) (if_ll x) (if_cap x) (if_pend x) (if_bufsize x) (if_last_update x) (if_hello_interval x) (if_update_interval x) (if_rtt_decay x) (if_rtt_min x) (if_rtt_max x) (if_max_rtt_penalty x).
Definition set_if_ifindex (v : Z) (x : iface) : iface := mkIf (if_id x) v (if_flags x) (if_cost x) (if_hello_timeout x) (if_update_timeout x) (if_flush_timeout x) (if_ipv4 x) (if_ll x) (if_cap x) (if_pend x) (if_bufsize x) (if_last_update x) (if_hello_interval x) (if_update_interval x) (if_rtt_decay x) (if_rtt_min x) (if_rtt_max x) (if_max_rtt_penalty x).
Definition set_if_flags (v : Z) (x : iface) : iface := mkIf (if_id x) (if_ifindex x) v (if_cost x) (if_hello_timeout x) (if_update_timeout x) (if_flush_timeout x) (if_ipv4 x) (if_ll x) (if_cap x) (if_pend x) (if_bufsize x) (if_last_update x) (if_hello_interval x) (if_update_interval x) (if_rtt_decay x) (if_rtt_min x) (if_rtt_max x) (if_max_rtt_penalty x).
Definition set_if_cost (v : Z) (x : iface) : iface := mkIf (if_id x) (if_ifindex x) (if_flags x) v (if_hello_timeout x) (if_update_timeout x) (if_flush_timeout x) (if_ipv4 x) (if_ll x) (if_cap x) (if_pend x) (if_bufsize x) (if_last_update x) (if_hello_interval x) (if_update_interval x) (if_rtt_decay x) (if_rtt_min x) (if_rtt_max x) (if_max_rtt_penalty x).
Definition set_if_hello_timeout (v : timeval) (x : iface) : iface := mkIf (if_id x) (if_ifindex x) (if_flags x) (if_cost x) v (if_update_timeout x) (if_flush_timeout x) (if_ipv4 x) (if_ll x) (if_cap x) (if_pend x) (if_bufsize x) (if_last_update x) (if_hello_interval x) (if_update_interval x) (if_rtt_decay x) (if_rtt_min x) (if_rtt_max x) (if_max_rtt_penalty x).
Definition set_if_update_timeout (v : timeval) (x : iface) : iface := mkIf (if_id x) (if_ifindex x) (if_flags x) (if_cost x) (if_hello_timeout x) v (if_flush_timeout x) (if_ipv4 x) (if_ll x) (if_cap x) (if_pend x) (if_bufsize x) (if_last_update x) (if_hello_interval x) (if_update_interval x) (if_rtt_decay x) (if_rtt_min x) (if_rtt_max x) (if_max_rtt_penalty x).
Definition set_if_flush_timeout (v : timeval) (x : iface) : iface := mkIf (if_id x) (if_ifindex x) (if_flags x) (if_cost x) (if_hello_timeout x) (if_update_timeout x) v (if_ipv4 x) (if_ll x) (if_cap x) (if_pend x) (if_bufsize x) (if_last_update x) (if_hello_interval x) (if_update_interval x) (if_rtt_decay x) (if_rtt_min x) (if_rtt_max x) (if_max_rtt_penalty x).
Definition set_if_ipv4 (v : option (list Z)) (x : iface) : iface := mkIf (if_id x) (if_ifindex x) (if_flags x) (if_cost x) (if_hello_timeout x) (if_update_timeout x) (if_flush_timeout x) v (if_ll x) (if_cap x) (if_pend x) (if_bufsize x) (if_last_update x) (if_hello_interval x) (if_update_interval x) (if_rtt_decay x) (if_rtt_min x) (if_rtt_max x) (if_max_rtt_penalty x).
Definition set_if_ll (v : list (list Z)) (x : iface) : iface := mkIf (if_id x) (if_ifindex x) (if_flags x) (if_cost x) (if_hello_timeout x) (if_update_timeout x) (if_flush_timeout x) (if_ipv4 x) v (if_cap x) (if_pend x) (if_bufsize x) (if_last_update x) (if_hello_interval x) (if_update_interval x) (if_rtt_decay x) (if_rtt_min x) (if_rtt_max x) (if_max_rtt_penalty x).
Definition set_if_cap (v : Z) (x : iface) : iface := mkIf (if_id x) (if_ifindex x) (if_flags x) (if_cost x) (if_hello_timeout x) (if_update_timeout x) (if_flush_timeout x) (if_ipv4 x) (if_ll x) v (if_pend x) (if_bufsize x) (if_last_update x) (if_hello_interval x) (if_update_interval x) (if_rtt_decay x) (if_rtt_min x) (if_rtt_max x) (if_max_rtt_penalty x).
Definition set_if_pend (v : list dest) (x : iface) : iface := mkIf (if_id x) (if_ifindex x) (if_flags x) (if_cost x) (if_hello_timeout x) (if_update_timeout x) (if_flush_timeout x) (if_ipv4 x) (if_ll x) (if_cap x) v (if_bufsize x) (if_last_update x) (if_hello_interval x) (if_update_interval x) (if_rtt_decay x) (if_rtt_min x) (if_rtt_max x) (if_max_rtt_penalty x).
Definition set_if_bufsize (v : Z) (x : iface) : iface := mkIf (if_id x) (if_ifindex x) (if_flags x) (if_cost x) (if_hello_timeout x) (if_update_timeout x) (if_flush_timeout x) (if_ipv4 x) (if_ll x) (if_cap x) (if_pend x) v (if_last_update x) (if_hello_interval x) (if_update_interval x) (if_rtt_decay x) (if_rtt_min x) (if_rtt_max x) (if_max_rtt_penalty x).
Definition set_if_last_update (v : Z) (x : iface) : iface := mkIf (if_id x) (if_ifindex x) (if_flags x) (if_cost x) (if_hello_timeout x) (if_update_timeout x) (if_flush_timeout x) (if_ipv4 x) (if_ll x) (if_cap x) (if_pend x) (if_bufsize x) v (if_hello_interval x) (if_update_interval x) (if_rtt_decay x) (if_rtt_min x) (if_rtt_max x) (if_max_rtt_penalty x).
Definition set_if_hello_interval (v : Z) (x : iface) : iface := mkIf (if_id x) (if_ifindex x) (if_flags x) (if_cost x) (if_hello_timeout x) (if_update_timeout x) (if_flush_timeout x) (if_ipv4 x) (if_ll x) (if_cap x) (if_pend x) (if_bufsize x) (if_last_update x) v (if_update_interval x) (if_rtt_decay x) (if_rtt_min x) (if_rtt_max x) (if_max_rtt_penalty x).
Definition set_if_update_interval (v : Z) (x : iface) : iface := mkIf (if_id x) (if_ifindex x) (if_flags x) (if_cost x) (if_hello_timeout x) (if_update_timeout x) (if_flush_timeout x) (if_ipv4 x) (if_ll x) (if_cap x) (if_pend x) (if_bufsize x) (if_last_update x) (if_hello_interval x) v (if_rtt_decay x) (if_rtt_min x) (if_rtt_max x) (if_max_rtt_penalty x).
Definition set_if_rtt_decay (v : Z) (x : iface) : iface := mkIf (if_id x) (if_ifindex x) (if_flags x) (if_cost x) (if_hello_timeout x) (if_update_timeout x) (if_flush_timeout x) (if_ipv4 x) (if_ll x) (if_cap x) (if_pend x) (if_bufsize x) (if_last_update x) (if_hello_interval x) (if_update_interval x) v (if_rtt_min x) (if_rtt_max x) (if_max_rtt_penalty x).
Definition set_if_rtt_min (v : Z) (x : iface) : iface := mkIf (if_id x) (if_ifindex x) (if_flags x) (if_cost x) (if_hello_timeout x) (if_update_timeout x) (if_flush_timeout x) (if_ipv4 x) (if_ll x) (if_cap x) (if_pend x) (if_bufsize x) (if_last_update x) (if_hello_interval x) (if_update_interval x) (if_rtt_decay x) v (if_rtt_max x) (if_max_rtt_penalty x).
Definition set_if_rtt_max (v : Z) (x : iface) : iface := mkIf (if_id x) (if_ifindex x) (if_flags x) (if_cost x) (if_hello_timeout x) (if_update_timeout x) (if_flush_timeout x) (if_ipv4 x) (if_ll x) (if_cap x) (if_pend x) (if_bufsize x) (if_last_update x) (if_hello_interval x) (if_update_interval x) (if_rtt_decay x) (if_rtt_min x) v (if_max_rtt_penalty x).
Definition set_if_max_rtt_penalty (v : Z) (x : iface) : iface := mkIf (if_id x) (if_ifindex x) (if_flags x) (if_cost x) (if_hello_timeout x) (if_update_timeout x) (if_flush_timeout x) (if_ipv4 x) (if_ll x) (if_cap x) (if_pend x) (if_bufsize x) (if_last_update x) (if_hello_interval x) (if_update_interval x) (if_rtt_decay x) (if_rtt_min x) (if_rtt_max x) v.

(** route.h:23-37 struct babel_route.  [r_ptr] stands for the address of the
    structure, [r_src] for the source pointer (sources are keyed), [r_neigh] for the
    neighbour pointer; [next] is the position in the slot list. *)
Record route := mkRoute { r_ptr : Z; r_src : skey; r_refmetric : Z; r_cost : Z; r_add_metric : Z; r_seqno : Z; r_neigh : Z; r_nexthop : list Z; r_time : Z; r_hold_time : Z; r_smoothed : Z; r_smoothed_time : Z; r_installed : bool }.
Definition set_r_ptr (v : Z) (x : route) : route := mkRoute v (r_src x) (r_refmetric x) (r_cost x) (r_add_metric x) (r_seqno x) (r_neigh x) (r_nexthop x) (r_time x) (r_hold_time x) (r_smoothed x) (r_smoothed_time x) (r_installed x).
Definition set_r_src (v : skey) (x : route) : route := mkRoute (r_ptr x) v (r_refmetric x) (r_cost x) (r_add_metric x) (r_seqno x) (r_neigh x) (r_nexthop x) (r_time x) (r_hold_time x) (r_smoothed x) (r_smoothed_time x) (r_installed x).
Definition set_r_refmetric (v : Z) (x : route) : route := mkRoute (r_ptr x) (r_src x) v (r_cost x) (r_add_metric x) (r_seqno x) (r_neigh x) (r_nexthop x) (r_time x) (r_hold_time x) (r_smoothed x) (r_smoothed_time x) (r_installed x).
Definition set_r_cost (v : Z) (x : route) : route := mkRoute (r_ptr x) (r_src x) (r_refmetric x) v (r_add_metric x) (r_seqno x) (r_neigh x) (r_nexthop x) (r_time x) (r_hold_time x) (r_smoothed x) (r_smoothed_time x) (r_installed x).
Definition set_r_add_metric (v : Z) (x : route) : route := mkRoute (r_ptr x) (r_src x) (r_refmetric x) (r_cost x) v (r_seqno x) (r_neigh x) (r_nexthop x) (r_time x) (r_hold_time x) (r_smoothed x) (r_smoothed_time x) (r_installed x).
Definition set_r_seqno (v : Z) (x : route) : route := mkRoute (r_ptr x) (r_src x) (r_refmetric x) (r_cost x) (r_add_metric x) v (r_neigh x) (r_nexthop x) (r_time x) (r_hold_time x) (r_smoothed x) (r_smoothed_time x) (r_installed x).
Definition set_r_neigh (v : Z) (x : route) : route := mkRoute (r_ptr x) (r_src x) (r_refmetric x) (r_cost x) (r_add_metric x) (r_seqno x) v (r_nexthop x) (r_time x) (r_hold_time x) (r_smoothed x) (r_smoothed_time x) (r_installed x).
Definition set_r_nexthop (v : list Z) (x : route) : route := mkRoute (r_ptr x) (r_src x) (r_refmetric x) (r_cost x) (r_add_metric x) (r_seqno x) (r_neigh x) v (r_time x) (r_hold_time x) (r_smoothed x) (r_smoothed_time x) (r_installed x).
Definition set_r_time (v : Z) (x : route) : route := mkRoute (r_ptr x) (r_src x) (r_refmetric x) (r_cost x) (r_add_metric x) (r_seqno x) (r_neigh x) (r_nexthop x) v (r_hold_time x) (r_smoothed x) (r_smoothed_time x) (r_installed x).
Definition set_r_hold_time (v : Z) (x : route) : route := mkRoute (r_ptr x) (r_src x) (r_refmetric x) (r_cost x) (r_add_metric x) (r_seqno x) (r_neigh x) (r_nexthop x) (r_time x) v (r_smoothed x) (r_smoothed_time x) (r_installed x).
Definition set_r_smoothed (v : Z) (x : route) : route := mkRoute (r_ptr x) (r_src x) (r_refmetric x) (r_cost x) (r_add_metric x) (r_seqno x) (r_neigh x) (r_nexthop x) (r_time x) (r_hold_time x) v (r_smoothed_time x) (r_installed x).
Definition set_r_smoothed_time (v : Z) (x : route) : route := mkRoute (r_ptr x) (r_src x) (r_refmetric x) (r_cost x) (r_add_metric x) (r_seqno x) (r_neigh x) (r_nexthop x) (r_time x) (r_hold_time x) (r_smoothed x) v (r_installed x).
Definition set_r_installed (v : bool) (x : route) : route := mkRoute (r_ptr x) (r_src x) (r_refmetric x) (r_cost x) (r_add_metric x) (r_seqno x) (r_neigh x) (r_nexthop x) (r_time x) (r_hold_time x) (r_smoothed x) (r_smoothed_time x) v.

(** xroute.h:23-31 struct xroute *)
Record xroute := mkXr { x_dest : dest; x_metric : Z; x_ifindex : Z; x_proto : Z }.
Definition set_x_dest (v : dest) (x : xroute) : xroute := mkXr v (x_metric x) (x_ifindex x) (x_proto x).
Definition set_x_metric (v : Z) (x : xroute) : xroute := mkXr (x_dest x) v (x_ifindex x) (x_proto x).
Definition set_x_ifindex (v : Z) (x : xroute) : xroute := mkXr (x_dest x) (x_metric x) v (x_proto x).
Definition set_x_proto (v : Z) (x : xroute) : xroute := mkXr (x_dest x) (x_metric x) (x_ifindex x) v.

(** resend.h:29-42 struct resend: [kind] is RESEND_REQUEST (1) or
    RESEND_UPDATE (2); [ifp] is the
    interface pointer (None for NULL). *)
Record resend := mkRsd { rs_kind : Z; rs_max : Z; rs_delay : Z; rs_time : timeval; rs_dest : dest; rs_seqno : Z; rs_id : list Z; rs_ifp : option Z }.
Definition set_rs_kind (v : Z) (x : resend) : resend := mkRsd v (rs_max x) (rs_delay x) (rs_time x) (rs_dest x) (rs_seqno x) (rs_id x) (rs_ifp x).
Definition set_rs_max (v : Z) (x : resend) : resend := mkRsd (rs_kind x) v (rs_delay x) (rs_time x) (rs_dest x) (rs_seqno x) (rs_id x) (rs_ifp x).
Definition set_rs_delay (v : Z) (x : resend) : resend := mkRsd (rs_kind x) (rs_max x) v (rs_time x) (rs_dest x) (rs_seqno x) (rs_id x) (rs_ifp x).
Definition set_rs_time (v : timeval) (x : resend) : resend := mkRsd (rs_kind x) (rs_max x) (rs_delay x) v (rs_dest x) (rs_seqno x) (rs_id x) (rs_ifp x).
Definition set_rs_dest (v : dest) (x : resend) : resend := mkRsd (rs_kind x) (rs_max x) (rs_delay x) (rs_time x) v (rs_seqno x) (rs_id x) (rs_ifp x).
Definition set_rs_seqno (v : Z) (x : resend) : resend := mkRsd (rs_kind x) (rs_max x) (rs_delay x) (rs_time x) (rs_dest x) v (rs_id x) (rs_ifp x).
Definition set_rs_id (v : list Z) (x : resend) : resend := mkRsd (rs_kind x) (rs_max x) (rs_delay x) (rs_time x) (rs_dest x) (rs_seqno x) v (rs_ifp x).
Definition set_rs_ifp (v : option Z) (x : resend) : resend := mkRsd (rs_kind x) (rs_max x) (rs_delay x) (rs_time x) (rs_dest x) (rs_seqno x) (rs_id x) v.

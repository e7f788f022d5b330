(** M_State.v: the state of the daemon (generated text). *)
From Verif Require Import Base M_Util M_Filter M_Source M_Types.

(** Configuration variables: babeld.c:59-80, route.c:44-51, configuration.c:54-62.
    [half_life] is smoothing_half_life; [subtrees] is has_ipv6_subtrees. *)
Record conf := mkConf { c_myid : list Z; c_kernel_metric : Z; c_reflect : bool; c_allow_dup : Z; c_half_life : Z; c_infs : list filt; c_outfs : list filt; c_redistfs : list filt; c_instfs : list filt; c_export_table : Z; c_resend_delay : Z; c_subtrees : bool }.
Definition set_c_myid (v : list Z) (x : conf) : conf := mkConf v (c_kernel_metric x) (c_reflect x) (c_allow_dup x) (c_half_life x) (c_infs x) (c_outfs x) (c_redistfs x) (c_instfs x) (c_export_table x) (c_resend_delay x) (c_subtrees x).
Definition set_c_kernel_metric (v : Z) (x : conf) : conf := mkConf (c_myid x) v (c_reflect x) (c_allow_dup x) (c_half_life x) (c_infs x) (c_outfs x) (c_redistfs x) (c_instfs x) (c_export_table x) (c_resend_delay x) (c_subtrees x).
Definition set_c_reflect (v : bool) (x : conf) : conf := mkConf (c_myid x) (c_kernel_metric x) v (c_allow_dup x) (c_half_life x) (c_infs x) (c_outfs x) (c_redistfs x) (c_instfs x) (c_export_table x) (c_resend_delay x) (c_subtrees x).
Definition set_c_allow_dup (v : Z) (x : conf) : conf := mkConf (c_myid x) (c_kernel_metric x) (c_reflect x) v (c_half_life x) (c_infs x) (c_outfs x) (c_redistfs x) (c_instfs x) (c_export_table x) (c_resend_delay x) (c_subtrees x).
Definition set_c_half_life (v : Z) (x : conf) : conf := mkConf (c_myid x) (c_kernel_metric x) (c_reflect x) (c_allow_dup x) v (c_infs x) (c_outfs x) (c_redistfs x) (c_instfs x) (c_export_table x) (c_resend_delay x) (c_subtrees x).
Definition set_c_infs (v : list filt) (x : conf) : conf := mkConf (c_myid x) (c_kernel_metric x) (c_reflect x) (c_allow_dup x) (c_half_life x) v (c_outfs x) (c_redistfs x) (c_instfs x) (c_export_table x) (c_resend_delay x) (c_subtrees x).
Definition set_c_outfs (v : list filt) (x : conf) : conf := mkConf (c_myid x) (c_kernel_metric x) (c_reflect x) (c_allow_dup x) (c_half_life x) (c_infs x) v (c_redistfs x) (c_instfs x) (c_export_table x) (c_resend_delay x) (c_subtrees x).
Definition set_c_redistfs (v : list filt) (x : conf) : conf := mkConf (c_myid x) (c_kernel_metric x) (c_reflect x) (c_allow_dup x) (c_half_life x) (c_infs x) (c_outfs x) v (c_instfs x) (c_export_table x) (c_resend_delay x) (c_subtrees x).
Definition set_c_instfs (v : list filt) (x : conf) : conf := mkConf (c_myid x) (c_kernel_metric x) (c_reflect x) (c_allow_dup x) (c_half_life x) (c_infs x) (c_outfs x) (c_redistfs x) v (c_export_table x) (c_resend_delay x) (c_subtrees x).
Definition set_c_export_table (v : Z) (x : conf) : conf := mkConf (c_myid x) (c_kernel_metric x) (c_reflect x) (c_allow_dup x) (c_half_life x) (c_infs x) (c_outfs x) (c_redistfs x) (c_instfs x) v (c_resend_delay x) (c_subtrees x).
Definition set_c_resend_delay (v : Z) (x : conf) : conf := mkConf (c_myid x) (c_kernel_metric x) (c_reflect x) (c_allow_dup x) (c_half_life x) (c_infs x) (c_outfs x) (c_redistfs x) (c_instfs x) (c_export_table x) v (c_subtrees x).
Definition set_c_subtrees (v : bool) (x : conf) : conf := mkConf (c_myid x) (c_kernel_metric x) (c_reflect x) (c_allow_dup x) (c_half_life x) (c_infs x) (c_outfs x) (c_redistfs x) (c_instfs x) (c_export_table x) (c_resend_delay x) v.

(** A netlink route request, kernel_netlink.c:1051-1136: table (8 bits, line 1065),
    destination, source prefix if use_src, priority, and for a unicast route the
    interface, gateway and preferred source. *)
Record kreq := mkKreq { q_table : Z; q_prefix : list Z; q_plen : Z; q_src : option (list Z * Z);
                        q_prio : Z; q_via : option (Z * list Z * option (list Z)) }.

(** What happened at the interface with the kernel: a request to add or to delete a
    route with the kernel's answer (0 or an errno), or a request refused by
    kernel_route itself (KFail add errno). *)
Inductive kev := KAdd (q : kreq) (resp : Z) | KDel (q : kreq) (resp : Z) | KFail (add : bool) (errno : Z).

(** Output buffers: ifp->buf and neigh->buf. *)
Inductive obuf := BIf (ifp : Z) | BNb (neigh : Z).

(** Messages put in output buffers. *)
Inductive tlv :=
| TUpdate (id : list Z) (d : dest) (seqno metric interval : Z)
| TWildRetract (seqno : Z)
| TRequest (d : option dest)
| TMhRequest (d : dest) (seqno hop_count : Z) (id : list Z)
| TIhu (addr : list Z) (rxcost interval : Z) (rtt : option (Z * Z))
| THello (unicast : bool) (interval : Z)
| TAck (nonce : Z).

(** A route becomes the selected one (route.c:501, 562): the route and the route it
    replaces if any, as they are just before, and the source entry of the new route
    and the time at which the daemon tests for the warning of route.c:477 and 546. *)
Record selev := mkSel { e_new : route; e_src : option source; e_now : Z; e_old : option route }.

(** The state of the daemon, as far as routes are concerned.  The global
    variables: now (babeld.c:41), interfaces (interface.c:46), neighs
    (neighbour.c:43), sources (source.c:38), routes (route.c:42), xroutes
    (xroute.c:43), to_resend and resend_time (resend.c:38-39), myseqno and
    seqno_time (message.c:38-39).  [next] is the next fresh allocation number for a
    route.  [rnd] and [kresp] are oracles: the values to be returned by random() and
    by the kernel (0 for success, else an errno); when a list is empty the value is
    0.  [ktr] is the trace of requests made to the kernel, [out] the TLVs put in
    output buffers, oldest first.  [sel] is a ghost variable: the log of selections
    (see [selev]), oldest first.  [bad] is set by a failed assertion or a use of a
    freed object; [fuel] when a loop was cut short by the model. *)
Record world := mkW { w_now : timeval; w_cfg : conf; w_ifs : list iface; w_nbs : list neigh; w_srcs : list source; w_rt : list (list route); w_next : Z; w_xr : list xroute; w_rsd : list resend; w_rsd_time : timeval; w_seqno : Z; w_seqno_time : timeval; w_rnd : list Z; w_kresp : list Z; w_ktr : list kev; w_out : list (obuf * tlv); w_sel : list selev; w_bad : bool; w_fuel : bool }.
Definition set_w_now (v : timeval) (x : world) : world := mkW v (w_cfg x) (w_ifs x) (w_nbs x) (w_srcs x) (w_rt x) (w_next x) (w_xr x) (w_rsd x) (w_rsd_time x) (w_seqno x) (w_seqno_time x) (w_rnd x) (w_kresp x) (w_ktr x) (w_out x) (w_sel x) (w_bad x) (w_fuel x).
Definition set_w_cfg (v : conf) (x : world) : world := mkW (w_now x) v (w_ifs x) (w_nbs x) (w_srcs x) (w_rt x) (w_next x) (w_xr x) (w_rsd x) (w_rsd_time x) (w_seqno x) (w_seqno_time x) (w_rnd x) (w_kresp x) (w_ktr x) (w_out x) (w_sel x) (w_bad x) (w_fuel x).
Definition set_w_ifs (v : list iface) (x : world) : world := mkW (w_now x) (w_cfg x) v (w_nbs x) (w_srcs x) (w_rt x) (w_next x) (w_xr x) (w_rsd x) (w_rsd_time x) (w_seqno x) (w_seqno_time x) (w_rnd x) (w_kresp x) (w_ktr x) (w_out x) (w_sel x) (w_bad x) (w_fuel x).
Definition set_w_nbs (v : list neigh) (x : world) : world := mkW (w_now x) (w_cfg x) (w_ifs x) v (w_srcs x) (w_rt x) (w_next x) (w_xr x) (w_rsd x) (w_rsd_time x) (w_seqno x) (w_seqno_time x) (w_rnd x) (w_kresp x) (w_ktr x) (w_out x) (w_sel x) (w_bad x) (w_fuel x).
Definition set_w_srcs (v : list source) (x : world) : world := mkW (w_now x) (w_cfg x) (w_ifs x) (w_nbs x) v (w_rt x) (w_next x) (w_xr x) (w_rsd x) (w_rsd_time x) (w_seqno x) (w_seqno_time x) (w_rnd x) (w_kresp x) (w_ktr x) (w_out x) (w_sel x) (w_bad x) (w_fuel x).
Definition set_w_rt (v : list (list route)) (x : world) : world := mkW (w_now x) (w_cfg x) (w_ifs x) (w_nbs x) (w_srcs x) v (w_next x) (w_xr x) (w_rsd x) (w_rsd_time x) (w_seqno x) (w_seqno_time x) (w_rnd x) (w_kresp x) (w_ktr x) (w_out x) (w_sel x) (w_bad x) (w_fuel x).
Definition set_w_next (v : Z) (x : world) : world := mkW (w_now x) (w_cfg x) (w_ifs x) (w_nbs x) (w_srcs x) (w_rt x) v (w_xr x) (w_rsd x) (w_rsd_time x) (w_seqno x) (w_seqno_time x) (w_rnd x) (w_kresp x) (w_ktr x) (w_out x) (w_sel x) (w_bad x) (w_fuel x).
Definition set_w_xr (v : list xroute) (x : world) : world := mkW (w_now x) (w_cfg x) (w_ifs x) (w_nbs x) (w_srcs x) (w_rt x) (w_next x) v (w_rsd x) (w_rsd_time x) (w_seqno x) (w_seqno_time x) (w_rnd x) (w_kresp x) (w_ktr x) (w_out x) (w_sel x) (w_bad x) (w_fuel x).
Definition set_w_rsd (v : list resend) (x : world) : world := mkW (w_now x) (w_cfg x) (w_ifs x) (w_nbs x) (w_srcs x) (w_rt x) (w_next x) (w_xr x) v (w_rsd_time x) (w_seqno x) (w_seqno_time x) (w_rnd x) (w_kresp x) (w_ktr x) (w_out x) (w_sel x) (w_bad x) (w_fuel x).
Definition set_w_rsd_time (v : timeval) (x : world) : world := mkW (w_now x) (w_cfg x) (w_ifs x) (w_nbs x) (w_srcs x) (w_rt x) (w_next x) (w_xr x) (w_rsd x) v (w_seqno x) (w_seqno_time x) (w_rnd x) (w_kresp x) (w_ktr x) (w_out x) (w_sel x) (w_bad x) (w_fuel x).
Definition set_w_seqno (v : Z) (x : world) : world := mkW (w_now x) (w_cfg x) (w_ifs x) (w_nbs x) (w_srcs x) (w_rt x) (w_next x) (w_xr x) (w_rsd x) (w_rsd_time x) v (w_seqno_time x) (w_rnd x) (w_kresp x) (w_ktr x) (w_out x) (w_sel x) (w_bad x) (w_fuel x).
Definition set_w_seqno_time (v : timeval) (x : world) : world := mkW (w_now x) (w_cfg x) (w_ifs x) (w_nbs x) (w_srcs x) (w_rt x) (w_next x) (w_xr x) (w_rsd x) (w_rsd_time x) (w_seqno x) v (w_rnd x) (w_kresp x) (w_ktr x) (w_out x) (w_sel x) (w_bad x) (w_fuel x).
Definition set_w_rnd (v : list Z) (x : world) : world := mkW (w_now x) (w_cfg x) (w_ifs x) (w_nbs x) (w_srcs x) (w_rt x) (w_next x) (w_xr x) (w_rsd x) (w_rsd_time x) (w_seqno x) (w_seqno_time x) v (w_kresp x) (w_ktr x) (w_out x) (w_sel x) (w_bad x) (w_fuel x).
Definition set_w_kresp (v : list Z) (x : world) : world := mkW (w_now x) (w_cfg x) (w_ifs x) (w_nbs x) (w_srcs x) (w_rt x) (w_next x) (w_xr x) (w_rsd x) (w_rsd_time x) (w_seqno x) (w_seqno_time x) (w_rnd x) v (w_ktr x) (w_out x) (w_sel x) (w_bad x) (w_fuel x).
Definition set_w_ktr (v : list kev) (x : world) : world := mkW (w_now x) (w_cfg x) (w_ifs x) (w_nbs x) (w_srcs x) (w_rt x) (w_next x) (w_xr x) (w_rsd x) (w_rsd_time x) (w_seqno x) (w_seqno_time x) (w_rnd x) (w_kresp x) v (w_out x) (w_sel x) (w_bad x) (w_fuel x).
Definition set_w_out (v : list (obuf * tlv)) (x : world) : world := mkW (w_now x) (w_cfg x) (w_ifs x) (w_nbs x) (w_srcs x) (w_rt x) (w_next x) (w_xr x) (w_rsd x) (w_rsd_time x) (w_seqno x) (w_seqno_time x) (w_rnd x) (w_kresp x) (w_ktr x) v (w_sel x) (w_bad x) (w_fuel x).
Definition set_w_sel (v : list selev) (x : world) : world := mkW (w_now x) (w_cfg x) (w_ifs x) (w_nbs x) (w_srcs x) (w_rt x) (w_next x) (w_xr x) (w_rsd x) (w_rsd_time x) (w_seqno x) (w_seqno_time x) (w_rnd x) (w_kresp x) (w_ktr x) (w_out x) v (w_bad x) (w_fuel x).
Definition set_w_bad (v : bool) (x : world) : world := mkW (w_now x) (w_cfg x) (w_ifs x) (w_nbs x) (w_srcs x) (w_rt x) (w_next x) (w_xr x) (w_rsd x) (w_rsd_time x) (w_seqno x) (w_seqno_time x) (w_rnd x) (w_kresp x) (w_ktr x) (w_out x) (w_sel x) v (w_fuel x).
Definition set_w_fuel (v : bool) (x : world) : world := mkW (w_now x) (w_cfg x) (w_ifs x) (w_nbs x) (w_srcs x) (w_rt x) (w_next x) (w_xr x) (w_rsd x) (w_rsd_time x) (w_seqno x) (w_seqno_time x) (w_rnd x) (w_kresp x) (w_ktr x) (w_out x) (w_sel x) (w_bad x) v.

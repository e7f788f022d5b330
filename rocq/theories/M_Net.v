(** M_Net.v: any number of routers exchanging updates.

    Each router is the single-router model M_Daemon.v (route.c, source.c, message.c,
    neighbour.c, xroute.c as cited there).  The network is the text of RFC 8966's
    setting, not code: every packet ever sent stays available for ever, and may be
    delivered any number of times, in any order, or never.

    Simplifications.  A message is an update TLV as recorded in [w_out] (message.c:1437-1545)
    and is delivered as the call of update_route that parse_packet makes for it
    (message.c:814-956); its interval and next hop are arbitrary.  All other events of a router
    (Hello, IHU, requests, timers, interfaces, kernel) are arbitrary. *)
From Verif Require Import Base M_Util M_Slot M_Source M_Filter M_Types M_Neigh M_State M_Table M_Msg M_Route M_Xroute M_Daemon.
From Verif Require Import S_Util S_Neigh S_World S_Net.

Definition net : Type := Z -> world.
Definition put (i : Z) (w : world) (N : net) : net := fun j => if j =? i then w else N j.

Section Net.
(** [who i a f]: the router whose packets reach router [i] on its interface [f] with
    source address [a]. *)
Variable who : Z -> list Z -> Z -> Z.

(** The router behind neighbour [n] of router [i] *)
Definition peer (N : net) (i n j : Z) : Prop :=
  exists x, get_nb n (N i) = Some x /\ who i (n_addr x) (n_if x) = j.

(** Where the updates that a router processes come from: a packet of the neighbour, or a
    retraction out of nowhere. *)
Definition delivered (N : net) (i : Z) (ev : event) : Prop :=
  match ev with
  | EvUpdate (Some id) d s m _ n _ =>
      exists j b iv, peer N i n j /\ In (b, TUpdate id d s m iv) (w_out (N j))
  | EvUpdate None _ _ _ _ _ _ => False
  | _ => True
  end.
Definition retraction (ev : event) : Prop :=
  match ev with EvUpdate _ _ _ m _ _ _ => INFINITY <= m | _ => False end.

(** One step of the network: event [ev] at router [i] *)
Definition nstep (i : Z) (ev : event) (N N' : net) : Prop :=
  allowed ev (N i) /\ N' = put i (run1 ev (N i)) N.

(** Every router starts with empty tables. *)
Definition nboot (N : net) : Prop := forall i, exists c now ifs seqno,
  N i = boot c now ifs seqno /\ c_half_life c <> 2 /\
  NoDup (map if_id ifs) /\ Forall iface_in ifs /\ tv_ok now /\ u16_ok seqno.

(** Executions all of whose steps satisfy [C] *)
Inductive nexec (C : net -> Z -> event -> net -> Prop) : net -> Prop :=
| nexec_boot : forall N, nboot N -> nexec C N
| nexec_step : forall N i ev N', nexec C N -> nstep i ev N N' -> C N i ev N' -> nexec C N'.

(** The successor graph of source [k]: router [i] has selected a route of this source
    through router [j]. *)
Definition successor (k : skey) (N : net) (i j : Z) : Prop :=
  exists r, In r (all_routes (N i)) /\ r_installed r = true /\ r_src r = k /\ peer N i (r_neigh r) j.

(** The part of it made of routes that satisfy the feasibility condition: the announced
    metric is finite, and the announced distance is closer than the router's own. *)
Definition fsuccessor (k : skey) (q : Z) (N : net) (i j : Z) : Prop :=
  exists r, In r (all_routes (N i)) /\ r_installed r = true /\ r_src r = k /\ peer N i (r_neigh r) j /\
    r_refmetric r < INFINITY /\
    forall s, In s (w_srcs (N i)) -> s_key s = k ->
      closer q (r_seqno r, r_refmetric r) (s_seqno s, s_metric s).

(** ** Conditions on the steps *)
(** Updates are packets of neighbours, but retractions may come from nowhere. *)
Definition c_packets (N : net) (i : Z) (ev : event) (N' : net) : Prop := delivered N i ev \/ retraction ev.
(** All updates are packets of neighbours. *)
Definition c_genuine (N : net) (i : Z) (ev : event) (N' : net) : Prop := delivered N i ev.
(** The router's source entry has not been garbage-collected, nor is due for it
    (source.c:208-232, route.c:634-650: SOURCE_GC_TIME is 200 s). *)
Definition c_fresh (k : skey) (N : net) (i : Z) (ev : event) (N' : net) : Prop :=
  forall s, In s (w_srcs (N' i)) -> s_key s = k -> sec (N' i) - 200 <= s_time s.
(** Sequence numbers of the source stay within half a circle. *)
Definition c_half (k : skey) (q : Z) (N : net) (i : Z) (ev : event) (N' : net) : Prop :=
  forall id d s m iv n nh, ev = EvUpdate (Some id) d s m iv n nh -> mkey id d = k -> in_half q s.
(** The kernel accepts the routes it is given. *)
Definition c_kernel (N : net) (i : Z) (ev : event) (N' : net) : Prop :=
  Forall (fun e => match e with KAdd _ rc => rc = 0 \/ rc = EEXIST | KDel _ _ => True | KFail add _ => add = false end)
    (w_ktr (N' i)).
(** No neighbour announces a zero cost for its link (costs of links are positive). *)
Definition c_cost (N : net) (i : Z) (ev : event) (N' : net) : Prop :=
  forall n c iv, ev = EvIhu n c iv -> 1 <= c.
(** No retracted route of the source gets selected... *)
Definition c_finite (k : skey) (N : net) (i : Z) (ev : event) (N' : net) : Prop :=
  Forall (fun e => r_src (e_new e) = k -> r_refmetric (e_new e) < INFINITY) (w_sel (N' i)).
(** ... and no retraction naming this source reaches a selected route of another source. *)
Definition c_foreign (k : skey) (N : net) (i : Z) (ev : event) (N' : net) : Prop :=
  forall id d s m iv n nh, ev = EvUpdate (Some id) d s m iv n nh -> mkey id d = k -> INFINITY <= m ->
  forall r, In r (all_routes (N i)) -> dest_of r = d -> r_neigh r = n -> r_installed r = true -> r_src r = k.

Definition c_all (k : skey) (q : Z) N i ev N' : Prop :=
  c_packets N i ev N' /\ c_fresh k N i ev N' /\ c_half k q N i ev N' /\ c_kernel N i ev N'.
Definition c_strict (k : skey) N i ev N' : Prop := c_cost N i ev N' /\ c_finite k N i ev N' /\ c_foreign k N i ev N'.
End Net.

(** S_Arm.v: vocabulary for updates that wait to be sent. *)
From Verif Require Import Base M_Util S_Util M_Types M_State M_Daemon S_Neigh.
Import M_Daemon.

(** An interface on which nothing was ever sent (interface.c:66-98, calloc). *)
Definition untouched_if (i : iface) : Prop := if_pend i = [] /\ if_bufsize i = 0 /\ if_flush_timeout i = mkTv 0 0.
(** What a change of an interface does to the waiting updates: nothing, or they are
    dropped, when it goes down (interface.c:490-497). *)
Definition keeps_or_drops (old new : iface) : Prop :=
  if_flush_timeout new = if_flush_timeout old /\
  ((if_pend new = if_pend old /\ if_bufsize new = if_bufsize old) \/ (if_pend new = [] /\ if_bufsize new = 0)).
(** The clock does not go back, and interfaces change as in interface.c. *)
Definition orderly (ev : event) (w : world) : Prop :=
  match ev with
  | EvClock t => us (w_now w) <= us t
  | EvInterface i => 0 <= if_hello_interval i /\ forall old, In old (w_ifs w) -> if_id old = if_id i -> keeps_or_drops old i
  | EvNewInterface i => 0 <= if_hello_interval i /\ untouched_if i
  | _ => True
  end.
Inductive oreach (c : conf) : world -> Prop :=
| oreach_boot : forall now ifs seqno, NoDup (map if_id ifs) -> Forall iface_in ifs -> tv_ok now -> 0 <= seqno < 65536 ->
    1 <= tv_sec now -> Forall untouched_if ifs -> Forall (fun i => 0 <= if_hello_interval i) ifs -> oreach c (boot c now ifs seqno)
| oreach_run : forall w ev, oreach c w -> allowed ev w -> orderly ev w -> oreach c (run1 ev w).

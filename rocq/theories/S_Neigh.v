(** S_Neigh.v: vocabulary for the properties of neighbours. *)
From Verif Require Import Base M_Util S_Util M_Filter M_Source M_Types M_Neigh.

(** What happens to a hello history: a Hello (seqno, interval) is received, or the
    periodic check runs; each at some time. *)
Inductive hev := EvHello (now : timeval) (seqno interval : Z) | EvCheck (now : timeval).
Definition hstep (h : hist) (e : hev) : hist :=
  match e with
  | EvHello now s i => fst (update_hist now h s i)
  | EvCheck now => fst (update_hist now h (-1) 0)
  end.
Definition hrun (es : list hev) (h : hist) : hist := fold_left hstep es h.
Definition hev_ok (e : hev) : Prop :=
  match e with EvHello now s i => tv_ok now /\ seqno_ok s /\ 0 <= i < 65536 | EvCheck now => tv_ok now end.
(** sequence numbers of the Hellos received *)
Definition heard (es : list hev) (s : Z) : Prop := exists now i, In (EvHello now s i) es.

(** The history as a window: was the Hello [k] slots before the latest heard? *)
Definition slot_heard (h : hist) (k : Z) : bool := Z.testbit (h_reach h) (15 - k).

Definition hist_ok (h : hist) : Prop :=
  0 <= h_reach h < 65536 /\ 0 <= h_interval h < 65536 /\ -1 <= h_seqno h < 65536 /\
  tv_ok (h_time h) /\ (h_seqno h = -1 -> h_reach h = 0).

(** [a] consecutive Hellos starting at [s], at arbitrary times and intervals. *)
Inductive consecutive : Z -> list hev -> Prop :=
| cons_nil : forall s, consecutive s []
| cons_hello : forall s now i es, consecutive ((s + 1) mod 65536) es ->
    consecutive s (EvHello now s i :: es).

(** Values that interface_updown gives an interface (interface.c:351-417). *)
Definition iface_ok (i : iface) : Prop :=
  1 <= if_cost i <= 65535 /\ 1 <= if_rtt_decay i <= 256 /\
  1 <= if_rtt_min i < if_rtt_max i /\ if_rtt_max i < 4294967296 /\
  0 <= if_max_rtt_penalty i <= 65535.
(** ... as they are from the moment the interface comes up; an interface that never was
    up has none (interface.c:83 add_interface, calloc; C70). *)
Definition iface_in (i : iface) : Prop := if_up i = true -> iface_ok i.
Definition neigh_ok (n : neigh) : Prop :=
  hist_ok (n_hello n) /\ hist_ok (n_uhello n) /\ 0 <= n_txcost n <= 65535 /\
  tv_ok (n_ihu_time n) /\ 0 <= n_ihu_interval n < 65536 /\ 0 <= n_rtt n < 4294967296 /\
  tv_ok (n_rtt_time n).

(** At least two of the last three Hellos were heard. *)
Definition heard_two_of_three (h : hist) : Prop :=
  (slot_heard h 0 = true /\ slot_heard h 1 = true) \/
  (slot_heard h 0 = true /\ slot_heard h 2 = true) \/
  (slot_heard h 1 = true /\ slot_heard h 2 = true).
(** None of the last twelve Hellos was heard. *)
Definition heard_none (h : hist) : Prop := forall k, 0 <= k < 12 -> slot_heard h k = false.
(** The hello stream is dead: nothing heard, or the last one 180 s ago. *)
Definition stream_dead (now : timeval) (h : hist) : Prop :=
  heard_none h \/ timeval_minus_msec now (h_time h) >= 180000.

(** How far [s1] is behind [s2]. *)
Definition behind (s1 s2 : Z) : Z := (s2 - s1) mod 65536.

(** The RTT penalty: 0 up to [mn], [pen] from [mx] on, linear in between. *)
Definition rtt_penalty_spec (pen mn mx rtt : Z) : Z :=
  if rtt <=? mn then 0 else if mx <=? rtt then pen else pen * (rtt - mn) / (mx - mn).

(** The silent neighbour: checks only. *)
Definition silent (es : list hev) : Prop := Forall (fun e => match e with EvCheck t => tv_ok t | _ => False end) es.

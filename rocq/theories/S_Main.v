(** S_Main.v: specifications for the main loop. *)
From Verif Require Import Base M_Util S_Util M_Filter M_Types M_State M_Table M_Daemon M_Main.

(** A pending deadline, in microseconds.  A timer whose seconds are 0 is not set. *)
Definition set_for (t : timeval) (u : Z) : Prop := tv_sec t <> 0 /\ u = us t.
Inductive pending_at (T : timers) (u : Z) : Prop :=
| pa_nb : set_for (t_nb T) u -> pending_at T u
| pa_if : set_for (t_if T) u -> pending_at T u
| pa_resend : set_for (t_resend T) u -> pending_at T u
| pa_iface : forall i, In i (t_ifs T) -> it_up i = true ->
    set_for (it_buf i) u \/ set_for (it_hello i) u \/ set_for (it_update i) u \/ set_for (it_flush i) u -> pending_at T u
| pa_nbuf : forall t, In t (t_nbufs T) -> set_for t u -> pending_at T u.
(** Deadlines known to the second only. *)
Definition pending_sec (T : timers) (s : Z) : Prop :=
  s = t_expiry T \/ s = t_srcexp T \/ (t_interval T > 0 /\ s = t_dump T).

Definition timers_ok (T : timers) : Prop :=
  tv_ok (t_nb T) /\ tv_ok (t_if T) /\ tv_ok (t_resend T) /\
  (forall i, In i (t_ifs T) -> tv_ok (it_buf i) /\ tv_ok (it_hello i) /\ tv_ok (it_update i) /\ tv_ok (it_flush i)) /\
  (forall t, In t (t_nbufs T) -> tv_ok t) /\
  t_expiry T <> 0 /\ t_srcexp T <> 0 /\ t_dump T <> 0.


(** The message announces number [q] under router-id [me]. *)
Definition announces (me : list Z) (t : tlv) (q : Z) : Prop :=
  (exists d m iv, t = TUpdate me d q m iv) \/ t = TWildRetract q.
(** Lives of the daemon, each ended by a clean shutdown: the time and the interfaces at
    start, what happens, the random number at the next start.  [history]: the messages
    sent in all the lives and the number with which the daemon starts next. *)
Record life := mkLife { lf_now : timeval; lf_ifs : list iface; lf_evs : list event; lf_rnd : Z }.
Fixpoint history (c : conf) (s : Z) (l : list life) : list (obuf * tlv) * Z :=
  match l with
  | [] => ([], s)
  | x :: l' =>
      let w := run (lf_evs x) (boot c (lf_now x) (lf_ifs x) s) in
      let '(o, n) := history c (fst (state_seqno (lf_rnd x) (save_state (w_seqno w) None WOk) true)) l' in
      (w_out w ++ o, n)
  end.
(** How often the daemon is asked to increment its number. *)
Definition asked_in (c : conf) (evs : list event) : Z :=
  Z.of_nat (length (filter (fun ev =>
    match ev with EvSeqno => true | EvSeqnoRequest _ _ _ _ id => beq id (c_myid c) | _ => false end) evs)).
Definition renewals (c : conf) (l : list life) : Z := fold_right (fun x n => asked_in c (lf_evs x) + 1 + n) 0 l.

(** M_Check.v: when the neighbours are checked: the time of the next check of neighbours
    (check_neighbours_timeout, babeld.c:94) along the events of M_Daemon.v. *)
From Verif Require Import Base M_Util M_Filter M_Source M_Types M_Neigh M_State M_Table M_Msg M_Route M_Xroute M_Daemon.

(** babeld.c:913-923 schedule_neighbours_check; [r] is random() *)
Definition schedule_check (now tn : timeval) (msecs r : Z) (override : bool) : timeval :=
  let timeout := timeval_add_msec now (roughly msecs r) in
  if override then timeout else timeval_min tn timeout.

(** message.c:713-715 (a Hello), 752-754 (an IHU), babeld.c:724-730 (a check).  A signal
    (babeld.c:700) also sets the time; it is not modelled here. *)
Definition check_at (ev : event) (r : Z) (w : world) (tn : timeval) : timeval :=
  match ev with
  | EvHello _ _ _ iv => if iv >? 0 then schedule_check (w_now w) tn (iv * 15) r false else tn
  | EvIhu _ _ iv => if iv >? 0 then schedule_check (w_now w) tn (iv * 45) r false else tn
  | EvCheckNeighbours => schedule_check (w_now w) tn (Z.max (Z.quot (3 * fst (check_neighbours w)) 2) 10) r true
  | _ => tn
  end.
Definition trun1 (e : event * Z) (s : world * timeval) : world * timeval :=
  (run1 (fst e) (fst s), check_at (fst e) (snd e) (fst s) (snd s)).
Definition trun (es : list (event * Z)) (s : world * timeval) : world * timeval :=
  fold_left (fun s e => trun1 e s) es s.

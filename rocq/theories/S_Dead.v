(** S_Dead.v: vocabulary for a neighbour that falls silent. *)
From Verif Require Import Base M_Util S_Util M_Filter M_Source M_Types M_Neigh M_State M_Table M_Msg M_Route M_Xroute M_Daemon M_Check.

(** The neighbour with address [a] on interface [i]. *)
Definition is_nb (a : list Z) (i : Z) (x : neigh) : Prop := n_addr x = a /\ n_if x = i.

(** No Hello is heard from it; other packets may be, as long as it is known. *)
Definition mute (a : list Z) (i : Z) (ev : event) (w : world) : Prop :=
  match ev with
  | EvHello n _ _ _ => forall x, In x (w_nbs w) -> n_id x = n -> ~ is_nb a i x
  | EvNeighbour a' i' => a' = a -> i' = i -> exists x, In x (w_nbs w) /\ is_nb a i x
  | _ => True
  end.

(** The clock does not go back, and the main loop is not late for the check by more than
    [L] microseconds: the clock is not past that before the check is made. *)
Definition timely (L : Z) (ev : event) (w : world) (tn : timeval) : Prop :=
  match ev with EvClock t => us (w_now w) <= us t <= us tn + L | _ => True end.

Fixpoint silence (L : Z) (a : list Z) (i : Z) (es : list (event * Z)) (s : world * timeval) : Prop :=
  match es with
  | [] => True
  | e :: es => allowed (fst e) (fst s) /\ 0 <= snd e /\ timely L (fst e) (fst s) (snd s) /\
      mute a i (fst e) (fst s) /\ silence L a i es (trun1 e s)
  end.

(** No IHU is heard from it, though Hellos and all the rest may be: it does not hear us. *)
Definition no_ihu (a : list Z) (i : Z) (ev : event) (w : world) : Prop :=
  match ev with EvIhu n _ _ => forall x, In x (w_nbs w) -> n_id x = n -> ~ is_nb a i x | _ => True end.
Fixpoint unheard (L : Z) (a : list Z) (i : Z) (es : list (event * Z)) (s : world * timeval) : Prop :=
  match es with
  | [] => True
  | e :: es => allowed (fst e) (fst s) /\ 0 <= snd e /\ timely L (fst e) (fst s) (snd s) /\
      no_ihu a i (fst e) (fst s) /\ unheard L a i es (trun1 e s)
  end.

(** The interface does not measure the quality of links. *)
Definition wired_if (i : Z) (w : world) : Prop := forall y, In y (w_ifs w) -> if_id y = i -> flag y IF_LQ = false.
(** All along an execution *)
Fixpoint along (P : world -> Prop) (es : list (event * Z)) (s : world * timeval) : Prop :=
  P (fst s) /\ match es with [] => True | e :: es => along P es (trun1 e s) end.

(** S_Wifs.v: a client that keeps a table of interfaces. *)
From Verif Require Import Base M_Util M_Slot M_Source M_Filter M_Types M_Neigh M_State M_Table M_Msg M_Route M_Xroute M_Daemon M_Wifs.

(** The table: what was last said of every interface, by name.  A line about an interface
    of which the client knows nothing is not understood. *)
Definition itable := Z -> option (option (option (list Z) * option (list Z))).
Definition iput (id : Z) x (P : itable) : itable := fun n => if n =? id then Some x else P n.
Fixpoint iread (l : list inote) (P : itable) : option itable :=
  match l with
  | [] => Some P
  | (id, x) :: l => match P id with Some _ => iread l (iput id x P) | None => None end
  end.
(** The table is right: it has exactly the interfaces of the daemon, each as it is. *)
Definition iright (P : itable) (w : world) : Prop :=
  forall id, P id = match get_if id w with Some i => Some (ishow i) | None => None end.

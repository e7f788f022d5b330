(** S_Ifreg.v: which interfaces there are and what their parameters are, said in terms of
    the lines given, newest first. *)
From Verif Require Import Base M_Config M_Ifreg.

(** Where an interface comes from: the configuration, the command line (with whether there
    was a default line then), a line given at run time. *)
Inductive origin := FromFile | FromArgs (defaults : bool) | FromLine.
Definition is_if (n : list Z) (o : rop) : bool := match o with RIf c => beq (ic_name c) n | _ => false end.
Definition is_def (o : rop) : bool := match o with RDef _ => true | _ => false end.
Definition is_start (o : rop) : bool := match o with RStart => true | _ => false end.
Definition started (h : list rop) : bool := existsb is_start h.

(** The interface [n] after the history [h] *)
Fixpoint stands (n : list Z) (h : list rop) : option origin :=
  match h with
  | [] => None
  | o :: h' =>
      match stands n h' with
      | Some x => match o with RFlush m => if beq m n then None else Some x | _ => Some x end
      | None =>
          match o with
          | RIf c => if beq (ic_name c) n && started h' then Some FromLine else None
          | RStart => if existsb (is_if n) h' then Some FromFile else None
          | RArg m => if beq m n then Some (FromArgs (existsb is_def h')) else None
          | _ => None
          end
      end
  end.
(** The default lines, and the lines for [n] that count: those since the start and since the
    last time it was removed after it had been added by a line *)
Fixpoint defaults (h : list rop) : list ifconf :=
  match h with [] => [] | RDef c :: h' => c :: defaults h' | _ :: h' => defaults h' end.
Fixpoint kept (n : list Z) (h : list rop) : list ifconf :=
  match h with
  | [] => []
  | RIf c :: h' => if beq (ic_name c) n then c :: kept n h' else kept n h'
  | RStart :: _ => []
  | RFlush m :: h' => if beq m n then match stands n h' with Some FromLine => [] | _ => kept n h' end else kept n h'
  | _ :: h' => kept n h'
  end.
(** What the configuration says about [n] *)
Fixpoint configured_lines (n : list Z) (h : list rop) : list ifconf :=
  match h with [] => [] | RStart :: h' => kept n h' ++ defaults h' | _ :: h' => configured_lines n h' end.
Definition lines_for (x : origin) (n : list Z) (h : list rop) : list ifconf :=
  match x with
  | FromFile => configured_lines n h
  | FromArgs d => if d then defaults h else []
  | FromLine => kept n h
  end.
(** The value of a parameter: the newest line that sets it; likewise the key *)
Fixpoint value_in (i : nat) (l : list ifconf) : Z :=
  match l with [] => 0 | c :: l' => if nth i (ic_vals c) 0 =? 0 then value_in i l' else nth i (ic_vals c) 0 end.
Fixpoint key_in (l : list ifconf) : option nat :=
  match l with [] => None | c :: l' => match ic_key c with Some k => Some k | None => key_in l' end end.

(** The histories of a daemon: the configuration (newest first), the start, the rest *)
Definition before_start (o : rop) : Prop := match o with RStart | RArg _ => False | _ => True end.
Definition full (o : rop) : Prop := match o with RIf c | RDef c => length (ic_vals c) = 17%nat | _ => True end.
Definition history (h : list rop) : Prop :=
  Forall full h /\
  (Forall before_start h \/
   exists a b, h = a ++ RStart :: b /\ Forall before_start b /\ Forall (fun o => o <> RStart) a).
(** What a client knows that saw all notifications *)
Fixpoint known (l : list note) (acc : list (list Z)) : list (list Z) :=
  match l with
  | [] => acc
  | NAdd n :: l' => known l' (acc ++ [n])
  | NFlush n :: l' => known l' (filter (fun m => negb (beq m n)) acc)
  end.
(** The names that lines, or lines before the start, speak about *)
Definition if_names (h : list rop) : list (list Z) := flat_map (fun o => match o with RIf c => [ic_name c] | _ => [] end) h.

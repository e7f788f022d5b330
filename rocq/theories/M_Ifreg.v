(** M_Ifreg.v: the table of interfaces and the configurations they point to: interface.c:66-132,
    configuration.c:917-968, 1199-1217, 1543-1558, babeld.c:430-442.  The configurations are
    objects on the heap, pointers are numbers; using an object that was freed, or freeing it
    again, is recorded.  Names have fewer than 16 bytes (IF_NAMESIZE), so that
    add_interface copies them with their end; allocation succeeds.
    Not here: what happens to neighbours and routes (M_Daemon.v), to keys (M_Keys.v) and when
    an interface comes up (M_Ifup.v). *)
From Verif Require Import Base M_Config.

(** What is reported to control clients (local.h: LOCAL_ADD, LOCAL_FLUSH). *)
Inductive note := NAdd (name : list Z) | NFlush (name : list Z).
(** interface_confs, default_interface_conf, interfaces (name, conf), config_finalised. *)
Record reg := mkReg {
  r_heap : list (Z * ifconf); r_next : Z;
  r_list : list Z; r_def : option Z; r_ifs : list (list Z * option Z); r_final : bool;
  r_notes : list note; r_bad : bool }.
Definition reg0 : reg := mkReg [] 1 [] None [] false [] false.

Definition deref (h : list (Z * ifconf)) (p : Z) : option ifconf :=
  match find (fun x => fst x =? p) h with Some (_, c) => Some c | None => None end.
Definition store (p : Z) (c : ifconf) (h : list (Z * ifconf)) : list (Z * ifconf) :=
  map (fun x => if fst x =? p then (p, c) else x) h.
Definition dead (p : Z) (r : reg) : bool := match deref (r_heap r) p with Some _ => false | None => true end.
Definition set_bad (b : bool) (r : reg) : reg :=
  mkReg (r_heap r) (r_next r) (r_list r) (r_def r) (r_ifs r) (r_final r) (r_notes r) (r_bad r || b).
Definition set_heap h (r : reg) : reg := mkReg h (r_next r) (r_list r) (r_def r) (r_ifs r) (r_final r) (r_notes r) (r_bad r).
Definition set_list l (r : reg) : reg := mkReg (r_heap r) (r_next r) l (r_def r) (r_ifs r) (r_final r) (r_notes r) (r_bad r).
Definition set_def d (r : reg) : reg := mkReg (r_heap r) (r_next r) (r_list r) d (r_ifs r) (r_final r) (r_notes r) (r_bad r).
(** calloc, with the fields the parser fills in *)
Definition alloc (c : ifconf) (r : reg) : Z * reg :=
  (r_next r, mkReg (r_heap r ++ [(r_next r, c)]) (r_next r + 1) (r_list r) (r_def r) (r_ifs r) (r_final r) (r_notes r) (r_bad r)).
(** free: an object that is not live is an error *)
Definition free_conf (p : Z) (r : reg) : reg :=
  let r := set_bad (dead p r) r in set_heap (filter (fun x => negb (fst x =? p)) (r_heap r)) r.
(** merge_ifconf on objects: [d] becomes what [a] says and, where [a] is silent, what [b] says *)
Definition merge_obj (d a b : Z) (r : reg) : reg :=
  match deref (r_heap r) d, deref (r_heap r) a, deref (r_heap r) b with
  | Some cd, Some ca, Some cb => set_heap (store d (merge_ifconf cd ca cb) (r_heap r)) r
  | _, _, _ => set_bad true r
  end.

(** interface.c:66-98 add_interface *)
Definition add_interface (name : list Z) (conf : option Z) (r : reg) : reg :=
  if existsb (fun x => beq (fst x) name) (r_ifs r) then r
  else mkReg (r_heap r) (r_next r) (r_list r) (r_def r)
         (r_ifs r ++ [(name, match conf with Some p => Some p | None => r_def r end)])
         (r_final r) (r_notes r ++ [NAdd name]) (r_bad r).

(** configuration.c:922-936: the walk along interface_confs to an entry of that name; the
    second component says whether a freed entry was read *)
Fixpoint walk (h : list (Z * ifconf)) (name : list Z) (l : list Z) : option Z * bool :=
  match l with
  | [] => (None, false)
  | q :: l' =>
      match deref h q with
      | None => (None, true)
      | Some c => if beq (ic_name c) name then (Some q, false) else walk h name l'
      end
  end.
(** configuration.c:917-944 add_ifconf, for the object [p] that was just filled in *)
Definition add_conf (p : Z) (r : reg) : reg :=
  match deref (r_heap r) p with
  | None => set_bad true r
  | Some c =>
      let '(o, b) := walk (r_heap r) (ic_name c) (r_list r) in
      let r := set_bad b r in
      let '(t, r) := match o with
                     | Some q => (q, free_conf p (merge_obj q p q r))
                     | None => (p, set_list (r_list r ++ [p]) r)
                     end in
      if r_final r then
        match deref (r_heap r) t with
        | Some ct => add_interface (ic_name ct) (Some t) r
        | None => set_bad true r
        end
      else r
  end.
(** configuration.c:1199-1204: a line "interface" *)
Definition do_interface (c : ifconf) (r : reg) : reg := let '(p, r) := alloc c r in add_conf p r.
(** configuration.c:1205-1217: a line "default" *)
Definition do_default (c : ifconf) (r : reg) : reg :=
  let '(p, r) := alloc c r in
  match r_def r with
  | None => set_def (Some p) r
  | Some d => free_conf p (merge_obj d p d r)
  end.
(** configuration.c:1543-1556: the loop of finalise_config *)
Fixpoint finalise_loop (l : list Z) (r : reg) : reg :=
  match l with
  | [] => r
  | p :: l' =>
      let r := set_list l' r in
      let r := match r_def r with Some d => merge_obj p p d r | None => r end in
      match deref (r_heap r) p with
      | Some c => finalise_loop l' (add_interface (ic_name c) (Some p) r)
      | None => set_bad true r
      end
  end.
(** configuration.c:1558: config_finalised *)
Definition set_final (r : reg) : reg :=
  mkReg (r_heap r) (r_next r) (r_list r) (r_def r) (r_ifs r) true (r_notes r) (r_bad r).
Definition do_final (r : reg) : reg := set_final (finalise_loop (r_list r) r).

(** configuration.c:955-963: the walk to the entry [p]; [Some l] is the rest of the list *)
Fixpoint unlink (h : list (Z * ifconf)) (p : Z) (l : list Z) : option (list Z) * bool :=
  match l with
  | [] => (None, false)
  | q :: l' =>
      if q =? p then (Some l', false)
      else match deref h q with
           | None => (None, true)
           | Some _ => let '(o, b) := unlink h p l' in (match o with Some m => Some (q :: m) | None => None end, b)
           end
  end.
(** configuration.c:946-968 flush_ifconf: an entry that is not in the list is left alone *)
Definition flush_conf (p : Z) (r : reg) : reg :=
  let '(o, b) := unlink (r_heap r) p (r_list r) in
  let r := set_bad b r in
  match o with
  | Some l => free_conf p (set_list l r)
  | None => r
  end.
Fixpoint take_if (name : list Z) (l : list (list Z * option Z)) : option (option Z * list (list Z * option Z)) :=
  match l with
  | [] => None
  | (n, c) :: l' =>
      if beq n name then Some (c, l')
      else match take_if name l' with Some (x, m) => Some (x, (n, c) :: m) | None => None end
  end.
Definition opeq (a b : option Z) : bool :=
  match a, b with Some x, Some y => x =? y | None, None => true | _, _ => false end.
(** interface.c:100-132 flush_interface: whether there was one *)
Definition do_flush (name : list Z) (r : reg) : bool * reg :=
  match take_if name (r_ifs r) with
  | None => (false, r)
  | Some (c, l) =>
      let r := mkReg (r_heap r) (r_next r) (r_list r) (r_def r) l (r_final r) (r_notes r) (r_bad r) in
      let r := match c with Some p => if opeq c (r_def r) then r else flush_conf p r | None => r end in
      (true, mkReg (r_heap r) (r_next r) (r_list r) (r_def r) (r_ifs r) (r_final r) (r_notes r ++ [NFlush name]) (r_bad r))
  end.

(** What the daemon is told: a line "interface", a line "default", the end of the
    configuration, an interface on the command line (babeld.c:435-442), a line
    "flush interface". *)
Inductive rop := RIf (c : ifconf) | RDef (c : ifconf) | RStart | RArg (name : list Z) | RFlush (name : list Z).
Definition rstep (o : rop) (r : reg) : reg :=
  match o with
  | RIf c => do_interface c r
  | RDef c => do_default c r
  | RStart => do_final r
  | RArg n => add_interface n None r
  | RFlush n => snd (do_flush n r)
  end.
Fixpoint rrun (os : list rop) (r : reg) : reg := match os with [] => r | o :: os' => rrun os' (rstep o r) end.

(** interface.h:156-157 IF_CONF: what an interface reads in its configuration.  [None]: there
    is no such interface; [Some None]: it has none, every field reads 0. *)
Inductive reading := RdNone | RdFreed | RdZero | RdConf (c : ifconf).
Definition read_if (name : list Z) (r : reg) : reading :=
  match find (fun x => beq (fst x) name) (r_ifs r) with
  | None => RdNone
  | Some (_, None) => RdZero
  | Some (_, Some p) => match deref (r_heap r) p with Some c => RdConf c | None => RdFreed end
  end.

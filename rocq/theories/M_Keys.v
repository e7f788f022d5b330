(** M_Keys.v: the keys that interfaces use: interface.c:66-132 and 469-475, with the
    configuration lines that change the key table. *)
From Coq Require Import String.
From Verif Require Import Base M_Config.
Close Scope string_scope.
Open Scope Z_scope.

(** The parser with the key table, and the interfaces: name, key in use. *)
Record kst := mkKs { ks_p : pst; ks_ifs : list (list Z * option nat) }.
Inductive kev :=
| KLine (l : list Z)                         (* a line on the control socket *)
| KFile (l : list Z)                         (* a configuration file *)
| KNew (name : list Z)                       (* add_interface *)
| KUp (name : list Z) (ck : option nat)      (* interface_updown(ifp, 1); [ck] is IF_CONF(ifp, key) *)
| KFlush (name : list Z).                    (* flush_interface *)

Definition okeq (a b : option nat) : bool :=
  match a, b with Some x, Some y => (x =? y)%nat | None, None => true | _, _ => false end.
(** interface.c:469-475 *)
Definition if_key (ck old : option nat) (g : cfg) : option nat * cfg :=
  if okeq ck old then (old, g)
  else
    let g := match old with Some i => release_key i g | None => g end in
    match ck with Some j => (Some j, retain_key j g) | None => (None, g) end.
Fixpoint up_if (name : list Z) (ck : option nat) (l : list (list Z * option nat)) (g : cfg) : list (list Z * option nat) * cfg :=
  match l with
  | [] => ([], g)
  | (n, k) :: l' =>
      if beq n name then let '(k', g') := if_key ck k g in ((n, k') :: l', g')
      else let '(l'', g') := up_if name ck l' g in ((n, k) :: l'', g')
  end.
(** interface.c:100-132 flush_interface: the key is not released. *)
Fixpoint flush_if (name : list Z) (l : list (list Z * option nat)) : list (list Z * option nat) :=
  match l with [] => [] | (n, k) :: l' => if beq n name then l' else (n, k) :: flush_if name l' end.
(** interface.c:66-98 add_interface: calloc leaves the key NULL. *)
Definition new_if (name : list Z) (l : list (list Z * option nat)) : list (list Z * option nat) :=
  if existsb (fun x => beq (fst x) name) l then l else l ++ [(name, None)].

Definition kstep (e : env) (ev : kev) (s : kst) : kst :=
  match ev with
  | KLine l => mkKs (snd (from_string e l (ks_p s))) (ks_ifs s)
  | KFile l => mkKs (snd (from_file e l (ks_p s))) (ks_ifs s)
  | KNew n => mkKs (ks_p s) (new_if n (ks_ifs s))
  | KUp n ck => let '(l, g) := up_if n ck (ks_ifs s) (p_cfg (ks_p s)) in mkKs (set_cfg g (ks_p s)) l
  | KFlush n => mkKs (ks_p s) (flush_if n (ks_ifs s))
  end.
(** The key of a configuration is one of the table (find_key, configuration.c:667). *)
Definition kallowed (ev : kev) (s : kst) : Prop :=
  match ev with KUp _ (Some j) => (j < length (g_keys (p_cfg (ks_p s))))%nat | _ => True end.
(** From an empty table and no interface. *)
Inductive kreach (e : env) : kst -> Prop :=
| kr_boot : forall p, g_keys (p_cfg p) = [] -> g_abort (p_cfg p) = false -> kreach e (mkKs p [])
| kr_step : forall s ev, kreach e s -> kallowed ev s -> kreach e (kstep e ev s).

(** S_Args.v: the command line as the manual describes it (babeld.man, "Synopsis" and
    "Options"). *)
From Coq Require Import String.
From Verif Require Import Base M_Util S_Util M_Filter S_Filter M_Config S_Config S_Dump S_Rule S_Line.
Close Scope string_scope.
Open Scope Z_scope.

(** ** Arguments *)
Definition takes (c : Z) : Prop := In c (str "mphHkASdgGMtTcCLI").
Definition flag (c : Z) : Prop := In c (str "srlwD").
(** An argument that is not an option *)
Definition operand (a : list Z) : Prop := hd 0 a <> 45 \/ a = [45].
(** The arguments for some options, given by their letters and their arguments, and some
    operands.  Letters may be joined; an argument follows its letter or is the next argument;
    "--" ends the options.  [gnu]: operands may come before options. *)
Inductive vector (gnu : bool) : list (Z * option (list Z)) -> list (list Z) -> list (list Z) -> Prop :=
| vec_end : vector gnu [] [] []
| vec_dashes : forall ops, vector gnu [] ops (str "--" :: ops)
| vec_operands : forall o ops, operand o -> gnu = false -> vector gnu [] (o :: ops) (o :: ops)
| vec_operand : forall its o ops l, operand o -> gnu = true -> vector gnu its ops l -> vector gnu its (o :: ops) (o :: l)
| vec_flags : forall fl its ops l, fl <> [] -> Forall flag fl -> vector gnu its ops l ->
    vector gnu (map (fun c => (c, None)) fl ++ its) ops ((45 :: fl) :: l)
| vec_next : forall fl c a its ops l, Forall flag fl -> takes c -> vector gnu its ops l ->
    vector gnu (map (fun c => (c, None)) fl ++ (c, Some a) :: its) ops ((45 :: fl ++ [c]) :: a :: l)
| vec_joined : forall fl c a its ops l, Forall flag fl -> takes c -> a <> [] -> vector gnu its ops l ->
    vector gnu (map (fun c => (c, None)) fl ++ (c, Some a) :: its) ops ((45 :: fl ++ c :: a) :: l).

(** ** Options *)
(** An option of the manual: one that sets a variable, a line of configuration, a file *)
Inductive item := ISet (o : opt) | ILine (l : line) | IFile (name : list Z).
Definition int_letters : list (Z * list Z * Z) :=
  [(112, str "protocol-port", 1); (107, str "kernel-priority", 0); (65, str "allow-duplicates", 0);
   (116, str "export-table", 0); (84, str "import-table", 0); (103, str "local-port", 1); (71, str "local-port-readwrite", 1)].
Definition flag_names : list (Z * list Z) :=
  [(115, str "-s"); (114, str "random-id"); (108, str "link-detect"); (119, str "-w"); (68, str "daemonise")].
Definition name_letters : list (Z * list Z) := [(83, str "state-file"); (76, str "log-file"); (73, str "pid-file")].
Definition path_letters : list (Z * list Z) := [(103, str "local-path"); (71, str "local-path-readwrite")].
(** [ids]: the keys defined before *)
Inductive item_text (e : env) (ids : list (list Z)) : item -> Z * option (list Z) -> Prop :=
| it_int : forall c n lo t v, In (c, n, lo) int_letters -> num_text t v -> lo <= v <= 65535 ->
    item_text e ids (ISet (OInt n v)) (c, Some t)
| it_hello : forall c n t v, In (c, n) [(104, str "-h"); (72, str "-H")] -> thou_text t v -> 1 <= v <= 655350 ->
    item_text e ids (ISet (OInt n v)) (c, Some t)
| it_flag : forall c n, In (c, n) flag_names -> item_text e ids (ISet (OBool n true)) (c, None)
| it_name : forall c n t, In (c, n) name_letters -> item_text e ids (ISet (OFile n t)) (c, Some t)
| it_path : forall c n t, In (c, n) path_letters -> hd 0 t = 47 -> item_text e ids (ISet (OFile n t)) (c, Some t)
| it_group : forall t a, raddr e t a -> hd 0 (addr_bytes a) = 255 -> item_text e ids (ISet (OGroup a)) (109, Some t)
| it_debug : forall t v, num_text t v -> 0 <= v < 2147483648 -> item_text e ids (ISet (ODebug v)) (100, Some t)
| it_half : forall t v, num_text t v -> 0 <= v <= 3600 -> item_text e ids (ISet (OHalfLife v)) (77, Some t)
| it_line : forall l t, t <> [] -> (forall x, In x t -> 0 < x) -> line_text e ids l (t ++ [10]) -> item_text e ids (ILine l) (67, Some t)
| it_file : forall t, item_text e ids (IFile t) (99, Some t).
(** As lines of a file *)
Definition as_lines (its : list item) : list line :=
  concat (map (fun i => match i with ISet o => [LOpt o] | ILine l => [l] | IFile _ => [] end) its).
Definition names (its : list item) : list (list Z) := concat (map (fun i => match i with IFile f => [f] | _ => [] end) its).
Definition its_text (e : env) (its : list item) (l : list (Z * option (list Z))) : Prop :=
  length l = length its /\
  forall a i b x, its = a ++ i :: b -> nth_error l (length a) = Some x -> item_text e (key_ids (as_lines a)) i x.
(** At most ten times -T (and import-table lines before the last -T) *)
Definition tables (ls : list line) : nat :=
  length (concat (map (fun l => match l with LOpt (OInt n _) => if beq n (str "import-table") then [tt] else [] | _ => [] end) ls)).

(** ** Values *)
(** The value of an option: that of the last one that gives it, otherwise the default *)
Definition valued {B} (R : opt -> B -> Prop) (os : list opt) (dflt v : B) : Prop :=
  last_of R os v \/ ((forall w, ~ last_of R os w) /\ v = dflt).
Definition gives_int n o (v : Z) := o = OInt n v.
Definition gives_bool n o (v : bool) := o = OBool n v.
Definition gives_str n o (v : option (list Z)) := exists s, v = Some s /\ o = OFile n s.
Definition gives_group o (v : list Z) := exists a, o = OGroup a /\ v = addr_bytes a.
Definition gives_server o (v : option (Z + list Z)) :=
  (exists n i, o = OInt n i /\ In n [str "local-port"; str "local-port-readwrite"] /\ v = Some (inl i)) \/
  (exists n s, o = OFile n s /\ In n [str "local-path"; str "local-path-readwrite"] /\ v = Some (inr s)).
(** Options in their ranges *)
Definition opt_ok (o : opt) : Prop :=
  match o with
  | OInt n v => 0 <= v /\ (In n [str "-h"; str "-H"] -> 1 <= v) /\ (n = str "import-table" -> v <= 65535)
  | OHalfLife v => 0 <= v
  | _ => True
  end.
(** The tables to import: at most ten *)
Definition imports (os : list opt) : list Z :=
  concat (map (fun o => match o with OInt n v => if beq n (str "import-table") then [v] else [] | _ => [] end) os).
(** The files to read, [ls]: what was said before them *)
Inductive files_text (e : env) (file : list Z -> option (list Z)) : list line -> list (list Z) -> list line -> Prop :=
| ft_end : forall dn, files_text e file dn [] []
| ft_file : forall dn f fs ls rest ts s, file f = Some s -> (s = concat ts \/ s ++ [10] = concat ts) -> (forall x, In x s -> 0 <= x) ->
    length ts = length ls ->
    (forall a l b t, ls = a ++ l :: b -> nth_error ts (length a) = Some t -> line_text e (key_ids (dn ++ a)) l t) ->
    files_text e file (dn ++ ls) fs rest -> files_text e file dn (f :: fs) (ls ++ rest).

(** S_Line.v: the lines of a configuration file as the manual describes them (babeld.man,
    "Global options", "Interface configuration", "Filtering rules"). *)
From Coq Require Import String.
From Verif Require Import Base M_Util S_Util M_Filter S_Filter M_Config S_Config S_Dump S_Rule.
Close Scope string_scope.
Open Scope Z_scope.

(** ** Values *)
(** Seconds with a resolution of 1 ms, or milliseconds with one of 1 us: digits, and
    perhaps a point and at most three digits *)
Definition thou_text (t : list Z) (v : Z) : Prop :=
  (exists x, number 10 t x /\ v = 1000 * x) \/
  (exists a f x y, t = a ++ 46 :: f /\ number 10 a x /\ number 10 f y /\ (length f <= 3)%nat /\
     v = 1000 * x + y * 10 ^ (3 - Z.of_nat (length f))).
(** Yes (2), no (1) and automatic (0) *)
Definition bool_text (t : list Z) (v : Z) : Prop :=
  In (t, v) [(str "true", 2); (str "yes", 2); (str "false", 1); (str "no", 1); (str "auto", 0); (str "default", 0)].
Definition type_text (t : list Z) (v : Z) : Prop :=
  In (t, v) [(str "auto", 0); (str "default", 0); (str "wired", 1); (str "wireless", 2); (str "tunnel", 3)].
(** Pairs of hexadecimal digits *)
Definition hex_digit (c v : Z) : Prop :=
  (48 <= c <= 57 /\ v = c - 48) \/ (97 <= c <= 102 /\ v = c - 87) \/ (65 <= c <= 70 /\ v = c - 55).
Inductive hex_text : list Z -> list Z -> Prop :=
| hex_end : hex_text [] []
| hex_byte : forall a b t x y v, hex_digit a x -> hex_digit b y -> hex_text t v -> hex_text (a :: b :: t) (16 * x + y :: v).

(** ** Parameters of an interface: the number of the parameter (S_Ifup.v, [val_bounds]) and
    its value (0: automatic), or the name of a key *)
Inductive param := PVal (n : nat) (v : Z) | PKey (id : list Z).
Inductive param_text : param -> list (list Z) -> Prop :=
| pt_int : forall kw n hi t v,
    In (kw, n, hi) [(str "rxcost", 2%nat, 65535); (str "rtt-decay", 11%nat, 256); (str "max-rtt-penalty", 14%nat, 65535)] ->
    num_text t v -> 1 <= v <= hi -> param_text (PVal n v) [kw; t]
| pt_thou : forall kw n hi t v,
    In (kw, n, hi) [(str "hello-interval", 0%nat, 655350); (str "update-interval", 1%nat, 655350);
                    (str "rtt-min", 12%nat, 2147483647); (str "rtt-max", 13%nat, 2147483647)] ->
    thou_text t v -> 1 <= v <= hi -> param_text (PVal n v) [kw; t]
| pt_bool : forall kw n t v,
    In (kw, n) [(str "split-horizon", 4%nat); (str "link-quality", 5%nat); (str "faraway", 6%nat); (str "unicast", 7%nat);
                (str "accept-bad-signatures", 8%nat); (str "enable-timestamps", 9%nat); (str "rfc6126-compatible", 10%nat);
                (str "v4-via-v6", 15%nat); (str "probe-mtu", 16%nat)] ->
    bool_text t v -> param_text (PVal n v) [kw; t]
| pt_type : forall t v, type_text t v -> param_text (PVal 3 v) [str "type"; t]
| pt_wired : forall t v, bool_text t v -> v <> 0 -> param_text (PVal 3 (3 - v)) [str "wired"; t]
| pt_key : forall id, param_text (PKey id) [str "key"; id].

(** ** Global options *)
Inductive opt :=
| OInt (name : list Z) (v : Z) | OBool (name : list Z) (b : bool) | OGroup (a : addr) | OFile (name s : list Z)
| ODebug (v : Z) | OHalfLife (v : Z) | OId (i : list Z).
Inductive opt_text (e : env) : opt -> list (list Z) -> Prop :=
| ot_int : forall kw t v,
    In kw [str "protocol-port"; str "kernel-priority"; str "allow-duplicates"; str "local-port"; str "local-port-readwrite";
           str "export-table"; str "import-table"; str "kernel-check-interval"; str "shutdown-delay-ms"] ->
    num_text t v -> 1 <= v < 65535 -> opt_text e (OInt kw v) [kw; t]
| ot_bool : forall kw t v,
    In kw [str "reflect-kernel-metric"; str "random-id"; str "ipv6-subtrees"; str "link-detect"; str "daemonise";
           str "skip-kernel-setup"] ->
    bool_text t v -> v <> 0 -> opt_text e (OBool kw (v =? 2)) [kw; t]
| ot_group : forall t a, raddr e t a -> opt_text e (OGroup a) [str "protocol-group"; t]
| ot_file : forall kw s,
    In kw [str "state-file"; str "log-file"; str "pid-file"; str "local-path"; str "local-path-readwrite"] ->
    opt_text e (OFile kw s) [kw; s]
| ot_debug : forall t v, num_text t v -> 0 <= v < 2147483648 -> opt_text e (ODebug v) [str "debug"; t]
| ot_half : forall t v, num_text t v -> 0 <= v < 2147483648 -> opt_text e (OHalfLife v) [str "smoothing-half-life"; t]
| ot_id : forall i, id_ok i -> opt_text e (OId i) [str "router-id"; format_eui64 i].
(** What the daemon does then *)
Definition opt_effect (o : opt) : effect :=
  match o with
  | OInt n v => SetInt n v | OBool n b => SetBool n b | OGroup a => SetGroup (addr_bytes a) | OFile n s => SetStr n s
  | ODebug v => SetDebug v | OHalfLife v => SetHalfLife v | OId i => SetId i
  end.
(** May clients change the configuration?  The options that say so *)
Definition opens (o : opt) (b : bool) : Prop :=
  match o with
  | OInt n _ => In (n, b) [(str "local-port", false); (str "local-port-readwrite", true)]
  | OFile n _ => In (n, b) [(str "local-path", false); (str "local-path-readwrite", true)]
  | _ => False
  end.

(** ** Keys: hmac-sha256 (1), at most 64 bytes, and blake2s128 (2), at most 32 *)
Definition key_good (ty : Z) (v : list Z) : Prop :=
  v <> [] /\ ((ty = 1 /\ (length v <= 64)%nat) \/ (ty = 2 /\ (length v <= 32)%nat)).
Definition key_words (id : list Z) (ty : Z) (v : list Z) (ws : list (list Z)) : Prop :=
  exists tt t a b c, In (tt, ty) [(str "hmac-sha256", 1); (str "blake2s128", 2)] /\ hex_text t v /\
    a = [str "id"; id] /\ b = [str "type"; tt] /\ c = [str "value"; t] /\
    In ws [a ++ b ++ c; a ++ c ++ b; b ++ a ++ c; b ++ c ++ a; c ++ a ++ b; c ++ b ++ a].
(** The secret as it is used: a key for HMAC-SHA256 is padded to a block (RFC 2104) *)
Definition secret (ty : Z) (v : list Z) : list Z := if ty =? 1 then v ++ repeat 0 (64 - length v) else v.

(** ** Files *)
Inductive line :=
| LRule (which : Z) (cs : list clause) | LIf (name : list Z) (ps : list param) | LDef (ps : list param)
| LKey (id : list Z) (ty : Z) (v : list Z) | LOpt (o : opt) | LBlank.
(** A key must be defined before it is used; [ids]: those defined. *)
Definition line_text (e : env) (ids : list (list Z)) (l : line) (t : list Z) : Prop :=
  match l with
  | LRule w cs => rule_text e (w, cs) t /\ rule_good (w, cs)
  | LIf name ps => exists wss, Forall2 param_text ps wss /\ (forall id, In (PKey id) ps -> In id ids) /\
      spaced (str "interface" :: name :: concat wss) t
  | LDef ps => exists wss, Forall2 param_text ps wss /\ (forall id, In (PKey id) ps -> In id ids) /\
      spaced (str "default" :: concat wss) t
  | LKey id ty v => exists ws, key_good ty v /\ key_words id ty v ws /\ spaced (str "key" :: ws) t
  | LOpt o => exists ws, opt_text e o ws /\ spaced ws t
  | LBlank => spaced [] t
  end.
Definition key_ids (ls : list line) : list (list Z) :=
  concat (map (fun l => match l with LKey id _ _ => [id] | _ => [] end) ls).
Definition file_text (e : env) (ls : list line) (ts : list (list Z)) : Prop :=
  length ts = length ls /\
  forall a l b t, ls = a ++ l :: b -> nth_error ts (length a) = Some t -> line_text e (key_ids a) l t.
(** The lines for one interface, the default lines, the rules, the options, in order *)
Definition own (name : list Z) (ls : list line) : list (list param) :=
  concat (map (fun l => match l with LIf n ps => if beq n name then [ps] else [] | _ => [] end) ls).
Definition defs (ls : list line) : list (list param) :=
  concat (map (fun l => match l with LDef ps => [ps] | _ => [] end) ls).
Definition rules (which : Z) (ls : list line) : list (list clause) :=
  concat (map (fun l => match l with LRule w cs => if w =? which then [cs] else [] | _ => [] end) ls).
Definition opts (ls : list line) : list opt :=
  concat (map (fun l => match l with LOpt o => [o] | _ => [] end) ls).
Definition keys (ls : list line) : list (list Z * Z * list Z) :=
  concat (map (fun l => match l with LKey id ty v => [(id, ty, v)] | _ => [] end) ls).
(** How often keys are named *)
Definition named (ls : list line) : nat :=
  length (concat (map (fun l => match l with LIf _ ps | LDef ps => filter (fun x => match x with PKey _ => true | _ => false end) ps
                                         | LKey id _ _ => [PKey id] | _ => [] end) ls)).

(** ** What holds for an interface *)
(** The last element of a list that says something *)
Definition last_of {A B} (R : A -> B -> Prop) (l : list A) (v : B) : Prop :=
  exists a x b, l = a ++ x :: b /\ R x v /\ forall y w, In y b -> ~ R y w.
(** A line sets a parameter if its last clause about it gives a value other than automatic;
    the last line that sets it counts. *)
Definition says (n : nat) (p : param) (v : Z) : Prop := p = PVal n v.
Definition sets (n : nat) (ps : list param) (v : Z) : Prop := last_of (says n) ps v /\ v <> 0.
Definition sets_key (ps : list param) (id : list Z) : Prop := last_of (fun p i => p = PKey i) ps id.
(** The lines for the interface come first, then the default lines. *)
Definition configured {B} (R : list param -> B -> Prop) (name : list Z) (ls : list line) (v : B) : Prop :=
  last_of R (own name ls) v \/ ((forall w, ~ last_of R (own name ls) w) /\ last_of R (defs ls) v).

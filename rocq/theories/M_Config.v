(** M_Config.v: model of the configuration parser, configuration.c:55-1345, of the key table
    of hmac.c:41-107 and of local_read, local.c:318-394. *)
From Coq Require Import String Ascii.
From Verif Require Import Base M_Util M_Filter.
Close Scope string_scope.
Open Scope Z_scope.

(** A C string constant. *)
Definition str (s : string) : list Z := map (fun a => Z.of_nat (nat_of_ascii a)) (list_ascii_of_string s).
(** What a C string function sees of a buffer: the characters before the first NUL. *)
Fixpoint cstr (l : list Z) : list Z :=
  match l with [] => [] | c :: l' => if c =? 0 then [] else c :: cstr l' end.

(** ** What the parser reads *)
(** What the C library and the kernel answer: inet_pton for each family (4 and 16 bytes),
    if_nametoindex, and the value flush_interface returns for a name. *)
Record env := mkEnv {
  e_pton4 : list Z -> option (list Z); e_pton6 : list Z -> option (list Z);
  e_ifindex : list Z -> Z; e_flush : list Z -> Z }.

(** hmac.h / interface.h:41-47 struct key *)
Record key := mkKey { k_id : list Z; k_type : Z; k_value : list Z; k_ref : Z }.
(** interface.h:49-70 struct interface_conf.  The 17 numeric fields are one list, in the
    order of merge_ifconf (configuration.c:894-910): 0 hello_interval, 1 update_interval,
    2 cost, 3 type, 4 split_horizon, 5 lq, 6 faraway, 7 unicast, 8 accept_bad_signatures,
    9 enable_timestamps, 10 rfc6126, 11 rtt_decay, 12 rtt_min, 13 rtt_max,
    14 max_rtt_penalty, 15 v4viav6, 16 probe_mtu.  The key is its index in the table. *)
Record ifconf := mkIc { ic_name : list Z; ic_vals : list Z; ic_key : option nat }.
(** The other effects of a line, in order: option variables set, and calls into other
    modules. *)
Inductive effect :=
| SetInt (opt : list Z) (v : Z)
| SetBool (opt : list Z) (b : bool)
| SetGroup (ip : list Z)
| SetStr (opt : list Z) (s : list Z)
| SetDebug (d : Z)
| SetHalfLife (h : Z)
| SetId (id : list Z)
| AddInterface (name : list Z)
| FlushInterface (name : list Z)
| ReopenLog.
(** The variables of configuration.c:44-54 and the key table.  [g_write] is
    local_server_write; [g_abort]: an assertion has failed. *)
Record cfg := mkCfg {
  g_final : bool; g_write : bool;
  g_in : list filt; g_out : list filt; g_redist : list filt; g_inst : list filt;
  g_ifs : list ifconf; g_default : option ifconf; g_keys : list key;
  g_log : list effect; g_abort : bool }.

Definition set_write v g := mkCfg (g_final g) v (g_in g) (g_out g) (g_redist g) (g_inst g) (g_ifs g) (g_default g) (g_keys g) (g_log g) (g_abort g).
Definition set_ifs v g := mkCfg (g_final g) (g_write g) (g_in g) (g_out g) (g_redist g) (g_inst g) v (g_default g) (g_keys g) (g_log g) (g_abort g).
Definition set_default v g := mkCfg (g_final g) (g_write g) (g_in g) (g_out g) (g_redist g) (g_inst g) (g_ifs g) v (g_keys g) (g_log g) (g_abort g).
Definition set_keys v g := mkCfg (g_final g) (g_write g) (g_in g) (g_out g) (g_redist g) (g_inst g) (g_ifs g) (g_default g) v (g_log g) (g_abort g).
Definition set_abort g := mkCfg (g_final g) (g_write g) (g_in g) (g_out g) (g_redist g) (g_inst g) (g_ifs g) (g_default g) (g_keys g) (g_log g) true.
Definition effect1 x g := mkCfg (g_final g) (g_write g) (g_in g) (g_out g) (g_redist g) (g_inst g) (g_ifs g) (g_default g) (g_keys g) (g_log g ++ [x]) (g_abort g).

(** State of the parser: the characters not yet fetched by gnc; the strings allocated by
    getword and getstring and not yet freed, the next one; whether a string was read or
    freed when not live; whether a loop ran out of fuel (which L_Config proves impossible);
    the configuration. *)
Record pst := mkP { p_in : list Z; p_live : list Z; p_nxt : Z; p_bad : bool; p_stuck : bool; p_cfg : cfg }.
Definition set_in v p := mkP v (p_live p) (p_nxt p) (p_bad p) (p_stuck p) (p_cfg p).
Definition set_cfg v p := mkP (p_in p) (p_live p) (p_nxt p) (p_bad p) (p_stuck p) v.
Definition set_bad p := mkP (p_in p) (p_live p) (p_nxt p) true (p_stuck p) (p_cfg p).
Definition set_stuck p := mkP (p_in p) (p_live p) (p_nxt p) (p_bad p) true (p_cfg p).

Definition is_live (t : Z) (p : pst) : bool := existsb (Z.eqb t) (p_live p).
(** free(token); free(NULL) does nothing. *)
Definition freet (t : option Z) (p : pst) : pst :=
  match t with
  | None => p
  | Some t => if is_live t p then mkP (p_in p) (filter (fun x => negb (x =? t)) (p_live p)) (p_nxt p) (p_bad p) (p_stuck p) (p_cfg p)
              else set_bad p
  end.
(** strcmp(token, ...) *)
Definition uset (t : Z) (p : pst) : pst := if is_live t p then p else set_bad p.
(** strdup, taken to succeed. *)
Definition alloct (p : pst) : Z * pst :=
  (p_nxt p, mkP (p_in p) (p_nxt p :: p_live p) (p_nxt p + 1) (p_bad p) (p_stuck p) (p_cfg p)).

(** The outcome of a parsing function: error (-2), or the look-ahead (-1 at the end of the
    input) and a value. *)
Inductive res (A : Type) := Bad (p : pst) | Good (c : Z) (a : A) (p : pst).
Arguments Bad {A}. Arguments Good {A}.

(** ** Characters and words *)
Definition ws (c : Z) : bool := (c =? 32) || (c =? 9) || (c =? 13).
Definition eol (c : Z) : bool := (c <? 0) || (c =? 10) || (c =? 35).

(** configuration.c:1323-1330 gnc_buf (and 1280-1287 gnc_file without the line count) *)
Definition gnc (p : pst) : Z * pst :=
  match p_in p with [] => (-1, p) | x :: r => (x, set_in r p) end.
Definition gnc1 (r : list Z) : Z * list Z := match r with [] => (-1, []) | x :: r => (x, r) end.

(** configuration.c:67-73 skip_whitespace, on the look-ahead and the rest *)
Fixpoint skip_ws (c : Z) (r : list Z) : Z * list Z :=
  if ws c then match r with [] => (-1, []) | x :: r' => skip_ws x r' end else (c, r).
(** configuration.c:75-82 skip_to_eol *)
Fixpoint to_eol (c : Z) (r : list Z) : Z * list Z :=
  if (c =? 10) || (c <? 0) then if c =? 10 then gnc1 r else (c, r)
  else match r with [] => (-1, []) | x :: r' => to_eol x r' end.
(** configuration.c:84-93 skip_eol *)
Definition skip_eol (c : Z) (p : pst) : res unit :=
  let '(c, r) := skip_ws c (p_in p) in
  if eol c then let '(c, r) := to_eol c r in Good c tt (set_in r p) else Bad (set_in r p).

(** configuration.c:103-107: the loop of getword; [i] characters are in the buffer. *)
Fixpoint word_loop (c : Z) (r : list Z) (i : Z) : Z * list Z * list Z :=
  if i >=? 255 then (-2, r, [])
  else
    match r with
    | [] => (-1, [], [c])
    | x :: r' =>
        if ws x || eol x then (x, r', [c])
        else let '(c', r'', w) := word_loop x r' (i + 1) in (c', r'', c :: w)
    end.
(** configuration.c:95-114 getword; the value is the new string and its characters *)
Definition getword (c : Z) (p : pst) : res (Z * list Z) :=
  let '(c, r) := skip_ws c (p_in p) in
  if eol c || (c =? 34) then Bad (set_in r p)
  else
    let '(c, r, w) := word_loop c r 0 in
    let p := set_in r p in
    if c <? -1 then Bad p
    else let '(t, p) := alloct p in Good c (t, cstr w) p.
(** configuration.c:130-145: the loop of getstring between quotes. *)
Fixpoint string_loop (fuel : nat) (c : Z) (r : list Z) (i : Z) : option (Z * list Z * list Z) :=
  match fuel with
  | O => None
  | S fuel =>
      if (i >=? 255) || (c =? 10) then None
      else if c =? 34 then let '(c, r) := gnc1 r in Some (c, r, [])
      else
        let '(c, r) := if c =? 92 then gnc1 r else (c, r) in
        if c <? 0 then None
        else
          let '(c', r) := gnc1 r in
          match string_loop fuel c' r (i + 1) with
          | Some (c'', r', w) => Some (c'', r', c :: w)
          | None => None
          end
  end.
(** configuration.c:116-153 getstring.  The buffer index stops the loop: 256 rounds are
    always enough. *)
Definition getstring (c : Z) (p : pst) : res (Z * list Z) :=
  let '(c, r) := skip_ws c (p_in p) in
  if eol c then Bad (set_in r p)
  else if negb (c =? 34) then getword c (set_in r p)
  else
    let '(c, r) := gnc1 r in
    match string_loop 256 c r 0 with
    | None => Bad (set_in r p)
    | Some (c, r, w) => let '(t, p) := alloct (set_in r p) in Good c (t, cstr w) p
    end.

(** A word, converted: the string is read and freed whether or not it converts. *)
Definition getconv {A} (f : list Z -> option A) (c : Z) (p : pst) : res A :=
  match getword c p with
  | Bad p => Bad p
  | Good c (t, s) p =>
      let p := freet (Some t) (uset t p) in
      match f s with None => Bad p | Some v => Good c v p end
  end.

(** strtol(s, &end, 0) of the C library: white space, a sign, 0x or 0, digits; saturates
    to a 64-bit long.  Second component: the string from [end]. *)
Definition digit_of (base c : Z) : option Z :=
  let d := if isdigit_ c then c - 48 else if (97 <=? c) && (c <=? 122) then c - 87
           else if (65 <=? c) && (c <=? 90) then c - 55 else 99 in
  if d <? base then Some d else None.
Fixpoint digits_base (base : Z) (s : list Z) (acc : Z) : Z * list Z :=
  match s with
  | c :: s' => match digit_of base c with
               | Some d => digits_base base s' (acc * base + d)
               | None => (acc, s) end
  | [] => (acc, [])
  end.
Definition strtol0 (s : list Z) : Z * list Z :=
  let '(neg, s1) := match skip_spaces s with
    | c :: s' => if c =? 45 then (true, s') else if c =? 43 then (false, s') else (false, c :: s')
    | [] => (false, []) end in
  let sat v := Z.max (- 2 ^ 63) (Z.min (2 ^ 63 - 1) (if neg then - v else v)) in
  let run base s' := let '(v, e) := digits_base base s' 0 in (sat v, e) in
  match s1 with
  | c :: s2 =>
      if c =? 48 then
        match s2 with
        | x :: h :: _ =>
            if ((x =? 120) || (x =? 88)) && (match digit_of 16 h with Some _ => true | None => false end)
            then run 16 (tl s2) else run 8 s1
        | _ => run 8 s1
        end
      else match digit_of 10 c with Some _ => run 10 s1 | None => (0, s) end
  | [] => (0, s)
  end.

(** configuration.c:155-172 getint *)
Definition conv_int (s : list Z) : option Z :=
  let '(v, e) := strtol0 s in match e with [] => Some (s32 v) | _ => None end.
(** configuration.c:174-191 getthousands *)
Definition conv_thousands (s : list Z) : option Z :=
  let v := parse_thousands s in if v <? 0 then None else Some v.
(** configuration.c:193-216 getbool; CONFIG_DEFAULT, CONFIG_NO, CONFIG_YES are 0, 1, 2 *)
Definition conv_bool (s : list Z) : option Z :=
  if beq s (str "true") || beq s (str "yes") then Some 2
  else if beq s (str "false") || beq s (str "no") then Some 1
  else if beq s (str "default") || beq s (str "auto") then Some 0
  else None.
(** util.c:341-364 parse_address *)
Definition parse_address (e : env) (s : list Z) : option (list Z * Z) :=
  match e_pton4 e s with
  | Some a => Some (v4tov6 a, AF_INET)
  | None => match e_pton6 e s with Some a => Some (a, AF_INET6) | None => None end
  end.
Fixpoint split_slash (s : list Z) : option (list Z * list Z) :=
  match s with
  | [] => None
  | c :: s' => if c =? 47 then Some ([], s')
               else match split_slash s' with Some (a, b) => Some (c :: a, b) | None => None end
  end.
(** util.c:366-422 parse_net *)
Definition parse_net (e : env) (s : list Z) : option (list Z * Z * Z) :=
  if beq s (str "default") then Some (repeat 0 16, 0, AF_INET6)
  else match split_slash s with
  | None => match parse_address e s with Some (a, af) => Some (normalize_prefix a 128, 128, af) | None => None end
  | Some (a, l) =>
      if Z.of_nat (length a) >=? 46 then None
      else
        let '(plen, rest) := strtol0 l in
        match e_pton4 e a with
        | Some x =>
            if (negb (beq rest []) || (plen <? 0) || (plen >? 32)) then None
            else Some (normalize_prefix (v4tov6 x) (plen + 96), plen + 96, AF_INET)
        | None =>
            match e_pton6 e a with
            | Some x =>
                if (negb (beq rest []) || (plen <? 0) || (plen >? 128)) then None
                else Some (normalize_prefix x plen, plen, AF_INET6)
            | None => None
            end
        end
  end.
(** configuration.c:301-323 get_interface_type *)
Definition conv_type (s : list Z) : option Z :=
  if beq s (str "default") || beq s (str "auto") then Some 0
  else if beq s (str "wired") then Some 1
  else if beq s (str "wireless") then Some 2
  else if beq s (str "tunnel") then Some 3
  else None.
(** configuration.c:325-356 gethex; fromhex fails on an odd length *)
Definition conv_hex (s : list Z) : option (list Z) := fromhex s.

(** ** Filters *)
Definition filt0 : filt := mkFilt 0 None None None 0 128 None 0 128 None 0 res0.
(** The common test of configuration.c:399-402, 409-412, 496-499, 513-516 *)
Definition join_af (af : Z) (f : filt) : option filt :=
  if f_af f =? 0 then Some (mkFilt af (f_if f) (f_id f) (f_prefix f) (f_plen_ge f) (f_plen_le f) (f_src f) (f_splen_ge f) (f_splen_le f) (f_neigh f) (f_proto f) (f_action f))
  else if f_af f =? af then Some f else None.
Definition set_plen ge le f := mkFilt (f_af f) (f_if f) (f_id f) (f_prefix f) ge le (f_src f) (f_splen_ge f) (f_splen_le f) (f_neigh f) (f_proto f) (f_action f).
Definition set_splen ge le f := mkFilt (f_af f) (f_if f) (f_id f) (f_prefix f) (f_plen_ge f) (f_plen_le f) (f_src f) ge le (f_neigh f) (f_proto f) (f_action f).
Definition set_action a f := mkFilt (f_af f) (f_if f) (f_id f) (f_prefix f) (f_plen_ge f) (f_plen_le f) (f_src f) (f_splen_ge f) (f_splen_le f) (f_neigh f) (f_proto f) a.
Definition set_proto v f := mkFilt (f_af f) (f_if f) (f_id f) (f_prefix f) (f_plen_ge f) (f_plen_le f) (f_src f) (f_splen_ge f) (f_splen_le f) (f_neigh f) v (f_action f).
Definition set_fprefix v f := mkFilt (f_af f) (f_if f) (f_id f) v (f_plen_ge f) (f_plen_le f) (f_src f) (f_splen_ge f) (f_splen_le f) (f_neigh f) (f_proto f) (f_action f).
Definition set_fsrc v f := mkFilt (f_af f) (f_if f) (f_id f) (f_prefix f) (f_plen_ge f) (f_plen_le f) v (f_splen_ge f) (f_splen_le f) (f_neigh f) (f_proto f) (f_action f).
Definition set_fneigh v f := mkFilt (f_af f) (f_if f) (f_id f) (f_prefix f) (f_plen_ge f) (f_plen_le f) (f_src f) (f_splen_ge f) (f_splen_le f) v (f_proto f) (f_action f).
Definition set_fid v f := mkFilt (f_af f) (f_if f) v (f_prefix f) (f_plen_ge f) (f_plen_le f) (f_src f) (f_splen_ge f) (f_splen_le f) (f_neigh f) (f_proto f) (f_action f).
Definition set_fif v f := mkFilt (f_af f) v (f_id f) (f_prefix f) (f_plen_ge f) (f_plen_le f) (f_src f) (f_splen_ge f) (f_splen_le f) (f_neigh f) (f_proto f) (f_action f).

(** A parsed value handled by [k]; [None] is "goto error". *)
Definition with_val {A B} (r : res A) (k : A -> option B) : res B :=
  match r with
  | Bad p => Bad p
  | Good c v p => match k v with Some b => Good c b p | None => Bad p end
  end.
Definition with_cfg {A B} (r : res A) (k : A -> B) : res B := with_val r (fun v => Some (k v)).

(** configuration.c:391-520: one keyword of a filter.  The pair is the filter and the
    string holding its interface name.  The lengths are unsigned char; MIN and MAX are
    computed on ints. *)
Definition filter_kw (e : env) (s : list Z) (c : Z) (f : filt) (ifn : option Z) (p : pst) : res (filt * option Z) :=
  let keep (o : option filt) := match o with Some f => Some (f, ifn) | None => None end in
  let a := f_action f in
  if beq s (str "ip") then
    with_val (getconv (parse_net e) c p) (fun '(a, l, af) => keep (join_af af (set_fprefix (Some (a, l)) f)))
  else if beq s (str "src-ip") then
    with_val (getconv (parse_net e) c p) (fun '(a, l, af) => keep (join_af af (set_fsrc (Some (a, l)) f)))
  else if beq s (str "eq") then
    with_val (getconv conv_int c p) (fun v => keep (Some (set_plen (u8 (Z.max (f_plen_ge f) v)) (u8 (Z.min (f_plen_le f) v)) f)))
  else if beq s (str "le") then
    with_val (getconv conv_int c p) (fun v => keep (Some (set_plen (f_plen_ge f) (u8 (Z.min (f_plen_le f) v)) f)))
  else if beq s (str "ge") then
    with_val (getconv conv_int c p) (fun v => keep (Some (set_plen (u8 (Z.max (f_plen_ge f) v)) (f_plen_le f) f)))
  else if beq s (str "src-eq") then
    with_val (getconv conv_int c p) (fun v => keep (Some (set_splen (u8 (Z.max (f_splen_ge f) v)) (u8 (Z.min (f_splen_le f) v)) f)))
  else if beq s (str "src-le") then
    with_val (getconv conv_int c p) (fun v => keep (Some (set_splen (f_splen_ge f) (u8 (Z.min (f_splen_le f) v)) f)))
  else if beq s (str "src-ge") then
    with_val (getconv conv_int c p) (fun v => keep (Some (set_splen (u8 (Z.max (f_splen_ge f) v)) (f_splen_le f) f)))
  else if beq s (str "neigh") then
    with_val (getconv (parse_address e) c p) (fun '(x, _) => keep (Some (set_fneigh (Some x) f)))
  else if beq s (str "id") then
    with_val (getconv parse_eui64 c p) (fun x => keep (Some (set_fid (Some x) f)))
  else if beq s (str "proto") then
    with_val (getconv conv_int c p) (fun v => keep (Some (set_proto v f)))
  else if beq s (str "local") then Good c (set_proto RTPROT_BABEL_LOCAL f, ifn) p
  else if beq s (str "if") then
    with_val (getstring c p) (fun '(t, name) => Some (set_fif (Some (e_ifindex e name)) f, Some t))
  else if beq s (str "allow") then Good c (set_action (mkRes 0 (fr_src a) (fr_table a) (fr_pref_src a)) f, ifn) p
  else if beq s (str "deny") then Good c (set_action (mkRes 65535 (fr_src a) (fr_table a) (fr_pref_src a)) f, ifn) p
  else if beq s (str "metric") then
    with_val (getconv conv_int c p) (fun v =>
      if (v <=? 0) || (v >? 65535) then None
      else keep (Some (set_action (mkRes v (fr_src a) (fr_table a) (fr_pref_src a)) f)))
  else if beq s (str "src-prefix") then
    with_val (getconv (parse_net e) c p) (fun '(x, l, af) =>
      keep (join_af af (set_action (mkRes (fr_add_metric a) (Some (x, l)) (fr_table a) (fr_pref_src a)) f)))
  else if beq s (str "table") then
    with_val (getconv conv_int c p) (fun v =>
      if (v <=? 0) || (v >? 65535) then None
      else keep (Some (set_action (mkRes (fr_add_metric a) (fr_src a) v (fr_pref_src a)) f)))
  else if beq s (str "pref-src") then
    with_val (getconv (parse_address e) c p) (fun '(x, af) =>
      keep (join_af af (set_action (mkRes (fr_add_metric a) (fr_src a) (fr_table a) (Some x)) f)))
  else Bad p.

(** configuration.c:381-522: the loop of parse_filter.  An error in a keyword frees the
    token and the filter with its interface name (360-368 free_filter); an unreadable word
    frees the filter only. *)
Fixpoint filter_loop (e : env) (fuel : nat) (c : Z) (f : filt) (ifn : option Z) (p : pst) : res filt :=
  match fuel with
  | O => Bad (set_stuck p)
  | S fuel =>
      let '(c, r) := skip_ws c (p_in p) in
      let p := set_in r p in
      if eol c then let '(c, r) := to_eol c r in Good c f (set_in r p)
      else match getword c p with
      | Bad p => Bad (freet ifn p)
      | Good c (t, s) p =>
          match filter_kw e s c f ifn (uset t p) with
          | Bad p => Bad (freet ifn (freet (Some t) p))
          | Good c (f, ifn) p => filter_loop e fuel c f ifn (freet (Some t) p)
          end
      end
  end.
(** configuration.c:523-537: the length bounds of IPv4 filters count from 96. *)
Definition finish_filter (f : filt) : filt :=
  if f_af f =? 0 then
    if (f_plen_le f <? 128) || (f_plen_ge f >? 0) || (f_splen_le f <? 128) || (f_splen_ge f >? 0)
    then mkFilt AF_INET6 (f_if f) (f_id f) (f_prefix f) (f_plen_ge f) (f_plen_le f) (f_src f) (f_splen_ge f) (f_splen_le f) (f_neigh f) (f_proto f) (f_action f)
    else f
  else if f_af f =? AF_INET then
    let le v := if v <? 128 then u8 (v + 96) else v in
    let ge v := if v >? 0 then u8 (v + 96) else v in
    set_splen (ge (f_splen_ge f)) (le (f_splen_le f)) (set_plen (ge (f_plen_ge f)) (le (f_plen_le f)) f)
  else f.
(** configuration.c:370-542 parse_filter *)
Definition parse_filter (e : env) (c : Z) (p : pst) : res filt :=
  with_cfg (filter_loop e (S (S (length (p_in p)))) c filt0 None p) finish_filter.

(** ** Keys *)
(** hmac.c:54-60 retain_key *)
Definition retain_key (i : nat) (g : cfg) : cfg :=
  match nth_error (g_keys g) i with
  | Some k =>
      if k_ref k <? 65535
      then set_keys (firstn i (g_keys g) ++ mkKey (k_id k) (k_type k) (k_value k) (k_ref k + 1) :: skipn (S i) (g_keys g)) g
      else set_abort g
  | None => g
  end.
(** hmac.c:62-67 release_key *)
Definition release_key (i : nat) (g : cfg) : cfg :=
  match nth_error (g_keys g) i with
  | Some k =>
      if k_ref k >? 0
      then set_keys (firstn i (g_keys g) ++ mkKey (k_id k) (k_type k) (k_value k) (k_ref k - 1) :: skipn (S i) (g_keys g)) g
      else set_abort g
  | None => g
  end.
Fixpoint index_key (id : list Z) (ks : list key) : option nat :=
  match ks with
  | [] => None
  | k :: ks' => if beq (k_id k) id then Some O
                else match index_key id ks' with Some i => Some (S i) | None => None end
  end.
(** hmac.c:43-52 find_key: the key found is retained *)
Definition find_key (id : list Z) (g : cfg) : option nat * cfg :=
  match index_key id (g_keys g) with
  | Some i => (Some i, retain_key i g)
  | None => (None, g)
  end.
(** hmac.c:69-107 add_key; allocation taken to succeed *)
Definition add_key (id : list Z) (type : Z) (value : list Z) (g : cfg) : cfg :=
  match find_key id g with
  | (Some i, g) =>
      match nth_error (g_keys g) i with
      | Some k => set_keys (firstn i (g_keys g) ++ mkKey (k_id k) type value (k_ref k) :: skipn (S i) (g_keys g)) g
      | None => g
      end
  | (None, g) => set_keys (g_keys g ++ [mkKey id type value 0]) g
  end.

(** The key being parsed: the string of its id, type, value (empty when none was given,
    which is what a length of 0 means). *)
Record keyp := mkKp { kp_id : option (Z * list Z); kp_type : Z; kp_value : list Z }.
Definition idptr (k : keyp) : option Z := match kp_id k with Some (t, _) => Some t | None => None end.
(** configuration.c:756-803: one keyword of a key *)
Definition key_kw (s : list Z) (c : Z) (k : keyp) (p : pst) : res keyp :=
  if beq s (str "id") then with_cfg (getword c p) (fun ts => mkKp (Some ts) (kp_type k) (kp_value k))
  else if beq s (str "type") then
    with_cfg (getconv (fun s => if beq s (str "none") then Some 0
                                else if beq s (str "hmac-sha256") then Some 1
                                else if beq s (str "blake2s128") then Some 2 else None) c p)
             (fun v => mkKp (kp_id k) v (kp_value k))
  else if beq s (str "value") then with_cfg (getconv conv_hex c p) (fun v => mkKp (kp_id k) (kp_type k) v)
  else Bad p.
(** configuration.c:750-805; the error label, 838-843, frees the token and the id *)
Fixpoint key_loop (fuel : nat) (c : Z) (k : keyp) (p : pst) : res keyp :=
  match fuel with
  | O => Bad (set_stuck p)
  | S fuel =>
      let '(c, r) := skip_ws c (p_in p) in
      let p := set_in r p in
      if eol c then let '(c, r) := to_eol c r in Good c k (set_in r p)
      else match getword c p with
      | Bad p => Bad (freet (idptr k) p)
      | Good c (t, s) p =>
          match key_kw s c k (uset t p) with
          | Bad p => Bad (freet (idptr k) (freet (Some t) p))
          | Good c k p => key_loop fuel c k (freet (Some t) p)
          end
      end
  end.
(** configuration.c:806-835: the length checks and the padding *)
Definition finish_key (k : keyp) : option (list Z * Z * list Z) :=
  match kp_id k with
  | None => None
  | Some (_, id) =>
      let n := Z.of_nat (length (kp_value k)) in
      if kp_type k =? 1 then
        if n >? 64 then None else Some (id, 1, kp_value k ++ repeat 0 (64 - length (kp_value k)))
      else if kp_type k =? 2 then
        if (n <? 1) || (n >? 32) then None else Some (id, 2, kp_value k)
      else None
  end.
(** configuration.c:740-844 parse_key *)
Definition parse_key (c : Z) (p : pst) : res (list Z * Z * list Z) :=
  match key_loop (S (S (length (p_in p)))) c (mkKp None 0 []) p with
  | Bad p => Bad p
  | Good c k p => match finish_key k with Some x => Good c x p | None => Bad (freet (idptr k) p) end
  end.

(** ** Interfaces *)
Definition set_val (i : nat) (v : Z) (ic : ifconf) : ifconf :=
  mkIc (ic_name ic) (firstn i (ic_vals ic) ++ v :: skipn (S i) (ic_vals ic)) (ic_key ic).
(** configuration.c:566-692: one keyword of an interface *)
Definition if_kw (s : list Z) (c : Z) (ic : ifconf) (p : pst) : res ifconf :=
  let int lo hi i := with_val (getconv conv_int c p) (fun v => if (v <? lo) || (v >? hi) then None else Some (set_val i v ic)) in
  let thou hi i := with_val (getconv conv_thousands c p) (fun v => if (v <=? 0) || (v >? hi) then None else Some (set_val i v ic)) in
  let bool i := with_val (getconv conv_bool c p) (fun v => Some (set_val i v ic)) in
  if beq s (str "rxcost") then int 1 65535 2%nat
  else if beq s (str "hello-interval") then thou 655350 0%nat
  else if beq s (str "update-interval") then thou 655350 1%nat
  else if beq s (str "type") then with_val (getconv conv_type c p) (fun v => Some (set_val 3 v ic))
  else if beq s (str "wired") then with_val (getconv conv_bool c p) (fun v => Some (set_val 3 (if v =? 2 then 1 else 2) ic))
  else if beq s (str "faraway") then bool 6%nat
  else if beq s (str "unicast") then bool 7%nat
  else if beq s (str "link-quality") then bool 5%nat
  else if beq s (str "split-horizon") then bool 4%nat
  else if beq s (str "enable-timestamps") then bool 9%nat
  else if beq s (str "rfc6126-compatible") then bool 10%nat
  else if beq s (str "rtt-decay") then int 1 256 11%nat
  else if beq s (str "rtt-min") then thou 2147483647 12%nat
  else if beq s (str "rtt-max") then thou 2147483647 13%nat
  else if beq s (str "max-rtt-penalty") then int 1 65535 14%nat
  else if beq s (str "key") then
    match getword c p with
    | Bad p => Bad p
    | Good c (t, id) p =>
        let '(o, g) := find_key id (p_cfg (uset t p)) in
        let p := freet (Some t) (set_cfg g (uset t p)) in
        match o with
        | None => Bad p
        | Some i => Good c (mkIc (ic_name ic) (ic_vals ic) (Some i)) p
        end
    end
  else if beq s (str "accept-bad-signatures") then bool 8%nat
  else if beq s (str "v4-via-v6") then bool 15%nat
  else if beq s (str "probe-mtu") then bool 16%nat
  else Bad p.
(** configuration.c:557-694: the loop of parse_anonymous_ifconf.  [tok] is the variable
    token, which free does not reset; [name] the string of the interface name.  The error
    label, 699-704, frees both. *)
Fixpoint ifconf_loop (fuel : nat) (c : Z) (tok : option Z) (name : option Z) (ic : ifconf) (p : pst) : res ifconf :=
  match fuel with
  | O => Bad (set_stuck p)
  | S fuel =>
      let '(c, r) := skip_ws c (p_in p) in
      let p := set_in r p in
      if eol c then let '(c, r) := to_eol c r in Good c ic (set_in r p)
      else match getword c p with
      | Bad p => Bad (freet name (freet tok p))
      | Good c (t, s) p =>
          match if_kw s c ic (uset t p) with
          | Bad p => Bad (freet name (freet (Some t) p))
          | Good c ic p => ifconf_loop fuel c (Some t) name ic (freet (Some t) p)
          end
      end
  end.
Definition ic0 (name : list Z) : ifconf := mkIc name (repeat 0 17) None.
(** configuration.c:710-738 parse_ifconf; the pair keeps the string of the name *)
Definition parse_ifconf (c : Z) (p : pst) : res (ifconf * option Z) :=
  let '(c, r) := skip_ws c (p_in p) in
  let p := set_in r p in
  if (c =? 10) || (c =? 35) then Bad p
  else match getstring c p with
  | Bad p => Bad p
  | Good c (t, name) p =>
      with_cfg (ifconf_loop (S (S (length (p_in p)))) c None (Some t) (ic0 name) p) (fun ic => (ic, Some t))
  end.
(** configuration.c:880-915 merge_ifconf *)
Fixpoint merge_vals (a b : list Z) : list Z :=
  match a, b with x :: a', y :: b' => (if x =? 0 then y else x) :: merge_vals a' b' | _, _ => [] end.
Definition merge_ifconf (dst src1 src2 : ifconf) : ifconf :=
  mkIc (ic_name dst) (merge_vals (ic_vals src1) (ic_vals src2))
       (match ic_key src1 with Some k => Some k | None => ic_key src2 end).
(** configuration.c:917-947 add_ifconf: the table, and whether the new one was merged into
    an older one (and freed, with its name) *)
Fixpoint add_ifconf (ic : ifconf) (l : list ifconf) : list ifconf * bool :=
  match l with
  | [] => ([ic], false)
  | x :: l' => if beq (ic_name x) (ic_name ic) then (merge_ifconf x ic x :: l', true)
               else let '(l'', b) := add_ifconf ic l' in (x :: l'', b)
  end.

(** ** Options *)
Definition int_opts : list (list Z) :=
  [str "protocol-port"; str "kernel-priority"; str "allow-duplicates"; str "local-port";
   str "local-port-readwrite"; str "export-table"; str "import-table";
   str "kernel-check-interval"; str "shutdown-delay-ms"].
Definition bool_opts : list (list Z) :=
  [str "link-detect"; str "random-id"; str "daemonise"; str "skip-kernel-setup";
   str "ipv6-subtrees"; str "reflect-kernel-metric"].
Definition str_opts : list (list Z) :=
  [str "state-file"; str "log-file"; str "pid-file"; str "local-path"; str "local-path-readwrite"].
Definition mem (s : list Z) (l : list (list Z)) : bool := existsb (beq s) l.
(** local_server_write, set by configuration.c:1005-1015 and 1064-1075 *)
Definition opt_write (s : list Z) (g : cfg) : cfg :=
  if beq s (str "local-port") || beq s (str "local-path") then set_write false g
  else if beq s (str "local-port-readwrite") || beq s (str "local-path-readwrite") then set_write true g
  else g.
(** Store a value, then skip_eol: configuration.c:1106. *)
Definition opt_done {A} (r : res A) (k : A -> cfg -> option cfg) : res unit :=
  match r with
  | Bad p => Bad p
  | Good c v p =>
      match k v (p_cfg p) with
      | None => Bad p
      | Some g => skip_eol c (set_cfg g p)
      end
  end.
(** configuration.c:969-1111 parse_option *)
Definition parse_option (e : env) (s : list Z) (c : Z) (p : pst) : res unit :=
  let g := p_cfg p in
  if g_final g && negb (mem s [str "link-detect"; str "log-file"; str "smoothing-half-life"]) then Bad p
  else if mem s int_opts then
    opt_done (getconv conv_int c p) (fun v g =>
      if (v <=? 0) || (v >=? 65535) then None else Some (opt_write s (effect1 (SetInt s v) g)))
  else if mem s bool_opts then
    opt_done (getconv conv_bool c p) (fun v g => Some (effect1 (SetBool s (v =? 2)) g))
  else if beq s (str "protocol-group") then
    opt_done (getconv (parse_address e) c p) (fun '(a, _) g => Some (effect1 (SetGroup a) g))
  else if mem s str_opts then
    opt_done (getstring c p) (fun '(_, x) g =>
      let g := opt_write s (effect1 (SetStr s x) g) in
      Some (if beq s (str "log-file") && g_final g then effect1 ReopenLog g else g))
  else if beq s (str "debug") then
    opt_done (getconv conv_int c p) (fun v g => if v <? 0 then None else Some (effect1 (SetDebug v) g))
  else if beq s (str "smoothing-half-life") then
    opt_done (getconv conv_int c p) (fun v g => if v <? 0 then None else Some (effect1 (SetHalfLife v) g))
  else if beq s (str "router-id") then
    opt_done (getconv parse_eui64 c p) (fun v g => Some (effect1 (SetId v) g))
  else Bad p.

(** ** Lines *)
(** configuration.h:25-30 *)
Definition ACT_DONE := 0. Definition ACT_QUIT := 1. Definition ACT_DUMP := 2.
Definition ACT_MONITOR := 3. Definition ACT_UNMONITOR := 4. Definition ACT_NO := 5.

(** configuration.c:846-878 add_filter *)
Definition add_filter (which : Z) (f : filt) (g : cfg) : cfg :=
  mkCfg (g_final g) (g_write g)
    (if which =? 0 then g_in g ++ [f] else g_in g) (if which =? 1 then g_out g ++ [f] else g_out g)
    (if which =? 2 then g_redist g ++ [f] else g_redist g) (if which =? 3 then g_inst g ++ [f] else g_inst g)
    (g_ifs g) (g_default g) (g_keys g) (g_log g) (g_abort g).

(** The four filter directives, configuration.c:1163-1198 *)
Definition line_filter (e : env) (which : Z) (c : Z) (p : pst) : res (Z * option (list Z)) :=
  if g_final (p_cfg p) then Bad p
  else match parse_filter e c p with
  | Bad p => Bad p
  | Good c f p => Good c (ACT_DONE, None) (set_cfg (add_filter which f (p_cfg p)) p)
  end.
(** configuration.c:1199-1204: "interface" *)
Definition line_interface (c : Z) (p : pst) : res (Z * option (list Z)) :=
  match parse_ifconf c p with
  | Bad p => Bad p
  | Good c (ic, name) p =>
      let g := p_cfg p in
      let '(l, merged) := add_ifconf ic (g_ifs g) in
      let g' := set_ifs l g in
      let g' := if g_final g then effect1 (AddInterface (ic_name ic)) g' else g' in
      let p := set_cfg g' p in
      Good c (ACT_DONE, None) (if merged then freet name p else p)
  end.
(** configuration.c:1205-1217: "default" *)
Definition line_default (c : Z) (p : pst) : res (Z * option (list Z)) :=
  match ifconf_loop (S (S (length (p_in p)))) c None None (ic0 []) p with
  | Bad p => Bad p
  | Good c ic p =>
      let g := p_cfg p in
      Good c (ACT_DONE, None)
        (set_cfg (set_default (Some (match g_default g with None => ic | Some d => merge_ifconf d ic d end)) g) p)
  end.
(** configuration.c:1218-1252: "flush".  When the name cannot be read, skip_eol passes the
    error on. *)
Definition line_flush (e : env) (c : Z) (p : pst) : res (Z * option (list Z)) :=
  match getword c p with
  | Bad p => Bad p
  | Good c (t2, s2) p =>
      let p := uset t2 p in
      if beq s2 (str "interface") then
        match getword c p with
        | Bad p => Bad (freet (Some t2) p)
        | Good c (t, name) p =>
            match skip_eol c p with
            | Bad p => Bad (freet (Some t2) (freet (Some t) p))
            | Good c _ p =>
                let p := uset t p in
                let rc := e_flush e name in
                let p := set_cfg (effect1 (FlushInterface name) (p_cfg p)) p in
                Good c (if rc <=? 0
                        then (ACT_NO, Some (if rc <? 0 then str "Couldn't flush interface" else str "No such interface"))
                        else (ACT_DONE, None))
                  (freet (Some t) (freet (Some t2) p))
            end
        end
      else Bad (freet (Some t2) p)
  end.
(** configuration.c:1254-1259: "key" *)
Definition line_key (c : Z) (p : pst) : res (Z * option (list Z)) :=
  match parse_key c p with
  | Bad p => Bad p
  | Good c (id, ty, v) p => Good c (ACT_DONE, None) (set_cfg (add_key id ty v (p_cfg p)) p)
  end.
(** A directive that takes no argument, configuration.c:1133-1152; [act] says whether
    action_return is not NULL. *)
Definition line_action (act : bool) (a : Z) (c : Z) (p : pst) : res (Z * option (list Z)) :=
  match skip_eol c p with
  | Bad p => Bad p
  | Good c _ p => if act then Good c (a, None) p else Bad p
  end.
(** configuration.c:1131-1264: what follows the first word [s] *)
Definition directive (e : env) (act : bool) (s : list Z) (c : Z) (p : pst) : res (Z * option (list Z)) :=
  if beq s (str "quit") then line_action act ACT_QUIT c p
  else if beq s (str "dump") then line_action act ACT_DUMP c p
  else if beq s (str "monitor") then line_action act ACT_MONITOR c p
  else if beq s (str "unmonitor") then line_action act ACT_UNMONITOR c p
  else if g_final (p_cfg p) && negb (g_write (p_cfg p)) then
    Bad (set_in (snd (to_eol c (p_in p))) p)
  else if beq s (str "in") then line_filter e 0 c p
  else if beq s (str "out") then line_filter e 1 c p
  else if beq s (str "redistribute") then line_filter e 2 c p
  else if beq s (str "install") then line_filter e 3 c p
  else if beq s (str "interface") then line_interface c p
  else if beq s (str "default") then line_default c p
  else if beq s (str "flush") then line_flush e c p
  else if beq s (str "reopen-logfile") then
    match skip_eol c p with
    | Bad p => Bad p
    | Good c _ p => if act then Good c (ACT_DONE, None) (set_cfg (effect1 ReopenLog (p_cfg p)) p) else Bad p
    end
  else if beq s (str "key") then line_key c p
  else match parse_option e s c p with
  | Bad p => Bad p
  | Good c _ p => Good c (ACT_DONE, None) p
  end.
(** configuration.c:1113-1271 parse_config_line *)
Definition parse_config_line (e : env) (act : bool) (c : Z) (p : pst) : res (Z * option (list Z)) :=
  let '(c, r) := skip_ws c (p_in p) in
  let p := set_in r p in
  if eol c then let '(c, r) := to_eol c r in Good c (ACT_DONE, None) (set_in r p)
  else match getword c p with
  | Bad p => Bad p
  | Good c (t, s) p =>
      match directive e act s c (uset t p) with
      | Bad p => Bad (freet (Some t) p)
      | Good c a p => Good c a (freet (Some t) p)
      end
  end.
(** configuration.c:1332-1352 parse_config_from_string: the returned value (-1 is an
    error), the message, the state *)
Definition from_string (e : env) (l : list Z) (p : pst) : Z * option (list Z) * pst :=
  match l with
  | [] => (-1, None, p)
  | c :: r =>
      match parse_config_line e true c (set_in r p) with
      | Good c (a, m) p => if c =? -1 then (a, m, p) else (-1, None, p)
      | Bad p => (-1, None, p)
      end
  end.
(** configuration.c:1301-1311: the lines of a file; [None] when one is rejected *)
Fixpoint file_loop (e : env) (fuel : nat) (c : Z) (p : pst) : bool * pst :=
  match fuel with
  | O => (false, set_stuck p)
  | S fuel =>
      match parse_config_line e false c p with
      | Bad p => (false, p)
      | Good c _ p => if c =? -1 then (true, p) else file_loop e fuel c p
      end
  end.
(** configuration.c:1289-1316 parse_config_from_file, on the contents of the file *)
Definition from_file (e : env) (l : list Z) (p : pst) : bool * pst :=
  match l with
  | [] => (true, p)
  | c :: r => file_loop e (S (S (length r))) c (set_in r p)
  end.

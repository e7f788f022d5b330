(** M_Args.v: the command line, babeld.c:120-323 (main up to the start of the daemon).
    Arguments are C strings: lists of characters other than NUL. *)
From Coq Require Import String.
From Verif Require Import Base M_Util M_Filter M_Config.
Close Scope string_scope.
Open Scope Z_scope.

(** ** getopt *)
(** The C library's getopt with the option string of babeld.c:149,
    "m:p:h:H:i:k:A:srS:d:g:G:lwM:t:T:c:C:DL:I:V": letters that take an argument, and letters
    that do not *)
Definition arg_letters : list Z := str "mphHikASdgGMtTcCLI".
Definition flag_letters : list Z := str "srlwDV".
(** What getopt returns: a letter with optarg, or '?' *)
Inductive gev := GOpt (c : Z) (arg : option (list Z)) | GBad.
(** The letters of one argument; [Some c]: the option c takes the next argument. *)
Fixpoint cluster (cs : list Z) : list gev * option Z :=
  match cs with
  | [] => ([], None)
  | c :: cs' =>
      if existsb (Z.eqb c) arg_letters then
        match cs' with [] => ([], Some c) | _ => ([GOpt c (Some cs')], None) end
      else
        let '(l, n) := cluster cs' in
        ((if existsb (Z.eqb c) flag_letters then GOpt c None else GBad) :: l, n)
  end.
(** All that getopt returns for the arguments, and the arguments from optind on after that.
    [gnu]: as in the GNU C library, which moves operands behind the options; otherwise the
    first operand ends the options.  main stops calling getopt at some errors, which makes no
    difference to what is returned before. *)
Fixpoint getopt (gnu : bool) (l : list (list Z)) (need : option Z) : list gev * list (list Z) :=
  match l with
  | [] => (match need with None => [] | Some _ => [GBad] end, [])
  | a :: l' =>
      match need with
      | Some c => let '(evs, ops) := getopt gnu l' None in (GOpt c (Some a) :: evs, ops)
      | None =>
          match a with
          | x :: y :: r =>
              if x =? 45 then
                if (y =? 45) && beq r [] then ([], l')
                else let '(evs, n) := cluster (y :: r) in
                     let '(evs', ops) := getopt gnu l' n in (evs ++ evs', ops)
              else if gnu then let '(evs, ops) := getopt gnu l' None in (evs, a :: ops) else ([], l)
          | _ => if gnu then let '(evs, ops) := getopt gnu l' None in (evs, a :: ops) else ([], l)
          end
      end
  end.

(** ** Options *)
(** util.c:138-154 parse_nat *)
Definition parse_nat (s : list Z) : Z :=
  let '(v, e) := strtol0 s in
  match skip_blanks e with
  | [] => if (v <? 0) || (v >? 2147483647) then -1 else v
  | _ => -1
  end.
(** What main ends with: the daemon starts with these operands; the usage is printed; the
    version is printed; the configuration cannot be read *)
Inductive outcome := Run (ops : list (list Z)) (p : pst) | Usage | Version | NoConfig.
Inductive step1 := Go (files : list (list Z)) (p : pst) | Stop (o : outcome).
(** How many tables add_import_table (kernel.c:106-113) has stored, as long as there are not
    more than 10 *)
Definition count_import (log : list effect) : Z :=
  fold_left (fun n x => match x with SetInt o _ => if beq o (str "import-table") then n + 1 else n | _ => n end) log 0.
(** babeld.c:153-275: the switch.  The assignments are recorded as effects under the names of
    the options of the configuration file, and "-h", "-H", "-s", "-w". *)
Definition on_opt (e : env) (c : Z) (arg : option (list Z)) (files : list (list Z)) (p : pst) : step1 :=
  let a := match arg with Some a => a | None => [] end in
  let put x := Go files (set_cfg (effect1 x (p_cfg p)) p) in
  let putw n x := Go files (set_cfg (opt_write n (effect1 x (p_cfg p))) p) in
  let nat lo hi n := let v := parse_nat a in if (v <? lo) || (v >? hi) then Stop Usage else put (SetInt n v) in
  let hello n := let v := parse_thousands a in if (v <=? 0) || (v >? 655350) then Stop Usage else put (SetInt n v) in
  let serv n1 n2 :=
    if nth 0 a 0 =? 47 then putw n2 (SetStr n2 a)
    else let v := parse_nat a in if (v <=? 0) || (v >? 65535) then Stop Usage else putw n1 (SetInt n1 v) in
  if c =? 109 (* m *) then
    match parse_address e a with
    | None => Stop Usage
    | Some (g, _) => if nth 0 g 0 =? 255 then put (SetGroup g) else Stop Usage
    end
  else if c =? 112 (* p *) then nat 1 65535 (str "protocol-port")
  else if c =? 104 (* h *) then hello (str "-h")
  else if c =? 72 (* H *) then hello (str "-H")
  else if c =? 107 (* k *) then nat 0 65535 (str "kernel-priority")
  else if c =? 65 (* A *) then nat 0 65535 (str "allow-duplicates")
  else if c =? 115 (* s *) then put (SetBool (str "-s") true)
  else if c =? 114 (* r *) then put (SetBool (str "random-id") true)
  else if c =? 83 (* S *) then put (SetStr (str "state-file") a)
  else if c =? 100 (* d *) then let v := parse_nat a in if v <? 0 then Stop Usage else put (SetDebug v)
  else if c =? 103 (* g *) then serv (str "local-port") (str "local-path")
  else if c =? 71 (* G *) then serv (str "local-port-readwrite") (str "local-path-readwrite")
  else if c =? 108 (* l *) then put (SetBool (str "link-detect") true)
  else if c =? 119 (* w *) then put (SetBool (str "-w") true)
  else if c =? 77 (* M *) then let v := parse_nat a in if (v <? 0) || (v >? 3600) then Stop Usage else put (SetHalfLife v)
  else if c =? 116 (* t *) then nat 0 65535 (str "export-table")
  else if c =? 84 (* T *) then
    if count_import (g_log (p_cfg p)) >? 9 then Stop Usage else nat 0 65535 (str "import-table")
  else if c =? 99 (* c *) then Go (files ++ [a]) p
  else if c =? 67 (* C *) then
    let '(rc, _, p) := from_string e a p in if rc =? ACT_DONE then Go files p else Stop NoConfig
  else if c =? 68 (* D *) then put (SetBool (str "daemonise") true)
  else if c =? 76 (* L *) then put (SetStr (str "log-file") a)
  else if c =? 73 (* I *) then put (SetStr (str "pid-file") a)
  else if c =? 86 (* V *) then Stop Version
  else Stop Usage.
(** babeld.c:147-276: the loop *)
Fixpoint on_opts (e : env) (l : list gev) (files : list (list Z)) (p : pst) : step1 :=
  match l with
  | [] => Go files p
  | GBad :: _ => Stop Usage
  | GOpt c a :: l => match on_opt e c a files p with Go files p => on_opts e l files p | Stop o => Stop o end
  end.
(** babeld.c:289-300: the files in order; [file]: the contents, None when fopen fails *)
Fixpoint on_files (e : env) (file : list Z -> option (list Z)) (l : list (list Z)) (p : pst) : option pst :=
  match l with
  | [] => Some p
  | f :: l =>
      match file f with
      | None => None
      | Some s => match from_file e s p with (true, p) => on_files e file l p | _ => None end
      end
  end.
(** babeld.c:120-302 main; [args]: argv from 1 on; [etc]: access("/etc/babeld.conf") succeeds *)
Definition main (gnu : bool) (e : env) (file : list Z -> option (list Z)) (etc : bool) (args : list (list Z)) (p : pst) : outcome :=
  let '(evs, ops) := getopt gnu args None in
  match on_opts e evs [] p with
  | Stop o => o
  | Go files p =>
      let files := match files with [] => if etc then [str "/etc/babeld.conf"] else [] | _ => files end in
      match on_files e file files p with None => NoConfig | Some p => Run ops p end
  end.

(** ** Variables *)
(** The variables the effects set.  Numbers, switches and strings are functions of the name of
    their option; the server is local_server_port and local_server_path. *)
Record vars := mkVars {
  v_int : list Z -> Z; v_bool : list Z -> bool; v_str : list Z -> option (list Z);
  v_group : list Z; v_debug : Z; v_half : Z; v_import : list Z; v_port : Z; v_path : option (list Z) }.
Definition upd {A} (f : list Z -> A) (n : list Z) (v : A) : list Z -> A := fun m => if beq m n then v else f m.
(** Initial values: babeld.c:61-79, 88-89, 143-145, local.c:48-49, message.c:48, route.c:46-47,
    kernel_netlink.c:81.  ("-s" is the negation of split_horizon.)  has_ipv6_subtrees depends
    on the kernel. *)
Definition vars0 (subtrees : bool) : vars :=
  mkVars (fun n => if beq n (str "protocol-port") then 6696 else if beq n (str "kernel-priority") then 0
                   else if beq n (str "kernel-check-interval") then 300 else -1)
         (fun n => if beq n (str "ipv6-subtrees") then subtrees else false)
         (fun n => if beq n (str "pid-file") then Some (str "/var/run/babeld.pid")
                   else if beq n (str "state-file") then Some (str "/var/lib/babel-state") else None)
         [255; 2; 0; 0; 0; 0; 0; 0; 0; 0; 0; 0; 0; 1; 0; 6] 0 4 [] (-1) None.
(** configuration.c:993-1092 and babeld.c:153-275: the assignments.  kernel.c:106-113
    add_import_table, route.c:652-661 change_smoothing_half_life. *)
Definition assign (v : vars) (x : effect) : vars :=
  match x with
  | SetInt n i =>
      if beq n (str "local-port") || beq n (str "local-port-readwrite") then
        mkVars (v_int v) (v_bool v) (v_str v) (v_group v) (v_debug v) (v_half v) (v_import v) i None
      else if beq n (str "import-table") then
        if (i <? 0) || (i >? 65535) || (Z.of_nat (length (v_import v)) >? 9) then v
        else mkVars (v_int v) (v_bool v) (v_str v) (v_group v) (v_debug v) (v_half v) (v_import v ++ [i]) (v_port v) (v_path v)
      else mkVars (upd (v_int v) n i) (v_bool v) (v_str v) (v_group v) (v_debug v) (v_half v) (v_import v) (v_port v) (v_path v)
  | SetBool n b => mkVars (v_int v) (upd (v_bool v) n b) (v_str v) (v_group v) (v_debug v) (v_half v) (v_import v) (v_port v) (v_path v)
  | SetStr n s =>
      if beq n (str "local-path") || beq n (str "local-path-readwrite") then
        mkVars (v_int v) (v_bool v) (v_str v) (v_group v) (v_debug v) (v_half v) (v_import v) (-1) (Some s)
      else mkVars (v_int v) (v_bool v) (upd (v_str v) n (Some s)) (v_group v) (v_debug v) (v_half v) (v_import v) (v_port v) (v_path v)
  | SetGroup g => mkVars (v_int v) (v_bool v) (v_str v) g (v_debug v) (v_half v) (v_import v) (v_port v) (v_path v)
  | SetDebug d => mkVars (v_int v) (v_bool v) (v_str v) (v_group v) d (v_half v) (v_import v) (v_port v) (v_path v)
  | SetHalfLife h => mkVars (v_int v) (v_bool v) (v_str v) (v_group v) (v_debug v) (if h <=? 0 then 0 else h) (v_import v) (v_port v) (v_path v)
  | _ => v
  end.
Definition after_options (subtrees : bool) (log : list effect) : vars := fold_left assign log (vars0 subtrees).
(** babeld.c:304-323: the intervals of hellos ("-h", "-H"), the resend delay, the log file *)
Definition interval (v : vars) (n : list Z) : Z := Z.max (if v_int v n <=? 0 then 4000 else v_int v n) 5.
Definition resend_delay (v : vars) : Z :=
  Z.max (Z.min (Z.min 2000 (Z.quot (interval v (str "-h")) 2)) (Z.quot (interval v (str "-H")) 2)) 20.
Definition log_name (v : vars) : option (list Z) :=
  match v_str v (str "log-file") with
  | Some s => Some s
  | None => if v_bool v (str "daemonise") then Some (str "/var/log/babeld.log") else None
  end.
(** babeld.c:524-535: the control server: a port, or a path *)
Definition server (v : vars) : option (Z + list Z) :=
  if v_port v >=? 0 then Some (inl (v_port v)) else match v_path v with Some s => Some (inr s) | None => None end.

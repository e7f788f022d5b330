(** M_Sysctl.v: the settings of the kernel that babeld changes while it runs:
    kernel_netlink.c:82-168 and 231-276, 626-697, 739-786 (Linux), with the calls in
    interface.c:100-132, 253-275, 489-527, 543-583 and babeld.c:408-428, 811-817, 848-859.
    A file below /proc/sys holds a number; open(2) fails for files that are absent or that
    may not be accessed.  The text of the number (atoi, "%d") is not modelled: it is a
    decimal in the range of int.  Allocation is taken to succeed. *)
From Coq Require Import String.
From Verif Require Import Base M_Util M_Config.
Close Scope string_scope.
Open Scope Z_scope.

(** Files: value, may be read, may be written *)
Record file := mkFile { f_val : Z; f_r : bool; f_w : bool }.
Definition fs := list Z -> option file.
Definition upd (f : fs) (p : list Z) (o : option file) : fs := fun q => if beq q p then o else f q.

(** kernel_netlink.c:231-252 read_proc *)
Definition read_proc (f : fs) (p : list Z) : Z :=
  match f p with Some x => if f_r x then f_val x else -1 | None => -1 end.
(** kernel_netlink.c:255-276 write_proc *)
Definition write_proc (f : fs) (p : list Z) (v : Z) : Z * fs :=
  match f p with
  | Some x => if f_w x then (1, upd f p (Some (mkFile v (f_r x) (f_w x)))) else (-1, f)
  | None => (-1, f)
  end.

(** kernel_netlink.c:91-96 sysctl_settings: name and value wanted *)
Definition settings : list (list Z * Z) :=
  [(str "/proc/sys/net/ipv6/conf/all/forwarding", 1); (str "/proc/sys/net/ipv4/conf/all/forwarding", 1);
   (str "/proc/sys/net/ipv6/conf/all/accept_redirects", 0); (str "/proc/sys/net/ipv4/conf/all/rp_filter", 0)].
(** kernel_netlink.c:750 *)
Definition rp (n : list Z) : list Z := str "/proc/sys/net/ipv4/conf/" ++ n ++ str "/rp_filter".

(** An interface: name, number, IF_UP *)
Record kif := mkKif { i_name : list Z; i_index : Z; i_up : bool }.
(** The process: [s_was] is the field [was] of the settings, [s_old] the table old_if,
    [s_ub] an access outside of it; [s_run]: between a start that succeeded and the exit. *)
Record sst := mkS { s_fs : fs; s_was : list Z; s_old : list (list Z * Z); s_ifs : list kif; s_ub : bool; s_run : bool }.
Definition set_fs f s := mkS f (s_was s) (s_old s) (s_ifs s) (s_ub s) (s_run s).
Definition set_old o s := mkS (s_fs s) (s_was s) o (s_ifs s) (s_ub s) (s_run s).
Definition set_ifs l s := mkS (s_fs s) (s_was s) (s_old s) l (s_ub s) (s_run s).
Definition set_ub s := mkS (s_fs s) (s_was s) (s_old s) (s_ifs s) true (s_run s).

(** kernel_netlink.c:117-143 get_old_if; MAX_INTERFACES is 1024 *)
Fixpoint find_old (n : list Z) (l : list (list Z * Z)) : option nat :=
  match l with
  | [] => None
  | (m, _) :: l => if beq m n then Some O else match find_old n l with Some i => Some (S i) | None => None end
  end.
Definition get_old_if (n : list Z) (l : list (list Z * Z)) : option nat * list (list Z * Z) :=
  match find_old n l with
  | Some i => (Some i, l)
  | None => if Z.of_nat (length l) >=? 1024 then (None, l) else (Some (length l), l ++ [(n, -1)])
  end.
Definition put_old (i : nat) (x : list Z * Z) (l : list (list Z * Z)) : list (list Z * Z) := firstn i l ++ x :: skipn (S i) l.
(** kernel_netlink.c:145-168 free_old_if: the last entry takes the place *)
Definition free_old_if (i : nat) (l : list (list Z * Z)) : list (list Z * Z) :=
  if (i <? length l)%nat then
    if (i =? length l - 1)%nat then removelast l else removelast (put_old i (last l ([], 0)) l)
  else l.
Definition old_rp (i : nat) (l : list (list Z * Z)) : Z := match nth_error l i with Some x => snd x | None => 0 end.

(** kernel_netlink.c:739-786 kernel_setup_interface *)
Definition setup_interface (skip up : bool) (n : list Z) (s : sst) : Z * sst :=
  if skip then (1, s)
  else if Z.of_nat (length (rp n)) >=? 100 then (-1, s)
  else
    let '(o, old) := get_old_if n (s_old s) in
    let s := set_old old s in
    if up then
      match o with
      | None => (1, set_ub s)
      | Some i =>
          let v := read_proc (s_fs s) (rp n) in
          let s := set_old (put_old i (n, v) old) s in
          if v =? 0 then (1, s)
          else let '(rc, f) := write_proc (s_fs s) (rp n) 0 in (if rc <? 0 then -1 else 1, set_fs f s)
      end
    else
      match o with
      | None => (1, s)
      | Some i =>
          let s := if old_rp i old >? 0 then set_fs (snd (write_proc (s_fs s) (rp n) (old_rp i old))) s else s in
          (1, set_old (free_old_if i old) s)
      end.

(** kernel_netlink.c:653-667: the settings at the start *)
Fixpoint setup_loop (l : list (list Z * Z)) (f : fs) : Z * list Z * fs :=
  match l with
  | [] => (1, [], f)
  | (p, want) :: l =>
      let v := read_proc f p in
      if v <? 0 then (-1, v :: map (fun _ => -1) l, f)
      else
        let '(rc, f) := if v =? want then (1, f) else write_proc f p want in
        if rc <? 0 then (-1, v :: map (fun _ => -1) l, f)
        else let '(rc, was, f) := setup_loop l f in (rc, v :: was, f)
  end.
(** kernel_netlink.c:684-693: and at the exit *)
Fixpoint restore_loop (l : list (list Z * Z)) (was : list Z) (f : fs) : Z * fs :=
  match l, was with
  | (p, want) :: l, v :: was =>
      if (v >=? 0) && negb (v =? want) then
        let '(rc, f) := write_proc f p v in if rc <? 0 then (-1, f) else restore_loop l was f
      else restore_loop l was f
  | _, _ => (1, f)
  end.
(** kernel_netlink.c:626-697 kernel_setup; [sock]: the two sockets are opened *)
Definition kernel_setup_1 (skip sock : bool) (s : sst) : Z * sst :=
  if negb sock then (-1, s)
  else if skip then (1, s)
  else let '(rc, was, f) := setup_loop settings (s_fs s) in (rc, mkS f was (s_old s) (s_ifs s) (s_ub s) (s_run s)).
Definition kernel_setup_0 (skip : bool) (s : sst) : sst :=
  let s := set_old [] s in
  if skip then s else set_fs (snd (restore_loop settings (s_was s) (s_fs s))) s.

Fixpoint get_kif (n : list Z) (l : list kif) : option kif :=
  match l with [] => None | x :: l => if beq (i_name x) n then Some x else get_kif n l end.
Definition map_kif (n : list Z) (g : kif -> kif) (l : list kif) : list kif := map (fun x => if beq (i_name x) n then g x else x) l.

(** interface.c:489-517 interface_updown(ifp, 0) *)
Definition if_down (skip : bool) (n : list Z) (s : sst) : sst :=
  match get_kif n (s_ifs s) with
  | None => s
  | Some x =>
      if negb (i_up x) then s
      else
        let s := set_ifs (map_kif n (fun x => mkKif (i_name x) (i_index x) false) (s_ifs s)) s in
        if i_index x >? 0 then snd (setup_interface skip false n s) else s
  end.
(** interface.c:253-488, 521-526 interface_updown(ifp, 1); [ok]: what follows
    kernel_setup_interface (addresses, multicast group) succeeds *)
Definition if_come_up (skip ok : bool) (n : list Z) (s : sst) : sst :=
  match get_kif n (s_ifs s) with
  | None => s
  | Some x =>
      if i_up x then s
      else
        let s := set_ifs (map_kif n (fun x => mkKif (i_name x) (i_index x) true) (s_ifs s)) s in
        if i_index x <=? 0 then if_down skip n s
        else
          let '(rc, s) := setup_interface skip true n s in
          if rc <? 0 then if_down skip n s else if ok then s else if_down skip n s
  end.
(** interface.c:550-567 (check_interfaces, one interface): its number and state now *)
Definition check_if (skip : bool) (n : list Z) (index : Z) (oper ok : bool) (s : sst) : sst :=
  match get_kif n (s_ifs s) with
  | None => s
  | Some x =>
      let s := if index =? i_index x then s
               else let s := if_down skip n s in set_ifs (map_kif n (fun x => mkKif (i_name x) index (i_up x)) (s_ifs s)) s in
      let rc := if index >? 0 then oper else false in
      let up := match get_kif n (s_ifs s) with Some x => i_up x | None => false end in
      if Bool.eqb rc up then s else if rc then if_come_up skip ok n s else if_down skip n s
  end.
(** interface.c:66-98 add_interface; the number is 0 *)
Definition add_if (n : list Z) (s : sst) : sst :=
  match get_kif n (s_ifs s) with Some _ => s | None => set_ifs (s_ifs s ++ [mkKif n 0 false]) s end.
(** interface.c:100-132 flush_interface *)
Definition flush_kif (skip : bool) (n : list Z) (s : sst) : sst :=
  let s := if_down skip n s in set_ifs (filter (fun x => negb (beq (i_name x) n)) (s_ifs s)) s.

(** What happens: a start (are the sockets of kernel_setup and that of kernel_setup_socket
    opened?), interfaces added, checked and removed, the exit or a failure after the start
    (babeld.c:848-855), and other programs changing files. *)
Inductive sev :=
| VStart (sock sock2 : bool) | VAdd (n : list Z) | VCheck (n : list Z) (index : Z) (oper ok : bool)
| VFlush (n : list Z) | VExit | VFile (p : list Z) (o : option file).

(** babeld.c:408-428: a new process; a failure ends it *)
Definition start (skip sock sock2 : bool) (s : sst) : sst :=
  let s := mkS (s_fs s) (map (fun _ => -1) settings) [] [] (s_ub s) false in
  let '(rc, s) := kernel_setup_1 skip sock s in
  if rc <? 0 then s
  else if negb sock2 then kernel_setup_0 skip s
  else mkS (s_fs s) (s_was s) (s_old s) (s_ifs s) (s_ub s) true.
(** babeld.c:811-817 (and 848-855, where interfaces that are down are skipped) *)
Definition finish (skip : bool) (s : sst) : sst :=
  let s := fold_left (fun s x => if_down skip (i_name x) s) (s_ifs s) s in
  let s := kernel_setup_0 skip s in
  mkS (s_fs s) (s_was s) (s_old s) (s_ifs s) (s_ub s) false.
Definition sstep (skip : bool) (s : sst) (ev : sev) : sst :=
  match ev with
  | VFile p o => set_fs (upd (s_fs s) p o) s
  | VStart a b => if s_run s then s else start skip a b s
  | _ =>
      if negb (s_run s) then s
      else
        match ev with
        | VAdd n => add_if n s
        | VCheck n index oper ok => check_if skip n index oper ok s
        | VFlush n => flush_kif skip n s
        | _ => finish skip s
        end
  end.
Definition sboot (f : fs) : sst := mkS f (map (fun _ => -1) settings) [] [] false false.
Definition srun (skip : bool) (f : fs) (evs : list sev) : sst := fold_left (sstep skip) evs (sboot f).

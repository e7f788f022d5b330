(** M_Start.v: the start of the daemon: router-id (babeld.c:447-480, kernel_netlink.c:171-229)
    and process id file (babeld.c:349-378, 843-844, 856-859).
    System calls are functions and events: if_indextoname, ioctl(SIOCGIFHWADDR), reads of
    /dev/urandom, open, write and unlink of the process id file.  A path names one file
    (links and relative paths are not modelled). *)
From Coq Require Import String.
From Verif Require Import Base M_Util M_Config.
Close Scope string_scope.
Open Scope Z_scope.

(** ** Router-id *)
(** What the kernel says of interfaces: the name for a number; for a name, the hardware type
    and the 14 bytes of sa_data, None if the socket or the ioctl fails *)
Record hw := mkHw { h_name : Z -> option (list Z); h_addr : list Z -> option (Z * list Z) }.
(** kernel_netlink.c:171-229 if_eui64, None for -1.  ARPHRD_ETHER, FDDI, IEEE802_TR and IEEE802 are
    1, 774, 800 and 6; ARPHRD_EUI64, IEEE1394 and INFINIBAND are 27, 24 and 32.  The names are those of
    if_indextoname, which fit in ifr_name. *)
Definition if_eui64 (h : hw) (ifname : list Z) : option (list Z) :=
  match h_addr h ifname with
  | None => None
  | Some (family, mac) =>
      let m0 := nth 0 mac 0 in
      if (family =? 1) || (family =? 774) || (family =? 800) || (family =? 6) then
        if beq (firstn 6 mac) (repeat 0 6) || negb (Z.land m0 1 =? 0) || negb (Z.land m0 2 =? 0) then None
        else
          let eui := firstn 3 mac ++ [255; 254] ++ firstn 3 (skipn 3 mac) in
          Some (Z.lxor (nth 0 eui 0) 2 :: skipn 1 eui)
      else if (family =? 27) || (family =? 24) || (family =? 32) then
        if beq (firstn 8 mac) (repeat 0 8) || negb (Z.land m0 1 =? 0) || negb (Z.land m0 2 =? 0) then None
        else
          let eui := firstn 8 mac in
          Some (Z.lxor (nth 0 eui 0) 2 :: skipn 1 eui)
      else None
  end.
(** babeld.c:452-463: for i = 1 .. 255 *)
Fixpoint id_loop (h : hw) (n : nat) (i : Z) : option (list Z) :=
  match n with
  | O => None
  | S n =>
      match h_name h i with
      | None => id_loop h n (i + 1)
      | Some ifname => match if_eui64 h ifname with None => id_loop h n (i + 1) | Some eui => Some eui end
      end
  end.
(** babeld.c:447-480; the variables myid and have_id after the configuration ([conf]: the id, None when
    have_id is 0) and random_id; [urandom]: the 8 bytes that are read, None when read_random_bytes
    (kernel.c:86-104) fails.  None: the daemon does not start. *)
Definition start_id (conf : option (list Z)) (random_id : bool) (h : hw) (urandom : option (list Z)) : option (list Z) :=
  let found := match conf with
    | Some id => Some id
    | None => if random_id then None else id_loop h 255 1
    end in
  match found with
  | Some id => Some id
  | None => match urandom with None => None | Some r => Some (Z.land (nth 0 r 0) (Z.lnot 3) :: skipn 1 r) end
  end.
(** The variables after the effects of the options: configuration.c:1031-1037, 1094-1103 *)
Definition conf_id (log : list effect) : option (list Z) :=
  fold_left (fun o x => match x with SetId i => Some i | _ => o end) log None.
Definition conf_random (log : list effect) : bool :=
  fold_left (fun b x => match x with SetBool n v => if beq n (str "random-id") then v else b | _ => b end) log false.

(** ** The process id file *)
(** The files (contents by name) and the running daemons: number and name of the file *)
Record psys := mkPs { p_files : list Z -> option (list Z); p_run : list (Z * list Z) }.
Definition fset (f : list Z -> option (list Z)) (n : list Z) (o : option (list Z)) : list Z -> option (list Z) :=
  fun m => if beq m n then o else f m.
(** What happens: a daemon starts ([cre], [wr]: the file can be created, if it is absent, and written;
    [ok]: babel_main gets to its loop); a daemon ends by itself, or is killed; somebody else changes a file. *)
Inductive pev := PStart (pid : Z) (path : list Z) (cre wr ok : bool) | PExit (pid : Z) | PKill (pid : Z) | PFile (path : list Z) (o : option (list Z)).
Definition pid_path (pid : Z) (l : list (Z * list Z)) : option (list Z) :=
  match find (fun x => fst x =? pid) l with Some x => Some (snd x) | None => None end.
(** babeld.c:349-378, then babel_main; 843-844 and 856-859: unlink, also of the empty name, which fails *)
Definition p_unlink (path : list Z) (f : list Z -> option (list Z)) : list Z -> option (list Z) :=
  match path with [] => f | _ => fset f path None end.
Definition p_start (pid : Z) (path : list Z) (cre wr ok : bool) (s : psys) : psys :=
  match path with
  | [] => if ok then mkPs (p_files s) ((pid, path) :: p_run s) else s
  | _ =>
      if (match p_files s path with Some _ => true | None => false end) || negb cre then s
      else
        let f := fset (p_files s) path (Some []) in
        if negb wr then mkPs (p_unlink path f) (p_run s)
        else
          let f := fset f path (Some (dec pid)) in
          if ok then mkPs f ((pid, path) :: p_run s) else mkPs (p_unlink path f) (p_run s)
  end.
Definition pstep (s : psys) (ev : pev) : psys :=
  match ev with
  | PStart pid path cre wr ok => if existsb (fun x => fst x =? pid) (p_run s) then s else p_start pid path cre wr ok s
  | PExit pid =>
      match pid_path pid (p_run s) with
      | None => s
      | Some path => mkPs (p_unlink path (p_files s)) (filter (fun x => negb (fst x =? pid)) (p_run s))
      end
  | PKill pid => mkPs (p_files s) (filter (fun x => negb (fst x =? pid)) (p_run s))
  | PFile path o => mkPs (fset (p_files s) path o) (p_run s)
  end.
Definition pruns (f : list Z -> option (list Z)) (l : list pev) : psys := fold_left pstep l (mkPs f []).

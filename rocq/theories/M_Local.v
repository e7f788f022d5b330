(** M_Local.v: model of the control sockets: local.c:51-81 and 318-394, and the part of the
    main loop that serves them, babeld.c:682-697. *)
From Coq Require Import String.
From Verif Require Import Base M_Config.
Close Scope string_scope.
Open Scope Z_scope.

(** What read(2) answers: characters, end of file, or an error, which may be EAGAIN or
    EINTR ([again]).  What write_timeout (local.c:52-81) answers; when the client does not
    read, it returns -1 with errno set to EAGAIN. *)
Inductive rd := RData (l : list Z) | REof | RFail (again : bool).
Inductive wr := WOk | WFail (again : bool).

(** local.h:38-43 struct local_socket; [k_shut]: shutdown(2) was called. *)
Record sock := mkSock { k_fd : Z; k_buf : list Z; k_mon : bool; k_shut : bool }.
Definition BUFSIZE : Z := 1024.

(** local.c:342-346: the first line of the buffer, with its end, and what follows. *)
Fixpoint cut_line (l : list Z) : option (list Z * list Z) :=
  match l with
  | [] => None
  | c :: l' => if c =? 10 then Some ([10], l')
               else match cut_line l' with Some (a, b) => Some (c :: a, b) | None => None end
  end.

(** local.c:349-374: the reply after an action, from the one in the variable. *)
Definition reply_for (a : Z) (m : option (list Z)) (reply : list Z) : list Z :=
  if a =? ACT_DONE then reply
  else if a =? ACT_QUIT then []
  else if (a =? ACT_DUMP) || (a =? ACT_MONITOR) || (a =? ACT_UNMONITOR) then reply
  else if a =? ACT_NO then
    firstn 99 (str "no" ++ match m with Some x => 32 :: x | None => [] end ++ [10])
  else str "bad" ++ [10].
Definition reply0 : list Z := str "ok" ++ [10].

(** One processed line: the line, the action it was given, the reply written. *)
Record served := mkServed { v_line : list Z; v_act : Z; v_reply : list Z }.

(** Outcome of local_read: its value (1, 0, -1) with, for -1, whether errno is EAGAIN or
    EINTR; the socket, the parser, the writes left, what was served. *)
Record lr := mkLr { lr_rc : Z; lr_again : bool; lr_sock : sock; lr_p : pst; lr_wr : nat; lr_log : list served }.

(** local.c:341-385: the loop of local_read.  [ws k] is the answer of the k-th write.
    Dumps (local_notify_all_1) only write to the socket; they are in M_Dump.v and M_Monitor.v. *)
Fixpoint lines (e : env) (ws : nat -> wr) (fuel : nat) (reply : list Z) (s : sock) (p : pst) (k : nat) (log : list served) : lr :=
  match fuel with
  | O => mkLr 1 false s p k log
  | S fuel =>
      match cut_line (k_buf s) with
      | None => mkLr 1 false s p k log
      | Some (line, rest) =>
          let '(a, m, p) := from_string e line p in
          let reply := reply_for a m reply in
          let mon := if a =? ACT_MONITOR then true else if a =? ACT_UNMONITOR then false else k_mon s in
          let shut := k_shut s || (a =? ACT_QUIT) in
          let log := log ++ [mkServed line a reply] in
          match reply with
          | [] => lines e ws fuel reply (mkSock (k_fd s) rest mon shut) p k log
          | _ =>
              match ws k with
              | WOk => lines e ws fuel reply (mkSock (k_fd s) rest mon shut) p (S k) log
              | WFail again => mkLr (-1) again (mkSock (k_fd s) (k_buf s) mon true) p (S k) log
              end
          end
      end
  end.
(** local.c:318-394 local_read; read is given BUFSIZE - n bytes at most, which bounds the
    data it returns. *)
Definition local_read (e : env) (r : rd) (ws : nat -> wr) (s : sock) (p : pst) (k : nat) : lr :=
  if Z.of_nat (length (k_buf s)) >=? BUFSIZE
  then mkLr (-1) false (mkSock (k_fd s) (k_buf s) (k_mon s) true) p k []
  else match r with
  | REof => mkLr 0 false s p k []
  | RFail again => mkLr (-1) again s p k []
  | RData l =>
      let l := firstn (Z.to_nat (BUFSIZE - Z.of_nat (length (k_buf s)))) l in
      let s := mkSock (k_fd s) (k_buf s ++ l) (k_mon s) (k_shut s) in
      lines e ws (S (length (k_buf s))) reply0 s p k []
  end.

(** local.c:428-441 local_socket_destroy: the last socket takes the place of the one
    removed. *)
Definition destroy (i : nat) (l : list sock) : list sock :=
  match rev l with
  | [] => l
  | last :: _ => removelast (firstn i l ++ last :: skipn (S i) l)
  end.
(** babeld.c:682-697.  [ready] are the descriptors select reported; [rs k] is the answer of
    the k-th read, [ws k] that of the k-th write.  [None]: still running after [fuel]
    rounds. *)
Fixpoint serve (e : env) (ready : list Z) (rs : nat -> rd) (ws : nat -> wr) (fuel : nat)
    (i : nat) (l : list sock) (p : pst) (j k : nat) (log : list (Z * list served)) : option (list sock * pst * list (Z * list served)) :=
  match fuel with
  | O => None
  | S fuel =>
      match nth_error l i with
      | None => Some (l, p, log)
      | Some s =>
          if existsb (Z.eqb (k_fd s)) ready then
            let x := local_read e (rs j) ws s p k in
            let l' := firstn i l ++ lr_sock x :: skipn (S i) l in
            let log := log ++ [(k_fd s, lr_log x)] in
            if lr_rc x <=? 0 then
              if (lr_rc x <? 0) && lr_again x then serve e ready rs ws fuel i l' (lr_p x) (S j) (lr_wr x) log
              else serve e ready rs ws fuel (S i) (destroy i l') (lr_p x) (S j) (lr_wr x) log
            else serve e ready rs ws fuel (S i) l' (lr_p x) (S j) (lr_wr x) log
          else serve e ready rs ws fuel (S i) l p j k log
      end
  end.

(** M_Main.v: parts of babeld.c (timers of the main loop, receive buffer, state file)
    and kernel.c (clock). *)
From Verif Require Import Base M_Util.

(** ** Clock, kernel.c:40-81 gettime, when no POSIX monotonic clock is available.
    The state is (offset, previous); the result of gettimeofday is an argument, [None]
    when it fails (then the caller's variable keeps its value). *)
Definition gettime1 (st : Z * Z) (sys : option timeval) : (Z * Z) * option timeval :=
  match sys with
  | None => (st, None)
  | Some tv =>
      let '(offset, previous) := st in
      let s := tv_sec tv + offset in
      if previous >? s then ((offset + (previous - s), previous), Some (mkTv previous (tv_usec tv)))
      else ((offset, s), Some (mkTv s (tv_usec tv)))
  end.
Fixpoint gettimes (st : Z * Z) (l : list (option timeval)) : list timeval :=
  match l with
  | [] => []
  | x :: l' => let '(st', o) := gettime1 st x in
      match o with Some t => t :: gettimes st' l' | None => gettimes st' l' end
  end.

(** ** Receive buffer, babeld.c:936-954 resize_receive_buffer; [ok] is whether realloc
    succeeds.  The state is receive_buffer_size, initially 0 (babeld.c:97). *)
Definition resize_receive_buffer (size : Z) (ok : bool) (cur : Z) : Z :=
  if size <=? cur then cur else if ok then size else cur.
(** interface.c:280-300 and 315: the MTU used for an interface that comes up, from what
    the kernel says (negative for an error); MIN_MTU is 512 (interface.c:48). *)
Definition used_mtu (kernel_mtu : Z) : Z :=
  let m := if kernel_mtu <? 0 then 1280 else kernel_mtu in if m <? 512 then 512 else m.
(** Interfaces come up one after the other. *)
Definition up_all (l : list (Z * bool)) (cur : Z) : Z :=
  fold_left (fun c x => resize_receive_buffer (used_mtu (fst x)) (snd x) c) l cur.
(** interface.c:305-306: size of the send buffer. *)
Definition send_bufsize (kernel_mtu : Z) : Z := used_mtu kernel_mtu - 4 - 48.
(** babel_recv into a buffer of size [cur]: what is kept of a datagram of [n] bytes. *)
Definition received (cur n : Z) : Z := Z.min cur n.

(** ** Timers of the main loop *)
Record iftimers := mkIt { it_up : bool; it_buf : timeval; it_hello : timeval; it_update : timeval; it_flush : timeval }.
Record timers := mkT {
  t_nb : timeval;       (* check_neighbours_timeout *)
  t_if : timeval;       (* check_interfaces_timeout *)
  t_expiry : Z;         (* expiry_time *)
  t_srcexp : Z;         (* source_expiry_time *)
  t_interval : Z;       (* kernel_check_interval *)
  t_dump : Z;           (* kernel_dump_time *)
  t_resend : timeval;   (* resend_time *)
  t_ifs : list iftimers;
  t_nbufs : list timeval  (* buf.timeout of each neighbour *)
}.
(** babeld.c:602-609 *)
Definition wake_if (tv : timeval) (i : iftimers) : timeval :=
  if it_up i then timeval_min (timeval_min (timeval_min (timeval_min tv (it_buf i)) (it_hello i)) (it_update i)) (it_flush i)
  else tv.
(** babeld.c:595-612: the time until which the loop sleeps; [r1], [r2], [r3] are the
    values of random() in timeval_min_sec. *)
Definition wake (T : timers) (r1 r2 r3 : Z) : timeval :=
  let tv := timeval_min (t_nb T) (t_if T) in
  let tv := timeval_min_sec tv (t_expiry T) r1 in
  let tv := timeval_min_sec tv (t_srcexp T) r2 in
  let tv := if t_interval T >? 0 then timeval_min_sec tv (t_dump T) r3 else tv in
  let tv := timeval_min tv (t_resend T) in
  fold_left timeval_min (t_nbufs T) (fold_left wake_if (t_ifs T) tv).
(** babeld.c:614-637: the timeout given to select, [None] when the loop does not sleep. *)
Definition sleep_for (T : timers) (now : timeval) (r1 r2 r3 : Z) : option timeval :=
  let tv := wake T r1 r2 r3 in if timeval_compare tv now >? 0 then Some (timeval_minus tv now) else None.

(** babeld.c:708-781: the actions of one iteration, with the tests made on the timers [T]
    at time [now] (each test is made on the values of that moment). *)
Inductive action :=
| ADump | ACheckNeighbours | ACheckInterfaces | AExpireRoutes | AExpireSources
| AHello (i : nat) | AUpdate (i : nat) | AFlushUpdates (i : nat) | AResend | AFlushBuf (i : nat) | AFlushNbBuf (n : nat).
Definition due (T : timers) (now : timeval) (a : action) : bool :=
  let up i := match nth_error (t_ifs T) i with Some x => it_up x | None => false end in
  let at_if i f := match nth_error (t_ifs T) i with Some x => f x | None => mkTv 0 0 end in
  match a with
  | ADump => (t_interval T >? 0) && (tv_sec now >=? t_dump T)
  | ACheckNeighbours => timeval_compare (t_nb T) now <? 0
  | ACheckInterfaces => timeval_compare (t_if T) now <? 0
  | AExpireRoutes => tv_sec now >=? t_expiry T
  | AExpireSources => tv_sec now >=? t_srcexp T
  | AHello i => up i && (timeval_compare now (at_if i it_hello) >=? 0)
  | AUpdate i => up i && (timeval_compare now (at_if i it_update) >=? 0)
  | AFlushUpdates i => up i && (timeval_compare now (at_if i it_flush) >=? 0)
  | AResend => negb (tv_sec (t_resend T) =? 0) && (timeval_compare now (t_resend T) >=? 0)
  | AFlushBuf i => up i && negb (tv_sec (at_if i it_buf) =? 0) && (timeval_compare now (at_if i it_buf) >=? 0)
  | AFlushNbBuf n => match nth_error (t_nbufs T) n with
      | Some t => negb (tv_sec t =? 0) && (timeval_compare now t >=? 0)
      | None => false
      end
  end.

(** ** State file *)
(** sscanf(buf, "%d\n", &s) of glibc: white space, an optional sign, decimal digits; the
    value is read as a long, with saturation, and then converted to int. *)
Fixpoint scan_digits (s : list Z) (acc : Z) (any : bool) : option Z :=
  match s with
  | c :: s' => if isdigit_ c then scan_digits s' (acc * 10 + (c - 48)) true else if any then Some acc else None
  | [] => if any then Some acc else None
  end.
Definition scan_d (s : list Z) : option Z :=
  let int v := s32 (Z.max (- 2 ^ 63) (Z.min (2 ^ 63 - 1) v)) in
  let '(neg, s') := match skip_spaces s with
    | c :: s' => if c =? 45 then (true, s') else if c =? 43 then (false, s') else (false, c :: s')
    | [] => (false, [])
    end in
  match scan_digits s' 0 false with Some v => Some (int (if neg then - v else v)) | None => None end.
(** babeld.c:481-510: own sequence number at start, from the random one and the contents
    of the state file ([None] when it is absent or unreadable) and whether the file could
    be removed; second component: the file afterwards. *)
Definition state_seqno (rnd : Z) (file : option (list Z)) (unlink_ok : bool) : Z * option (list Z) :=
  let s0 := Z.land rnd 65535 in
  match file with
  | None => (s0, None)
  | Some buf =>
      if negb unlink_ok then (s0, file)
      else
        (match scan_d (firstn 99 buf) with
         | Some s => if (0 <=? s) && (s <=? 65535) then seqno_plus s 1 else s0
         | None => s0
         end, None)
  end.
(** babeld.c:818-838: the file after a clean shutdown; [wr] is what the system does: the
    file cannot be created, or the write fails, or succeeds (in full: a short write of at
    most six bytes to a regular file is not modelled). *)
Inductive wres := WNoCreate | WFails | WOk.
Definition save_state (seqno : Z) (file : option (list Z)) (wr : wres) : option (list Z) :=
  match wr with
  | WNoCreate => None
  | WFails => None
  | WOk => Some (dec seqno ++ [10])
  end.

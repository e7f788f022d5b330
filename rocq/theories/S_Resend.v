(** S_Resend.v: what is said about pending retransmissions. *)
From Verif Require Import Base M_Util S_Util M_Source M_Filter M_Types M_Neigh M_State M_Table M_Msg M_Daemon.

(** kind 1: a request, kind 2: an update *)
Definition pending (k : Z) (d : dest) (w : world) (r : resend) : Prop :=
  In r (w_rsd w) /\ rs_kind r = k /\ rs_dest r = d.

(** A request that was satisfied is kept until it is next looked at, marked by its time. *)
Definition satisfied (r : resend) : Prop := rs_kind r = 1 /\ tv_sec (rs_time r) = 0.

(** It has retransmissions left, and a request is not older than 65 seconds. *)
Definition alive (w : world) (r : resend) : bool :=
  (0 <? rs_max r) && (0 <? rs_delay r) &&
  (negb (rs_kind r =? 1) || (timeval_minus_msec (w_now w) (rs_time r) <? 65000)).
(** ... and the time of the next one has come. *)
Definition ripe (w : world) (r : resend) : bool :=
  alive w r && (us (rs_time r) + 1000 * rs_delay r <=? us (w_now w)).

(** The same recording of the same thing, later: some retransmissions were made,
    each doubling the delay up to 65535. *)
Definition later (r r' : resend) : Prop :=
  rs_kind r' = rs_kind r /\ rs_dest r' = rs_dest r /\ rs_seqno r' = rs_seqno r /\ rs_id r' = rs_id r /\
  rs_ifp r' = rs_ifp r /\ rs_time r' = rs_time r /\ 0 <= rs_max r' <= rs_max r /\
  rs_delay r' = Z.min 65535 (rs_delay r * 2 ^ (rs_max r - rs_max r')).

(** Counting, in an execution, the retransmissions and the recordings for a destination. *)
Definition same_key (k : Z) (d : dest) (r : resend) : bool :=
  (rs_kind r =? k) && beq (d_prefix (rs_dest r)) (d_prefix d) && (d_plen (rs_dest r) =? d_plen d) &&
  beq (d_src (rs_dest r)) (d_src d) && (d_splen (rs_dest r) =? d_splen d).
Definition tv_dec : forall a b : timeval, {a = b} + {a <> b}.
Proof. repeat decide equality. Defined.
Definition resend_dec : forall a b : resend, {a = b} + {a <> b}.
Proof. repeat decide equality. Defined.
Definition retransmits (k : Z) (d : dest) (ev : event) (w : world) : bool :=
  match ev with EvResend => existsb (fun r => same_key k d r && ripe w r) (w_rsd w) | _ => false end.
(** An entry of the moment, that was not there before *)
Definition records (k : Z) (d : dest) (w w' : world) : bool :=
  existsb (fun r => same_key k d r && (if tv_dec (rs_time r) (w_now w') then true else false) &&
                    (if in_dec resend_dec r (w_rsd w) then false else true)) (w_rsd w').
Fixpoint retransmissions (k : Z) (d : dest) (evs : list event) (w : world) : Z :=
  match evs with
  | [] => 0
  | ev :: evs' => (if retransmits k d ev w then 1 else 0) + retransmissions k d evs' (run1 ev w)
  end.
Fixpoint recordings (k : Z) (d : dest) (evs : list event) (w : world) : Z :=
  match evs with
  | [] => 0
  | ev :: evs' => (if records k d w (run1 ev w) then 1 else 0) + recordings k d evs' (run1 ev w)
  end.
(** Every event is possible when it comes. *)
Fixpoint allowed_run (evs : list event) (w : world) : Prop :=
  match evs with
  | [] => True
  | ev :: evs' => allowed ev w /\ allowed_run evs' (run1 ev w)
  end.
(** The clock shows at least 66 s, always. *)
Definition late_clock (w : world) : Prop := 66 <= tv_sec (w_now w).
Definition late_clocks (evs : list event) : Prop := forall t, In (EvClock t) evs -> 66 <= tv_sec t.

(** Executions of resend.c's functions, in any order, with a clock that does not go
    back and any other activity in between.  [fresh]: the recording is not of an older
    request than the pending one for the same router-id. *)
Definition fresh (k : Z) (d : dest) (q : Z) (id : option (list Z)) (w : world) : Prop :=
  forall r, pending k d w r -> id = Some (rs_id r) -> seqno_compare (rs_seqno r) q <= 0.
Inductive rexec : world -> Prop :=
| rx_start : forall w, w_rsd w = [] -> w_rsd_time w = mkTv 0 0 -> tv_ok (w_now w) -> late_clock w -> rexec w
| rx_record : forall w k d q id ifp delay, rexec w -> 0 <= delay -> fresh k d q id w -> rexec (record_resend k d q id ifp delay w)
| rx_satisfy : forall w d q id ifp, rexec w -> rexec (satisfy_request d q id ifp w)
| rx_expire : forall w, rexec w -> rexec (expire_resend w)
| rx_resend : forall w, rexec w -> rexec (do_resend w)
| rx_other : forall w w', rexec w -> w_rsd w' = w_rsd w -> w_rsd_time w' = w_rsd_time w ->
    tv_ok (w_now w') -> us (w_now w) <= us (w_now w') -> rexec w'.

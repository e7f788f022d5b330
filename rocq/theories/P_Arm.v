(** P_Arm.v: C67, updates that wait to be sent are sent in time. *)
From Verif Require Import Base M_Util S_Util L_Util M_Filter M_Types M_Neigh S_Neigh M_State M_Table M_Xroute M_Daemon S_Arm L_Arm X_Run M_Main S_Main L_Main P_Main.
Import M_Daemon.

(** In every state, as long as the clock does not go back, the updates that wait on an
    interface have a timer, at most 6.25 seconds away. *)
Theorem C67_timer : forall c w i, oreach c w -> In i (w_ifs w) -> if_pend i <> [] ->
  tv_sec (if_flush_timeout i) <> 0 /\ us (if_flush_timeout i) <= us (w_now w) + 6250000.
Proof.
  intros c w i R Hi N. destruct (oreach_arm c w R) as (_ & _ & H). destruct (H i Hi) as (_ & A). exact (A N).
Qed.
Print Assumptions C67_timer.

(** They fit in the array that holds them, which is never written beyond its end. *)
Theorem C67_room : forall c w i, oreach c w -> In i (w_ifs w) -> Z.of_nat (length (if_pend i)) <= if_bufsize i.
Proof. intros c w i R Hi. destruct (oreach_arm c w R) as (_ & _ & H). destruct (H i Hi) as ((_ & _ & L) & _). exact L. Qed.
Print Assumptions C67_room.

(** The main loop does not sleep past that timer, and once it is reached the updates are
    flushed: [T] are the timers that the loop looks at, among them those of the
    interface, at position [k]. *)
Theorem C67_flushed_in_time : forall c w i k T b h u r1 r2 r3, oreach c w -> In i (w_ifs w) -> if_pend i <> [] ->
  timers_ok T -> nth_error (t_ifs T) k = Some (mkIt true b h u (if_flush_timeout i)) -> 0 <= r1 -> 0 <= r2 -> 0 <= r3 ->
  (forall d, sleep_for T (w_now w) r1 r2 r3 = Some d ->
     us (w_now w) + us d <= us (if_flush_timeout i) /\ us d <= 6250000) /\
  (forall now, tv_ok now -> us (if_flush_timeout i) <= us now -> due T now (AFlushUpdates k) = true).
Proof.
  intros c w i k T b h u r1 r2 r3 R Hi N O K R1 R2 R3. destruct (C67_timer c w i R Hi N) as (A & B).
  destruct (oreach_arm c w R) as ((On & _) & _ & H). destruct (H i Hi) as ((V & _) & _). split.
  - intros d D. destruct (C51_wakes_in_time T (w_now w) r1 r2 r3 d O On R1 R2 R3 D) as (_ & _ & P & _).
    assert (Q : us (w_now w) + us d <= us (if_flush_timeout i)); [|lia].
    apply P. eapply pa_iface; [eapply nth_error_In; exact K|reflexivity|]. right. right. right. split; auto.
  - intros now V' L. unfold due. rewrite K. cbn [it_up it_flush andb]. rewrite cmp_ge by assumption. lia.
Qed.
Print Assumptions C67_flushed_in_time.

(** An execution: two neighbours, routes learnt, a redistributed route. *)
Definition arm_boot : world := boot x_conf (mkTv 1000 0) [set_if_bufsize 0 (x_if 1); set_if_bufsize 0 (x_if 2)] 17.
Definition orderlyb (ev : event) (w : world) : bool :=
  match ev with
  | EvClock t => us (w_now w) <=? us t
  | EvInterface _ | EvNewInterface _ => false
  | _ => true
  end.
Lemma orderlyb_ok ev w : orderlyb ev w = true -> orderly ev w.
Proof. destruct ev; cbn [orderlyb orderly]; intros H; auto; try discriminate H. lia. Qed.
Fixpoint orderly_runb (evs : list event) (w : world) : bool :=
  match evs with
  | [] => true
  | ev :: evs' => allowedb ev w && orderlyb ev w && orderly_runb evs' (run1 ev w)
  end.
Lemma oreach_list c evs : forall w, oreach c w -> orderly_runb evs w = true -> oreach c (run evs w).
Proof.
  induction evs as [|ev evs IH]; intros w R A; auto. cbn [orderly_runb] in A. apply andb_prop in A. destruct A as (A & B).
  apply andb_prop in A. destruct A as (A & C). apply (IH (run1 ev w)); auto. apply oreach_run; auto; [apply allowedb_ok|apply orderlyb_ok]; auto.
Qed.
Definition arm_w : world := run (x_up ++ [EvUpdate (Some (x_id 7)) (xd 1) 40 300 1600 1 (x_nh 51); EvClock (mkTv 1001 20000); EvKernel true (mkKr (xd 9) 0 3 4)]) arm_boot.
Lemma arm_reach : oreach x_conf arm_w.
Proof.
  apply oreach_list; [|vm_compute; reflexivity]. apply oreach_boot.
  - repeat constructor; simpl; lia.
  - repeat constructor; simpl; lia.
  - unfold tv_ok; simpl; lia.
  - lia.
  - simpl; lia.
  - repeat constructor.
  - repeat constructor; simpl; lia.
Qed.
(** Two updates wait on each interface, in an array of 12 entries. *)
Example C67_ex : oreach x_conf arm_w /\ map (fun i => (length (if_pend i), if_bufsize i, if_flush_timeout i)) (w_ifs arm_w) =
  [(2%nat, 12, mkTv 1001 56000); (2%nat, 12, mkTv 1001 56000)].
Proof. split; [exact arm_reach|]. vm_compute. reflexivity. Qed.
(** The timers of that state: the loop sleeps until the first of them. *)
Example C67_ex_sleep :
  let T := mkT (mkTv 1030 0) (mkTv 1030 0) 1030 1300 30 1030 (mkTv 0 0)
    (map (fun i => mkIt true (mkTv 0 0) (mkTv 1004 0) (mkTv 1016 0) (if_flush_timeout i)) (w_ifs arm_w)) [] in
  timers_ok T /\ sleep_for T (w_now arm_w) 1 2 3 = Some (mkTv 0 36000) /\ due T (mkTv 1001 56000) (AFlushUpdates 1) = true.
Proof.
  assert (E : map (fun i => mkIt true (mkTv 0 0) (mkTv 1004 0) (mkTv 1016 0) (if_flush_timeout i)) (w_ifs arm_w) =
    [mkIt true (mkTv 0 0) (mkTv 1004 0) (mkTv 1016 0) (mkTv 1001 56000); mkIt true (mkTv 0 0) (mkTv 1004 0) (mkTv 1016 0) (mkTv 1001 56000)])
    by (vm_compute; reflexivity).
  rewrite E. cbv zeta. split; [|split; vm_compute; reflexivity].
  unfold timers_ok, tv_ok. cbn. split; [lia|]. split; [lia|]. split; [lia|].
  split; [intros i [<-|[<-|[]]]; cbn; lia|]. split; [intros t []|]. lia.
Qed.

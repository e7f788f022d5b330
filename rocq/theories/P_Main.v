(** P_Main.v: the main loop, the clock, the receive buffer, restarts. *)
From Verif Require Import Base M_Util S_Util L_Util M_Filter M_Source M_Types M_Neigh M_State M_Table M_Msg M_Route M_Daemon M_Main S_Main L_Main L_Seqno L_Seqno2 X_Run.

(** ** C51: the time to sleep *)
Theorem C51_wakes_in_time : forall T now r1 r2 r3 d, timers_ok T -> tv_ok now -> 0 <= r1 -> 0 <= r2 -> 0 <= r3 ->
  sleep_for T now r1 r2 r3 = Some d ->
  tv_ok d /\ 0 < us d /\
  (forall u, pending_at T u -> us now + us d <= u) /\
  (forall s, pending_sec T s -> us now + us d < (s + 1) * 1000000).
Proof.
  intros T now r1 r2 r3 d O On R1 R2 R3 H. destruct (wake_spec T r1 r2 r3 O R1 R2 R3) as (A & B & C & D).
  unfold sleep_for in H. cbv zeta in H. rewrite cmp_pos in H by assumption.
  destruct (us now <? us (wake T r1 r2 r3)) eqn:E; [|discriminate H]. injection H as <-.
  destruct (timeval_minus_us _ _ A On) as (M & N).
  split; [exact M|]. rewrite N. split; [lia|]. split.
  - intros u U. specialize (C u U). lia.
  - intros s P. specialize (D s P). unfold us, tv_ok in *. lia.
Qed.
Print Assumptions C51_wakes_in_time.

(** When the loop does not sleep something is to be done, except in the very microsecond
    for which a check of the neighbours or of the interfaces is set. *)
Theorem C51_no_spinning : forall T now r1 r2 r3, timers_ok T -> tv_ok now -> 0 <= r1 -> 0 <= r2 -> 0 <= r3 ->
  sleep_for T now r1 r2 r3 = None ->
  (exists a, due T now a = true) \/ us (t_nb T) = us now \/ us (t_if T) = us now.
Proof.
  intros T now r1 r2 r3 O On R1 R2 R3 H. destruct (wake_spec T r1 r2 r3 O R1 R2 R3) as (A & _).
  apply (awake_due T now r1 r2 r3); auto. unfold sleep_for in H. cbv zeta in H. rewrite cmp_pos in H by assumption.
  destruct (us now <? us (wake T r1 r2 r3)) eqn:E; [discriminate H|]. lia.
Qed.
Print Assumptions C51_no_spinning.
(** The exception is real. *)
Definition m_spin : timers := mkT (mkTv 100 0) (mkTv 200 0) 300 300 30 300 (mkTv 0 0) [] [].
Theorem C51_spinning_refuted : exists T now r1 r2 r3, timers_ok T /\ tv_ok now /\ 0 <= r1 /\ 0 <= r2 /\ 0 <= r3 /\
  sleep_for T now r1 r2 r3 = None /\ forall a, due T now a = false.
Proof.
  exists m_spin, (mkTv 100 0), 0, 0, 0. split.
  { unfold timers_ok, tv_ok, m_spin. cbn. split; [lia|]. split; [lia|]. split; [lia|]. split; [intros i []|]. split; [intros t []|]. lia. }
  split; [unfold tv_ok; cbn; lia|]. split; [lia|]. split; [lia|]. split; [lia|]. split; [vm_compute; reflexivity|].
  intros a. destruct a as [ | | | | |i|i|i| |i|n]; try (vm_compute; reflexivity); cbn; try (destruct i; reflexivity); destruct n; reflexivity.
Qed.
Print Assumptions C51_spinning_refuted.

Definition m_T : timers := mkT (mkTv 105 0) (mkTv 130 0) 110 120 30 107 (mkTv 103 500000)
  [mkIt true (mkTv 0 0) (mkTv 104 1) (mkTv 140 0) (mkTv 102 700000); mkIt false (mkTv 1 0) (mkTv 1 0) (mkTv 1 0) (mkTv 1 0)] [mkTv 0 0; mkTv 102 600000].
Example C51_ex : sleep_for m_T (mkTv 100 200000) 5 6 7 = Some (mkTv 2 400000) /\
  sleep_for m_T (mkTv 102 600000) 5 6 7 = None /\ due m_T (mkTv 102 600000) (AFlushNbBuf 1) = true.
Proof. split; [|split]; vm_compute; reflexivity. Qed.
Example C51_ex_ok : timers_ok m_T.
Proof.
  unfold timers_ok, tv_ok, m_T. cbn. split; [lia|]. split; [lia|]. split; [lia|].
  split; [intros i [<-|[<-|[]]]; cbn; lia|]. split; [intros t [<-|[<-|[]]]; cbn; lia|]. lia.
Qed.

(** ** C56: the clock without a monotonic source *)
Theorem C56_seconds_never_decrease : forall l off prev,
  ForallOrdPairs (fun a b => tv_sec a <= tv_sec b) (gettimes (off, prev) l).
Proof. exact gettimes_mono. Qed.
Print Assumptions C56_seconds_never_decrease.
(** While the system clock does not go back the readings advance with it. *)
Theorem C56_advances : forall l off prev a b, tv_sec a <= tv_sec b ->
  exists ts t t', gettimes (off, prev) (l ++ [Some a; Some b]) = ts ++ [t; t'] /\
    tv_sec t' - tv_sec t = tv_sec b - tv_sec a /\ tv_usec t = tv_usec a /\ tv_usec t' = tv_usec b.
Proof.
  intros l off prev a b H. destruct (gettimes_app l [Some a; Some b] (off, prev)) as ([o p] & E). rewrite E.
  cbn [gettimes]. destruct (gettime1 (o, p) (Some a)) as [st1 x] eqn:E1.
  assert (exists t, x = Some t) as (t & ->) by (unfold gettime1 in E1; destruct (p >? tv_sec a + o); inversion E1; eauto).
  destruct (gettime1 st1 (Some b)) as [st2 y] eqn:E2.
  assert (exists t', y = Some t') as (t' & ->) by (unfold gettime1 in E2; destruct st1; destruct (_ >? _); inversion E2; eauto).
  exists (gettimes (off, prev) l), t, t'. split; [reflexivity|]. exact (gettime_step _ _ _ _ _ _ _ _ E1 E2 H).
Qed.
Print Assumptions C56_advances.
(** Below the second the clock may go back. *)
Theorem C56_microseconds_refuted : exists l t t', gettimes (0, 0) l = [t; t'] /\ us t' < us t.
Proof. exists [Some (mkTv 100 900000); Some (mkTv 50 100000)], (mkTv 100 900000), (mkTv 100 100000). split; reflexivity. Qed.
Print Assumptions C56_microseconds_refuted.
Example C56_ex : gettimes (0, 0) [Some (mkTv 100 5); None; Some (mkTv 40 6); Some (mkTv 43 7); Some (mkTv 500 8); Some (mkTv 2 9)] =
  [mkTv 100 5; mkTv 100 6; mkTv 103 7; mkTv 560 8; mkTv 560 9].
Proof. reflexivity. Qed.

(** ** C58: the receive buffer *)
Theorem C58_grows_and_fits : forall before after cur m, In (m, true) before ->
  used_mtu m <= up_all before cur /\ up_all before cur <= up_all (before ++ after) cur.
Proof.
  intros before after cur m H. split; [apply up_all_fits; exact H|].
  unfold up_all. rewrite fold_left_app. apply up_all_grows.
Qed.
Print Assumptions C58_grows_and_fits.
Theorem C58_not_truncated : forall l cur m n, In (m, true) l -> 0 <= n <= m ->
  received (up_all l cur) n = n.
Proof.
  intros l cur m n H N. pose proof (up_all_fits l cur m H) as U. unfold received.
  unfold used_mtu in U. replace (m <? 0) with false in U by lia. destruct (m <? 512) eqn:E; lia.
Qed.
Print Assumptions C58_not_truncated.
(** Without the memory for it the buffer stays as it was. *)
Theorem C58_no_memory_refuted : exists l cur m n, In (m, false) l /\ 0 <= n <= m /\ received (up_all l cur) n < n.
Proof.
  exists [(1500, true); (9000, false)], 0, 9000, 2000. split; [cbn; auto|]. split; [lia|]. vm_compute. reflexivity.
Qed.
Print Assumptions C58_no_memory_refuted.
Example C58_ex : map (fun l => up_all l 0) [[(1500, true)]; [(1500, true); (9000, true)]; [(1500, true); (9000, true); (100, true)]; [(-1, true)]] =
  [1500; 9000; 9000; 1280].
Proof. reflexivity. Qed.

(** ** C50: the sequence number over restarts *)
Lemma one_life : forall c now ifs s evs, seqno_ok s ->
  exists k, 0 <= k <= asked_in c evs /\ let w := run evs (boot c now ifs s) in
    w_seqno w = seqno_plus s k /\
    forall b t q, In (b, t) (w_out w) -> announces (c_myid c) t q -> exists j, 0 <= j <= k /\ q = seqno_plus s j.
Proof.
  intros c now ifs s evs Hs.
  assert (N : noown (boot c now ifs s)) by (intros r []).
  destruct (run_own evs _ N) as (k & K & S1 & C & l & O & F). cbn [w_cfg w_seqno w_out boot app] in *.
  exists k. split; [exact K|]. cbv zeta. split.
  - destruct S1 as [(-> & ->)|E]; [symmetry; apply plus_0; exact Hs|exact E].
  - intros b t q Ht Ha. rewrite O in Ht. rewrite Forall_forall in F. destruct (F _ Ht) as (j & J & A).
    assert (A' : numbered (c_myid c) (seqno_plus s j) (b, t)) by (destruct A as [(-> & A)|A]; [rewrite plus_0 by exact Hs|]; exact A).
    exists j. split; [exact J|]. unfold numbered in A'. cbn [snd] in A'. destruct Ha as [(d & m & iv & ->)| ->]; auto.
Qed.
Lemma reread : forall rnd s, seqno_ok s -> fst (state_seqno rnd (save_state s None WOk) true) = seqno_plus s 1.
Proof.
  intros rnd s H. unfold seqno_ok in H. unfold state_seqno, save_state. cbn [negb]. rewrite scan_dec by lia. cbn [fst].
  replace ((0 <=? s) && (s <=? 65535)) with true by lia. reflexivity.
Qed.
Lemma history_spec : forall c l s, seqno_ok s ->
  exists k, 0 <= k <= renewals c l /\ snd (history c s l) = seqno_plus s k /\
    forall b t q, In (b, t) (fst (history c s l)) -> announces (c_myid c) t q -> exists j, 0 <= j < k /\ q = seqno_plus s j.
Proof.
  intros c. induction l as [|x l IH]; intros s Hs.
  - exists 0. cbn. split; [lia|]. split; [symmetry; apply plus_0; exact Hs|]. intros b t q [].
  - destruct (one_life c (lf_now x) (lf_ifs x) s (lf_evs x) Hs) as (k & K & S1 & A). cbv zeta in *.
    cbn [history renewals fold_right]. fold (renewals c l). cbv zeta.
    set (w := run (lf_evs x) (boot c (lf_now x) (lf_ifs x) s)) in *. rewrite reread by (rewrite S1; apply seqno_plus_ok).
    destruct (IH (seqno_plus (w_seqno w) 1) (seqno_plus_ok _ _)) as (k' & K' & S2 & A').
    destruct (history c (seqno_plus (w_seqno w) 1) l) as [o n]. cbn [fst snd] in *.
    assert (P : forall j, seqno_plus (seqno_plus (seqno_plus s k) 1) j = seqno_plus s (k + 1 + j)).
    { intros j. rewrite !seqno_plus_mod, Zplus_mod_idemp_l, <- Z.add_assoc, Zplus_mod_idemp_l. f_equal. lia. }
    exists (k + 1 + k'). split; [lia|]. split; [rewrite S2, S1; apply P|].
    intros b t q Ht Ha. apply in_app_iff in Ht. destruct Ht as [Ht|Ht].
    + destruct (A b t q Ht Ha) as (j & J & ->). exists j. split; [lia|reflexivity].
    + destruct (A' b t q Ht Ha) as (j & J & ->). exists (k + 1 + j). split; [lia|]. rewrite S1. apply P.
Qed.
(** However many times the daemon is restarted, it starts with a number newer than any it
    announced, as long as fewer than half of the numbers were used. *)
Theorem C50_restart_newer : forall c l s, seqno_ok s -> renewals c l <= 32767 ->
  forall b t q, In (b, t) (fst (history c s l)) -> announces (c_myid c) t q ->
  seqno_compare (snd (history c s l)) q = 1.
Proof.
  intros c l s Hs R b t q Ht Ha. destruct (history_spec c l s Hs) as (k & K & -> & A).
  destruct (A b t q Ht Ha) as (j & J & ->).
  replace (seqno_plus s k) with (seqno_plus (seqno_plus s j) (k - j)).
  - apply seqno_newer_after_increment; [apply seqno_plus_ok|lia].
  - rewrite !seqno_plus_mod, Zplus_mod_idemp_l. f_equal. lia.
Qed.
Print Assumptions C50_restart_newer.

(** The file is consumed: either the number in it is not used, or the file is gone before
    the daemon announces anything. *)
Theorem C50_consumed_once : forall rnd file ok,
  (ok = true -> snd (state_seqno rnd file ok) = None) /\
  (ok = false -> forall file', fst (state_seqno rnd file ok) = fst (state_seqno rnd file' ok)).
Proof.
  intros rnd file ok. split; intros ->; unfold state_seqno; destruct file; cbn [negb]; auto; intros [f|]; reflexivity.
Qed.
Print Assumptions C50_consumed_once.
(** What is in the file has no effect unless it is a number of 16 bits. *)
Theorem C50_garbage : forall rnd file ok, (forall s, 0 <= s <= 65535 -> scan_d (firstn 99 file) <> Some s) ->
  fst (state_seqno rnd (Some file) ok) = Z.land rnd 65535.
Proof.
  intros rnd file ok H. unfold state_seqno. destruct ok; cbn [negb fst]; [|reflexivity].
  destruct (scan_d (firstn 99 file)) as [s|] eqn:E; [|reflexivity].
  destruct ((0 <=? s) && (s <=? 65535)) eqn:R; [|reflexivity]. destruct (H s); [lia|reflexivity].
Qed.
Print Assumptions C50_garbage.
(** When the file cannot be removed, or is lost by a start that fails after reading it,
    the next number may be older than one announced. *)
Theorem C50_unremovable_refuted : exists c l s b t q rnd rnd', seqno_ok s /\ renewals c l <= 32767 /\
  In (b, t) (fst (history c s l)) /\ announces (c_myid c) t q /\
  (let n := snd (history c s l) in let file := save_state n None WOk in
   seqno_compare (fst (state_seqno rnd file false)) q = -1 /\
   seqno_compare (fst (state_seqno rnd' (snd (state_seqno rnd file true)) true)) q = -1).
Proof.
  exists x_conf, [mkLife (mkTv 1000 0) [x_if 1] [EvWildRetraction 1] 5], 17, (BIf 1), (TWildRetract 17), 17, 3, 3.
  split; [unfold seqno_ok; lia|]. split; [vm_compute; discriminate|]. split; [vm_compute; auto|]. split; [right; reflexivity|].
  vm_compute. auto.
Qed.
Print Assumptions C50_unremovable_refuted.

Definition m_lives : list life :=
  [mkLife (mkTv 1000 0) [x_if 1] [EvSeqno; EvWildRetraction 1] 5; mkLife (mkTv 2000 0) [x_if 1] [EvWildRetraction 1] 9].
Example C50_ex : renewals x_conf m_lives = 3 /\
  history x_conf 65534 m_lives = ([(BIf 1, TWildRetract 65535); (BIf 1, TWildRetract 0)], 1).
Proof. split; vm_compute; reflexivity. Qed.
Example C50_ex_file : save_state 4242 None WOk = Some [52;50;52;50;10] /\ state_seqno 7 (Some [52;50;52;50;10]) true = (4243, None) /\
  state_seqno 7 (Some [45;49;10]) true = (7, None) /\ state_seqno 7 (Some []) true = (7, None).
Proof. split; [|split; [|split]]; vm_compute; reflexivity. Qed.

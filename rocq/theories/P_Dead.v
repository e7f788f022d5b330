(** P_Dead.v: C84, a neighbour that falls silent is noticed and forgotten in bounded time. *)
From Verif Require Import Base M_Util S_Util L_Util M_Filter M_Source M_Types M_Neigh S_Neigh L_Neigh M_State M_Table M_Msg M_Route M_Xroute S_World M_Daemon
  L_Table L_Step L_Update2 L_Daemon L_Inv L_Nbs L_Packet3 X_Run M_Check S_Dead L_Dead L_Dead2.
Import M_Daemon.

(** After the Hello *)
Lemma last_hello : forall c w nb tn q I r L, c_half_life c <> 2 -> reach c w -> In nb (w_nbs w) ->
  tv_ok tn -> 0 <= tv_sec tn -> 1 <= tv_sec (w_now w) -> seqno_ok q -> 1 <= I < 65536 -> 0 <= r -> 0 <= L ->
  let h1 := fst (update_hist (w_now w) (n_hello nb) q I) in
  hist_ok h1 /\ h_interval h1 = I /\ h_time h1 = w_now w /\ reach c (run1 (EvHello (n_id nb) false q I) w) /\
  dinv (n_addr nb) (n_if nb) (us (w_now w)) I L h1 (n_uhello nb) (trun1 (EvHello (n_id nb) false q I, r) (w, tn)).
Proof.
  intros c w nb tn q I r L Hl R Hn Tt St Sn Hq HI Hr HL h1.
  pose proof (reach_rng c w Hl R) as G. destruct (reach_W c w Hl R) as (Hw & _). pose proof (rg_now _ G) as Nw.
  destruct (rg_nbs _ G nb Hn) as (Hh & _).
  assert (Ok : hist_ok h1) by (apply update_hist_ok; auto; lia).
  assert (Fh : h_interval h1 = I /\ h_time h1 = w_now w).
  { unfold h1, update_hist. destruct (q <? 0) eqn:Eq; [unfold seqno_ok in Hq; lia|]. replace (I =? 0) with false by lia. cbn [negb].
    destruct (if (h_seqno (n_hello nb) >=? 0) && (h_reach (n_hello nb) >? 0) then _ else _) as [[r1 m1] c1].
    destruct (if m1 >? 0 then _ else _) as [r2 c2]. cbn. auto. }
  destruct Fh as (Fi & Ft). split; [exact Ok|]. split; [exact Fi|]. split; [exact Ft|].
  assert (A : allowed (EvHello (n_id nb) false q I) w).
  { split; [apply (in_map n_id), Hn|]. split; [exact Hq|]. unfold u16_ok. lia. }
  split; [apply reach_run; auto|].
  unfold trun1, dinv. cbn [fst snd check_at]. replace (I >? 0) with true by lia.
  destruct (schedule_ok (w_now w) tn (I * 15) r false Nw Sn Tt ltac:(auto) ltac:(lia) Hr) as (S1 & S2 & S3 & _).
  assert (En : w_now (run1 (EvHello (n_id nb) false q I) w) = w_now w).
  { destruct (L_Resend3.run1_now w _ Hw A) as [E|(t & E)]; [exact E|discriminate]. }
  rewrite En. split; [exact S1|]. split; [exact S2|]. split; [lia|]. exists (w_now w). split; [exact Nw|]. split; [lia|].
  intros x' Hx K. split; [|lia]. cbn [run1] in Hx. unfold recv_hello, on_nb in Hx.
  assert (Gn : get_nb (n_id nb) w = Some nb).
  { unfold get_nb. destruct (find (fun x => n_id x =? n_id nb) (w_nbs w)) as [y|] eqn:F.
    - apply find_some in F. destruct F as (F1 & F2). f_equal. eapply NoDup_map_inj; [apply (W_nbs _ _ Hw)|auto|auto|lia].
    - exfalso. pose proof (find_none _ _ F nb Hn) as X. cbv beta in X. lia. }
  rewrite Gn in Hx. cbv iota in Hx. rewrite (surjective_pairing (update_hist (w_now w) (n_hello nb) q I)) in Hx. fold h1 in Hx.
  rewrite nk_unm in Hx. apply in_map_nb in Hx. destruct Hx as (x & Hx & [(E & ->)|(E & ->)]).
  - exists [], []. split; [constructor|]. split; [constructor|]. left. auto.
  - exfalso. apply E. destruct K as (K1 & K2). rewrite (nb_unique c Hl w R x nb Hx Hn K1 K2). reflexivity.
Qed.

(** The last Hello of a neighbour, announcing interval [I] (in hundredths of a second),
    is received at time [T]; then anything happens but a Hello from that neighbour (or any
    packet from it once it is forgotten), the main loop being late for a check of neighbours by at most [L] microseconds.
    18.575 intervals (and a millisecond) later the neighbour is forgotten ... *)
Theorem C84_forgotten : forall c w nb tn q I r L es,
  c_half_life c <> 2 -> reach c w -> In nb (w_nbs w) ->
  tv_ok tn -> 0 <= tv_sec tn -> 1 <= tv_sec (w_now w) -> seqno_ok q -> 1 <= I < 65536 -> 0 <= r -> 0 <= L ->
  let s := trun1 (EvHello (n_id nb) false q I, r) (w, tn) in
  silence L (n_addr nb) (n_if nb) es s ->
  let w' := fst (trun es s) in
  us (w_now w') > us (w_now w) + 185750 * I + 1000 + L ->
  (forall x, In x (w_nbs w') -> ~ is_nb (n_addr nb) (n_if nb) x) /\
  (** ... and no route through it is left: the neighbour of every route is another. *)
  (forall rt, In rt (all_routes w') -> exists x, In x (w_nbs w') /\ n_id x = r_neigh rt /\ ~ is_nb (n_addr nb) (n_if nb) x).
Proof.
  intros c w nb tn q I r L es Hl R Hn Tt St Sn Hq HI Hr HL s S w' Late.
  destruct (last_hello c w nb tn q I r L Hl R Hn Tt St Sn Hq HI Hr HL) as (Ok & Fi & Ft & R1 & D). fold s in D.
  pose proof (reach_rng c w Hl R) as G. destruct (rg_nbs _ G nb Hn) as (_ & Hu & _). pose proof (rg_now _ G) as Nw.
  set (h1 := fst (update_hist (w_now w) (n_hello nb) q I)) in *.
  assert (HT : 1000000 <= us (w_now w)) by (clear - Nw Sn; unfold tv_ok, us in *; lia).
  assert (Ft' : us (h_time h1) = us (w_now w)) by (rewrite Ft; reflexivity).
  destruct (dinv_run c Hl _ _ _ I L h1 (n_uhello nb) HI HL HT Ok Fi es s R1 S D) as (D1 & R2).
  assert (X : forall x, In x (w_nbs w') -> ~ is_nb (n_addr nb) (n_if nb) x).
  { intros x Hx K. destruct (dinv_late _ _ _ I L h1 (n_uhello nb) HI HL HT Ok Fi Ft' Hu _ 16 D1 ltac:(lia) ltac:(fold w'; lia) x Hx K) as (E1 & E2 & _).
    apply E1. apply Z.bits_inj'; intros j Hj; rewrite Z.bits_0;
    (destruct (Z_lt_dec j 16) as [J|J]; [specialize (E2 (15 - j) ltac:(lia)); unfold slot_heard in E2; replace (15 - (15 - j)) with j in E2 by lia; exact E2|]);
    apply tb_high; try lia; apply (rg_nbs _ (reach_rng c _ Hl R2) x Hx). }
  split; [exact X|]. intros rt Hrt. pose proof (W_nb _ _ (proj1 (reach_W c _ Hl R2)) rt Hrt) as M. apply in_map_iff in M.
  destruct M as (x & E & Hx). exists x. split; [exact Hx|]. split; [exact E|]. apply X, Hx.
Qed.
Print Assumptions C84_forgotten.

(** ... long before that, the link is given up: after 4.575 intervals on a wired
    interface, after 14.575 on any, its cost of reception is infinite (provided the
    unicast Hellos of the neighbour, if any, were at least as frequent). *)
Theorem C84_link_lost : forall c w nb tn q I r L es,
  c_half_life c <> 2 -> reach c w -> In nb (w_nbs w) ->
  tv_ok tn -> 0 <= tv_sec tn -> 1 <= tv_sec (w_now w) -> seqno_ok q -> 1 <= I < 65536 -> 0 <= r -> 0 <= L ->
  h_interval (n_uhello nb) <= I -> us (h_time (n_uhello nb)) <= us (w_now w) ->
  let s := trun1 (EvHello (n_id nb) false q I, r) (w, tn) in
  silence L (n_addr nb) (n_if nb) es s ->
  let w' := fst (trun es s) in
  forall x i, In x (w_nbs w') -> is_nb (n_addr nb) (n_if nb) x -> iface_ok i ->
  (us (w_now w') > us (w_now w) + 45750 * I + 1000 + L /\ flag i IF_LQ = false) \/
  us (w_now w') > us (w_now w) + 145750 * I + 1000 + L ->
  neighbour_rxcost (w_now w') i x = INFINITY /\ neighbour_cost (w_now w') i x = INFINITY.
Proof.
  intros c w nb tn q I r L es Hl R Hn Tt St Sn Hq HI Hr HL Iu Tu s S w' x i Hx K Hi Late.
  destruct (last_hello c w nb tn q I r L Hl R Hn Tt St Sn Hq HI Hr HL) as (Ok & Fi & Ft & R1 & D). fold s in D.
  pose proof (reach_rng c w Hl R) as G. destruct (rg_nbs _ G nb Hn) as (_ & Hu & _). pose proof (rg_now _ G) as Nw.
  set (h1 := fst (update_hist (w_now w) (n_hello nb) q I)) in *.
  assert (HT : 1000000 <= us (w_now w)) by (clear - Nw Sn; unfold tv_ok, us in *; lia).
  assert (Ft' : us (h_time h1) = us (w_now w)) by (rewrite Ft; reflexivity).
  destruct (dinv_run c Hl _ _ _ I L h1 (n_uhello nb) HI HL HT Ok Fi es s R1 S D) as (D1 & R2).
  pose proof (rg_nbs _ (reach_rng c _ Hl R2) x Hx) as Nx.
  assert (Q : neighbour_rxcost (w_now w') i x = INFINITY).
  { destruct Late as [(Late & Wired)|Late].
    - destruct (dinv_late _ _ _ I L h1 (n_uhello nb) HI HL HT Ok Fi Ft' Hu _ 2 D1 ltac:(lia) ltac:(fold w'; lia) x Hx K) as (_ & E2 & E3). specialize (E3 Iu Tu).
      destruct (rxcost_wired (w_now w') i x Hi Nx Wired) as [(E & _)|(_ & _ & [F|F])]; [exact E| |]; exfalso.
      + pose proof (E2 0 ltac:(lia)). pose proof (E2 1 ltac:(lia)). unfold heard_two_of_three in F. destruct F as [(? & ?)|[(? & ?)|(? & ?)]]; congruence.
      + pose proof (E3 0 ltac:(lia)). pose proof (E3 1 ltac:(lia)). unfold heard_two_of_three in F. destruct F as [(? & ?)|[(? & ?)|(? & ?)]]; congruence.
    - destruct (dinv_late _ _ _ I L h1 (n_uhello nb) HI HL HT Ok Fi Ft' Hu _ 12 D1 ltac:(lia) ltac:(fold w'; lia) x Hx K) as (_ & E2 & E3). specialize (E3 Iu Tu).
      apply rxcost_dead; [exact Nx|left; exact E2|left; exact E3]. }
  split; [exact Q|]. unfold neighbour_cost. rewrite Q. destruct (negb (if_up i)); [reflexivity|]. destruct (n_txcost x >=? INFINITY); reflexivity.
Qed.
Print Assumptions C84_link_lost.

(** The hypotheses can be met.  Neighbour 2 of the run of X_Run.v, through which a route is
    selected, sends its last Hello (interval 4 s); the main loop makes each check a
    millisecond late.  64 s later the neighbour is still known, though its link has long had
    an infinite cost; later it is gone, and its routes with it. *)
Fixpoint drive (n : nat) (s : world * timeval) : list (event * Z) :=
  match n with
  | O => []
  | S n => let e1 := (EvClock (timeval_add_msec (snd s) 1), 0) in let e2 := (EvCheckNeighbours, 7) in
           e1 :: e2 :: drive n (trun1 e2 (trun1 e1 s))
  end.
Definition tv_okb (t : timeval) : bool := (0 <=? tv_usec t) && (tv_usec t <? 1000000).
Fixpoint driveb (L : Z) (n : nat) (s : world * timeval) : bool :=
  match n with
  | O => true
  | S n => let t := timeval_add_msec (snd s) 1 in
           let e1 := (EvClock t, 0) in let e2 := (EvCheckNeighbours, 7) in
           tv_okb t && (us (w_now (fst s)) <=? us t) && (us t <=? us (snd s) + L) && driveb L n (trun1 e2 (trun1 e1 s))
  end.
Lemma drive_silence L a i n : forall s, driveb L n s = true -> silence L a i (drive n s) s.
Proof.
  induction n as [|n IH]; intros s H; cbn [drive driveb silence] in *; [exact Logic.I|].
  apply andb_prop in H. destruct H as (H & H4). apply andb_prop in H. destruct H as (H & H3). apply andb_prop in H. destruct H as (H1 & H2).
  unfold tv_okb in H1. cbn [fst snd]. split; [apply andb_prop in H1; cbn; unfold tv_ok; lia|]. split; [lia|]. split; [cbn; lia|]. split; [exact Logic.I|].
  cbn [silence fst snd]. split; [exact Logic.I|]. split; [lia|]. split; [exact Logic.I|]. split; [exact Logic.I|]. apply IH, H4.
Qed.
Definition d_s0 : world * timeval := trun1 (EvHello 2 false 202 400, 3) (x_w, mkTv 1031 0).
Definition d_at (n : nat) : world := fst (trun (drive n d_s0) d_s0).
Definition d_nb : neigh := match get_nb 2 x_w with Some x => x | None => new_neigh tv0 0 [] 0 end.
Lemma get_nb_in n w x : get_nb n w = Some x -> In x (w_nbs w).
Proof. intros G. apply find_some in G. apply G. Qed.
Example C84_example :
  (reach x_conf x_w /\ In d_nb (w_nbs x_w) /\ n_id d_nb = 2 /\ 1 <= tv_sec (w_now x_w) /\
  h_interval (n_uhello d_nb) <= 400 /\ us (h_time (n_uhello d_nb)) <= us (w_now x_w) /\
  forall n, driveb 1000 n d_s0 = true -> silence 1000 (n_addr d_nb) (n_if d_nb) (drive n d_s0) d_s0) /\
  driveb 1000 17 d_s0 = true /\
  us (w_now (d_at 17)) > us (w_now x_w) + 185750 * 400 + 1000 + 1000 /\
  (** at the beginning, and a second later *)
  map (fun x => neighbour_rxcost (w_now (d_at 0)) (x_if 2) x) (filter (fun x => n_id x =? 2) (w_nbs (d_at 0))) = [96] /\
  existsb (fun r => r_installed r && (r_neigh r =? 2)) (all_routes (d_at 1)) = true /\
  (** 23.5 s later *)
  us (w_now (d_at 6)) > us (w_now x_w) + 45750 * 400 + 1000 + 1000 /\
  map (fun x => neighbour_rxcost (w_now (d_at 6)) (x_if 2) x) (filter (fun x => n_id x =? 2) (w_nbs (d_at 6))) = [65535] /\
  (** 64 s later, and at the end *)
  existsb (fun x => n_id x =? 2) (w_nbs (d_at 15)) = true /\
  w_nbs (d_at 17) = [] /\ all_routes (d_at 17) = [].
Proof.
  split.
  - split; [exact x_reach|]. split.
    { apply (get_nb_in 2). vm_compute. reflexivity. }
    split; [vm_compute; reflexivity|]. split; [vm_compute; discriminate|]. split; [vm_compute; discriminate|]. split; [vm_compute; discriminate|].
    intros n. apply drive_silence.
  - do 8 (split; [vm_compute; reflexivity|]). vm_compute; reflexivity.
Qed.

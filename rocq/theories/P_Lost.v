(** P_Lost.v: C85, the routes through a neighbour that falls silent are given up in bounded time. *)
From Verif Require Import Base M_Util S_Util L_Util M_Filter M_Source M_Types M_Neigh S_Neigh L_Neigh M_State M_Table M_Msg M_Route M_Xroute S_World M_Daemon
  L_Table L_Step L_Trace L_Update2 L_Daemon L_Inv L_Nbs L_Packet3 X_Run M_Check S_Dead L_Dead L_Dead2 L_Lost L_Lost2 P_Dead S_Kern X_Run2 P_Kern.
Import M_Daemon.

Lemma J_run c a i any w0 L es : c_half_life c <> 2 -> any <> MTx -> forall s, reach c (fst s) -> silence L a i es s ->
  (any <> MWired \/ along (wired_if i) es s) -> J a i any w0 (fst s) -> J a i any w0 (fst (trun es s)).
Proof.
  intros Hl Am. induction es as [|e es IH]; intros s R S F Jw; [exact Jw|]. destruct S as (A & B & C & M & S). cbn [trun fold_left].
  apply IH; [apply reach_run; auto|exact S| |].
  - destruct F as [F|(_ & F)]; [left; exact F|right; exact F].
  - apply (J_step c Hl); auto; [unfold still; destruct any; [exact M..|contradiction]|]. destruct F as [F|(F & _)]; [left; exact F|right; exact F].
Qed.

(** The last Hello of a neighbour, announcing interval [I], is received at time [T]; then
    anything happens but a Hello from it: updates, IHUs or requests from it included.
    After 4.575 intervals if the interface stays one that does not measure the quality of
    links, after 14.575 whatever the interface, no route through the neighbour has a
    finite metric, unless the kernel refused a change in the meantime. *)
Theorem C85_given_up : forall c w nb tn q I r L es,
  c_half_life c <> 2 -> reach c w -> In nb (w_nbs w) ->
  tv_ok tn -> 0 <= tv_sec tn -> 1 <= tv_sec (w_now w) -> seqno_ok q -> 1 <= I < 65536 -> 0 <= r -> 0 <= L ->
  h_interval (n_uhello nb) <= I -> us (h_time (n_uhello nb)) <= us (w_now w) ->
  let s := trun1 (EvHello (n_id nb) false q I, r) (w, tn) in
  silence L (n_addr nb) (n_if nb) es s ->
  let w' := fst (trun es s) in
  (us (w_now w') > us (w_now w) + 45750 * I + 1000 + L /\ wired_if (n_if nb) w /\ along (wired_if (n_if nb)) es s) \/
  us (w_now w') > us (w_now w) + 145750 * I + 1000 + L ->
  krefused w w' \/
  forall x rt, In x (w_nbs w') -> is_nb (n_addr nb) (n_if nb) x -> In rt (all_routes w') -> r_neigh rt = n_id x -> ~ finite rt.
Proof.
  intros c w nb tn q I r L es Hl R Hn Tt St Sn Hq HI Hr HL Iu Tu s S w' Late.
  destruct (last_hello c w nb tn q I r L Hl R Hn Tt St Sn Hq HI Hr HL) as (Ok & Fi & Ft & R1 & D). fold s in D.
  pose proof (reach_rng c w Hl R) as G. destruct (rg_nbs _ G nb Hn) as (_ & Hu & _). pose proof (rg_now _ G) as Nw.
  set (h1 := fst (update_hist (w_now w) (n_hello nb) q I)) in *.
  assert (HT : 1000000 <= us (w_now w)) by (clear - Nw Sn; unfold tv_ok, us in *; lia).
  assert (Ft' : us (h_time h1) = us (w_now w)) by (rewrite Ft; reflexivity).
  destruct (dinv_run c Hl _ _ _ I L h1 (n_uhello nb) HI HL HT Ok Fi es s R1 S D) as (D1 & R2).
  set (any := if us (w_now w') >? us (w_now w) + 145750 * I + 1000 + L then MAny else MWired).
  assert (Am : any <> MTx) by (unfold any; destruct (_ >? _); discriminate).
  assert (Fa : any <> MWired \/ (wired_if (n_if nb) w /\ along (wired_if (n_if nb)) es s)).
  { unfold any. destruct (_ >? _) eqn:E; [left; discriminate|right]. destruct Late as [(_ & Late)|Late]; [exact Late|lia]. }
  assert (Jw : J (n_addr nb) (n_if nb) any w w').
  { apply (J_run c _ _ any w L es Hl Am s R1 S); [destruct Fa as [Fa|(_ & Fa)]; auto|].
    unfold s, trun1. cbn [fst snd]. apply (J_hello c Hl); auto; [split; reflexivity|destruct Fa as [Fa|(Fa & _)]; [left|right]; exact Fa|unfold u16_ok; lia]. }
  destruct Jw as (_ & [Jw|Jw]); [left; exact Jw|right]. intros x rt Hx K Hrt Nr F. unfold finite in F.
  pose proof (rg_nbs _ (reach_rng c _ Hl R2) x Hx) as Nx. destruct Nx as (Nh & Nu & _).
  assert (Fw : few any x).
  { unfold any. destruct (_ >? _) eqn:E; cbn [few].
    - destruct (dinv_late _ _ _ I L h1 (n_uhello nb) HI HL HT Ok Fi Ft' Hu _ 12 D1 ltac:(lia) ltac:(fold w'; lia) x Hx K) as (_ & E2 & E3).
      split; apply heard_none_iff; auto. exact (E3 Iu Tu).
    - destruct Late as [(Late & _)|Late]; [|lia].
      destruct (dinv_late _ _ _ I L h1 (n_uhello nb) HI HL HT Ok Fi Ft' Hu _ 2 D1 ltac:(lia) ltac:(fold w'; lia) x Hx K) as (_ & E2 & E3). specialize (E3 Iu Tu).
      split; apply Bool.not_true_is_false; rewrite two_three_iff; unfold heard_two_of_three; intros X.
      + pose proof (E2 0 ltac:(lia)). pose proof (E2 1 ltac:(lia)). destruct X as [(? & ?)|[(? & ?)|(? & ?)]]; congruence.
      + pose proof (E3 0 ltac:(lia)). pose proof (E3 1 ltac:(lia)). destruct X as [(? & ?)|[(? & ?)|(? & ?)]]; congruence. }
  pose proof (Jw x Hx K Fw rt Hrt Nr) as M. unfold route_metric, INFINITY, metric_of in *. lia.
Qed.
Print Assumptions C85_given_up.

(** Then no packet is sent through it any more: in the table of the kernel, every entry
    with a next hop is that of a selected route through another neighbour.  (Conditions
    of C22 on the filters and on the kernel, which refuses nothing.) *)
Theorem C85_kernel : forall c w nb tn q I r L es,
  c_half_life c <> 2 -> reach c w -> In nb (w_nbs w) ->
  tv_ok tn -> 0 <= tv_sec tn -> 1 <= tv_sec (w_now w) -> seqno_ok q -> 1 <= I < 65536 -> 0 <= r -> 0 <= L ->
  h_interval (n_uhello nb) <= I -> us (h_time (n_uhello nb)) <= us (w_now w) ->
  let s := trun1 (EvHello (n_id nb) false q I, r) (w, tn) in
  silence L (n_addr nb) (n_if nb) es s ->
  let w' := fst (trun es s) in
  (us (w_now w') > us (w_now w) + 45750 * I + 1000 + L /\ wired_if (n_if nb) w /\ along (wired_if (n_if nb)) es s) \/
  us (w_now w') > us (w_now w) + 145750 * I + 1000 + L ->
  static_install c -> filters_ok c -> kreach c w' -> ~ krefused w w' ->
  exists F, kernel_table (w_ktr w') = Some F /\
   forall e, In e F -> q_via e <> None -> exists rt n i, In rt (all_routes w') /\ r_installed rt = true /\ finite rt /\
     In n (w_nbs w') /\ n_id n = r_neigh rt /\ ~ is_nb (n_addr nb) (n_if nb) n /\
     In i (w_ifs w') /\ if_id i = n_if n /\ kent c (if_ifindex i) rt = Some e.
Proof.
  intros c w nb tn q I r L es Hl R Hn Tt St Sn Hq HI Hr HL Iu Tu s S w' Late Si Fo Kr Nr.
  destruct (C85_given_up c w nb tn q I r L es Hl R Hn Tt St Sn Hq HI Hr HL Iu Tu S Late) as [X|X]; [contradiction|].
  destruct (C22_kernel_mirrors_selection c w' Hl Si Fo Kr) as (F & T & M). exists F. split; [exact T|]. intros e He Hv.
  apply M in He. destruct He as (rt & n & i & A1 & A2 & A3 & A4 & A5 & A6 & A7). exists rt, n, i.
  assert (Fin : finite rt).
  { unfold finite. destruct (Z_lt_dec (metric_of rt) 65535) as [Y|Y]; [exact Y|exfalso]. apply Hv. revert A7. unfold kent, prio_of.
    replace (metric_of rt >=? 65535) with true by lia. cbv zeta. cbn [Z.ltb Z.compare]. change (65535 <? 65535) with false. cbv iota.
    destruct (_ || _); [discriminate|]. intros E. injection E as <-. reflexivity. }
  split; [exact A1|]. split; [exact A2|]. split; [exact Fin|]. split; [exact A3|]. split; [exact A4|]. split; [|auto].
  intros K. exact (X n rt A3 K A1 (eq_sym A4) Fin).
Qed.
Print Assumptions C85_kernel.

(** The hypotheses can be met, in the run of P_Dead.v: the route through neighbour 2 is
    the selected one and becomes infinite. *)
Lemma along_drive (P : world -> Prop) (f : world -> bool) n : (forall w, f w = true -> P w) -> forall s,
  (fix go n s := f (fst s) && match n with O => true | S n =>
     let e1 := (EvClock (timeval_add_msec (snd s) 1), 0) in let e2 := (EvCheckNeighbours, 7) in
     f (fst (trun1 e1 s)) && go n (trun1 e2 (trun1 e1 s)) end) n s = true -> along P (drive n s) s.
Proof.
  intros HP. induction n as [|n IH]; intros s H; cbn [drive along] in *.
  - apply andb_prop in H. split; [apply HP, H|exact Logic.I].
  - apply andb_prop in H. destruct H as (H1 & H2). split; [apply HP, H1|]. cbv zeta in H2. apply andb_prop in H2. destruct H2 as (H2 & H3).
    split; [apply HP, H2|]. apply IH, H3.
Qed.
Definition wired_b (i : Z) (w : world) : bool := forallb (fun y => negb (if_id y =? i) || negb (flag y IF_LQ)) (w_ifs w).
Lemma wired_b_ok i w : wired_b i w = true -> wired_if i w.
Proof.
  intros H y Hy E. unfold wired_b in H. rewrite forallb_forall in H. specialize (H y Hy). rewrite E, Z.eqb_refl in H. cbn in H.
  destruct (flag y IF_LQ); [discriminate|reflexivity].
Qed.
Definition failed_b (e : kev) : bool := match e with KAdd _ rc | KDel _ rc => negb (rc =? 0) | KFail _ _ => true end.
Lemma not_refused w w' : forallb (fun e => negb (failed_b e)) (skipn (length (w_ktr w)) (w_ktr w')) = true -> ~ krefused w w'.
Proof.
  intros H (l & e & E & Hi & Hf). rewrite E, skipn_app, skipn_all, Nat.sub_diag in H. cbn [app skipn] in H. rewrite forallb_forall in H.
  specialize (H e Hi). destruct e; cbn in *; try discriminate; lia.
Qed.
Lemma drive_kreach c L n : forall s, driveb L n s = true -> kreach c (fst s) -> kreach c (fst (trun (drive n s) s)).
Proof.
  induction n as [|n IH]; intros s H R; cbn [drive driveb] in *; [exact R|]. cbv zeta in *.
  apply andb_prop in H. destruct H as (H & H4). apply andb_prop in H. destruct H as (H & _). apply andb_prop in H. destruct H as (H1 & _).
  unfold tv_okb in H1. apply andb_prop in H1. cbn [trun fold_left]. apply IH; [exact H4|].
  unfold trun1. cbn [fst snd]. apply kreach_run; [|exact Logic.I|exact Logic.I]. apply kreach_run; [exact R| |exact Logic.I].
  cbn [allowed]. unfold tv_ok. lia.
Qed.
Lemma x_kreach : kreach x_conf x_w.
Proof. unfold x_w, x_boot. apply kreach_list; [apply x_boot_kreach|vm_compute; reflexivity|reflexivity]. Qed.
Lemma d_kreach : kreach x_conf (run1 (EvHello 2 false 202 400) x_w).
Proof.
  apply kreach_run; [exact x_kreach| |exact Logic.I]. apply allowedb_ok. vm_compute. reflexivity.
Qed.
Example C85_example :
  reach x_conf x_w /\ In d_nb (w_nbs x_w) /\ n_id d_nb = 2 /\ 1 <= tv_sec (w_now x_w) /\
  h_interval (n_uhello d_nb) <= 400 /\ us (h_time (n_uhello d_nb)) <= us (w_now x_w) /\
  silence 1000 (n_addr d_nb) (n_if d_nb) (drive 6 d_s0) d_s0 /\
  us (w_now (d_at 6)) > us (w_now x_w) + 45750 * 400 + 1000 + 1000 /\
  wired_if (n_if d_nb) x_w /\ along (wired_if (n_if d_nb)) (drive 6 d_s0) d_s0 /\
  static_install x_conf /\ filters_ok x_conf /\ kreach x_conf (d_at 6) /\ ~ krefused x_w (d_at 6) /\
  map (fun r => (r_neigh r, r_installed r, metric_of r)) (all_routes (d_at 2)) = [(2, true, 228); (1, false, 65535); (1, true, 65535)] /\
  map (fun r => (r_neigh r, r_installed r, metric_of r)) (all_routes (d_at 6)) = [(2, true, 65535); (1, false, 65535); (1, true, 65535)].
Proof.
  split; [exact x_reach|]. split; [apply (get_nb_in 2); vm_compute; reflexivity|].
  split; [vm_compute; reflexivity|]. split; [vm_compute; discriminate|]. split; [vm_compute; discriminate|]. split; [vm_compute; discriminate|].
  split; [apply drive_silence; vm_compute; reflexivity|]. split; [vm_compute; reflexivity|].
  split; [apply wired_b_ok; vm_compute; reflexivity|].
  split; [apply (along_drive _ (wired_b (n_if d_nb))); [apply wired_b_ok|vm_compute; reflexivity]|].
  split; [exact x_static|]. split; [exact x_filters|].
  split; [apply (drive_kreach x_conf 1000); [vm_compute; reflexivity|exact d_kreach]|].
  split; [apply not_refused; vm_compute; reflexivity|]. split; vm_compute; reflexivity.
Qed.

(** What is false if the kernel refuses: after the switch to the route through neighbour
    2 it answers EPERM to everything.  The metric in the table of routes is then left as
    it was: the route through the silent neighbour stays selected with metric 228. *)
Definition d_refuse : event * Z := (EvOracle (w_rnd (fst d_s0)) (repeat 0 5 ++ repeat 1 100), 0).
Definition d_es : list (event * Z) := d_refuse :: drive 6 (trun1 d_refuse d_s0).
Theorem C85_refused_refuted : exists c w nb tn q I r L es rt, 
  (c_half_life c <> 2 /\ reach c w /\ In nb (w_nbs w) /\ tv_ok tn /\ 0 <= tv_sec tn /\ 1 <= tv_sec (w_now w) /\ seqno_ok q /\ 1 <= I < 65536) /\
  (h_interval (n_uhello nb) <= I /\ us (h_time (n_uhello nb)) <= us (w_now w) /\
  silence L (n_addr nb) (n_if nb) es (trun1 (EvHello (n_id nb) false q I, r) (w, tn)) /\
  wired_if (n_if nb) w /\ along (wired_if (n_if nb)) es (trun1 (EvHello (n_id nb) false q I, r) (w, tn))) /\
  let w' := fst (trun es (trun1 (EvHello (n_id nb) false q I, r) (w, tn))) in
  us (w_now w') > us (w_now w) + 45750 * I + 1000 + L /\
  In nb (w_nbs w) /\ In rt (all_routes w') /\ r_neigh rt = n_id nb /\ r_installed rt = true /\ finite rt.
Proof.
  exists x_conf, x_w, d_nb, (mkTv 1031 0), 202, 400, 3, 1000, d_es.
  exists (match all_routes (fst (trun d_es d_s0)) with r :: _ => r | [] => new_route 0 (mkey [] (mkDest [] 0 [] 0)) 0 0 0 0 0 0 0 [] end).
  assert (E2 : n_id d_nb = 2) by (vm_compute; reflexivity). rewrite E2. fold d_s0.
  assert (Hn : In d_nb (w_nbs x_w)) by (apply (get_nb_in 2); vm_compute; reflexivity).
  split; [|split; [|cbv zeta]].
  - split; [exact x_hl|]. split; [exact x_reach|]. split; [exact Hn|]. split; [split; cbn; lia|]. split; [cbn; lia|].
    split; [vm_compute; discriminate|]. split; [unfold seqno_ok; lia|lia].
  - split; [vm_compute; discriminate|]. split; [vm_compute; discriminate|]. split.
    { unfold d_es. cbn [silence]. split; [exact Logic.I|]. split; [cbn [d_refuse snd]; lia|]. split; [exact Logic.I|]. split; [exact Logic.I|].
      apply drive_silence. vm_compute. reflexivity. }
    split; [apply wired_b_ok; vm_compute; reflexivity|]. unfold d_es. cbn [along]. split; [apply wired_b_ok; vm_compute; reflexivity|].
    apply (along_drive _ (wired_b (n_if d_nb))); [apply wired_b_ok|vm_compute; reflexivity].
  - split; [vm_compute; reflexivity|]. split; [exact Hn|]. split; [vm_compute; left; reflexivity|].
    split; [vm_compute; reflexivity|]. split; [vm_compute; reflexivity|]. vm_compute. reflexivity.
Qed.
Print Assumptions C85_refused_refuted.

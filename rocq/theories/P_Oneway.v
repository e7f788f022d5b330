(** P_Oneway.v: C86, routes over a link that has become one-way are given up in bounded time. *)
From Verif Require Import Base M_Util S_Util L_Util M_Filter M_Source M_Types M_Neigh S_Neigh L_Neigh M_State M_Table M_Msg M_Route M_Xroute S_World M_Daemon
  L_Table L_Step L_Trace L_Update2 L_Daemon L_Inv L_Arm L_Nbs L_Packet3 L_Resend3 X_Run M_Check S_Dead L_Dead L_Dead2 L_Lost L_Lost2 P_Dead P_Lost S_Kern X_Run2 P_Kern.
Import M_Daemon.

Section Oneway.
Variable c : conf.
Hypothesis Hl : c_half_life c <> 2.
Variables (a : list Z) (i I L : Z) (t0 : timeval).
Hypothesis HI : 1 <= I < 65536.
Hypothesis HL : 0 <= L.
Hypothesis Ht0 : tv_ok t0.
Hypothesis HT : 1000000 <= us t0.

(** A check at [ct] comes too early to give up. *)
Definition early (ct : timeval) : Prop :=
  let delay := timeval_minus_msec ct t0 in delay < I * 30 \/ (delay < 180000 /\ delay < I * 100).
Definition tinv (s : world * timeval) : Prop :=
  tv_ok (snd s) /\ 1 <= tv_sec (snd s) /\ us t0 <= us (w_now (fst s)) <= Z.max (us t0) (us (snd s) + L) /\
  exists ct, tv_ok ct /\ us t0 <= us ct <= us (w_now (fst s)) /\
    forall x, In x (w_nbs (fst s)) -> is_nb a i x ->
      n_txcost x = 65535 \/
      (n_ihu_interval x = I /\ n_ihu_time x = t0 /\
       ((us ct = us t0 /\ us (snd s) <= us t0 + 56250 * I) \/ (early ct /\ us (snd s) <= us ct + 18750 * I))).

Lemma tinv_step s e : reach c (fst s) -> allowed (fst e) (fst s) -> 0 <= snd e -> timely L (fst e) (fst s) (snd s) -> no_ihu a i (fst e) (fst s) ->
  tinv s -> tinv (trun1 e s).
Proof.
  destruct s as [w tn], e as [ev r]. cbn [fst snd]. intros R A Hr Tm Mu (D1 & D2 & D3 & ct & D4 & D5 & D6). unfold trun1, tinv. cbn [fst snd] in *.
  destruct (reach_W c w Hl R) as (Hw & _). pose proof (rg_now _ (reach_rng c w Hl R)) as Nw.
  assert (Ns : 1 <= tv_sec (w_now w)) by (apply sec_us; [exact Nw|lia]).
  assert (Dec : ev = EvCheckNeighbours \/ ev <> EvCheckNeighbours) by (destruct ev; try (right; discriminate); left; reflexivity).
  destruct Dec as [->|Ne].
  - cbn [run1 check_at]. destruct (check_nbs w (W_nbs _ _ Hw)) as (M0 & M). destruct (a_check w) as (En & _). rewrite En.
    set (ms := Z.max (Z.quot (3 * fst (check_neighbours w)) 2) 10).
    destruct (schedule_ok (w_now w) tn ms r true Nw Ns D1 ltac:(discriminate) ltac:(lia) Hr) as (S1 & S2 & S3 & S4 & _).
    destruct S4 as [(F & _)|S4]; [discriminate|].
    split; [exact S1|]. split; [exact S2|]. split; [lia|]. exists (w_now w). split; [exact Nw|]. split; [lia|].
    intros x' Hx K. destruct (M x' Hx) as (x & b & X1 & X2 & _ & X3). destruct (check_facts _ _ _ _ X2) as (_ & F1 & F2 & _).
    assert (Kx : is_nb a i x) by (destruct K; split; congruence).
    destruct (check_tx _ _ _ _ X2) as (E1 & [(E2 & _)|(E2 & E3 & E4)]); [left; exact E2|].
    destruct (D6 x X1 Kx) as [D|(Q1 & Q2 & _)]; [left; congruence|right]. rewrite E1. split; [exact Q1|]. split; [congruence|]. right. split.
    + unfold early. rewrite Q1, Q2 in E4. cbv zeta in *. lia.
    + rewrite E1, Q1 in X3. specialize (X3 ltac:(lia)). assert (ms <= 15 * I); [|lia]. unfold ms.
      assert (Z.quot (3 * fst (check_neighbours w)) 2 <= 15 * I); [|lia]. apply Z.quot_le_upper_bound; lia.
  - assert (Gen : (tv_ok (check_at ev r w tn) /\ 1 <= tv_sec (check_at ev r w tn)) /\ us (check_at ev r w tn) <= us tn /\
                  (check_at ev r w tn = tn \/ us (w_now w) <= us (check_at ev r w tn))).
    { assert (Sch : forall ms, 0 <= ms -> let t := schedule_check (w_now w) tn ms r false in (tv_ok t /\ 1 <= tv_sec t) /\ us t <= us tn /\ (t = tn \/ us (w_now w) <= us t)).
      { intros ms Hm. destruct (schedule_ok (w_now w) tn ms r false Nw Ns D1 ltac:(lia) Hm Hr) as (S1 & S2 & _ & S4 & S5). cbv zeta.
        split; [auto|]. split; [apply S5; auto|]. destruct S4 as [(_ & S4)|S4]; auto. }
      destruct ev; cbn [check_at]; try (split; [split; [exact D1|exact D2]|split; [lia|left; reflexivity]]).
      - destruct (interval >? 0) eqn:E; [apply Sch; lia|]. split; [split; [exact D1|exact D2]|split; [lia|left; reflexivity]].
      - destruct (interval >? 0) eqn:E; [apply Sch; lia|]. split; [split; [exact D1|exact D2]|split; [lia|left; reflexivity]].
      - contradiction. }
    assert (Nb : forall x', In x' (w_nbs (run1 ev w)) -> is_nb a i x' -> n_txcost x' = 65535 \/
       (n_ihu_interval x' = I /\ n_ihu_time x' = t0 /\
       ((us ct = us t0 /\ us tn <= us t0 + 56250 * I) \/ (early ct /\ us tn <= us ct + 18750 * I)))).
    { intros x' Hx K. destruct (ihu_nbs a i w ev (W_nbs _ _ Hw) Mu Ne x' Hx K) as [(x & X1 & X2 & X3 & X4 & X5 & _)|(X & _)]; [|left; exact X].
      rewrite X3, X4, X5. exact (D6 x X1 X2). }
    destruct Gen as ((G1 & G2) & G3 & G4). split; [exact G1|]. split; [exact G2|].
    destruct (run1_now w ev Hw A) as [E|(t & ->)].
    + rewrite E. split; [destruct G4 as [->|G4]; lia|]. exists ct. split; [exact D4|]. split; [exact D5|].
      intros x' Hx K. destruct (Nb x' Hx K) as [N|(N1 & N2 & [(N3 & N4)|(N3 & N4)])]; [left; exact N|right..].
      * split; [exact N1|]. split; [exact N2|]. left. split; [exact N3|lia].
      * split; [exact N1|]. split; [exact N2|]. right. split; [exact N3|lia].
    + cbn [timely check_at run1 w_now set_w_now] in *. split; [lia|]. exists ct. split; [exact D4|]. split; [lia|]. exact Nb.
Qed.
Lemma tinv_run es : forall s, reach c (fst s) -> unheard L a i es s -> tinv s -> tinv (trun es s) /\ reach c (fst (trun es s)).
Proof.
  induction es as [|e es IH]; intros s R S D; [auto|]. destruct S as (A & B & C & M & S). cbn [trun fold_left].
  apply IH; [|exact S|apply tinv_step; auto]. apply reach_run; auto.
Qed.
Lemma tinv_late s : tinv s ->
  us (w_now (fst s)) > us t0 + Z.max (37500 * I) (Z.min (100000 * I) 180000000) + 18750 * I + 1000 + L ->
  forall x, In x (w_nbs (fst s)) -> is_nb a i x -> n_txcost x = 65535.
Proof.
  intros (D1 & D2 & D3 & ct & D4 & D5 & D6) Late x Hx K.
  destruct (D6 x Hx K) as [D|(_ & _ & [(D & E)|(D & E)])]; [exact D|exfalso; lia|exfalso].
  unfold early in D. cbv zeta in D.
  assert (timeval_minus_msec ct t0 >= I * 30) by (apply minus_msec_ge; auto; lia).
  assert (timeval_minus_msec ct t0 >= Z.min (100 * I) 180000) by (apply minus_msec_ge; auto; lia). lia.
Qed.
Lemma J_still w0 es : forall s, reach c (fst s) -> unheard L a i es s -> J a i MTx w0 (fst s) -> J a i MTx w0 (fst (trun es s)).
Proof.
  induction es as [|e es IH]; intros s R S Jw; [exact Jw|]. destruct S as (A & B & C & M & S). cbn [trun fold_left].
  apply IH; [apply reach_run; auto|exact S|]. apply (J_step c Hl); auto. left. discriminate.
Qed.
End Oneway.

(** The last IHU of a neighbour, with a finite cost [tx] and announcing the interval [I]
    (in hundredths of a second), is received at time [T]; then anything happens but an IHU
    from it: its Hellos and updates still arrive.  Once 10 such intervals (or 180 s if
    that is less, but at least 3.75 intervals), 1.875 intervals and a millisecond are
    past, the link has an infinite cost, and no route through the neighbour has a finite
    metric unless the kernel refused a change in the meantime. *)
Theorem C86_given_up : forall c w nb tn tx I r L es,
  c_half_life c <> 2 -> reach c w -> In nb (w_nbs w) ->
  tv_ok tn -> 0 <= tv_sec tn -> 1 <= tv_sec (w_now w) -> 0 <= tx < INFINITY -> 1 <= I < 65536 -> 0 <= r -> 0 <= L ->
  let s := trun1 (EvIhu (n_id nb) tx I, r) (w, tn) in
  unheard L (n_addr nb) (n_if nb) es s ->
  let w' := fst (trun es s) in
  us (w_now w') > us (w_now w) + Z.max (37500 * I) (Z.min (100000 * I) 180000000) + 18750 * I + 1000 + L ->
  (forall x i, In x (w_nbs w') -> is_nb (n_addr nb) (n_if nb) x -> neighbour_cost (w_now w') i x = INFINITY) /\
  (krefused w w' \/
   forall x rt, In x (w_nbs w') -> is_nb (n_addr nb) (n_if nb) x -> In rt (all_routes w') -> r_neigh rt = n_id x -> ~ finite rt).
Proof.
  intros c w nb tn tx I r L es Hl R Hn Tt St Sn Htx HI Hr HL s S w' Late.
  pose proof (reach_rng c w Hl R) as G. destruct (reach_W c w Hl R) as (Hw & _). pose proof (rg_now _ G) as Nw.
  assert (HT : 1000000 <= us (w_now w)) by (clear - Nw Sn; unfold tv_ok, us in *; lia).
  assert (A : allowed (EvIhu (n_id nb) tx I) w).
  { split; [apply (in_map n_id), Hn|]. unfold u16_ok, INFINITY in *. lia. }
  assert (R1 : reach c (fst s)) by (apply reach_run; auto).
  assert (D : tinv (n_addr nb) (n_if nb) I L (w_now w) s).
  { unfold s, trun1, tinv. cbn [fst snd check_at]. replace (I >? 0) with true by lia.
    destruct (schedule_ok (w_now w) tn (I * 45) r false Nw Sn Tt ltac:(auto) ltac:(lia) Hr) as (S1 & S2 & S3 & _).
    assert (En : w_now (run1 (EvIhu (n_id nb) tx I) w) = w_now w).
    { destruct (run1_now w _ Hw A) as [E|(t & E)]; [exact E|discriminate]. }
    rewrite En. split; [exact S1|]. split; [exact S2|]. split; [lia|]. exists (w_now w). split; [exact Nw|]. split; [lia|].
    intros x' Hx K. right. cbn [run1] in Hx. unfold recv_ihu, on_nb in Hx. destruct (get_nb (n_id nb) w) as [y|] eqn:Gy.
    2:{ exfalso. pose proof (find_none _ _ Gy nb Hn) as X. cbv beta in X. lia. }
    rewrite nk_unm in Hx. apply in_map_nb in Hx. destruct Hx as (x & Hx & [(E & ->)|(E & ->)]).
    - split; [reflexivity|]. split; [reflexivity|]. left. split; [reflexivity|lia].
    - exfalso. apply E. destruct K as (K1 & K2). rewrite (nb_unique c Hl w R x nb Hx Hn K1 K2). reflexivity. }
  destruct (tinv_run c Hl _ _ I L (w_now w) HI HL HT es s R1 S D) as (D1 & R2).
  pose proof (tinv_late _ _ I L (w_now w) HI HL Nw _ D1 Late) as Tx. fold w' in Tx.
  split.
  - intros x i Hx K. unfold neighbour_cost. rewrite (Tx x Hx K). destruct (negb (if_up i)); reflexivity.
  - assert (Jw : J (n_addr nb) (n_if nb) MTx w w').
    { apply (J_still c Hl _ _ L w es s R1 S). unfold s, trun1. cbn [fst snd]. apply (J_ihu c Hl); auto; [split; reflexivity|unfold INFINITY in Htx; lia]. }
    destruct Jw as (_ & [Jw|Jw]); [left; exact Jw|right]. intros x rt Hx K Hrt Nr F. unfold finite in F.
    pose proof (Jw x Hx K (Tx x Hx K) rt Hrt Nr) as M. unfold route_metric, INFINITY, metric_of in *. lia.
Qed.
Print Assumptions C86_given_up.

(** Then no packet is sent over the link any more: in the table of the kernel, every entry
    with a next hop is that of a selected route through another neighbour.  (Conditions
    of C22 on the filters and on the kernel, which refuses nothing.) *)
Theorem C86_kernel : forall c w nb tn tx I r L es,
  c_half_life c <> 2 -> reach c w -> In nb (w_nbs w) ->
  tv_ok tn -> 0 <= tv_sec tn -> 1 <= tv_sec (w_now w) -> 0 <= tx < INFINITY -> 1 <= I < 65536 -> 0 <= r -> 0 <= L ->
  let s := trun1 (EvIhu (n_id nb) tx I, r) (w, tn) in
  unheard L (n_addr nb) (n_if nb) es s ->
  let w' := fst (trun es s) in
  us (w_now w') > us (w_now w) + Z.max (37500 * I) (Z.min (100000 * I) 180000000) + 18750 * I + 1000 + L ->
  static_install c -> filters_ok c -> kreach c w' -> ~ krefused w w' ->
  exists F, kernel_table (w_ktr w') = Some F /\
   forall e, In e F -> q_via e <> None -> exists rt n i, In rt (all_routes w') /\ r_installed rt = true /\ finite rt /\
     In n (w_nbs w') /\ n_id n = r_neigh rt /\ ~ is_nb (n_addr nb) (n_if nb) n /\
     In i (w_ifs w') /\ if_id i = n_if n /\ kent c (if_ifindex i) rt = Some e.
Proof.
  intros c w nb tn tx I r L es Hl R Hn Tt St Sn Htx HI Hr HL s S w' Late Si Fo Kr Nr.
  destruct (C86_given_up c w nb tn tx I r L es Hl R Hn Tt St Sn Htx HI Hr HL S Late) as (_ & [X|X]); [contradiction|].
  destruct (C22_kernel_mirrors_selection c w' Hl Si Fo Kr) as (F & T & M). exists F. split; [exact T|]. intros e He Hv.
  apply M in He. destruct He as (rt & n & i & A1 & A2 & A3 & A4 & A5 & A6 & A7). exists rt, n, i.
  assert (Fin : finite rt).
  { unfold finite. destruct (Z_lt_dec (metric_of rt) 65535) as [Y|Y]; [exact Y|exfalso]. apply Hv. revert A7. unfold kent, prio_of.
    replace (metric_of rt >=? 65535) with true by lia. cbv zeta. cbn [Z.ltb Z.compare]. change (65535 <? 65535) with false. cbv iota.
    destruct (_ || _); [discriminate|]. intros E. injection E as <-. reflexivity. }
  split; [exact A1|]. split; [exact A2|]. split; [exact Fin|]. split; [exact A3|]. split; [exact A4|]. split; [|auto].
  intros K. exact (X n rt A3 K A1 (eq_sym A4) Fin).
Qed.
Print Assumptions C86_kernel.

(** The hypotheses can be met.  Neighbour 2 of the run of X_Run.v, through which a route is
    selected, sends its last IHU (cost 96, interval 1 s); its Hellos go on.  The main loop
    makes each check a millisecond late.  After twelve seconds the route is infinite,
    although the Hellos are all heard. *)
Fixpoint hum (n : nat) (q : Z) (s : world * timeval) : list (event * Z) :=
  match n with
  | O => []
  | S n => let e1 := (EvClock (timeval_add_msec (snd s) 1), 0) in let e2 := (EvHello 2 false q 400, 5) in let e3 := (EvCheckNeighbours, 7) in
           e1 :: e2 :: e3 :: hum n (q + 1) (trun1 e3 (trun1 e2 (trun1 e1 s)))
  end.
Definition deafb (L : Z) (e : event * Z) (s : world * timeval) : bool :=
  allowedb (fst e) (fst s) && (0 <=? snd e) &&
  match fst e with EvClock t => (us (w_now (fst s)) <=? us t) && (us t <=? us (snd s) + L) | EvIhu _ _ _ => false | _ => true end.
Fixpoint unheardb (L : Z) (es : list (event * Z)) (s : world * timeval) : bool :=
  match es with [] => true | e :: es => deafb L e s && unheardb L es (trun1 e s) end.
Lemma unheardb_ok L a i es : forall s, unheardb L es s = true -> unheard L a i es s.
Proof.
  induction es as [|e es IH]; intros s H; cbn [unheardb unheard] in *; [exact Logic.I|].
  apply andb_prop in H. destruct H as (H & H4). unfold deafb in H. apply andb_prop in H. destruct H as (H & H3). apply andb_prop in H. destruct H as (H1 & H2).
  split; [apply allowedb_ok, H1|]. split; [lia|]. split; [|split; [|apply IH, H4]].
  - unfold timely. destruct (fst e); try exact Logic.I. lia.
  - unfold no_ihu. destruct (fst e); try exact Logic.I. discriminate.
Qed.
Lemma trun_kreach c L es : forall s, unheardb L es s = true -> forallb (fun e => kgoodb (fst e)) es = true -> kreach c (fst s) -> kreach c (fst (trun es s)).
Proof.
  induction es as [|e es IH]; intros s H K R; cbn [unheardb forallb trun fold_left] in *; [exact R|].
  apply andb_prop in H. destruct H as (H & H4). unfold deafb in H. apply andb_prop in H. destruct H as (H & _). apply andb_prop in H. destruct H as (H1 & _).
  apply andb_prop in K. destruct K as (K1 & K2). apply IH; auto. unfold trun1. cbn [fst]. apply kreach_run; [exact R|apply allowedb_ok, H1|apply kgoodb_ok, K1].
Qed.
Definition o_s0 : world * timeval := trun1 (EvIhu 2 96 100, 3) (x_w, mkTv 1031 0).
Definition o_at (n : nat) : world := fst (trun (hum n 202 o_s0) o_s0).
Lemma o_kreach : kreach x_conf (fst o_s0).
Proof.
  unfold o_s0, trun1. cbn [fst]. apply kreach_run; [exact x_kreach| |exact Logic.I]. apply allowedb_ok. vm_compute. reflexivity.
Qed.
Example C86_example :
  reach x_conf x_w /\ In d_nb (w_nbs x_w) /\ n_id d_nb = 2 /\ 1 <= tv_sec (w_now x_w) /\
  unheard 1000 (n_addr d_nb) (n_if d_nb) (hum 11 202 o_s0) o_s0 /\
  us (w_now (o_at 11)) > us (w_now x_w) + Z.max (37500 * 100) (Z.min (100000 * 100) 180000000) + 18750 * 100 + 1000 + 1000 /\
  static_install x_conf /\ filters_ok x_conf /\ kreach x_conf (o_at 11) /\ ~ krefused x_w (o_at 11) /\
  map (fun r => (r_neigh r, r_installed r, metric_of r)) (all_routes (o_at 8)) = [(2, true, 196); (1, false, 65535); (1, true, 65535)] /\
  map (fun r => (r_neigh r, r_installed r, metric_of r)) (all_routes (o_at 11)) = [(2, true, 65535); (1, false, 65535); (1, true, 65535)] /\
  map (fun x => (n_id x, n_txcost x, h_reach (n_hello x))) (w_nbs (o_at 11)) = [(2, 65535, 65528); (1, 96, 96)].
Proof.
  split; [exact x_reach|]. split; [apply (get_nb_in 2); vm_compute; reflexivity|].
  split; [vm_compute; reflexivity|]. split; [vm_compute; discriminate|].
  split; [apply unheardb_ok; vm_compute; reflexivity|]. split; [vm_compute; reflexivity|].
  split; [exact x_static|]. split; [exact x_filters|].
  split; [apply (trun_kreach x_conf 1000); [vm_compute; reflexivity|vm_compute; reflexivity|exact o_kreach]|].
  split; [apply not_refused; vm_compute; reflexivity|]. split; [vm_compute; reflexivity|]. split; vm_compute; reflexivity.
Qed.

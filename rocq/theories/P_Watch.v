(** P_Watch.v: C87, what a monitoring client knows of the neighbours. *)
From Verif Require Import Base M_Util S_Util L_Util M_Filter M_Source M_Types M_Neigh S_Neigh L_Neigh M_State M_Table M_Msg M_Route M_Xroute S_World M_Daemon
  S_Resend
  L_Table L_Step L_Update2 L_Daemon L_Inv L_Nbs L_Resend3 X_Run M_Monitor S_Monitor P_Monitor M_Watch S_Watch L_Watch.
Import M_Daemon.

Lemma run_knows evs : forall w P, W [] w -> allowed_run evs w -> knows_nbs P w ->
  exists P', nsee_all (g_run evs w) P = Some P' /\ knows_nbs P' (run evs w) /\ W [] (run evs w).
Proof.
  induction evs as [|ev evs IH]; intros w P Hw A K; [exists P; auto|]. destruct A as (A & B).
  destruct (step_knows P w ev Hw A K) as (P1 & S1 & K1).
  destruct (IH (run1 ev w) P1 (W_run1 _ _ Hw A) B K1) as (P2 & S2 & K2 & H2). exists P2. cbn [g_run]. rewrite nsee_app, S1. auto.
Qed.
Lemma g_run_app l l' : forall w, g_run (l ++ l') w = g_run l w ++ g_run l' (run l w).
Proof. induction l as [|e l IH]; intros w; [reflexivity|]. cbn [app g_run]. rewrite IH, app_assoc. reflexivity. Qed.
Lemma run_snoc evs ev w : run (evs ++ [ev]) w = run1 ev (run evs w).
Proof. unfold run. rewrite fold_left_app. reflexivity. Qed.
Lemma allowed_snoc evs ev : forall w, allowed_run (evs ++ [ev]) w -> allowed_run evs w /\ allowed ev (run evs w).
Proof.
  induction evs as [|e evs IH]; intros w A; [destruct A; split; [exact Logic.I|auto]|]. destruct A as (A & B).
  destruct (IH _ B) as (C & D). split; [split; auto|exact D].
Qed.

(** A client that sends "monitor" in any reachable state and reads what it is sent from then
    on knows, after any further events, exactly the neighbours, with their addresses,
    interfaces, windows of received Hellos and costs of transmission; and it is never told
    that a neighbour changed or is gone that it does not know, or is new that it knows. *)
Theorem C87_neighbours : forall c w evs, c_half_life c <> 2 -> reach c w -> allowed_run evs w ->
  exists P, nsee_all (told_nbs w ++ g_run evs w) npic0 = Some P /\ knows_nbs P (run evs w).
Proof.
  intros c w evs Hl R A. destruct (reach_W c w Hl R) as (Hw & _). destruct (told_ok_nbs w Hw) as (P & S & K & _).
  destruct (run_knows evs w P Hw A K) as (P' & S' & K' & _). exists P'. rewrite nsee_app, S. auto.
Qed.
Print Assumptions C87_neighbours.

(** At first, and after each check of neighbours, the costs and the RTT it knows are the
    present ones too. *)
Theorem C87_after_check : forall c w evs, c_half_life c <> 2 -> reach c w ->
  evs = [] \/ (exists evs', evs = evs' ++ [EvCheckNeighbours]) -> allowed_run evs w ->
  exists P, nsee_all (told_nbs w ++ g_run evs w) npic0 = Some P /\
    forall x, In x (w_nbs (run evs w)) -> exists a, P (n_id x) = Some a /\ nshows x a /\ current (run evs w) x a.
Proof.
  intros c w evs Hl R Ev A. destruct (reach_W c w Hl R) as (Hw & _). destruct (told_ok_nbs w Hw) as (P & S & K & F).
  rewrite nsee_app, S. destruct Ev as [->|(evs' & ->)].
  - exists P. split; [reflexivity|]. cbn [run fold_left]. intros x Hx. destruct (fresh_current w (n_id x) P x Hw Hx eq_refl (F x Hx)) as (a & Pa & Ca).
    exists a. split; [exact Pa|]. split; [|exact Ca]. destruct K as (K & _). destruct (K x Hx) as (b & Pb & Sb). congruence.
  - apply allowed_snoc in A. destruct A as (A & _). rewrite g_run_app, nsee_app, run_snoc.
    destruct (run_knows evs' w P Hw A K) as (P1 & S1 & K1 & H1). rewrite S1. cbn [g_run g_run1 run1]. rewrite app_nil_r.
    set (v := run evs' w) in *. destruct (checks_step (map n_id (w_nbs v)) P1 v 50000 H1 K1) as (P2 & S2 & K2 & F2).
    exists P2. split; [exact S2|]. change (snd (fold_left check_neighbour1 (map n_id (w_nbs v)) (50000, v))) with (snd (check_neighbours v)) in *.
    assert (H2 : W [] (snd (check_neighbours v))) by apply (W_run1 v EvCheckNeighbours H1 Logic.I).
    intros x Hx. destruct K2 as (K2 & _). destruct (K2 x Hx) as (b & Pb & Sb).
    assert (Hn : In (n_id x) (map n_id (w_nbs v))).
    { destruct (L_Dead.check_nbs v (W_nbs _ _ H1)) as (_ & M). destruct (M x Hx) as (y & bb & Y1 & Y2 & _).
      destruct (L_Dead.check_facts _ _ _ _ Y2) as (-> & _). apply in_map, Y1. }
    destruct (fresh_current _ (n_id x) P2 x H2 Hx eq_refl (F2 _ (or_introl Hn) (in_map n_id _ _ Hx))) as (a & Pa & Ca).
    exists a. split; [exact Pa|]. split; [congruence|exact Ca].
Qed.
Print Assumptions C87_after_check.

(** So are those of a neighbour right after a Hello or an IHU from it. *)
Theorem C87_after_hello : forall c w evs ev n, c_half_life c <> 2 -> reach c w -> allowed_run (evs ++ [ev]) w ->
  (exists u q iv, ev = EvHello n u q iv) \/ (exists cost iv, ev = EvIhu n cost iv) ->
  exists P, nsee_all (told_nbs w ++ g_run (evs ++ [ev]) w) npic0 = Some P /\
    forall x, In x (w_nbs (run (evs ++ [ev]) w)) -> n_id x = n -> exists a, P n = Some a /\ nshows x a /\ current (run (evs ++ [ev]) w) x a.
Proof.
  intros c w evs ev n Hl R A Ev. destruct (reach_W c w Hl R) as (Hw & _). destruct (told_ok_nbs w Hw) as (P & S & K & _).
  apply allowed_snoc in A. destruct A as (A & B). rewrite nsee_app, S, g_run_app, nsee_app, run_snoc.
  destruct (run_knows evs w P Hw A K) as (P1 & S1 & K1 & H1). rewrite S1. cbn [g_run]. rewrite app_nil_r.
  set (v := run evs w) in *.
  assert (Fr : exists P2, nsee_all (g_run1 ev v) P1 = Some P2 /\ knows_nbs P2 (run1 ev v) /\ fresh_line (run1 ev v) n P2).
  { assert (On : forall f, known_nb n v -> (forall x, n_id (fst (f x)) = n_id x /\ n_if (fst (f x)) = n_if x /\ n_addr (fst (f x)) = n_addr x /\
        (tv_ok (w_now v) -> neigh_ok x -> neigh_ok (fst (f x)))) ->
        exists P', nsee_all (g_on_nb n f v) P1 = Some P' /\ knows_nbs P' (on_nb n f v) /\ fresh_line (on_nb n f v) n P').
    { intros f Kn F. unfold g_on_nb, on_nb. destruct (get_nb n v) as [nb|] eqn:G.
      - rewrite (surjective_pairing (f nb)). destruct (F nb) as (F1 & F2 & F3 & F4).
        destruct (unm_step P1 v n nb (fst (f nb)) (snd (f nb)) H1 K1 G F1 F2 F3 F4) as (P' & S' & K' & L & _). exists P'. auto.
      - exfalso. apply in_map_iff in Kn. destruct Kn as (x & E & Hx). pose proof (find_none _ _ G x Hx) as N. cbv beta in N. lia. }
    destruct Ev as [(u & q & iv & ->)|(cost & iv & ->)]; cbn [run1 g_run1]; destruct B as (Kn & Aq & Ai); (apply On; [exact Kn|]); intros x.
    - destruct u; rewrite (surjective_pairing (update_hist _ _ _ _)); cbn [fst];
      (split; [reflexivity|]; split; [reflexivity|]; split; [reflexivity|]; intros T (N1 & N2 & N3); split; [|split]; auto; apply update_hist_ok; auto).
    - cbn [fst]. split; [reflexivity|]. split; [reflexivity|]. split; [reflexivity|].
      intros T (N1 & N2 & N3 & N4). unfold neigh_ok in *. cbn. unfold u16_ok in *. intuition. }
  destruct Fr as (P2 & S2 & (K2 & _) & F2). exists P2. split; [exact S2|]. intros x Hx Ex.
  destruct (fresh_current _ n P2 x (W_run1 _ _ H1 B) Hx Ex F2) as (a & Pa & Ca). exists a. split; [exact Pa|]. split; [|exact Ca].
  destruct (K2 x Hx) as (b & Pb & Sb). rewrite Ex in Pb. congruence.
Qed.
Print Assumptions C87_after_hello.

(** ** Examples *)
(** The client connects before the neighbours appear; the second one is lost. *)
Definition h_evs : list event :=
  x_up ++ [EvClock (mkTv 1030 0); EvHello 1 false 102 400; EvIhu 1 110 1200; EvCheckNeighbours; EvClock (mkTv 1090 0); EvHello 1 false 103 400; EvCheckNeighbours;
           EvClock (mkTv 1160 0); EvHello 1 false 104 400; EvCheckNeighbours].
Definition nbrief (e : nnote) : Z * Z * Z * Z * Z :=
  match e with NNb k n a => (match k with Add => 1 | Change => 2 | Flush => 3 end, n, ns_reach a, ns_rxcost a, ns_cost a) end.
Example C87_example : reach x_conf x_boot /\ allowed_run h_evs x_boot /\
  map nbrief (g_run h_evs x_boot) =
    [(1, 1, 0, 65535, 65535); (1, 2, 0, 65535, 65535);
     (2, 1, 32768, 65535, 65535); (2, 1, 49152, 96, 65535); (2, 1, 49152, 96, 96);
     (2, 2, 32768, 65535, 65535); (2, 2, 49152, 96, 65535); (2, 2, 49152, 96, 128);
     (2, 1, 57344, 96, 96); (2, 1, 57344, 96, 110); (2, 2, 768, 65535, 65535); (2, 1, 57344, 96, 110);
     (2, 1, 61440, 96, 110); (3, 2, 0, 65535, 65535); (2, 1, 61440, 96, 110); (2, 1, 63488, 96, 110); (2, 1, 63488, 96, 65535)].
Proof.
  split; [apply x_boot_reach|]. split; [apply allowed_list; vm_compute; reflexivity|]. vm_compute. reflexivity.
Qed.

(** ** What is not so *)
(** Two Hellos and IHUs with timestamps: the Hello of neighbour 1 arrives 0.1 s after the one
    it answers was sent. *)
Definition h_rtt : list event := [EvTimestamp 1 5000; EvRtt 1 1059900000 5000].
Lemma h_rtt_ok : allowed_run h_rtt x_w2.
Proof. split; [exact Logic.I|]. split; [|exact Logic.I]. apply knownb_In. vm_compute. reflexivity. Qed.

(** The costs known to the client are not always the present ones: a RTT has been measured and
    raises the cost of the link, and the client has been told, but of no RTT and of the
    old cost (message.c:1101-1102: the line is sent before the time of the sample is set). *)
Theorem C87_rtt_refuted : exists c w evs P x a i, c_half_life c <> 2 /\ reach c w /\ allowed_run evs w /\
  nsee_all (told_nbs w ++ g_run evs w) npic0 = Some P /\ length (g_run evs w) = 1%nat /\
  In x (w_nbs (run evs w)) /\ P (n_id x) = Some a /\ In i (w_ifs (run evs w)) /\ if_id i = n_if x /\
  valid_rtt (w_now (run evs w)) x = true /\ n_rtt x = 200000 /\ neighbour_cost (w_now (run evs w)) i x = 246 /\
  ns_rtt a = None /\ ns_cost a = 96.
Proof.
  destruct (C87_neighbours x_conf x_w2 h_rtt x_hl x_reach2 h_rtt_ok) as (P & S & K).
  set (w' := run h_rtt x_w2) in *.
  assert (Sx : exists a, option_map (fun P => P 1) (nsee_all (told_nbs x_w2 ++ g_run h_rtt x_w2) npic0) = Some (Some a) /\ ns_rtt a = None /\ ns_cost a = 96).
  { vm_compute. eexists. split; [reflexivity|]. split; reflexivity. }
  destruct Sx as (a & Sa & A1 & A2). rewrite S in Sa. cbn [option_map] in Sa. injection Sa as Pa.
  destruct (nb_if 1 w') as [(x, i)|] eqn:N; [|exfalso; revert N; vm_compute; discriminate].
  assert (Q1 : match nb_if 1 w' with Some (x, i) => valid_rtt (w_now w') x | None => false end = true) by (vm_compute; reflexivity).
  assert (Q2 : match nb_if 1 w' with Some (x, i) => n_rtt x | None => 0 end = 200000) by (vm_compute; reflexivity).
  assert (Q3 : match nb_if 1 w' with Some (x, i) => neighbour_cost (w_now w') i x | None => 0 end = 246) by (vm_compute; reflexivity).
  rewrite N in Q1, Q2, Q3.
  assert (Hw : W [] w') by (destruct (reach_W x_conf x_w2 x_hl x_reach2) as (H & _); apply (proj2 (obs_run h_rtt x_w2 H h_rtt_ok))).
  apply (L_World4.nb_if_iff _ _ _ _ _ Hw) in N. destruct N as (N1 & N2 & N3 & N4).
  exists x_conf, x_w2, h_rtt, P, x, a, i. rewrite N2.
  split; [apply x_hl|]. split; [apply x_reach2|]. split; [apply h_rtt_ok|]. split; [exact S|]. split; [vm_compute; reflexivity|]. fold w'.
  split; [exact N1|]. split; [exact Pa|]. split; [exact N3|]. split; [exact N4|]. split; [exact Q1|]. split; [exact Q2|]. split; [exact Q3|]. split; [exact A1|exact A2].
Qed.
Print Assumptions C87_rtt_refuted.

(** Nor is it told when only the time passes: on an interface that measures the quality of
    links the cost grows from 40 s after the last Hello on. *)
Definition h_if : iface := set_if_flags (Z.lor IF_UP IF_LQ) (x_if 1).
Definition h_w : world := run [EvClock (mkTv 1001 0); EvNeighbour (x_addr 51) 1; EvHello 1 false 100 400; EvHello 1 false 101 400; EvHello 1 false 102 400; EvIhu 1 256 1200]
  (boot x_conf (mkTv 1000 0) [h_if] 17).
Lemma h_reach : reach x_conf h_w.
Proof.
  apply reach_list; [|vm_compute; reflexivity]. apply reach_boot; [repeat constructor; simpl; lia| |unfold tv_ok; simpl; lia|unfold u16_ok; simpl; lia].
  repeat constructor; simpl; lia.
Qed.
Theorem C87_time_refuted : exists c w t P x a i, c_half_life c <> 2 /\ reach c w /\ allowed (EvClock t) w /\
  let w' := run1 (EvClock t) w in
  nsee_all (told_nbs w ++ g_run1 (EvClock t) w) npic0 = Some P /\
  In x (w_nbs w') /\ P (n_id x) = Some a /\ In i (w_ifs w') /\ if_id i = n_if x /\
  ns_cost a < neighbour_cost (w_now w') i x < 65535.
Proof.
  set (ev := EvClock (mkTv 1100 0)). assert (Al : allowed ev h_w) by (apply allowedb_ok; vm_compute; reflexivity).
  destruct (C87_neighbours x_conf h_w [ev] x_hl h_reach (conj Al Logic.I)) as (P & S0 & _).
  assert (S : nsee_all (told_nbs h_w ++ g_run1 ev h_w) npic0 = Some P) by (rewrite <- S0; reflexivity). clear S0.
  assert (Sx : exists a, option_map (fun P => P 1) (nsee_all (told_nbs h_w ++ g_run1 ev h_w) npic0) = Some (Some a) /\
    match nb_if 1 (run1 ev h_w) with Some (x, i) => (ns_cost a <? neighbour_cost (w_now (run1 ev h_w)) i x) && (neighbour_cost (w_now (run1 ev h_w)) i x <? 65535) | None => false end = true).
  { vm_compute. eexists. split; [reflexivity|]. reflexivity. }
  destruct Sx as (a & Sa & Q). rewrite S in Sa. cbn [option_map] in Sa. injection Sa as Pa.
  destruct (nb_if 1 (run1 ev h_w)) as [(x, i)|] eqn:N; [|discriminate]. apply andb_prop in Q.
  assert (Hw : W [] (run1 ev h_w)) by (apply W_run1; [apply (reach_W x_conf h_w x_hl h_reach)|exact Al]).
  apply (L_World4.nb_if_iff _ _ _ _ _ Hw) in N. destruct N as (N1 & N2 & N3 & N4).
  exists x_conf, h_w, (mkTv 1100 0), P, x, a, i. rewrite N2.
  split; [apply x_hl|]. split; [apply h_reach|]. split; [exact Al|]. cbv zeta. fold ev. split; [exact S|]. split; [exact N1|]. split; [exact Pa|].
  split; [exact N3|]. split; [exact N4|]. destruct Q as (Q1 & Q2). split; [apply Z.ltb_lt, Q1|apply Z.ltb_lt, Q2].
Qed.
Print Assumptions C87_time_refuted.

(** C60: after the same sample the routes through the neighbour keep the old cost, although the
    RTT is valid and its penalty is part of the cost of the link. *)
Theorem C60_first_rtt_refuted : exists c w n t1 t2 x i r, c_half_life c <> 2 /\ reach c w /\ allowed (EvRtt n t1 t2) w /\
  let w' := run1 (EvRtt n t1 t2) w in
  In x (w_nbs w') /\ n_id x = n /\ In i (w_ifs w') /\ if_id i = n_if x /\ neighbour_cost (w_now w') i x = 246 /\
  In r (all_routes w') /\ r_neigh r = n /\ now_s w' <= r_time r + r_hold_time r /\ r_cost r = 96 /\ w_ktr w' = w_ktr w.
Proof.
  set (w := run1 (EvTimestamp 1 5000) x_w2). set (ev := EvRtt 1 1059900000 5000).
  assert (R : reach x_conf w) by (apply reach_run; [apply x_reach2|exact Logic.I]).
  assert (Al : allowed ev w) by (apply knownb_In; vm_compute; reflexivity).
  assert (Q : match nb_if 1 (run1 ev w) with Some (x, i) => neighbour_cost (w_now (run1 ev w)) i x | None => 0 end = 246) by (vm_compute; reflexivity).
  destruct (nb_if 1 (run1 ev w)) as [(x, i)|] eqn:N; [|discriminate].
  assert (Hw : W [] (run1 ev w)) by (apply W_run1; [apply (reach_W x_conf w x_hl R)|exact Al]).
  apply (L_World4.nb_if_iff _ _ _ _ _ Hw) in N. destruct N as (N1 & N2 & N3 & N4).
  assert (Hr : existsb (fun r => (r_neigh r =? 1) && (now_s (run1 ev w) <=? r_time r + r_hold_time r) && (r_cost r =? 96)) (all_routes (run1 ev w)) = true) by (vm_compute; reflexivity).
  apply existsb_exists in Hr. destruct Hr as (r & Hr & E). apply andb_prop in E. destruct E as (E & E3). apply andb_prop in E. destruct E as (E1 & E2).
  exists x_conf, w, 1, 1059900000, 5000, x, i, r. split; [apply x_hl|]. split; [exact R|]. split; [exact Al|]. cbv zeta. fold ev.
  split; [exact N1|]. split; [exact N2|]. split; [exact N3|]. split; [exact N4|]. split; [exact Q|]. split; [exact Hr|].
  split; [apply Z.eqb_eq, E1|]. split; [apply Z.leb_le, E2|]. split; [apply Z.eqb_eq, E3|]. vm_compute. reflexivity.
Qed.
Print Assumptions C60_first_rtt_refuted.

(** C36: a neighbour found less than 180 s after the zero of the monotonic clock (in practice the
    boot of the machine) counts as one whose RTT has just been measured to be 0, so the first
    sample, of 0.1 s, is averaged with that instead of being doubled (message.c:1086-1098). *)
Theorem C36_unsampled_refuted : exists c w a b x x', c_half_life c <> 2 /\ reach c w /\
  w = run [EvNeighbour a b; EvTimestamp 1 5000] (boot c (mkTv 20 0) [x_if 1] 17) /\
  In x (w_nbs w) /\ valid_rtt (w_now w) x = true /\ n_rtt x = 0 /\ rtt_sample x 19900000 5000 = Some 100000 /\
  allowed (EvRtt (n_id x) 19900000 5000) w /\ In x' (w_nbs (run1 (EvRtt (n_id x) 19900000 5000) w)) /\ n_rtt x' = 16407.
Proof.
  set (w0 := boot x_conf (mkTv 20 0) [x_if 1] 17). set (w := run [EvNeighbour (x_addr 51) 1; EvTimestamp 1 5000] w0).
  assert (R : reach x_conf w).
  { assert (R0 : reach x_conf w0) by (apply reach_boot; [repeat constructor; simpl; lia| |unfold tv_ok; simpl; lia|unfold u16_ok; simpl; lia]; repeat constructor; simpl; lia).
    apply reach_run; [|exact Logic.I]. apply reach_run; [exact R0|]. apply allowedb_ok. vm_compute. reflexivity. }
  destruct (w_nbs w) as [|x l] eqn:E; [exfalso; revert E; vm_compute; discriminate|].
  assert (Q0 : match w_nbs w with x :: _ => n_id x | [] => 0 end = 1) by (vm_compute; reflexivity).
  assert (Q1 : match w_nbs w with x :: _ => valid_rtt (w_now w) x | [] => false end = true) by (vm_compute; reflexivity).
  assert (Q2 : match w_nbs w with x :: _ => n_rtt x | [] => 1 end = 0) by (vm_compute; reflexivity).
  assert (Q3 : match w_nbs w with x :: _ => rtt_sample x 19900000 5000 | [] => None end = Some 100000) by (vm_compute; reflexivity).
  rewrite E in Q0, Q1, Q2, Q3. set (w' := run1 (EvRtt 1 19900000 5000) w).
  assert (Q' : match w_nbs w' with x :: _ => n_rtt x | [] => 0 end = 16407) by (vm_compute; reflexivity).
  destruct (w_nbs w') as [|x' l'] eqn:E'; [discriminate|].
  exists x_conf, w, (x_addr 51), 1, x, x'. split; [apply x_hl|]. split; [exact R|]. split; [reflexivity|]. rewrite Q0. fold w'. rewrite E, E'.
  split; [left; reflexivity|]. split; [exact Q1|]. split; [exact Q2|]. split; [exact Q3|]. split; [apply knownb_In; vm_compute; reflexivity|]. split; [left; reflexivity|exact Q'].
Qed.
Print Assumptions C36_unsampled_refuted.

(** L_Dead2.v: the time of the next check keeps up with the silence. *)
From Verif Require Import Base M_Util S_Util L_Util M_Filter M_Source M_Types M_Neigh S_Neigh L_Neigh M_State M_Table M_Msg M_Route M_Xroute S_World M_Daemon
  L_Table L_Step L_Update2 L_Daemon L_Inv L_Arm L_Nbs L_Packet3 L_Resend3 M_Check S_Dead L_Dead.
Import M_Daemon.

Lemma sec_us t : tv_ok t -> 1000000 <= us t -> 1 <= tv_sec t.
Proof. unfold tv_ok, us. intros. lia. Qed.
Lemma schedule_ok now tn ms r o : tv_ok now -> 1 <= tv_sec now -> tv_ok tn -> (o = false -> 0 <= tv_sec tn) -> 0 <= ms -> 0 <= r ->
  let t := schedule_check now tn ms r o in
  tv_ok t /\ 1 <= tv_sec t /\ us t <= us now + 1250 * ms /\ ((o = false /\ t = tn) \/ us now <= us t) /\ (o = false -> 1 <= tv_sec tn -> us t <= us tn).
Proof.
  intros Tn Sn Tt So Hm Hr. unfold schedule_check. destruct (roughly_nonneg ms r Hr Hm) as (A & B).
  destruct (timeval_add_msec_us now (roughly ms r) Tn ltac:(lia)) as (C & D).
  remember (timeval_add_msec now (roughly ms r)) as s. cbv zeta.
  assert (Ss : 1 <= tv_sec s) by (clear - Tn Sn C D A B Hm; unfold tv_ok, us in *; lia).
  destruct o.
  - split; [exact C|]. split; [exact Ss|]. split; [lia|]. split; [right; lia|discriminate].
  - unfold timeval_min, timeval_compare. specialize (So eq_refl).
    destruct (tv_sec s =? 0) eqn:E1; [lia|]. destruct (tv_sec tn =? 0) eqn:E2; cbn [orb].
    + split; [exact C|]. split; [exact Ss|]. split; [lia|]. split; [right; lia|intros; lia].
    + match goal with |- context [if ?b then s else tn] => destruct b eqn:E3 end.
      * split; [exact C|]. split; [exact Ss|]. split; [lia|]. split; [right; lia|]. intros _ _.
        clear - E3 Tt C. unfold tv_ok, us in *.
        destruct (tv_sec tn <? tv_sec s) eqn:F1; [lia|]. destruct (tv_sec tn >? tv_sec s) eqn:F2; [lia|].
        destruct (tv_usec tn <? tv_usec s) eqn:F3; [lia|]. destruct (tv_usec tn >? tv_usec s) eqn:F4; lia.
      * split; [exact Tt|]. split; [lia|]. split; [|split; [left; auto|lia]].
        assert (us tn <= us s); [|lia]. clear - E3 Tt C. unfold tv_ok, us in *.
        destruct (tv_sec tn <? tv_sec s) eqn:F1; [lia|]. destruct (tv_sec tn >? tv_sec s) eqn:F2; [lia|].
        destruct (tv_usec tn <? tv_usec s) eqn:F3; [lia|]. destruct (tv_usec tn >? tv_usec s) eqn:F4; lia.
Qed.

Section Dead.
Variable c : conf.
Hypothesis Hl : c_half_life c <> 2.
Variables (a : list Z) (i T I L : Z) (h1 u0 : hist).
Hypothesis HI : 1 <= I < 65536.
Hypothesis HL : 0 <= L.
Hypothesis HT : 1000000 <= T.
Hypothesis H1 : hist_ok h1.
Hypothesis H1i : h_interval h1 = I.
Hypothesis H1t : us (h_time h1) = T.
Hypothesis H0 : hist_ok u0.

Definition aged (ct : timeval) (x : neigh) : Prop := exists es eu, silent es /\ silent eu /\
  ((n_hello x = hrun es h1 /\ n_uhello x = hrun eu u0 /\ us ct = T) \/
   (n_hello x = fst (update_hist ct (hrun es h1) (-1) 0) /\ n_uhello x = fst (update_hist ct (hrun eu u0) (-1) 0) /\ h_reach (n_hello x) <> 0)).
Lemma aged_runs ct x : tv_ok ct -> aged ct x -> exists es eu, silent es /\ silent eu /\ n_hello x = hrun es h1 /\ n_uhello x = hrun eu u0.
Proof.
  intros Tc (es & eu & S1 & S2 & [(A & B & _)|(A & B & _)]); [exists es, eu; auto|].
  exists (es ++ [EvCheck ct]), (eu ++ [EvCheck ct]). rewrite !hrun_app. split; [apply silent_app; auto|]. split; [apply silent_app; auto|]. auto.
Qed.
Lemma aged_interval es : silent es -> h_interval (hrun es h1) = I.
Proof. intros S. destruct (silent_run es h1 H1 ltac:(lia) S) as (k & _ & E & _). congruence. Qed.

Definition dinv (s : world * timeval) : Prop :=
  tv_ok (snd s) /\ 1 <= tv_sec (snd s) /\ T <= us (w_now (fst s)) <= Z.max T (us (snd s) + L) /\
  exists ct, tv_ok ct /\ T <= us ct <= us (w_now (fst s)) /\
    forall x, In x (w_nbs (fst s)) -> is_nb a i x -> aged ct x /\ us (snd s) <= us ct + 18750 * I.

Lemma dinv_step s e : reach c (fst s) -> allowed (fst e) (fst s) -> 0 <= snd e -> timely L (fst e) (fst s) (snd s) -> mute a i (fst e) (fst s) ->
  dinv s -> dinv (trun1 e s).
Proof.
  destruct s as [w tn], e as [ev r]. cbn [fst snd]. intros R A Hr Tm Mu (D1 & D2 & D3 & ct & D4 & D5 & D6). unfold trun1, dinv. cbn [fst snd] in *.
  destruct (reach_W c w Hl R) as (Hw & _). pose proof (rg_now _ (reach_rng c w Hl R)) as Nw.
  assert (Ns : 1 <= tv_sec (w_now w)) by (apply sec_us; [exact Nw|lia]).
  assert (Dec : ev = EvCheckNeighbours \/ ev <> EvCheckNeighbours) by (destruct ev; try (right; discriminate); left; reflexivity).
  destruct Dec as [->|Ne].
  - cbn [run1 check_at]. destruct (check_nbs w (W_nbs _ _ Hw)) as (M0 & M). destruct (a_check w) as (En & _). rewrite En.
    set (ms := Z.max (Z.quot (3 * fst (check_neighbours w)) 2) 10).
    destruct (schedule_ok (w_now w) tn ms r true Nw Ns D1 ltac:(discriminate) ltac:(lia) Hr) as (S1 & S2 & S3 & S4 & _).
    destruct S4 as [(F & _)|S4]; [discriminate|].
    split; [exact S1|]. split; [exact S2|]. split; [lia|]. exists (w_now w). split; [exact Nw|]. split; [lia|].
    intros x' Hx K. destruct (M x' Hx) as (x & b & X1 & X2 & X3 & _). destruct (check_facts _ _ _ _ X2) as (_ & F1 & F2 & F3 & F4 & F5).
    assert (Kx : is_nb a i x) by (destruct K; split; congruence).
    destruct (aged_runs ct x D4 (proj1 (D6 x X1 Kx))) as (es & eu & E1 & E2 & E3 & E4).
    rewrite E3 in F3. rewrite E4 in F4. split.
    + exists es, eu. split; [exact E1|]. split; [exact E2|]. right. auto.
    + assert (Iv : h_interval (n_hello x') = I) by (rewrite F3, <- hrun_app; apply aged_interval, silent_app; auto).
      rewrite Iv in X3. specialize (X3 ltac:(lia)). assert (ms <= 15 * I); [|lia]. unfold ms.
      assert (Z.quot (3 * fst (check_neighbours w)) 2 <= 15 * I); [|lia]. apply Z.quot_le_upper_bound; lia.
  - assert (Nb : forall x', In x' (w_nbs (run1 ev w)) -> is_nb a i x' -> aged ct x' /\ us tn <= us ct + 18750 * I).
    { intros x' Hx K. destruct (mute_nbs a i w ev (W_nbs _ _ Hw) Mu Ne x' Hx K) as (x & X1 & X2 & X3 & X4 & _).
      destruct (D6 x X1 X2) as (G & G2). split; [|exact G2]. destruct G as (es & eu & E1 & E2 & E). exists es, eu. rewrite X3, X4. auto. }
    assert (Gen : (tv_ok (check_at ev r w tn) /\ 1 <= tv_sec (check_at ev r w tn)) /\ us (check_at ev r w tn) <= us tn /\
                  (check_at ev r w tn = tn \/ us (w_now w) <= us (check_at ev r w tn))).
    { assert (Sch : forall ms, 0 <= ms -> let t := schedule_check (w_now w) tn ms r false in (tv_ok t /\ 1 <= tv_sec t) /\ us t <= us tn /\ (t = tn \/ us (w_now w) <= us t)).
      { intros ms Hm. destruct (schedule_ok (w_now w) tn ms r false Nw Ns D1 ltac:(lia) Hm Hr) as (S1 & S2 & _ & S4 & S5). cbv zeta.
        split; [auto|]. split; [apply S5; auto|]. destruct S4 as [(_ & S4)|S4]; auto. }
      destruct ev; cbn [check_at]; try (split; [split; [exact D1|exact D2]|split; [lia|left; reflexivity]]).
      - destruct (interval >? 0) eqn:E; [apply Sch; lia|]. split; [split; [exact D1|exact D2]|split; [lia|left; reflexivity]].
      - destruct (interval >? 0) eqn:E; [apply Sch; lia|]. split; [split; [exact D1|exact D2]|split; [lia|left; reflexivity]].
      - contradiction. }
    destruct Gen as ((G1 & G2) & G3 & G4). split; [exact G1|]. split; [exact G2|].
    destruct (run1_now w ev Hw A) as [E|(t & ->)].
    + rewrite E. split; [destruct G4 as [->|G4]; lia|]. exists ct. split; [exact D4|]. split; [exact D5|].
      intros x' Hx K. destruct (Nb x' Hx K) as (N1 & N2). split; [exact N1|lia].
    + cbn [timely check_at run1 w_now set_w_now] in *. split; [lia|]. exists ct. split; [exact D4|]. split; [lia|]. exact Nb.
Qed.
Lemma dinv_run es : forall s, reach c (fst s) -> silence L a i es s -> dinv s -> dinv (trun es s) /\ reach c (fst (trun es s)).
Proof.
  induction es as [|e es IH]; intros s R S D; [auto|]. destruct S as (A & B & C & M & S). cbn [trun fold_left].
  apply IH; [|exact S|apply dinv_step; auto]. apply reach_run; auto.
Qed.

(** What is left of the window once the silence has lasted. *)
Lemma dinv_late s m : dinv s -> 0 <= m <= 16 ->
  us (w_now (fst s)) > T + (10 * m + 7) * (1000 * I) + 18750 * I + 1000 + L ->
  forall x, In x (w_nbs (fst s)) -> is_nb a i x ->
    h_reach (n_hello x) <> 0 /\ (forall j, 0 <= j < m -> slot_heard (n_hello x) j = false) /\
    (h_interval u0 <= I -> us (h_time u0) <= T -> forall j, 0 <= j < m -> slot_heard (n_uhello x) j = false).
Proof.
  intros (D1 & D2 & D3 & ct & D4 & D5 & D6) Hm Hn x Hx K. destruct (D6 x Hx K) as ((es & eu & S1 & S2 & E) & D7).
  assert (Hc : us ct > T + (10 * m + 7) * (1000 * I) + 1000) by lia.
  destruct E as [(_ & _ & E)|(E1 & E2 & E3)]; [exfalso; nia|]. split; [exact E3|]. unfold slot_heard. split.
  - intros j Hj. rewrite E1. destruct (silent_shift es ct h1 m H1 D4 S1 ltac:(lia) Hm) as (k & K1 & ->); [rewrite H1i, H1t; lia|].
    apply (shiftr_slots _ _ m); auto. apply H1.
  - intros Iu Tu j Hj. rewrite E2. destruct (Z.eq_dec (h_interval u0) 0) as [Z0|Z0].
    + rewrite silent_reset by auto. apply Z.bits_0.
    + assert (h_interval u0 > 0) by (destruct H0 as (_ & X & _); lia).
      destruct (silent_shift eu ct u0 m H0 D4 S2 ltac:(lia) Hm) as (k & K1 & ->); [nia|].
      apply (shiftr_slots _ _ m); auto. apply H0.
Qed.
End Dead.

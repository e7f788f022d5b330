(** L_Dead.v: a silent neighbour loses its Hellos one by one, and is forgotten. *)
From Verif Require Import Base M_Util S_Util L_Util M_Filter M_Source M_Types M_Neigh S_Neigh L_Neigh M_State M_Table M_Msg M_Route M_Xroute S_World M_Daemon
  L_Table L_Step L_Update2 L_Daemon L_Inv L_Arm L_Nbs L_Packet3 L_Resend3 M_Check S_Dead.
Import M_Daemon.

(** ** Windows *)
(** A check at least [m] intervals and seven tenths after the last Hello has shifted the
    window by at least [m]. *)
Lemma silent_shift : forall es now h m, hist_ok h -> tv_ok now -> silent es -> h_interval h > 0 -> 0 <= m <= 16 ->
  us now - us (h_time h) >= (10 * m + 7) * (1000 * h_interval h) + 1000 ->
  exists k, m <= k /\ h_reach (fst (update_hist now (hrun es h) (-1) 0)) = Z.shiftr (h_reach h) k.
Proof.
  intros es now h0 m Hh Hn S I Hm D.
  destruct (silent_run es _ Hh I S) as (k & K1 & K2 & K3 & K4 & K5).
  assert (Ok : hist_ok (hrun es h0)).
  { apply hrun_ok; auto. eapply Forall_impl; [|exact S]. intros e He. destruct e; [contradiction|exact He]. }
  remember (hrun es h0) as h.
  assert (Iv : 0 < h_interval h0 < 65536) by (destruct Hh; lia).
  assert (Big : forall k, 16 <= k -> Z.shiftr (h_reach h0) k = 0).
  { intros j Hj. apply Z.bits_inj'. intros i Hi. rewrite Z.shiftr_spec by lia. rewrite Z.bits_0. apply tb_high; [apply Hh|lia]. }
  rewrite check_step by auto.
  destruct (missed_of now h <=? 0) eqn:E0; cbn [fst h_reach].
  - exists k. split; [|exact K5]. destruct (Z_le_gt_dec m k) as [g|g]; [exact g|exfalso].
    assert (M : missed_of now h >= m - k); [|lia].
    unfold missed_of. rewrite K2. replace (h_interval h0 >? 0) with true by lia.
    assert (Q : timeval_minus_msec now (h_time h) >= (10 * m + 7 - 10 * k) * h_interval h0).
    { apply minus_msec_ge; auto; [|rewrite K3; nia]. nia. }
    rewrite Z.quot_div_nonneg by nia.
    assert (m - k <= (timeval_minus_msec now (h_time h) - h_interval h0 * 7) / (h_interval h0 * 10)); [|lia].
    apply Z.div_le_lower_bound; nia.
  - assert (M : missed_of now h >= m - k).
    { destruct (Z_le_gt_dec m k) as [g|g]; [lia|].
      unfold missed_of. rewrite K2. replace (h_interval h0 >? 0) with true by lia.
      assert (Q : timeval_minus_msec now (h_time h) >= (10 * m + 7 - 10 * k) * h_interval h0).
      { apply minus_msec_ge; auto; [|rewrite K3; nia]. nia. }
      rewrite Z.quot_div_nonneg by nia.
      assert (m - k <= (timeval_minus_msec now (h_time h) - h_interval h0 * 7) / (h_interval h0 * 10)); [|lia].
      apply Z.div_le_lower_bound; nia. }
    destruct (missed_of now h >=? 16) eqn:E.
    + exists 16. split; [lia|]. symmetry. apply Big. lia.
    + exists (k + missed_of now h). split; [lia|]. rewrite K5, Z.shiftr_shiftr by lia. f_equal.
Qed.
(** A stream without interval is gone at the first check. *)
Lemma silent_reset : forall es now h, hist_ok h -> tv_ok now -> silent es -> h_interval h = 0 ->
  h_reach (fst (update_hist now (hrun es h) (-1) 0)) = 0.
Proof.
  induction es as [|e es IH]; intros now h Hh Hn S I.
  - cbn [hrun fold_left]. destruct Hh as (_ & _ & _ & T & _). rewrite check_step by auto. unfold missed_of. rewrite I. reflexivity.
  - inversion S; subst. destruct e as [|t]; [contradiction|]. cbn [hrun fold_left hstep].
    apply IH; auto; [apply check_hist_ok; auto|]. destruct Hh as (_ & _ & _ & T & _).
    rewrite check_step by auto. destruct (_ <=? 0); exact I.
Qed.
Lemma silent_app es t : silent es -> tv_ok t -> silent (es ++ [EvCheck t]).
Proof. intros S T. apply Forall_app. split; [exact S|]. constructor; [exact T|constructor]. Qed.
Lemma hrun_app es t h : hrun (es ++ [EvCheck t]) h = fst (update_hist t (hrun es h) (-1) 0).
Proof. unfold hrun. rewrite fold_left_app. reflexivity. Qed.
Lemma shiftr_slots r k m j : 0 <= r < 65536 -> m <= k -> 0 <= j < m -> Z.testbit (Z.shiftr r k) (15 - j) = false.
Proof.
  intros R K J. destruct (Z_le_gt_dec 0 (15 - j)) as [G|G]; [|apply Z.testbit_neg_r; lia].
  rewrite Z.shiftr_spec by lia. apply tb_high; lia.
Qed.

(** ** The list of neighbours *)
Lemma check_facts now x x' b : check_neigh1 now x = Some (x', b) ->
  n_id x' = n_id x /\ n_addr x' = n_addr x /\ n_if x' = n_if x /\
  n_hello x' = fst (update_hist now (n_hello x) (-1) 0) /\ n_uhello x' = fst (update_hist now (n_uhello x) (-1) 0) /\
  h_reach (n_hello x') <> 0.
Proof.
  intros H. destruct (check_neigh1_keeps _ _ _ _ H) as (A & B & C). split; [exact A|]. split; [exact C|]. split; [exact B|].
  unfold check_neigh1 in H. rewrite (surjective_pairing (update_hist now (n_hello x) (-1) 0)), (surjective_pairing (update_hist now (n_uhello x) (-1) 0)) in H.
  destruct (neigh_dead _ _) eqn:D; [discriminate|].
  destruct (reset_txcost _ _) as [n2 c3] eqn:R. injection H as -> _.
  assert (X : n_hello x' = fst (update_hist now (n_hello x) (-1) 0) /\ n_uhello x' = fst (update_hist now (n_uhello x) (-1) 0)).
  { unfold reset_txcost in R. repeat match type of R with context [if ?b then _ else _] => destruct b end; injection R as <- _; auto. }
  destruct X as (X1 & X2). split; [exact X1|]. split; [exact X2|]. rewrite X1.
  unfold neigh_dead in D. cbn [n_hello set_n_hello set_n_uhello] in D. apply Bool.orb_false_iff in D. destruct D as (D & _).
  apply Bool.orb_false_iff in D. destruct D as (D & _). lia.
Qed.
Definition in_time (m : Z) (x : neigh) : Prop :=
  (h_interval (n_hello x) > 0 -> m <= 10 * h_interval (n_hello x)) /\ (n_ihu_interval x > 0 -> m <= 10 * n_ihu_interval x).
Lemma check_msecs_le x m : check_msecs x m <= m /\ in_time (check_msecs x m) x.
Proof.
  unfold in_time, check_msecs.
  destruct (h_interval (n_hello x) >? 0) eqn:E1; destruct (h_interval (n_uhello x) >? 0) eqn:E2; destruct (n_ihu_interval x >? 0) eqn:E3; lia.
Qed.

Lemma nd_map n f w : (forall x, In x (w_nbs w) -> n_id x = n -> n_id (f x) = n) -> map n_id (w_nbs (map_nb n f w)) = map n_id (w_nbs w).
Proof.
  intros H. unfold map_nb. cbn [w_nbs set_w_nbs]. rewrite map_map. apply map_ext_in. intros x Hx.
  destruct (n_id x =? n) eqn:E; [|reflexivity]. rewrite (H x Hx) by lia. lia.
Qed.
Lemma check1_nbs ms w n : NoDup (map n_id (w_nbs w)) ->
  let s := check_neighbour1 (ms, w) n in
  NoDup (map n_id (w_nbs (snd s))) /\ w_now (snd s) = w_now w /\ fst s <= ms /\
  forall x', In x' (w_nbs (snd s)) -> exists x, In x (w_nbs w) /\ n_id x' = n_id x /\
    (n_id x <> n -> x' = x) /\
    (n_id x = n -> exists b, check_neigh1 (w_now w) x = Some (x', b) /\ in_time (fst s) x').
Proof.
  intros Nd s. assert (Hn : w_now (snd s) = w_now w) by (apply (a_check1 (ms, w) n)). revert Hn. unfold s, check_neighbour1. clear s.
  destruct (get_nb n w) as [nb|] eqn:G.
  2:{ cbn [fst snd]. intros _. split; [exact Nd|]. split; [reflexivity|]. split; [lia|]. intros x' Hx. exists x'. split; [exact Hx|]. split; [reflexivity|].
      split; [reflexivity|]. intros E. exfalso. pose proof (find_none _ _ G x' Hx) as N. cbv beta in N. lia. }
  apply find_some in G. destruct G as (Gi & Ge).
  assert (U : forall x, In x (w_nbs w) -> n_id x = n -> x = nb) by (intros x Hx E; eapply NoDup_map_inj; [exact Nd|auto|auto|lia]).
  destruct (check_neigh1 (w_now w) nb) as [[nb' ch]|] eqn:C; cbn [fst snd]; intros Hn.
  - destruct (check_facts _ _ _ _ C) as (C1 & C2 & C3 & _). rewrite nk_unm.
    split; [rewrite nd_map; [exact Nd|intros; lia]|]. split; [exact Hn|].
    split; [apply check_msecs_le|]. intros x' Hx. unfold map_nb in Hx. cbn [w_nbs set_w_nbs] in Hx. apply in_map_iff in Hx. destruct Hx as (x & E & Hx).
    exists x. split; [exact Hx|]. destruct (n_id x =? n) eqn:Ex.
    + subst x'. rewrite (U x Hx) in * by lia. split; [exact C1|]. split; [lia|]. intros _. exists ch. split; [exact C|]. apply check_msecs_le.
    + subst x'. split; [reflexivity|]. split; [reflexivity|lia].
  - unfold flush_neighbour in *. cbn [w_nbs set_w_nbs]. unfold flush_neighbour_routes. rewrite nk_flush_sel.
    match goal with |- context [map_nb n ?f w] => set (g := f) end.
    assert (E : map n_id (w_nbs (map_nb n g w)) = map n_id (w_nbs w)) by (apply nd_map; intros x _ Hx; exact Hx).
    split.
    { clear - Nd E. rewrite <- E in Nd. clear E. induction (w_nbs (map_nb n g w)) as [|a l IH]; cbn [filter map]; [constructor|].
      cbn [map] in Nd. inversion Nd; subst. destruct (negb (n_id a =? n)); auto. cbn [map]. constructor; auto.
      intros F. apply H1. apply in_map_iff in F. destruct F as (y & Ey & Hy). apply filter_In in Hy. rewrite <- Ey. apply in_map, Hy. }
    split; [exact Hn|]. split; [lia|]. intros x' Hx. apply filter_In in Hx. destruct Hx as (Hx & Ne).
    unfold map_nb in Hx. cbn [w_nbs set_w_nbs] in Hx. apply in_map_iff in Hx. destruct Hx as (x & Ex & Hx).
    destruct (n_id x =? n) eqn:Ey.
    { exfalso. subst x'. unfold g in Ne. cbn [n_id set_n_uhello set_n_hello] in Ne. rewrite Ey in Ne. discriminate. }
    subst x'. exists x. split; [exact Hx|]. split; [reflexivity|]. split; [reflexivity|lia].
Qed.
Lemma checks_nbs l : forall ms w, NoDup (map n_id (w_nbs w)) -> NoDup l ->
  let s := fold_left check_neighbour1 l (ms, w) in
  w_now (snd s) = w_now w /\ fst s <= ms /\
  forall x', In x' (w_nbs (snd s)) -> exists x, In x (w_nbs w) /\ n_id x' = n_id x /\
    (~ In (n_id x) l -> x' = x) /\
    (In (n_id x) l -> exists b, check_neigh1 (w_now w) x = Some (x', b) /\ in_time (fst s) x').
Proof.
  induction l as [|n l IH]; intros ms w Nd Nl; cbn [fold_left].
  - cbn [fst snd]. split; [reflexivity|]. split; [lia|]. intros x' Hx. exists x'. split; [exact Hx|]. split; [reflexivity|]. split; [reflexivity|intros []].
  - destruct (check1_nbs ms w n Nd) as (A & B & C & D). destruct (check_neighbour1 (ms, w) n) as [ms1 w1]. cbn [fst snd] in *.
    inversion Nl; subst. destruct (IH ms1 w1 A H2) as (I1 & I2 & I3). split; [congruence|]. split; [lia|].
    intros x' Hx. destruct (I3 x' Hx) as (y & Y1 & Y2 & Y3 & Y4). destruct (D y Y1) as (x & X1 & X2 & X3 & X4).
    exists x. split; [exact X1|]. split; [congruence|]. split.
    + intros F. assert (N1 : n_id x <> n) by (intros E; apply F; left; auto). rewrite <- (X3 N1). apply Y3. rewrite X2. intros G. apply F. right. exact G.
    + intros F. destruct (Z.eq_dec (n_id x) n) as [E|E].
      * destruct (X4 E) as (b & Cx & M). assert (x' = y) as -> by (apply Y3; rewrite X2, E; exact H1). exists b. split; [exact Cx|]. clear - M I2. unfold in_time in *. lia.
      * pose proof (X3 E) as ->. rewrite B in Y4. apply Y4. destruct F as [F|F]; [exfalso; auto|exact F].
Qed.
Lemma check_nbs w : NoDup (map n_id (w_nbs w)) ->
  fst (check_neighbours w) <= 50000 /\
  forall x', In x' (w_nbs (snd (check_neighbours w))) -> exists x b, In x (w_nbs w) /\ check_neigh1 (w_now w) x = Some (x', b) /\
    in_time (fst (check_neighbours w)) x'.
Proof.
  intros Nd. destruct (checks_nbs (map n_id (w_nbs w)) 50000 w Nd Nd) as (_ & A & B). split; [exact A|].
  intros x' Hx. destruct (B x' Hx) as (x & X1 & _ & _ & X2). destruct (X2 (in_map n_id _ _ X1)) as (b & Y). exists x, b. split; [exact X1|exact Y].
Qed.

Lemma in_map_nb n f w x' : In x' (w_nbs (map_nb n f w)) -> exists x, In x (w_nbs w) /\ ((n_id x = n /\ x' = f x) \/ (n_id x <> n /\ x' = x)).
Proof.
  unfold map_nb. cbn [w_nbs set_w_nbs]. rewrite in_map_iff. intros (x & E & H). exists x. split; [exact H|].
  destruct (n_id x =? n) eqn:X; [left|right]; split; auto; lia.
Qed.
(** What a check does to the cost of transmission *)
Lemma check_tx now x x' b : check_neigh1 now x = Some (x', b) ->
  n_ihu_interval x' = n_ihu_interval x /\
  ((n_txcost x' = 65535 /\ b = true) \/
   (n_txcost x' = n_txcost x /\ n_ihu_time x' = n_ihu_time x /\
    let delay := timeval_minus_msec now (n_ihu_time x) in
    (delay < n_ihu_interval x * 30 \/ (delay < 180000 /\ (0 < n_ihu_interval x -> delay < n_ihu_interval x * 100))))).
Proof.
  intros H. unfold check_neigh1 in H.
  rewrite (surjective_pairing (update_hist now (n_hello x) (-1) 0)), (surjective_pairing (update_hist now (n_uhello x) (-1) 0)) in H.
  destruct (neigh_dead _ _); [discriminate|]. unfold reset_txcost in H. cbn [n_ihu_time n_ihu_interval n_hello set_n_hello set_n_uhello] in H.
  remember (timeval_minus_msec now (n_ihu_time x)) as delay.
  destruct ((n_ihu_interval x >? 0) && (delay <? n_ihu_interval x * 10 * 3)) eqn:E1.
  - injection H as <- _. cbn. split; [reflexivity|]. right. split; [reflexivity|]. split; [reflexivity|]. left. lia.
  - match type of H with context [if ?c then _ else _] => destruct c eqn:E2 end; injection H as <- <-; cbn.
    + split; [reflexivity|]. left. split; [reflexivity|]. rewrite !Bool.orb_true_r. reflexivity.
    + split; [reflexivity|]. right. split; [reflexivity|]. split; [reflexivity|]. right. lia.
Qed.
Definition same_h (a : list Z) (i : Z) (w : world) (x' : neigh) : Prop :=
  exists x, In x (w_nbs w) /\ is_nb a i x /\ n_hello x' = n_hello x /\ n_uhello x' = n_uhello x /\ n_id x' = n_id x.
(** Nothing but a Hello or a check touches the windows. *)
Lemma mute_nbs a i w ev : NoDup (map n_id (w_nbs w)) -> mute a i ev w -> ev <> EvCheckNeighbours ->
  forall x', In x' (w_nbs (run1 ev w)) -> is_nb a i x' -> same_h a i w x'.
Proof.
  intros Nd M Ne. assert (Id : forall x', In x' (w_nbs w) -> is_nb a i x' -> same_h a i w x') by (intros x' H K; exists x'; auto).
  assert (One : forall n x y, In x (w_nbs w) -> In y (w_nbs w) -> n_id x = n -> n_id y = n -> x = y)
    by (intros n x y Hx Hy E F; eapply NoDup_map_inj; [exact Nd|auto|auto|congruence]).
  destruct ev; cbn [run1] in *; try (intros x' Hx K; apply Id; [|exact K]; exact Hx).
  - rewrite nk_update. exact Id.
  - rewrite nk_rnr. exact Id.
  - rewrite nk_recv_request. exact Id.
  - rewrite nk_request. exact Id.
  - unfold recv_hello, on_nb. destruct (get_nb n w) as [nb|] eqn:G; [|exact Id]. apply find_some in G. destruct G as (G1 & G2).
    match goal with |- context [let '(_, _) := ?t in _] => destruct t as [nb' ch] eqn:F end. rewrite nk_unm. intros x' Hx K. apply in_map_nb in Hx.
    destruct Hx as (x & Hx & [(E & ->)|(_ & ->)]); [|apply Id; auto]. exfalso.
    cbn [mute] in M. apply (M x Hx E). rewrite (One n x nb Hx G1 E ltac:(lia)).
    assert (S : n_addr nb' = n_addr nb /\ n_if nb' = n_if nb) by (destruct unicast; destruct (update_hist _ _ _ _); injection F as <- _; auto).
    destruct K as (K1 & K2), S as (S1 & S2). split; congruence.
  - intros x' Hx K. apply in_map_nb in Hx. destruct Hx as (x & Hx & [(E & ->)|(_ & ->)]); [|apply Id; auto]. exists x. auto.
  - unfold recv_ihu, on_nb. destruct (get_nb n w) as [nb|] eqn:G; [|exact Id]. apply find_some in G. destruct G as (G1 & G2). rewrite nk_unm.
    intros x' Hx K. apply in_map_nb in Hx. destruct Hx as (x & Hx & [(E & ->)|(_ & ->)]); [|apply Id; auto]. exists nb. auto.
  - unfold recv_rtt. destruct (nb_if n w) as [[nb j]|] eqn:G; [|exact Id]. unfold nb_if in G. destruct (get_nb n w) as [y|] eqn:Gy; [|discriminate].
    destruct (get_if _ _); [|discriminate]. injection G as -> _. apply find_some in Gy. destruct Gy as (G1 & G2).
    destruct (rtt_sample _ _ _); [|exact Id]. cbv zeta. intros x' Hx K. apply in_map_nb in Hx. destruct Hx as (x & Hx & Cx). rewrite nk_unm in Hx.
    apply in_map_nb in Hx. destruct Hx as (y & Hy & Cy). destruct Cx as [(E & ->)|(E & ->)]; destruct Cy as [(F & ->)|(F & ->)].
    + exists nb. auto.
    + exists y. auto.
    + exists nb. auto.
    + apply Id; auto.
  - unfold find_neighbour. destruct (existsb _ _) eqn:Ex; [exact Id|]. cbn [w_nbs set_w_nbs]. intros x' [<-|Hx] K; [|apply Id; auto].
    exfalso. destruct K as (K1 & K2). cbn in K1, K2. destruct (M K1 K2) as (x & Hx & X1 & X2).
    rewrite <- not_true_iff_false in Ex. apply Ex. apply existsb_exists. exists x. split; [exact Hx|]. rewrite X1, X2, K1, K2, beq_refl, Z.eqb_refl. reflexivity.
  - intros x' Hx K. apply in_map_nb in Hx. destruct Hx as (x & Hx & [(E & ->)|(_ & ->)]); [|apply Id; auto]. exists x. auto.
  - contradiction.
  - rewrite nk_uim. exact Id.
  - unfold flush_interface_routes. rewrite nk_flush_sel. exact Id.
  - unfold expire_routes. rewrite nk_expire. exact Id.
  - rewrite nk_notify. exact Id.
  - rewrite nk_scan. exact Id.
  - rewrite nk_flushupdates. exact Id.
  - destruct d; [rewrite nk_sui|rewrite nk_full]; exact Id.
  - rewrite nk_sua. exact Id.
  - rewrite nk_self. exact Id.
  - rewrite nk_retr. exact Id.
  - rewrite nk_smr. exact Id.
  - rewrite nk_resend. exact Id.
  - rewrite nk_expire_resend. exact Id.
  - unfold flush_all_routes. rewrite nk_fal. exact Id.
Qed.

(** Nothing but an IHU or a check touches the cost of transmission. *)
Definition same_t (a : list Z) (i : Z) (w : world) (x' : neigh) : Prop :=
  exists x, In x (w_nbs w) /\ is_nb a i x /\ n_txcost x' = n_txcost x /\ n_ihu_time x' = n_ihu_time x /\
    n_ihu_interval x' = n_ihu_interval x /\ n_id x' = n_id x.
Lemma ihu_nbs a i w ev : NoDup (map n_id (w_nbs w)) -> no_ihu a i ev w -> ev <> EvCheckNeighbours ->
  forall x', In x' (w_nbs (run1 ev w)) -> is_nb a i x' ->
    same_t a i w x' \/ (n_txcost x' = 65535 /\ n_id x' = fresh_nb w /\ ev = EvNeighbour a i).
Proof.
  intros Nd M Ne. assert (Id : forall x', In x' (w_nbs w) -> is_nb a i x' -> same_t a i w x' \/ (n_txcost x' = 65535 /\ n_id x' = fresh_nb w /\ ev = EvNeighbour a i))
    by (intros x' H K; left; exists x'; repeat (split; [solve [auto]|]); reflexivity).
  assert (One : forall n x y, In x (w_nbs w) -> In y (w_nbs w) -> n_id x = n -> n_id y = n -> x = y)
    by (intros n x y Hx Hy E F; eapply NoDup_map_inj; [exact Nd|auto|auto|congruence]).
  destruct ev; cbn [run1] in *; try (intros x' Hx K; apply Id; [|exact K]; exact Hx).
  - rewrite nk_update. exact Id.
  - rewrite nk_rnr. exact Id.
  - rewrite nk_recv_request. exact Id.
  - rewrite nk_request. exact Id.
  - unfold recv_hello, on_nb. destruct (get_nb n w) as [nb|] eqn:G; [|exact Id]. apply find_some in G. destruct G as (G1 & G2).
    match goal with |- context [let '(_, _) := ?t in _] => destruct t as [nb' ch] eqn:F end. rewrite nk_unm. intros x' Hx K. apply in_map_nb in Hx.
    destruct Hx as (x & Hx & [(E & ->)|(_ & ->)]); [|apply Id; auto]. left. exists nb.
    destruct unicast; destruct (update_hist _ _ _ _); injection F as <- _; auto 10.
  - intros x' Hx K. apply in_map_nb in Hx. destruct Hx as (x & Hx & [(E & ->)|(_ & ->)]); [|apply Id; auto]. left. exists x. auto 10.
  - unfold recv_ihu, on_nb. destruct (get_nb n w) as [nb|] eqn:G; [|exact Id]. apply find_some in G. destruct G as (G1 & G2). rewrite nk_unm.
    intros x' Hx K. apply in_map_nb in Hx. destruct Hx as (x & Hx & [(E & ->)|(_ & ->)]); [|apply Id; auto]. exfalso. apply (M nb G1 ltac:(lia)). exact K.
  - unfold recv_rtt. destruct (nb_if n w) as [[nb j]|] eqn:G; [|exact Id]. unfold nb_if in G. destruct (get_nb n w) as [y|] eqn:Gy; [|discriminate].
    destruct (get_if _ _); [|discriminate]. injection G as -> _. apply find_some in Gy. destruct Gy as (G1 & G2).
    destruct (rtt_sample _ _ _); [|exact Id]. cbv zeta. intros x' Hx K. apply in_map_nb in Hx. destruct Hx as (x & Hx & Cx). rewrite nk_unm in Hx.
    apply in_map_nb in Hx. destruct Hx as (y & Hy & Cy). destruct Cx as [(E & ->)|(E & ->)]; destruct Cy as [(F & ->)|(F & ->)].
    + left. exists nb. auto 10.
    + left. exists y. auto 10.
    + left. exists nb. auto 10.
    + apply Id; auto.
  - unfold find_neighbour. destruct (existsb _ _) eqn:Ex; [exact Id|]. cbn [w_nbs set_w_nbs]. intros x' [<-|Hx] K; [|apply Id; auto].
    right. destruct K as (K1 & K2). cbn in K1, K2. split; [reflexivity|]. split; [reflexivity|]. congruence.
  - intros x' Hx K. apply in_map_nb in Hx. destruct Hx as (x & Hx & [(E & ->)|(_ & ->)]); [|apply Id; auto]. left. exists x. auto 10.
  - contradiction.
  - rewrite nk_uim. exact Id.
  - unfold flush_interface_routes. rewrite nk_flush_sel. exact Id.
  - unfold expire_routes. rewrite nk_expire. exact Id.
  - rewrite nk_notify. exact Id.
  - rewrite nk_scan. exact Id.
  - rewrite nk_flushupdates. exact Id.
  - destruct d; [rewrite nk_sui|rewrite nk_full]; exact Id.
  - rewrite nk_sua. exact Id.
  - rewrite nk_self. exact Id.
  - rewrite nk_retr. exact Id.
  - rewrite nk_smr. exact Id.
  - rewrite nk_resend. exact Id.
  - rewrite nk_expire_resend. exact Id.
  - unfold flush_all_routes. rewrite nk_fal. exact Id.
Qed.

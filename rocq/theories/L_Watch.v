(** L_Watch.v: the client's picture of the neighbours, event by event. *)
From Verif Require Import Base M_Util S_Util L_Util M_Filter M_Source M_Types M_Neigh S_Neigh L_Neigh M_State M_Table M_Msg M_Route M_Xroute S_World M_Daemon
  L_Msg L_Table L_Step L_Trace L_Chain L_Chain2 L_Chain3 L_Update2 L_Daemon L_World4 L_Inv L_Nbs L_Resend4 M_Check S_Dead L_Dead M_Monitor M_Watch S_Watch.
Import M_Daemon.

Lemma nsee_app es es' P : nsee_all (es ++ es') P = match nsee_all es P with Some P' => nsee_all es' P' | None => None end.
Proof. revert P. induction es as [|e es IH]; intros P; [reflexivity|]. cbn. destruct (nsee P e); [apply IH|reflexivity]. Qed.
Lemma nput_same n a P : nput n a P n = a.
Proof. unfold nput. rewrite Z.eqb_refl. reflexivity. Qed.
Lemma nput_other n a P m : m <> n -> nput n a P m = P m.
Proof. intros H. unfold nput. replace (m =? n) with false by lia. reflexivity. Qed.
Lemma nshow_shows t i x : nshows x (nshow t i x).
Proof. unfold nshows, nshow. cbn. auto. Qed.
Lemma nshow_stat t i j x : ifstat i = ifstat j -> nshow t i x = nshow t j x.
Proof. intros E. change (nshow t i x) with (nshow t (ifstat i) x). rewrite E. reflexivity. Qed.

(** Nothing notified: the same neighbours, with the same attributes *)
Lemma knows_keep P w w' f : knows_nbs P w -> w_nbs w' = map f (w_nbs w) -> (forall x, n_id (f x) = n_id x) ->
  (forall x a, nshows x a -> nshows (f x) a) -> knows_nbs P w'.
Proof.
  intros (A & B) E F G. split.
  - intros x' Hx. rewrite E in Hx. apply in_map_iff in Hx. destruct Hx as (x & <- & Hx). rewrite F. destruct (A x Hx) as (a & A1 & A2). exists a. auto.
  - intros n a Pn. destruct (B n a Pn) as (x & Hx & <-). exists (f x). split; [rewrite E; apply in_map, Hx|apply F].
Qed.
Lemma knows_same P w w' : knows_nbs P w -> w_nbs w' = w_nbs w -> knows_nbs P w'.
Proof. intros H E. unfold knows_nbs in *. rewrite E. exact H. Qed.

(** One neighbour changed and notified *)
Lemma knows_change P w w' n x' a : knows_nbs P w -> NoDup (map n_id (w_nbs w)) -> In n (map n_id (w_nbs w)) ->
  w_nbs w' = map (fun x => if n_id x =? n then x' else x) (w_nbs w) -> n_id x' = n -> nshows x' a ->
  exists P', nsee P (NNb Change n a) = Some P' /\ knows_nbs P' w' /\ P' n = Some a /\ forall m, m <> n -> P' m = P m.
Proof.
  intros (A & B) Nd Hn E Ex Sh. apply in_map_iff in Hn. destruct Hn as (x & En & Hx). destruct (A x Hx) as (b & Pb & _). rewrite En in Pb.
  exists (nput n (Some a) P). cbn. rewrite Pb. split; [reflexivity|]. split; [|split; [apply nput_same|intros; apply nput_other; auto]]. split.
  - intros y' Hy. rewrite E in Hy. apply in_map_iff in Hy. destruct Hy as (y & Ey & Hy). destruct (n_id y =? n) eqn:D.
    + subst y'. rewrite Ex, nput_same. exists a. auto.
    + subst y'. rewrite nput_other by lia. apply A, Hy.
  - intros m b' Pm. destruct (Z.eq_dec m n) as [->|Ne].
    + exists x'. split; [|exact Ex]. rewrite E. apply in_map_iff. exists x. split; [rewrite En, Z.eqb_refl; reflexivity|exact Hx].
    + rewrite nput_other in Pm by exact Ne. destruct (B m b' Pm) as (y & Hy & Ey). exists y. split; [|exact Ey]. rewrite E. apply in_map_iff. exists y.
      split; [|exact Hy]. replace (n_id y =? n) with false by lia. reflexivity.
Qed.

(** The interface of a neighbour in a well-formed state *)
Lemma has_if e w x : W e w -> In x (w_nbs w) -> exists i, nb_if (n_id x) w = Some (x, i) /\ In i (w_ifs w) /\ if_id i = n_if x.
Proof.
  intros Hw Hx. destruct (known_has e w (n_id x) Hw) as (y & i & N); [apply (in_map n_id), Hx|]. exists i.
  pose proof N as N'. apply (nb_if_iff _ _ _ _ _ Hw) in N'. destruct N' as (N1 & N2 & N3 & N4).
  assert (y = x) as -> by (eapply NoDup_map_inj; [apply (W_nbs _ _ Hw)|auto|auto|auto]). auto.
Qed.

(** update_neighbour_metric after a change of the neighbour: the line shows the present state *)
Definition fresh_line (w : world) (n : Z) (P : npic) : Prop :=
  exists x i, In x (w_nbs w) /\ n_id x = n /\ In i (w_ifs w) /\ if_id i = n_if x /\ P n = Some (nshow (w_now w) i x).
Lemma unm_step P w n nb nb' ch : W [] w -> knows_nbs P w -> get_nb n w = Some nb ->
  n_id nb' = n_id nb -> n_if nb' = n_if nb -> n_addr nb' = n_addr nb -> (tv_ok (w_now w) -> neigh_ok nb -> neigh_ok nb') ->
  let w1 := map_nb n (fun _ => nb') w in
  exists P', nsee_all (g_unm n ch w1) P = Some P' /\ knows_nbs P' (update_neighbour_metric n ch w1) /\
    fresh_line (update_neighbour_metric n ch w1) n P' /\ forall m, m <> n -> P' m = P m.
Proof.
  intros Hw K G C1 C2 C3 Ok w1. assert (Gn : In nb (w_nbs w) /\ n_id nb = n) by (apply find_some in G; destruct G; split; [auto|lia]). destruct Gn as (Gi & Ge).
  assert (C0 : chain [] w w1) by (eapply set_nb_chain; eauto). pose proof (chain_W _ _ _ C0 Hw) as Hw1.
  assert (Hw2 : W [] (update_neighbour_metric n ch w1)) by (apply (chain_W _ _ _ (update_neighbour_metric_chain [] w1 n ch Hw1) Hw1)).
  assert (Nb : w_nbs (update_neighbour_metric n ch w1) = map (fun x => if n_id x =? n then nb' else x) (w_nbs w)) by (rewrite nk_unm; reflexivity).
  set (w2 := update_neighbour_metric n ch w1) in *.
  assert (In2 : In nb' (w_nbs w2)) by (rewrite Nb; apply in_map_iff; exists nb; split; [rewrite Ge, Z.eqb_refl; reflexivity|exact Gi]).
  destruct (has_if _ _ _ Hw2 In2) as (i & N & I1 & I2). rewrite C1, Ge in N.
  unfold g_unm, nbnote. fold w2. rewrite N.
  destruct (knows_change P w w2 n nb' (nshow (w_now w2) i nb') K (W_nbs _ _ Hw)) as (P' & S & K' & L1 & L2); auto.
  - rewrite <- Ge. apply in_map, Gi.
  - congruence.
  - apply nshow_shows.
  - exists P'. cbn [nsee_all]. rewrite S. split; [reflexivity|]. split; [exact K'|]. split; [|exact L2].
    exists nb', i. split; [exact In2|]. split; [congruence|]. auto.
Qed.

(** A line that was fresh stays so if the interfaces do not change. *)
Lemma fresh_keep P P' w w' n : fresh_line w n P -> P' n = P n -> w_now w' = w_now w -> map ifstat (w_ifs w') = map ifstat (w_ifs w) ->
  (forall x, In x (w_nbs w) -> n_id x = n -> In x (w_nbs w')) -> fresh_line w' n P'.
Proof.
  intros (x & i & A & B & C & D & E) Ep En Es Hx. apply (in_map ifstat) in C. rewrite <- Es in C. apply in_map_iff in C. destruct C as (j & Ej & Hj).
  exists x, j. split; [auto|]. split; [exact B|]. split; [exact Hj|]. split; [apply (f_equal if_id) in Ej; cbn in Ej; congruence|].
  rewrite Ep, E, En. f_equal. apply nshow_stat. auto.
Qed.

(** The check of one neighbour *)
Lemma check1_step P w ms n : W [] w -> knows_nbs P w ->
  let w' := snd (check_neighbour1 (ms, w) n) in
  exists P', nsee_all (g_check1 (ms, w) n) P = Some P' /\ knows_nbs P' w' /\
    (In n (map n_id (w_nbs w')) -> fresh_line w' n P') /\ (forall m, m <> n -> fresh_line w m P -> fresh_line w' m P').
Proof.
  intros Hw K w'. pose proof (check_neighbour1_chain [] w ms n Hw) as Ch. pose proof (proj1 (star_menv _ _ _ Ch)) as Es.
  assert (En : w_now w' = w_now w) by (apply (L_Arm.a_check1 (ms, w) n)).
  assert (Fs : map ifstat (w_ifs w') = map ifstat (w_ifs w)) by apply (star_menv _ _ _ Ch). clear Es.
  revert En Fs. unfold w', g_check1, check_neighbour1. clear w' Ch.
  destruct (get_nb n w) as [nb|] eqn:G.
  2:{ cbn [snd]. intros _ _. exists P. split; [reflexivity|]. split; [exact K|]. split; [|auto]. intros Hn. exfalso. apply in_map_iff in Hn. destruct Hn as (x & E & Hx).
      pose proof (find_none _ _ G x Hx) as N. cbv beta in N. lia. }
  assert (Gn : In nb (w_nbs w) /\ n_id nb = n) by (apply find_some in G; destruct G; split; [auto|lia]). destruct Gn as (Gi & Ge).
  destruct (check_neigh1 (w_now w) nb) as [[nb' ch]|] eqn:Ck; cbn [snd]; intros En Fs.
  - destruct (check_facts _ _ _ _ Ck) as (C1 & C2 & C3 & _).
    destruct (unm_step P w n nb nb' ch Hw K G C1 C3 C2) as (P' & S & K' & Fr & Ot); [intros T No; apply (check_neigh1_ok _ _ _ _ T No Ck)|].
    exists P'. split; [exact S|]. split; [exact K'|]. split; [auto|]. intros m Hm F. apply (fresh_keep P P' w _ m F (Ot m Hm) En Fs).
    intros x Hx Ex. rewrite nk_unm. unfold map_nb. cbn [w_nbs set_w_nbs]. apply in_map_iff. exists x. split; [|exact Hx]. replace (n_id x =? n) with false by lia. reflexivity.
  - set (g := fun x => set_n_uhello (fst (update_hist (w_now w) (n_uhello nb) (-1) 0)) (set_n_hello (fst (update_hist (w_now w) (n_hello nb) (-1) 0)) x)) in *.
    set (w1 := map_nb n g w) in *. set (w2 := flush_neighbour_routes n w1).
    assert (N2 : w_nbs w2 = w_nbs w1) by (unfold w2, flush_neighbour_routes; apply nk_flush_sel).
    assert (N3 : w_nbs (flush_neighbour n w1) = filter (fun x => negb (n_id x =? n)) (w_nbs w)).
    { unfold flush_neighbour. fold w2. cbn [w_nbs set_w_nbs]. rewrite N2. unfold w1, map_nb. cbn [w_nbs set_w_nbs]. clear. induction (w_nbs w) as [|x l IH]; [reflexivity|].
      cbn [map filter]. destruct (n_id x =? n) eqn:E; [|rewrite E; cbn [negb]; rewrite IH; reflexivity].
      replace (n_id (g x)) with (n_id x) by reflexivity. rewrite E. cbn [negb]. exact IH. }
    destruct K as (A & B). destruct (A nb Gi) as (b & Pb & _). rewrite Ge in Pb.
    assert (Nt : exists a, g_flush n w1 = [NNb Flush n a]).
    { unfold g_flush, nbnote. fold w2. destruct (has_if _ _ _ Hw Gi) as (i & N & I1 & I2).
      assert (Hg : get_nb n w2 = Some (g nb)).
      { unfold get_nb. rewrite N2. unfold w1, map_nb. cbn [w_nbs set_w_nbs]. unfold get_nb in G. clear - G. induction (w_nbs w) as [|x l IH]; [discriminate|].
        cbn [map find] in *. destruct (n_id x =? n) eqn:E; [|rewrite E; apply IH, G]. replace (n_id (g x)) with (n_id x) by reflexivity. rewrite E. injection G as ->. reflexivity. }
      unfold nb_if. rewrite Hg. replace (n_if (g nb)) with (n_if nb) by reflexivity.
      assert (exists j, get_if (n_if nb) w2 = Some j) as (j & ->); [|eauto].
      assert (Fs2 : map ifstat (w_ifs w2) = map ifstat (w_ifs w)) by exact Fs.
      destruct (get_if_static (n_if nb) w w2 i Fs2) as (j & J & _); [|eauto].
      unfold nb_if in N. rewrite Ge, G in N. destruct (get_if (n_if nb) w); [injection N as ->; reflexivity|discriminate]. }
    destruct Nt as (a & ->). exists (nput n None P). cbn [nsee_all nsee]. rewrite Pb. split; [reflexivity|]. split; [split|split].
    + intros x Hx. rewrite N3 in Hx. apply filter_In in Hx. destruct Hx as (Hx & Ex). rewrite nput_other by lia. apply A, Hx.
    + intros m a' Pm. destruct (Z.eq_dec m n) as [->|Ne]; [rewrite nput_same in Pm; discriminate|]. rewrite nput_other in Pm by exact Ne.
      destruct (B m a' Pm) as (x & Hx & Ex). exists x. split; [|exact Ex]. rewrite N3. apply filter_In. split; [exact Hx|]. lia.
    + intros Hn. exfalso. apply in_map_iff in Hn. destruct Hn as (x & Ex & Hx). rewrite N3 in Hx. apply filter_In in Hx. lia.
    + intros m Hm F. apply (fresh_keep P _ w _ m F); [apply nput_other, Hm|exact En|exact Fs|].
      intros x Hx Ex. rewrite N3. apply filter_In. split; [exact Hx|lia].
Qed.
Lemma checks_step l : forall P w ms, W [] w -> knows_nbs P w ->
  let w' := snd (fold_left check_neighbour1 l (ms, w)) in
  exists P', nsee_all (g_checks l (ms, w)) P = Some P' /\ knows_nbs P' w' /\
    (forall m, In m l \/ fresh_line w m P -> In m (map n_id (w_nbs w')) -> fresh_line w' m P').
Proof.
  induction l as [|n l IH]; intros P w ms Hw K; cbn [fold_left g_checks].
  - exists P. split; [reflexivity|]. split; [exact K|]. intros m [[]|F] _. exact F.
  - destruct (check1_step P w ms n Hw K) as (P1 & S1 & K1 & F1 & O1). pose proof (check_neighbour1_chain [] w ms n Hw) as Ch.
    rewrite nsee_app, S1. destruct (check_neighbour1 (ms, w) n) as [ms1 w1]. cbn [snd] in *.
    destruct (IH P1 w1 ms1 (chain_W _ _ _ Ch Hw) K1) as (P2 & S2 & K2 & F2). exists P2. split; [exact S2|]. split; [exact K2|].
    intros m Hm Hin. destruct (in_dec Z.eq_dec m l) as [Il|Nl]; [apply F2; auto|].
    assert (Hin1 : In m (map n_id (w_nbs w1))).
    { apply in_map_iff in Hin. destruct Hin as (x & Ex & Hx).
      clear - Hx Ex. revert Hx. assert (X : forall l mw x, In x (w_nbs (snd (fold_left check_neighbour1 l mw))) -> In (n_id x) (map n_id (w_nbs (snd mw)))).
      { clear. induction l as [|k l IH]; intros mw x Hx; [apply in_map, Hx|]. cbn [fold_left] in Hx. apply IH in Hx. apply in_map_iff in Hx. destruct Hx as (y & <- & Hy).
        destruct mw as [ms w]. cbn [snd]. unfold check_neighbour1 in Hy. destruct (get_nb k w) as [nb|] eqn:G; [|apply in_map, Hy]. destruct (check_neigh1 (w_now w) nb) as [[nb' ch]|] eqn:C; cbn [snd] in Hy.
        - rewrite nk_unm in Hy. apply in_map_nb in Hy. destruct Hy as (z & Hz & [(E & ->)|(E & ->)]); [|apply in_map, Hz].
          destruct (check_facts _ _ _ _ C) as (-> & _). apply in_map. apply find_some in G. apply G.
        - unfold flush_neighbour in Hy. cbn [w_nbs set_w_nbs] in Hy. apply filter_In in Hy. destruct Hy as (Hy & _). unfold flush_neighbour_routes in Hy. rewrite nk_flush_sel in Hy.
          apply in_map_nb in Hy. destruct Hy as (z & Hz & [(E & ->)|(E & ->)]); [|apply in_map, Hz]. apply (in_map n_id _ _ Hz). }
      intros Hx. rewrite <- Ex. apply (X l (ms1, w1) x Hx). }
    apply F2; [right|exact Hin]. destruct (Z.eq_dec m n) as [->|Ne]; [apply F1, Hin1|].
    destruct Hm as [[E|Il]|F]; [congruence|contradiction|]. apply O1; auto.
Qed.

(** Any event *)
Lemma step_knows P w ev : W [] w -> allowed ev w -> knows_nbs P w ->
  exists P', nsee_all (g_run1 ev w) P = Some P' /\ knows_nbs P' (run1 ev w).
Proof.
  intros Hw A K.
  assert (On : forall n f, (forall x, In x (w_nbs w) -> n_id (fst (f x)) = n_id x /\ n_if (fst (f x)) = n_if x /\ n_addr (fst (f x)) = n_addr x /\
      (tv_ok (w_now w) -> neigh_ok x -> neigh_ok (fst (f x)))) ->
      exists P', nsee_all (g_on_nb n f w) P = Some P' /\ knows_nbs P' (on_nb n f w)).
  { intros n f F. unfold g_on_nb, on_nb. destruct (get_nb n w) as [nb|] eqn:G; [|exists P; split; [reflexivity|exact K]].
    rewrite (surjective_pairing (f nb)). assert (Gi : In nb (w_nbs w)) by (apply find_some in G; apply G). destruct (F nb Gi) as (F1 & F2 & F3 & F4).
    destruct (unm_step P w n nb (fst (f nb)) (snd (f nb)) Hw K G F1 F2 F3 F4) as (P' & S & K' & _). exists P'. auto. }
  destruct ev; cbn [run1 g_run1] in *;
    try (exists P; split; [reflexivity|]; apply (knows_same P w); [exact K|];
      first [reflexivity|apply nk_update|apply nk_rnr|apply nk_recv_request|apply nk_request|apply nk_uim|apply nk_flush_sel|apply nk_expire|apply nk_notify|apply nk_scan
            |apply nk_flushupdates|destruct d; [apply nk_sui|apply nk_full]|apply nk_sua|apply nk_self|apply nk_retr|apply nk_smr|apply nk_resend|apply nk_expire_resend|apply nk_fal]).
  - apply On. intros x Hx. destruct A as (_ & Aq & Ai). destruct unicast; rewrite (surjective_pairing (update_hist _ _ _ _)); cbn [fst];
      (split; [reflexivity|]; split; [reflexivity|]; split; [reflexivity|]; intros T (N1 & N2 & N3); split; [|split]; auto; apply update_hist_ok; auto).
  - exists P. split; [reflexivity|]. apply (knows_keep P w _ (fun x => if n_id x =? n then set_n_hello_send_us us (set_n_hello_rtt_time (w_now w) x) else x) K); [reflexivity| |];
      intros x; destruct (n_id x =? n); auto.
  - apply On. intros x Hx. destruct A as (_ & Aq & Ai). cbn [fst]. split; [reflexivity|]. split; [reflexivity|]. split; [reflexivity|].
    intros T (N1 & N2 & N3 & N4). unfold neigh_ok in *. cbn. unfold u16_ok in *. intuition.
  - unfold recv_rtt, g_rtt. destruct (nb_if n w) as [[nb i]|] eqn:N; [|exists P; auto]. destruct (rtt_sample _ _ _) as [z|]; [|exists P; auto]. cbv zeta.
    assert (G : get_nb n w = Some nb) by (unfold nb_if in N; destruct (get_nb n w) as [y|]; [|discriminate]; destruct (get_if (n_if y) w); [injection N as -> _; reflexivity|discriminate]).
    match goal with |- context [g_unm n ?c (map_nb n (fun _ => ?y) w)] => destruct (unm_step P w n nb y c Hw K G eq_refl eq_refl eq_refl) as (P' & S & K' & _) end.
    { intros T (A1 & A2 & A3 & A4 & A5 & A6 & A7). unfold neigh_ok. cbn. repeat (split; [assumption|]). split; [apply rtt_update_range|assumption]. }
    exists P'. split; [exact S|]. apply (knows_keep P' _ _ (fun x => if n_id x =? n then set_n_rtt_time (w_now w) x else x) K'); [reflexivity| |]; intros x; destruct (n_id x =? n); auto.
  - unfold find_neighbour, g_find. destruct (existsb _ _) eqn:Ex; [exists P; auto|].
    set (w' := find_neighbour addr ifp w). destruct K as (K1 & K2).
    assert (Fn : P (fresh_nb w) = None).
    { destruct (P (fresh_nb w)) as [a|] eqn:E; [|reflexivity]. exfalso. destruct (K2 _ _ E) as (x & Hx & En). apply (fresh_nb_new w). rewrite <- En. apply in_map, Hx. }
    assert (N : exists i, nb_if (fresh_nb w) w' = Some (new_neigh (w_now w) (fresh_nb w) addr ifp, i)).
    { unfold w', find_neighbour. rewrite Ex. unfold nb_if, get_nb. cbn [w_nbs set_w_nbs find n_id new_neigh]. rewrite Z.eqb_refl. cbn [n_if].
      destruct A as (A & _). unfold known_if in A. apply in_map_iff in A. destruct A as (i & Ei & Hi).
      destruct (get_if ifp (set_w_nbs (new_neigh (w_now w) (fresh_nb w) addr ifp :: w_nbs w) w)) as [j|] eqn:F; [exists j; change (n_if (new_neigh (w_now w) (fresh_nb w) addr ifp)) with ifp; rewrite F; reflexivity|].
      exfalso. pose proof (find_none _ _ F i Hi) as X. cbv beta in X. lia. }
    destruct N as (i & N). unfold nbnote. rewrite N. cbn [nsee_all nsee]. rewrite Fn. eexists. split; [reflexivity|].
    split; cbn [w_nbs set_w_nbs].
    + intros x [<-|Hx].
      * cbn [n_id new_neigh]. rewrite nput_same. eexists. split; [reflexivity|]. apply nshow_shows.
      * rewrite nput_other; [apply K1, Hx|]. intros E. apply (fresh_nb_new w). rewrite <- E. apply in_map, Hx.
    + intros m a Pm. destruct (Z.eq_dec m (fresh_nb w)) as [->|Ne].
      * eexists. split; [left; reflexivity|reflexivity].
      * rewrite nput_other in Pm by exact Ne. destruct (K2 m a Pm) as (x & Hx & E). exists x. split; [right; exact Hx|exact E].
  - exists P. split; [reflexivity|]. apply (knows_keep P w _ (fun x => if n_id x =? n then set_n_pc pc x else x) K); [reflexivity| |];
      intros x; destruct (n_id x =? n); auto.
  - destruct (checks_step (map n_id (w_nbs w)) P w 50000 Hw K) as (P' & S & K' & _). exists P'. auto.
Qed.

(** What is told at the beginning *)
Lemma told_ok_nbs w : W [] w -> exists P, nsee_all (told_nbs w) npic0 = Some P /\ knows_nbs P w /\ forall x, In x (w_nbs w) -> fresh_line w (n_id x) P.
Proof.
  intros Hw. unfold told_nbs.
  assert (X : forall l P, (forall x, In x l -> In x (w_nbs w)) -> NoDup (map n_id l) -> (forall x, In x l -> P (n_id x) = None) ->
    exists P', nsee_all (flat_map (fun x => nbnote Add (n_id x) w) l) P = Some P' /\ (forall x, In x l -> fresh_line w (n_id x) P') /\
      (forall m, ~ In m (map n_id l) -> P' m = P m)).
  { induction l as [|x l IH]; intros P Hl Nd Hp; cbn [flat_map].
    - exists P. split; [reflexivity|]. split; [intros ? []|auto].
    - cbn [map] in Nd. inversion Nd; subst. destruct (has_if _ _ _ Hw (Hl x (or_introl eq_refl))) as (i & N & I1 & I2).
      rewrite nsee_app. unfold nbnote at 1. rewrite N. cbn [nsee_all nsee]. rewrite (Hp x (or_introl eq_refl)).
      destruct (IH (nput (n_id x) (Some (nshow (w_now w) i x)) P)) as (P' & S & F & O); [intros y Hy; apply Hl; right; exact Hy|exact H2| |].
      { intros y Hy. rewrite nput_other; [apply Hp; right; exact Hy|]. intros E. apply H1. rewrite <- E. apply in_map, Hy. }
      exists P'. split; [exact S|]. split.
      + intros y [<-|Hy]; [|apply F, Hy]. exists x, i. split; [apply Hl; left; reflexivity|]. split; [reflexivity|]. split; [exact I1|]. split; [exact I2|].
        rewrite O by exact H1. apply nput_same.
      + intros m Hm. rewrite O; [|intros E; apply Hm; right; exact E]. apply nput_other. intros E. apply Hm. left. auto. }
  destruct (X (w_nbs w) npic0) as (P & S & F & O); [auto|apply (W_nbs _ _ Hw)|reflexivity|].
  exists P. split; [exact S|]. split; [|exact F]. split.
  - intros x Hx. destruct (F x Hx) as (y & i & Y1 & Y2 & Y3 & Y4 & Y5).
    assert (y = x) as -> by (eapply NoDup_map_inj; [apply (W_nbs _ _ Hw)|auto|auto|auto]). eexists. split; [exact Y5|apply nshow_shows].
  - intros n a Pn. destruct (in_dec Z.eq_dec n (map n_id (w_nbs w))) as [Hi|Hi].
    + apply in_map_iff in Hi. destruct Hi as (x & E & Hx). exists x. auto.
    + rewrite O in Pn by exact Hi. discriminate.
Qed.
Lemma fresh_current w n P x : W [] w -> In x (w_nbs w) -> n_id x = n -> fresh_line w n P -> exists a, P n = Some a /\ current w x a.
Proof.
  intros Hw Hx E (y & i & Y1 & Y2 & Y3 & Y4 & Y5). assert (y = x) as -> by (eapply NoDup_map_inj; [apply (W_nbs _ _ Hw)|auto|auto|congruence]).
  eexists. split; [exact Y5|]. exists i. split; [exact Y3|]. split; [exact Y4|]. split; [reflexivity|]. split; [reflexivity|].
  intros r c. cbn [nshow ns_rtt]. unfold valid_rtt. destruct (_ <? _) eqn:V; split.
  - intros Q. injection Q as <- <-. split; [lia|auto].
  - intros (_ & -> & ->). reflexivity.
  - discriminate.
  - intros (Q & _). lia.
Qed.

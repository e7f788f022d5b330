(** L_Lost2.v: once too few Hellos of a neighbour are left, none of its routes is usable. *)
From Verif Require Import Base M_Util S_Util L_Util M_Filter M_Source M_Types M_Neigh S_Neigh L_Neigh M_State M_Table M_Msg M_Route M_Xroute S_World M_Daemon
  L_Msg L_Table L_Step L_Trace L_Chain L_Chain2 L_Update2 L_Daemon L_World4 L_Walk L_Inv L_Nbs L_Packet3 M_Check S_Dead L_Dead L_Lost.
Import M_Daemon.

Section Lost.
Variable c : conf.
Hypothesis Hl : c_half_life c <> 2.
Variables (a : list Z) (i : Z) (any : mode) (w0 : world).

Definition fits (w : world) : Prop := any <> MWired \/ wired_if i w.
Definition still (ev : event) (w : world) : Prop := match any with MTx => no_ihu a i ev w | _ => mute a i ev w end.
Definition J (w : world) : Prop := kmono w0 w /\ (krefused w0 w \/
  forall x, In x (w_nbs w) -> is_nb a i x -> few any x ->
    forall r, In r (all_routes w) -> r_neigh r = n_id x -> route_metric r = 65535).

Lemma fits_stat w w' : map ifstat (w_ifs w') = map ifstat (w_ifs w) -> fits w -> fits w'.
Proof.
  intros E [F|F]; [left; exact F|right]. intros y Hy Ei. apply (in_map ifstat) in Hy. rewrite E in Hy. apply in_map_iff in Hy.
  destruct Hy as (z & Ez & Hz). rewrite (flag_stat y z) by congruence. apply F; [exact Hz|].
  apply (f_equal if_id) in Ez. cbn in Ez. congruence.
Qed.
Lemma gone_intro w x x0 : W [] w -> In x (w_nbs w) -> is_nb a i x -> few any x -> fits w ->
  (forall r, In r (all_routes w) -> r_neigh r = n_id x -> route_metric r = 65535) ->
  (forall r, In r (all_routes w) -> x0 = Some (r_ptr r) -> r_neigh r <> n_id x) -> gone any (n_id x) x0 w.
Proof.
  intros Hw Hx K F Fi Low Hx0. constructor; auto.
  - intros r r' H H' E. f_equal. eapply NoDup_map_inj; [apply (wf_ptrs _ (W_rt _ _ Hw))|exact H|exact H'|exact E].
  - apply (W_next _ _ Hw).
  - intros nb j N. apply (nb_if_iff _ _ _ _ _ Hw) in N. destruct N as (N1 & N2 & N3 & N4).
    assert (nb = x) by (eapply NoDup_map_inj; [apply (W_nbs _ _ Hw)|auto|auto|auto]). subst nb. split; [exact F|].
    destruct Fi as [Fi|Fi]; [left; exact Fi|right]. apply Fi; [exact N3|]. destruct K as (_ & K). congruence.
Qed.

Lemma run1_kmono w ev : W [] w -> allowed ev w -> kmono w (run1 ev w).
Proof.
  intros Hw A. destruct (run1_cases w ev Hw A) as [O | [C | (id & d & q & m & iv & n & nh & _ & U)]].
  - apply kmono_same. destruct O; reflexivity.
  - apply (star_log _ _ _ C).
  - destruct U as [C | w1 r w2 S I E C _ _ _ Ir]; [apply (star_log _ _ _ C)|].
    apply star_log in S. apply star_log in C. cbn [snd] in *. eapply kmono_trans; [exact S|]. eapply kmono_trans; [|exact C]. rewrite E.
    eapply kmono_trans; [|apply insert_log]. apply kmono_same. reflexivity.
Qed.

Lemma still_nbs w ev : W [] w -> still ev w -> ev <> EvCheckNeighbours ->
  forall x', In x' (w_nbs (run1 ev w)) -> is_nb a i x' ->
    (exists x, In x (w_nbs w) /\ is_nb a i x /\ alike any x' x /\ n_id x' = n_id x) \/
    (forall r, In r (all_routes (run1 ev w)) -> r_neigh r <> n_id x').
Proof.
  intros Hw St Nc x' Hx K. unfold still, alike in *. destruct any.
  1,2: left; destruct (mute_nbs a i w ev (W_nbs _ _ Hw) St Nc x' Hx K) as (x & X1 & X2 & X3 & X4 & X5); exists x; auto.
  destruct (ihu_nbs a i w ev (W_nbs _ _ Hw) St Nc x' Hx K) as [(x & X1 & X2 & X3 & _ & _ & X4)|(_ & E & ->)]; [left; exists x; auto|right].
  intros r Hr Nr. unfold all_routes in Hr. rewrite plain_rt in Hr by reflexivity. pose proof (W_nb _ _ Hw r Hr) as Kn. unfold known_nb in Kn. rewrite Nr, E in Kn.
  apply (fresh_nb_new w Kn).
Qed.

(** An event other than a check, or a Hello of the neighbour *)
Lemma J_event w ev : reach c w -> allowed ev w -> still ev w -> ev <> EvCheckNeighbours -> fits w -> J w -> J (run1 ev w).
Proof.
  intros R A Mu Nc Fi (Km & Jw). destruct (reach_W c w Hl R) as (Hw & _). pose proof (run1_kmono w ev Hw A) as Kr.
  split; [eapply kmono_trans; eauto|]. destruct Jw as [Jw|Jw]; [left; eapply refused_r; eauto|right].
  intros x' Hx K F. destruct (still_nbs w ev Hw Mu Nc x' Hx K) as [(x & X1 & X2 & X3 & X5)|New]; [|intros r Hr Nr; exfalso; exact (New r Hr Nr)].
  assert (Fx : few any x) by (eapply few_ext; [apply alike_sym; exact X3|exact F]).
  specialize (Jw x X1 X2 Fx). rewrite X5. destruct (plain_ev ev) eqn:P.
  { intros r Hr. apply Jw. unfold all_routes in *. rewrite (plain_rt ev w P) in Hr. exact Hr. }
  set (x0 := match ev with
             | EvUpdate _ d _ _ _ n _ => if n =? n_id x then None else match find_route d n w with Some r => Some (r_ptr r) | None => None end
             | _ => None end).
  assert (G : gone any (n_id x) x0 w).
  { apply gone_intro; auto. intros r Hr Ex. unfold x0 in Ex. destruct ev; try discriminate Ex. destruct (n =? n_id x) eqn:En; [discriminate|].
    destruct (find_route d n w) as [r1|] eqn:Fr; [|discriminate]. injection Ex as Ex. destruct A as (_ & Dv & _).
    destruct (find_route_In _ _ _ _ (W_rt _ _ Hw) Dv Fr) as (I1 & _ & I2).
    assert (r = r1) as -> by (eapply NoDup_map_inj; [apply (wf_ptrs _ (W_rt _ _ Hw))|exact Hr|exact I1|congruence]). lia. }
  apply (gn_low any (n_id x) x0). revert G. apply m_run1; auto.
  - apply (W_nbs _ _ Hw).
  - intros n u q iv -> Am En. unfold still in Mu. destruct any; [exact (Mu x X1 (eq_sym En) X2)..|contradiction].
  - intros n tx iv -> Am En. unfold still in Mu. rewrite Am in Mu. exact (Mu x X1 (eq_sym En) X2).
  - intros id d q m iv n nh ->. destruct A as (_ & _ & _ & A). split; [unfold u16_ok in A; lia|]. unfold x0. split.
    + intros ->. rewrite Z.eqb_refl. reflexivity.
    + intros Ne r Fr. replace (n =? n_id x) with false by lia. rewrite Fr. reflexivity.
Qed.

(** The check of one neighbour *)
Lemma hist_same now h : snd (update_hist now h (-1) 0) = false -> fst (update_hist now h (-1) 0) = h.
Proof. unfold update_hist. cbn [Z.ltb Z.compare]. cbv zeta. destruct (_ <=? 0); [reflexivity|discriminate]. Qed.
Lemma check_quiet now x x' : check_neigh1 now x = Some (x', false) -> n_hello x' = n_hello x /\ n_uhello x' = n_uhello x.
Proof.
  intros H. destruct (check_facts _ _ _ _ H) as (_ & _ & _ & E1 & E2 & _). rewrite E1, E2. clear E1 E2. unfold check_neigh1 in H.
  rewrite (surjective_pairing (update_hist now (n_hello x) (-1) 0)), (surjective_pairing (update_hist now (n_uhello x) (-1) 0)) in H.
  destruct (neigh_dead _ _); [discriminate|]. destruct (reset_txcost _ _) as [n2 c3]. injection H as _ H.
  apply Bool.orb_false_iff in H. destruct H as (H & _). apply Bool.orb_false_iff in H. destruct H as (H1 & H2).
  rewrite !hist_same; auto.
Qed.
Lemma check_alike now x x' : check_neigh1 now x = Some (x', false) -> alike any x x'.
Proof.
  intros H. destruct (check_quiet _ _ _ H) as (A & B). destruct (check_tx _ _ _ _ H) as (_ & [(_ & T)|(T & _)]); [discriminate|].
  apply alike_all; auto.
Qed.
(** A change of cost reaches the routes. *)
Lemma J_apply w n nb nb' : W [] w -> fits w -> kmono w0 w -> get_nb n w = Some nb ->
  n_id nb' = n_id nb -> n_if nb' = n_if nb -> n_addr nb' = n_addr nb -> (tv_ok (w_now w) -> neigh_ok nb -> neigh_ok nb') ->
  let w' := update_neighbour_metric n true (map_nb n (fun _ => nb') w) in
  krefused w0 w' \/ (is_nb a i nb' -> few any nb' -> forall r, In r (all_routes w') -> r_neigh r = n -> route_metric r = 65535).
Proof.
  intros Hw Fi Km G C1 C2 C3 Ok. set (w1 := map_nb n (fun _ => nb') w).
  assert (Gn : In nb (w_nbs w) /\ n_id nb = n) by (apply find_some in G; destruct G; split; [auto|lia]). destruct Gn as (Gi & Ge).
  assert (C0 : chain [] w w1) by (eapply set_nb_chain; eauto).
  pose proof (chain_W _ _ _ C0 Hw) as Hw1. destruct (cost_applied w1 n Hw1) as (Hw' & Kp & _ & B). cbv zeta.
  set (w' := update_neighbour_metric n true w1) in *.
  destruct (existsb (fun r => (r_neigh r =? n) && negb (route_metric r =? 65535)) (all_routes w')) eqn:Ex.
  - apply existsb_exists in Ex. destruct Ex as (r' & Hr' & E).
    destruct (known_has [] w1 n Hw1) as (y & j & N).
    { unfold known_nb, w1. rewrite nd_map; [|intros; congruence]. rewrite <- Ge. apply in_map, Gi. }
    assert (y = nb') as ->.
    { apply (nb_if_iff _ _ _ _ _ Hw1) in N. destruct N as (N1 & N2 & _). apply in_map_nb in N1. destruct N1 as (z & Hz & [(Z1 & Z2)|(Z1 & Z2)]); [exact Z2|congruence]. }
    destruct (keeps_In' _ _ _ Kp Hr') as (r & Hr & Es). destruct (stay_ident r' r (eq_sym (eq_sym Es))) as (I1 & I2 & I3 & I4 & I5 & I6).
    destruct (B r nb' j Hr) as (r2 & Hr2 & (J1 & _) & P); [rewrite I3; lia|exact N|].
    assert (r2 = r') by (eapply NoDup_map_inj; [apply (wf_ptrs _ (W_rt _ _ Hw'))| | |]; auto; congruence). subst r2.
    destruct P as [P|P].
    + right. intros K F. exfalso. pose proof (W_rng _ _ Hw' r' Hr') as (G1 & G2 & G3 & _). unfold u16_ok in *.
      assert (route_metric r' = 65535); [|lia]. unfold route_metric, INFINITY in *.
      destruct (r_time r <? _); [lia|]. destruct P as (_ & _ & P & _). rewrite (few_cost any nb' j) in P; [|exact F|].
      * change (u16 INFINITY) with 65535 in P. lia.
      * destruct Fi as [Fi|Fi]; [left; exact Fi|right]. apply (nb_if_iff _ _ _ _ _ Hw1) in N. destruct N as (_ & _ & N3 & N4).
        apply Fi; [exact N3|]. destruct K as (_ & K). congruence.
    + left. eapply refused_l; [|exact P]. eapply kmono_trans; [exact Km|]. apply (star_log _ _ _ C0).
  - right. intros K F r Hrr Nr.
    assert (X : (r_neigh r =? n) && negb (route_metric r =? 65535) = false).
    { destruct ((r_neigh r =? n) && negb (route_metric r =? 65535)) eqn:Y; [|reflexivity]. exfalso.
      assert (Z : existsb (fun r => (r_neigh r =? n) && negb (route_metric r =? 65535)) (all_routes w') = true) by (apply existsb_exists; eauto). congruence. }
    lia.
Qed.
Lemma J_check1 w ms n : W [] w -> fits w -> J w -> J (snd (check_neighbour1 (ms, w) n)).
Proof.
  intros Hw Fi (Km & Jw). pose proof (check_neighbour1_chain [] w ms n Hw) as Ch. pose proof (star_log _ _ _ Ch) as Kr. cbn [snd] in Kr.
  split; [eapply kmono_trans; eauto|]. destruct Jw as [Jw|Jw]; [left; eapply refused_r; eauto|].
  destruct (check1_nbs ms w n (W_nbs _ _ Hw)) as (_ & _ & _ & M).
  assert (Wc := chain_W _ _ _ Ch Hw). revert Kr M Wc. unfold check_neighbour1.
  destruct (get_nb n w) as [nb|] eqn:G; [|cbn [snd]; auto].
  assert (Gn : In nb (w_nbs w) /\ n_id nb = n) by (apply find_some in G; destruct G; split; [auto|lia]). destruct Gn as (Gi & Ge).
  destruct (check_neigh1 (w_now w) nb) as [[nb' ch]|] eqn:Ck; cbn [fst snd]; intros Kr M Wc.
  - destruct (check_facts _ _ _ _ Ck) as (C1 & C2 & C3 & _). set (w1 := map_nb n (fun _ => nb') w) in *.
    assert (Oth : forall x, In x (w_nbs w) -> n_id x <> n -> is_nb a i x -> few any x ->
              forall r, In r (all_routes (update_neighbour_metric n ch w1)) -> r_neigh r = n_id x -> route_metric r = 65535).
    { intros x Hx Ne K F. assert (Gx : gone any (n_id x) None w) by (apply gone_intro; [exact Hw|exact Hx|exact K|exact F|exact Fi|apply (Jw x Hx K F)|intros; discriminate]).
      apply (m_check1 any (n_id x) None ms w n ltac:(auto) (W_nbs _ _ Hw)) in Gx. unfold check_neighbour1 in Gx. rewrite G, Ck in Gx. apply (gn_low _ _ _ _ Gx). }
    destruct ch.
    + destruct (J_apply w n nb nb' Hw Fi Km G C1 C3 C2) as [Kf|Ap]; [intros T No; apply (check_neigh1_ok _ _ _ _ T No Ck)|left; exact Kf|right].
      intros x' Hx K F r Hrr Nr. destruct (M x' Hx) as (x & X1 & X2 & X3 & X4). destruct (Z.eq_dec (n_id x) n) as [En|En].
      { destruct (X4 En) as (b & Cx & _). assert (x = nb) as -> by (eapply NoDup_map_inj; [apply (W_nbs _ _ Hw)|auto|auto|congruence]).
        rewrite Ck in Cx. injection Cx as -> _. apply (Ap K F r Hrr). congruence. }
      pose proof (X3 En) as ->. apply (Oth x X1 En K F r Hrr Nr).
    + right. intros x' Hx K F r Hrr Nr. destruct (M x' Hx) as (x & X1 & X2 & X3 & X4). destruct (Z.eq_dec (n_id x) n) as [En|En].
      { destruct (X4 En) as (b & Cx & _). assert (x = nb) as -> by (eapply NoDup_map_inj; [apply (W_nbs _ _ Hw)|auto|auto|congruence]).
        rewrite Ck in Cx. injection Cx as <- _. pose proof (check_alike _ _ _ Ck) as Q1.
        apply (Jw nb Gi); [destruct K; split; congruence|eapply few_ext; [exact Q1|exact F]|exact Hrr|congruence]. }
      pose proof (X3 En) as ->. apply (Oth x X1 En K F r Hrr Nr).
  - right. intros x' Hx K F r Hrr Nr. destruct (M x' Hx) as (x & X1 & X2 & X3 & X4). destruct (Z.eq_dec (n_id x) n) as [En|En].
    { destruct (X4 En) as (b & Cx & _). assert (x = nb) as -> by (eapply NoDup_map_inj; [apply (W_nbs _ _ Hw)|auto|auto|congruence]). congruence. }
    pose proof (X3 En) as ->. assert (Gx : gone any (n_id x) None w) by (apply gone_intro; [exact Hw|exact X1|exact K|exact F|exact Fi|apply (Jw x X1 K F)|intros; discriminate]).
    apply (m_check1 any (n_id x) None ms w n ltac:(auto) (W_nbs _ _ Hw)) in Gx. unfold check_neighbour1 in Gx. rewrite G, Ck in Gx. cbn [snd] in Gx.
    apply (gn_low _ _ _ _ Gx r Hrr Nr).
Qed.
Lemma J_checks l : forall ms w, W [] w -> fits w -> J w -> J (snd (fold_left check_neighbour1 l (ms, w))).
Proof.
  induction l as [|n l IH]; intros ms w Hw Fi Jw; [exact Jw|]. cbn [fold_left].
  pose proof (check_neighbour1_chain [] w ms n Hw) as Ch. pose proof (J_check1 w ms n Hw Fi Jw) as J1.
  destruct (check_neighbour1 (ms, w) n) as [ms1 w1]. cbn [snd] in *. apply IH; [apply (chain_W _ _ _ Ch Hw)| |exact J1].
  apply (fits_stat w); [|exact Fi]. apply (star_menv _ _ _ Ch).
Qed.
Lemma J_step w ev : reach c w -> allowed ev w -> still ev w -> fits w -> J w -> J (run1 ev w).
Proof.
  intros R A Mu Fi Jw. assert (Dec : ev = EvCheckNeighbours \/ ev <> EvCheckNeighbours) by (destruct ev; try (right; discriminate); left; reflexivity).
  destruct Dec as [->|Ne]; [|apply J_event; auto]. cbn [run1]. apply J_checks; auto. apply (reach_W c w Hl R).
Qed.

(** A Hello that leaves too few in the window is a change. *)
Lemma few_change now h q I u x : any <> MTx -> 0 <= q -> snd (update_hist now h q I) = false ->
  few any (set_n_hello (fst (update_hist now h q I)) (set_n_uhello u x)) -> False.
Proof.
  intros Am Hq. unfold update_hist. replace (q <? 0) with false by lia.
  destruct (if (h_seqno h >=? 0) && (h_reach h >? 0) then _ else _) as [[r1 m1] c1].
  destruct (if negb (I =? 0) then _ else _) as [t iv]. destruct (if m1 >? 0 then _ else _) as [r2 c2]. cbn [fst snd].
  intros E. apply Bool.orb_false_iff in E. destruct E as (_ & E). apply Bool.negb_false_iff in E. apply Z.eqb_eq in E.
  set (r3 := Z.lor (Z.shiftr r2 1) 32768) in *. clearbody r3. unfold few. cbn [n_hello set_n_hello set_n_uhello h_reach].
  destruct any; [intros (F & _)..|contradiction].
  - assert (X : Z.land r3 64512 = Z.land (Z.land r3 65520) 64512) by (rewrite <- Z.land_assoc; reflexivity). rewrite F in X. rewrite E in X. discriminate X.
  - assert (X : Z.land r3 49152 = Z.land (Z.land r3 64512) 49152) by (rewrite <- Z.land_assoc; reflexivity). rewrite E in X.
    unfold two_three in F. rewrite X in F. discriminate F.
Qed.
Lemma J_hello w nb q I : any <> MTx -> reach c w -> In nb (w_nbs w) -> is_nb a i nb -> fits w -> u16_ok q -> u16_ok I -> w0 = w ->
  J (run1 (EvHello (n_id nb) false q I) w).
Proof.
  intros Am R Hn Kn Fi Hq HI E0. destruct (reach_W c w Hl R) as (Hw & _).
  assert (A : allowed (EvHello (n_id nb) false q I) w) by (split; [apply (in_map n_id), Hn|auto]).
  assert (Km : kmono w0 w) by (rewrite E0; apply kmono_same; reflexivity).
  split; [eapply kmono_trans; [exact Km|apply run1_kmono; auto]|]. cbn [run1]. unfold recv_hello, on_nb.
  assert (Gn : get_nb (n_id nb) w = Some nb).
  { unfold get_nb. destruct (find (fun x => n_id x =? n_id nb) (w_nbs w)) as [y|] eqn:F.
    - apply find_some in F. destruct F as (F1 & F2). f_equal. eapply NoDup_map_inj; [apply (W_nbs _ _ Hw)|auto|auto|lia].
    - exfalso. pose proof (find_none _ _ F nb Hn) as X. cbv beta in X. lia. }
  rewrite Gn. rewrite (surjective_pairing (update_hist (w_now w) (n_hello nb) q I)).
  set (h1 := fst (update_hist (w_now w) (n_hello nb) q I)). set (nb' := set_n_hello h1 nb).
  assert (Only : forall ch x', In x' (w_nbs (update_neighbour_metric (n_id nb) ch (map_nb (n_id nb) (fun _ => nb') w))) -> is_nb a i x' -> x' = nb').
  { intros ch x' Hx K. rewrite nk_unm in Hx. apply in_map_nb in Hx. destruct Hx as (x & Hx & [(E & ->)|(E & ->)]); [reflexivity|].
    exfalso. apply E. destruct K as (K1 & K2), Kn as (N1 & N2). rewrite (nb_unique c Hl w R x nb Hx Hn) by congruence. reflexivity. }
  destruct (snd (update_hist (w_now w) (n_hello nb) q I)) eqn:Ch.
  - destruct (J_apply w (n_id nb) nb nb' Hw Fi Km Gn eq_refl eq_refl eq_refl) as [Kf|Ap]; [|left; exact Kf|right].
    + intros T No. unfold nb'. destruct No as (N1 & N2 & N3). split; [|split; [exact N2|exact N3]].
      apply update_hist_ok; auto.
    + intros x' Hx K F r Hr Nr. rewrite (Only true x' Hx K) in F, Nr. exact (Ap Kn F r Hr Nr).
  - right. intros x' Hx K F. exfalso. rewrite (Only false x' Hx K) in F.
    apply (few_change (w_now w) (n_hello nb) q I (n_uhello nb) nb); [exact Am|unfold u16_ok in Hq; lia|exact Ch|].
    eapply few_ext; [|exact F]. apply alike_all; reflexivity.
Qed.
(** An IHU with a finite cost *)
Lemma J_ihu w nb tx iv : any = MTx -> reach c w -> In nb (w_nbs w) -> is_nb a i nb -> allowed (EvIhu (n_id nb) tx iv) w -> tx <> 65535 -> w0 = w ->
  J (run1 (EvIhu (n_id nb) tx iv) w).
Proof.
  intros Am R Hn Kn A Ht E0. destruct (reach_W c w Hl R) as (Hw & _).
  split; [rewrite E0; apply run1_kmono; auto|]. right. intros x' Hx K F. exfalso. rewrite Am in F. cbn [few] in F.
  cbn [run1] in Hx. unfold recv_ihu, on_nb in Hx. destruct (get_nb (n_id nb) w) as [y|] eqn:G.
  - rewrite nk_unm in Hx. apply in_map_nb in Hx. destruct Hx as (x & Hx & [(E & ->)|(E & ->)]); [apply Ht; exact F|].
    apply E. destruct K as (K1 & K2), Kn as (N1 & N2). rewrite (nb_unique c Hl w R x nb Hx Hn) by congruence. reflexivity.
  - pose proof (find_none _ _ G nb Hn) as X. cbv beta in X. lia.
Qed.
End Lost.

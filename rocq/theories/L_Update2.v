(** L_Update2.v: update_route, handle_request and removing neighbours. *)
From Verif Require Import Base M_Util S_Util L_Util M_Slot L_Slot M_Source S_Source L_Source
  M_Filter M_Types M_Neigh S_Neigh L_Neigh M_State M_Table M_Msg M_Route S_World L_Table L_Step L_Msg L_Smooth L_Quiet L_Trace
  L_Select L_Select2 L_Chain L_Chain2 L_Chain3 L_Flush L_Update.
From Coq Require Import Permutation.

Lemma found_key : forall now k q t s t', ssorted t -> find_source now k true q t = (s, t') ->
  In k (map s_key t') /\ s <> None.
Proof.
  intros now k q t s t' S F. pose proof (find_source_spec now k true q t S) as H.
  destruct (get_src k t) as [x|] eqn:G.
  - rewrite H in F. injection F as <- <-. split; [|discriminate]. apply get_src_keys. congruence.
  - destruct H as (t1 & t2 & _ & H & _). rewrite H in F. injection F as <- <-. split; [|discriminate].
    rewrite map_app. apply in_or_app. simpl. auto.
Qed.

Lemma find_route_In : forall d n w r, rt_wf (w_rt w) -> dvalid d -> find_route d n w = Some r ->
  In r (all_routes w) /\ dest_of r = d /\ r_neigh r = n.
Proof.
  intros d n w r Wf V H. unfold find_route in H. apply find_some in H. destruct H as (H & E).
  apply slot_of_iff in H; auto. destruct H. repeat split; auto. lia.
Qed.
Lemma find_route_None : forall d n w r, rt_wf (w_rt w) -> dvalid d -> find_route d n w = None ->
  In r (all_routes w) -> dest_of r = d -> r_neigh r <> n.
Proof.
  intros d n w r Wf V H Hr D. unfold find_route in H.
  assert (Hs : In r (slot_of d w)) by (apply slot_of_iff; auto).
  pose proof (find_none _ _ H r Hs). cbn in H0. lia.
Qed.

Lemma insert_perm : forall r w, rt_wf (w_rt w) ->
  Permutation (all_routes (insert_route r w)) (r :: all_routes w).
Proof.
  intros r w Wf. unfold insert_route, all_routes. destruct (find_route_slot (rdest r) w) as [i|n] eqn:F.
  - destruct (find_route_slot_found _ _ _ Wf F) as (A & l & B & E & -> & _). cbn [w_rt set_w_rt].
    rewrite E, Nat2Z.id, nth_middle', upd_middle, !concat_mid. rewrite <- app_assoc. cbn [app].
    rewrite <- Permutation_middle. rewrite <- Permutation_middle. auto.
  - cbn [w_rt set_w_rt]. unfold insert_at. rewrite concat_mid. cbn [app]. rewrite <- Permutation_middle.
    rewrite <- concat_app, firstn_skipn. auto.
Qed.

Lemma hold_15 : forall iv, 15 <= hold_time iv.
Proof. intros. unfold hold_time. lia. Qed.
Lemma new_route_rng : forall p k seqno refmetric cost add hold now n nh, u16_ok seqno -> u16_ok refmetric -> 15 <= hold ->
  route_rng (new_route p k seqno refmetric cost add hold now n nh).
Proof.
  intros p k seqno refmetric cost add hold now n nh Us Ur Uh. unfold new_route, route_rng.
  cbn [r_refmetric r_cost r_add_metric r_seqno r_smoothed set_r_smoothed].
  repeat split; try (apply u16_ok_u16); try (apply Us); try (apply Ur); auto.
  - unfold route_metric. cbn [r_refmetric r_cost r_add_metric]. unfold INFINITY.
    pose proof (u16_ok_u16 cost). pose proof (u16_ok_u16 add). unfold u16_ok in *. lia.
  - unfold route_metric. cbn [r_refmetric r_cost r_add_metric]. unfold INFINITY.
    pose proof (u16_ok_u16 cost). pose proof (u16_ok_u16 add). unfold u16_ok in *. lia.
Qed.

(** An update that is not recorded *)
Definition unrecorded (id : option (list Z)) (d : dest) (refmetric n : Z) (nexthop : option (list Z)) (w : world) : Prop :=
  match id with None => refmetric <? INFINITY | Some i => beq i (c_myid (w_cfg w)) end = true \/
  martian_prefix (d_prefix d) (d_plen d) || martian_prefix (d_src d) (d_splen d) = true \/
  v4mapped (d_prefix d) <> v4mapped (d_src d) \/
  (exists nb ifp, nb_if n w = Some (nb, ifp) /\
     input_filter (c_infs (w_cfg w)) id d (Some (n_addr nb)) (if_ifindex ifp) >= INFINITY) \/
  (find_route d n w = None /\ (refmetric >= INFINITY \/ nexthop = None)).

(** The three things an update can do to the table *)
Inductive upd_effect (id : option (list Z)) (d : dest) (seqno refmetric interval n : Z)
    (nexthop : option (list Z)) (w w' : world) : Prop :=
| Ue_none : unrecorded id d refmetric n nexthop w -> rt_same (w_rt w) (w_rt w') -> upd_effect id d seqno refmetric interval n nexthop w w'
| Ue_new : forall i nh nb ifp, find_route d n w = None -> id = Some i -> nexthop = Some nh ->
    refmetric < INFINITY -> nb_if n w = Some (nb, ifp) ->
    Permutation (map core (all_routes w'))
      (core (new_route (w_next w) (mkey i d) seqno refmetric (neighbour_cost (w_now w) ifp nb)
               (input_filter (c_infs (w_cfg w)) id d (Some (n_addr nb)) (if_ifindex ifp))
               (hold_time interval) (sec w) n nh) :: map core (all_routes w)) ->
    upd_effect id d seqno refmetric interval n nexthop w w'
| Ue_known : forall r k nb ifp, find_route d n w = Some r -> nb_if n w = Some (nb, ifp) ->
    k = mkey (match id with Some i => i | None => k_id (r_src r) end) d ->
    let T := if refmetric <? INFINITY then sec w else r_time r in
    rt_same (alter (r_ptr r) (known_upd k seqno T refmetric (neighbour_cost (w_now w) ifp nb)
               (input_filter (c_infs (w_cfg w)) id d (Some (n_addr nb)) (if_ifindex ifp))
               (hold_time interval)) (w_rt w)) (w_rt w') \/
    (r_installed r = true /\ krefused w w' /\
     rt_same (alter (r_ptr r) (known_ref k seqno T (hold_time interval)) (w_rt w)) (w_rt w')) ->
    upd_effect id d seqno refmetric interval n nexthop w w'.

Lemma mkey_dest : forall i d, dest_of_key (mkey i d) = d.
Proof. intros i []; reflexivity. Qed.
Lemma key_mkey : forall k i d, dest_of_key k = d -> k_id k = i -> k = mkey i d.
Proof. intros [] i d <- <-. reflexivity. Qed.

(** The destinations that are not rejected, route.c:850-864 *)
Definition admissible (d : dest) : Prop :=
  martian_prefix (d_prefix d) (d_plen d) = false /\ martian_prefix (d_src d) (d_splen d) = false /\
  v4mapped (d_prefix d) = v4mapped (d_src d).

(** An update is a chain of elementary steps, one of which may add a route. *)
Inductive uchain (d : dest) (nexthop : option (list Z)) (e : list skey) (w w' : world) : Prop :=
| U_chain : chain e w w' -> uchain d nexthop e w w'
| U_insert : forall w1 r w2, star false (e, w) (r_src r :: e, w1) -> istep (r_src r :: e, w1) (e, w2) ->
    w2 = insert_route r (set_w_next (w_next w1 + 1) w1) ->
    chain e w2 w' -> admissible d -> dest_of r = d -> nexthop = Some (r_nexthop r) -> r_installed r = false ->
    uchain d nexthop e w w'.
Lemma uchain_W : forall d nh e w w', uchain d nh e w w' -> W e w -> W e w'.
Proof.
  intros d nh e w w' U Hw. destruct U as [C | w1 r w2 S I _ C _ _ _ _].
  - eapply chain_W; eauto.
  - eapply chain_W; [exact C|]. apply (W_istep _ _ I). apply (W_star _ _ _ S). auto.
Qed.

Theorem update_route_spec : forall e w id d seqno refmetric interval n nexthop,
  W e w -> (length e <= 7)%nat -> dvalid d -> u16_ok seqno -> u16_ok refmetric -> In n (map n_id (w_nbs w)) ->
  let w' := update_route id d seqno refmetric interval n nexthop w in
  uchain d nexthop e w w' /\ env w w' /\ upd_effect id d seqno refmetric interval n nexthop w w'.
Proof.
  intros e w id d seqno refmetric interval n nexthop Hw Le V Us Ur Hn. cbv zeta. unfold update_route. cbv zeta.
  assert (Z0 : unrecorded id d refmetric n nexthop w ->
    uchain d nexthop e w w /\ env w w /\ upd_effect id d seqno refmetric interval n nexthop w w).
  { split; [apply U_chain, chain_refl|]. split; [apply env_refl|]. apply Ue_none; [auto|]. apply rt_same_refl. }
  destruct (match id with None => refmetric <? INFINITY | Some i => beq i (c_myid (w_cfg w)) end) eqn:G0; [apply Z0; left; exact G0|].
  destruct (_ || _) eqn:G1; [apply Z0; right; left; exact G1|].
  destruct (negb _) eqn:G2.
  { apply Z0. right. right. left. intros X. rewrite X, eqb_reflx in G2. discriminate. }
  assert (Ad : admissible d).
  { apply orb_false_iff in G1. destruct G1. apply negb_false_iff, eqb_prop in G2. repeat split; auto. }
  pose proof (W_get_nb _ _ _ Hw Hn) as Hnb. unfold has_nb in Hnb.
  destruct (nb_if n w) as [[nb ifp]|] eqn:Nb; [|contradiction].
  set (add := input_filter _ _ _ _ _). destruct (add >=? INFINITY) eqn:G3.
  { apply Z0. right. right. right. left. exists nb, ifp. split; auto. fold add. lia. }
  set (cost := neighbour_cost _ _ _).
  assert (Ma : metric_args w refmetric cost add).
  { split; [exact Ur|]. split; right; [|unfold add; eauto]. destruct (nb_if_In _ _ _ _ Nb) as (In1 & In2).
    exists nb, ifp. split; [exact In1|]. split; [apply in_map; exact In2|reflexivity]. }
  destruct (find_route d n w) as [r|] eqn:Fr.
  - (* a known route *)
    destruct (find_route_In _ _ _ _ (W_rt _ _ Hw) V Fr) as (Hr & Dr & Nr).
    set (i := match id with Some i => i | None => k_id (r_src r) end).
    destruct (beq (k_id (r_src r)) i) eqn:B.
    + apply beq_true in B.
      assert (Hk : In (r_src r) (map s_key (w_srcs w))).
      { apply (W_ref _ _ Hw). left. apply in_map. auto. }
      destruct (src_of r w) as [s|] eqn:Sr; [|exfalso; unfold src_of in Sr; apply get_src_keys in Hk; contradiction].
      destruct (update_known_spec e w r (r_src r) (update_feasible (sec w) (Some s) seqno refmetric) seqno refmetric
                  (Z.min (refmetric + cost + add) INFINITY) cost add (hold_time interval) n Hw Le Hr eq_refl Hk Us (hold_15 interval) Hn Ma)
        as (C & Ev & U).
      split; [apply U_chain; exact C|]. split; [exact Ev|].
      eapply Ue_known with (k := r_src r); eauto. apply key_mkey; auto.
    + destruct (find_source (sec w) (mkey i d) true seqno (w_srcs w)) as [s t] eqn:Fs.
      destruct (found_key _ _ _ _ _ _ (W_srcs _ _ Hw) Fs) as (Hk & Sn).
      set (w1 := set_w_srcs t w).
      assert (C1 : chain e w w1).
      { eapply chain_step. pose proof (S_find e w (mkey i d) seqno Us) as H. rewrite Fs in H. exact H. }
      pose proof (chain_W _ _ _ C1 Hw) as Hw1.
      destruct s as [s|]; [|contradiction].
      destruct (update_known_spec e w1 r (mkey i d) (update_feasible (sec w) (Some s) seqno refmetric) seqno refmetric
                  (Z.min (refmetric + cost + add) INFINITY) cost add (hold_time interval) n Hw1 Le Hr) as (C & Ev & U); auto using hold_15.
      { rewrite mkey_dest; auto. }
      split; [apply U_chain; eapply chain_trans; eauto|]. split; [eapply env_trans; [|exact Ev]; constructor; auto|].
      eapply Ue_known with (k := mkey i d); eauto.
  - destruct (refmetric >=? INFINITY) eqn:Ri.
    { apply Z0. right. right. right. right. split; [exact Fr|]. left. lia. }
    destruct id as [i|]; [|cbn in G0; unfold INFINITY in *; lia].
    destruct (find_source (sec w) (mkey i d) true seqno (w_srcs w)) as [s t] eqn:Fs.
    destruct (found_key _ _ _ _ _ _ (W_srcs _ _ Hw) Fs) as (Hk & Sn).
    set (w1 := set_w_srcs t w).
    assert (C1 : chain e w w1).
    { eapply chain_step. pose proof (S_find e w (mkey i d) seqno Us) as H. rewrite Fs in H. exact H. }
    pose proof (chain_W _ _ _ C1 Hw) as Hw1.
    destruct nexthop as [nh|].
    2:{ split; [apply U_chain; exact C1|]. split; [constructor; auto|]. apply Ue_none; [|apply rt_same_refl].
        right. right. right. right. split; auto. }
    set (w2 := if update_feasible (sec w) s seqno refmetric then w1 else _).
    assert (Fr2 : frame w1 w2).
    { unfold w2. destruct (update_feasible _ _ _ _); [apply frame_refl|]. eapply unfeasible_frame; eauto. }
    assert (Q2 : quiet e w1 w2) by (apply quiet_frame; auto).
    pose proof (quiet_W _ _ _ Q2 Hw1) as Hw2.
    assert (Hk2 : In (mkey i d) (map s_key (w_srcs w2))) by (rewrite (q_keys _ _ (quiet_same _ _ _ Q2)); auto).
    pose proof (retain_chain e w2 _ Hw2 ltac:(lia) Hk2) as C3.
    pose proof (retain_env e w2 _ Hw2 ltac:(lia) Hk2) as Ev3.
    assert (R3 : w_rt (retain_source (mkey i d) w2) = w_rt w).
    { rewrite retain_rt, (f_rt _ _ Fr2). reflexivity. }
    assert (N3 : w_next (retain_source (mkey i d) w2) = w_next w).
    { unfold retain_source. transitivity (w_next w2); [|rewrite (f_next _ _ Fr2); reflexivity].
      destruct (get_src _ _) as [x|]; [destruct (retain_ok x)|]; reflexivity. }
    set (w3 := retain_source (mkey i d) w2) in *. pose proof (star_W _ _ _ _ _ C3 Hw2) as Hw3.
    rewrite N3. set (r := new_route (w_next w) (mkey i d) seqno refmetric cost add (hold_time interval) (sec w) n nh).
    set (w4 := insert_route r (set_w_next (w_next w + 1) w3)).
    assert (Ev23 : env w w3).
    { eapply env_trans with w1; [constructor; auto|]. eapply env_trans; [eapply quiet_env; eauto|exact Ev3]. }
    assert (Src : r_src r = mkey i d) by reflexivity.
    assert (S4 : istep (mkey i d :: e, w3) (e, w4)).
    { unfold w4. rewrite <- Src, <- N3. apply I_insert.
      - symmetry. exact N3.
      - reflexivity.
      - apply new_route_rng; auto. apply hold_15.
      - unfold dest_of. rewrite Src, mkey_dest. auto.
      - rewrite (ev_nbs _ _ Ev23). exact Hn.
      - intros r' Hr' D'. change (r_neigh r) with n. eapply find_route_None; [| |exact Fr| |].
        + apply (W_rt _ _ Hw).
        + auto.
        + unfold all_routes in *. rewrite R3 in Hr'. exact Hr'.
        + rewrite D'. unfold dest_of. rewrite Src. apply mkey_dest. }
    pose proof (W_istep _ _ S4 Hw3) as Hw4. cbn [fst snd] in Hw4.
    assert (P4 : Permutation (all_routes w4) (r :: all_routes w)).
    { unfold w4. rewrite insert_perm.
      - unfold all_routes. cbn [w_rt set_w_next]. rewrite R3. auto.
      - cbn [w_rt set_w_next]. rewrite R3. apply (W_rt _ _ Hw). }
    assert (F4 : find_ptr (w_next w) w4 = Some r).
    { apply find_ptr_iff; [apply (W_rt _ _ Hw4)|]. split; [|reflexivity].
      eapply Permutation_in; [symmetry; exact P4|]. simpl. auto. }
    pose proof (consider_chain e w4 _ r Hw4 F4) as Q5. change (r_ptr r) with (w_next w).
    split; [|split].
    + apply U_insert with (w1 := w3) (r := r) (w2 := w4).
      * eapply star_trans; [exact C1|]. eapply star_trans; [apply quiet_chain; exact Q2|]. exact C3.
      * exact S4.
      * unfold w4. rewrite N3. reflexivity.
      * apply quiet_chain. exact Q5.
      * exact Ad.
      * unfold dest_of. rewrite Src. apply mkey_dest.
      * reflexivity.
      * reflexivity.
    + eapply env_trans; [exact Ev23|]. eapply env_trans; [|eapply quiet_env; exact Q5].
      unfold w4, insert_route. destruct (find_route_slot _ _); constructor; auto.
    + eapply Ue_new; eauto; [lia|]. fold add cost r.
      pose proof (q_rt _ _ (quiet_same _ _ _ Q5)) as R5. apply rt_same_concat in R5.
      fold (all_routes w4) in R5. unfold all_routes at 1. rewrite R5.
      change (core r :: map core (all_routes w)) with (map core (r :: all_routes w)). apply Permutation_map. exact P4.
Qed.

(** ** handle_request *)
Lemma handle_request_chain : forall e w n d hop seqno id, W e w -> In n (map n_id (w_nbs w)) ->
  chain e w (handle_request n d hop seqno id w).
Proof.
  intros e w n d hop seqno id Hw Hn. unfold handle_request. cbv zeta.
  pose proof (W_get_nb _ _ _ Hw Hn) as Hnb. unfold has_nb in Hnb.
  destruct (nb_if n w) as [[nb ifp]|] eqn:Nb; [|contradiction].
  pose proof (nb_if_has _ _ _ _ Nb) as Hif. pose proof (W_refs _ _ Hw) as R.
  assert (Up : forall w1, W e w1 -> has_if (if_id ifp) w1 -> chain e w1 (send_update_if (if_id ifp) true d w1)).
  { intros w1 Hw1 H1. apply quiet_chain, quiet_frame. apply send_update_if_frame; auto. eapply W_refs; eauto. }
  match goal with |- chain e w (if ?b then _ else _) => destruct b end.
  - destruct (_ && _ && _); [|apply Up; auto]. destruct (_ >? 100); [apply chain_refl|].
    assert (C1 : chain e w (update_myseqno w)) by (eapply chain_step; apply S_myseqno).
    eapply chain_trans; [exact C1|]. apply Up; [eapply chain_W; eauto|]. exact Hif.
  - match goal with |- chain e w (if ?b then _ else _) => destruct b end; [apply Up; auto|].
    destruct (hop <=? 1); [apply chain_refl|].
    match goal with |- chain e w (if ?b then _ else _) => destruct b end; [apply chain_refl|].
    destruct (request_redundant _ _ _ _ _); [apply chain_refl|].
    match goal with |- context [match ?x with (succ, w1) => _ end] => destruct x as [succ w1] eqn:Sx end.
    assert (G : quiet e w w1 /\ match succ with Some s => In s (map n_id (w_nbs w1)) | None => True end).
    { assert (H0 : match match find_installed d w with
                 | Some r => if route_metric r <? INFINITY then Some (r_neigh r) else None
                 | None => None end with Some s => In s (map n_id (w_nbs w)) | None => True end).
      { destruct (find_installed d w) as [r|] eqn:Fi; [|exact I]. destruct (_ <? _); [|exact I].
        apply (W_nb _ _ Hw). apply find_installed_In in Fi. apply Fi. }
      match type of Sx with (if ?b then _ else _) = _ => destruct b end.
      - destruct (find_best_route d false (Some n) w) as [b wb] eqn:Fb.
        destruct (find_best_chain false (Some n) e w d b wb Hw Fb) as (Q & _ & Hb).
        assert (Nbs : w_nbs wb = w_nbs w) by apply (q_nbs _ _ (quiet_same _ _ _ Q)).
        destruct b as [q|].
        + destruct Hb as (r & Fq & _). rewrite Fq in Sx. injection Sx as <- <-. split; auto.
          destruct (route_metric r <? INFINITY); [|rewrite Nbs; exact H0].
          apply (W_nb e wb). { eapply quiet_W; eauto. } eapply find_In; eauto.
        + injection Sx as <- <-. split; auto. rewrite Nbs. exact H0.
      - injection Sx as <- <-. split; [apply quiet_refl|exact H0]. }
    destruct G as (Q & Hs). pose proof (quiet_W _ _ _ Q Hw) as Hw1.
    destruct succ as [s|]; [|apply quiet_chain; auto]. destruct (s =? n); [apply quiet_chain; auto|].
    apply quiet_chain. eapply quiet_trans; [exact Q|]. apply quiet_frame.
    assert (F1 : frame w1 (send_unicast_multihop_request s d seqno id (hop - 1) w1)).
    { apply unicast_multihop_frame; [eapply W_refs; eauto|eapply W_get_nb; eauto]. }
    eapply frame_trans; [exact F1|]. apply record_frame. eapply frame_has_if; [exact F1|].
    unfold has_if in *. pose proof (q_ifs _ _ (quiet_same _ _ _ Q)) as Ei.
    assert (Ei' : map if_id (w_ifs w1) = map if_id (w_ifs w)).
    { assert (X : forall l, map if_id l = map if_id (map ifstat l)) by (intros; rewrite map_map; reflexivity).
      rewrite (X (w_ifs w1)), (X (w_ifs w)), Ei. auto. }
    rewrite Ei'. exact Hif.
Qed.

(** ** Neighbours *)
Lemma flush_neighbour_spec : forall e w n, W e w ->
  let w' := flush_neighbour n w in
  chain e w w' /\
  Permutation (map core (all_routes w')) (map core (filter (fun r => negb (r_neigh r =? n)) (all_routes w))) /\
  w_nbs w' = filter (fun x => negb (n_id x =? n)) (w_nbs w) /\
  w_now w' = w_now w /\ w_cfg w' = w_cfg w /\ map ifstat (w_ifs w') = map ifstat (w_ifs w) /\ w_xr w' = w_xr w /\
  w_fuel w' = w_fuel w.
Proof.
  intros e w n Hw. cbv zeta. destruct (flush_neighbour_routes_spec e w n Hw) as (C & Ev & P).
  unfold flush_neighbour. set (w1 := flush_neighbour_routes n w) in *. pose proof (chain_W _ _ _ C Hw) as Hw1.
  split; [|split; [exact P|]].
  - eapply chain_trans; [exact C|]. eapply chain_step. apply S_delnb. intros r Hr E.
    apply (in_map core) in Hr. apply (Permutation_in _ P) in Hr. apply in_map_iff in Hr.
    destruct Hr as (x & Ex & Hx). apply filter_In in Hx. destruct Hx as (_ & Hx).
    apply (f_equal r_neigh) in Ex. cbn in Ex. rewrite Ex, E, Z.eqb_refl in Hx. discriminate.
  - destruct Ev. cbn [w_nbs set_w_nbs w_now w_cfg w_ifs w_xr w_fuel]. rewrite ev_nbs. auto 10.
Qed.
Lemma flush_neighbour_chain : forall e w n, W e w -> chain e w (flush_neighbour n w).
Proof. intros e w n Hw. apply (flush_neighbour_spec e w n Hw). Qed.

Lemma check_neigh1_keeps : forall now n n' b, check_neigh1 now n = Some (n', b) ->
  n_id n' = n_id n /\ n_if n' = n_if n /\ n_addr n' = n_addr n.
Proof.
  unfold check_neigh1. intros now n n' b H.
  repeat match type of H with context [update_hist ?a ?b ?c ?d] => destruct (update_hist a b c d) end.
  destruct (neigh_dead _ _); [discriminate|].
  destruct (reset_txcost _ _) as [n2 c3] eqn:R. injection H as <- _. unfold reset_txcost in R.
  repeat match type of R with context [if ?b then _ else _] => destruct b end; injection R as <- _; auto.
Qed.

Lemma check_hists_ok : forall now n, tv_ok now -> neigh_ok n ->
  neigh_ok (set_n_uhello (fst (update_hist now (n_uhello n) (-1) 0)) (set_n_hello (fst (update_hist now (n_hello n) (-1) 0)) n)).
Proof.
  intros now n T (H1 & H2 & H3). split; [apply check_hist_ok; auto|]. split; [apply check_hist_ok; auto|]. exact H3.
Qed.
Lemma check_neigh1_ok : forall now n n' c, tv_ok now -> neigh_ok n -> check_neigh1 now n = Some (n', c) -> neigh_ok n'.
Proof.
  intros now n n' c T N H. pose proof (check_hists_ok now n T N) as N1. unfold check_neigh1 in H.
  destruct (update_hist now (n_hello n) (-1) 0) as [h c1]. destruct (update_hist now (n_uhello n) (-1) 0) as [u c2].
  cbn [fst] in N1. destruct (neigh_dead _ _); [discriminate|]. unfold reset_txcost in H.
  destruct (_ && _); [injection H as <- _; auto|]. destruct (_ || _); injection H as <- _; auto.
  destruct N1 as (A & B & C & D & E). split; auto. split; auto. split; [cbn; unfold INFINITY; lia|]. split; auto.
Qed.

Lemma check_neighbour1_chain : forall e w ms n, W e w -> chain e w (snd (check_neighbour1 (ms, w) n)).
Proof.
  intros e w ms n Hw. unfold check_neighbour1. destruct (get_nb n w) as [nb|] eqn:G; [|apply chain_refl].
  destruct (check_neigh1 (w_now w) nb) as [[nb' ch]|] eqn:Cn; cbn [snd].
  - destruct (check_neigh1_keeps _ _ _ _ Cn) as (K1 & K2 & K3).
    assert (C1 : chain e w (map_nb n (fun _ => nb') w)).
    { assert (E : map_nb n (fun _ => nb') w =
        map_nb n (fun x => set_n_addr (n_addr x) (set_n_if (n_if x) (set_n_id (n_id x) nb'))) w).
      { unfold map_nb. f_equal. apply map_ext_in. intros x Hx. destruct (n_id x =? n) eqn:Ex; auto.
        assert (x = nb).
        { unfold get_nb in G. apply find_some in G. destruct G as (Gi & Ge).
          eapply NoDup_map_inj; [apply (W_nbs _ _ Hw)| | |]; auto. lia. }
        subst x. rewrite <- K1, <- K2, <- K3. destruct nb'; reflexivity. }
      rewrite E. eapply chain_step. apply S_nb; [intros x; auto|]. intros x Hx Ex T N.
      assert (x = nb).
      { unfold get_nb in G. apply find_some in G. destruct G as (Gi & Ge).
        eapply NoDup_map_inj; [apply (W_nbs _ _ Hw)| | |]; auto. lia. }
      subst x. apply (check_neigh1_ok _ _ _ _ T N) in Cn. exact Cn. }
    eapply chain_trans; [exact C1|]. apply update_neighbour_metric_chain. eapply chain_W; eauto.
  - match goal with |- chain e w (flush_neighbour n ?x) => assert (C1 : chain e w x) end.
    { eapply chain_step. apply S_nb; [intros x; auto|]. intros x Hx Ex T N.
      assert (x = nb).
      { unfold get_nb in G. apply find_some in G. destruct G as (Gi & Ge).
        eapply NoDup_map_inj; [apply (W_nbs _ _ Hw)| | |]; auto. lia. }
      subst x. apply (check_hists_ok _ _ T N). }
    eapply chain_trans; [exact C1|]. apply flush_neighbour_chain. eapply chain_W; eauto.
Qed.
Lemma check_neighbours_chain : forall e w, W e w -> chain e w (snd (check_neighbours w)).
Proof.
  intros e w Hw. unfold check_neighbours. generalize (map n_id (w_nbs w)). intros l.
  generalize 50000 as ms. revert w Hw. induction l as [|n l IH]; intros w Hw ms; cbn [fold_left]; [apply chain_refl|].
  pose proof (check_neighbour1_chain e w ms n Hw) as C. destruct (check_neighbour1 (ms, w) n) as [ms' w'].
  cbn [snd] in C. eapply chain_trans; [exact C|]. apply IH. eapply chain_W; eauto.
Qed.

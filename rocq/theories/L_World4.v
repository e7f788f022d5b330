(** L_World4.v: an update that is not ignored is recorded. *)
From Coq Require Import Sorting.Permutation.
From Verif Require Import Base M_Util M_Slot M_Source M_Filter M_Types M_Neigh M_State M_Table M_Msg
  M_Route S_Util S_Source S_Filter S_Neigh S_World M_Xroute M_Daemon L_Util L_Source L_Slot L_Filter L_Table L_Step L_Neigh L_Quiet
  L_Select L_Select2 L_Flush L_Update L_Update2 L_Daemon L_Inv L_World L_World2 L_World3.

Definition dest_dec : forall a b : dest, {a = b} + {a <> b}.
Proof. repeat decide equality. Defined.
Lemma nb_if_iff : forall e w n nb i, W e w -> (nb_if n w = Some (nb, i) <-> In nb (w_nbs w) /\ n_id nb = n /\ In i (w_ifs w) /\ if_id i = n_if nb).
Proof.
  intros e w n nb i Hw. unfold nb_if, get_nb, get_if. split.
  - destruct (find _ (w_nbs w)) as [x|] eqn:F; [|discriminate]. destruct (find _ (w_ifs w)) as [y|] eqn:Fi; [|discriminate].
    intros E. inversion E; subst. apply find_some in F. apply find_some in Fi. destruct F, Fi. repeat split; auto; lia.
  - intros (A & B & C & D).
    destruct (find (fun x => n_id x =? n) (w_nbs w)) as [x|] eqn:F.
    2:{ pose proof (find_none _ _ F nb A) as X. cbn in X. lia. }
    apply find_some in F. destruct F as (F & X). assert (x = nb) by (eapply NoDup_map_inj; [apply (W_nbs _ _ Hw)| | |]; auto; lia). subst x.
    destruct (find (fun x => if_id x =? n_if nb) (w_ifs w)) as [y|] eqn:Fi.
    2:{ pose proof (find_none _ _ Fi i C) as Y. cbn in Y. lia. }
    apply find_some in Fi. destruct Fi as (Fi & Y). assert (y = i) by (eapply NoDup_map_inj; [apply (W_ifs _ _ Hw)| | |]; auto; lia). subst y.
    reflexivity.
Qed.
Lemma core_same_entry : forall r r', core r' = core r -> same_entry r r'.
Proof. intros r r' C. destruct r, r'. cbn in *. inversion C; subst. repeat split. Qed.
Lemma same_entry_dest : forall r r', same_entry r r' -> dest_of r' = dest_of r /\ r_neigh r' = r_neigh r.
Proof. intros r r' ((_ & S & N & _) & _). unfold dest_of. rewrite S, N. auto. Qed.
Lemma core_fields : forall r r', core r' = core r -> dest_of r' = dest_of r /\ r_neigh r' = r_neigh r.
Proof. intros r r' C. apply same_entry_dest, core_same_entry, C. Qed.

Lemma in_core : forall l l' r, Permutation (map core l') (map core l) -> In r l -> exists r', In r' l' /\ core r' = core r.
Proof.
  intros l l' r P H. apply (in_map core) in H. apply (Permutation_in _ (Permutation_sym P)) in H. apply in_map_iff in H.
  destruct H as (r' & E & H'). eauto.
Qed.

Lemma u16_same : forall x, u16_ok x -> u16 x = x.
Proof. intros x H. unfold u16, u16_ok in *. apply Z.mod_small. lia. Qed.

Lemma find_route_iff : forall d n w, rt_wf (w_rt w) -> dvalid d ->
  ((exists r, In r (all_routes w) /\ dest_of r = d /\ r_neigh r = n) <-> find_route d n w <> None).
Proof.
  intros d n w Wf V. split.
  - intros (r & H & D & N) E. exact (find_route_None _ _ _ _ Wf V E H D N).
  - destruct (find_route d n w) as [r|] eqn:E; [|congruence]. intros _. destruct (find_route_In _ _ _ _ Wf V E) as (A & B & C). eauto.
Qed.

Lemma one_route : forall w r r', rt_wf (w_rt w) -> In r (all_routes w) -> In r' (all_routes w) ->
  dest_of r = dest_of r' -> r_neigh r = r_neigh r' -> r = r'.
Proof.
  intros w r r' Wf H H' D N. pose proof (route_dvalid w r Wf H) as V.
  assert (S : In r (slot_of (dest_of r) w)) by (apply slot_of_iff; auto).
  assert (S' : In r' (slot_of (dest_of r) w)) by (apply slot_of_iff; auto).
  destruct (slot_of_cases (dest_of r) w Wf) as [(E & _)|(Hl & _)]; [rewrite E in S; contradiction|].
  pose proof (wf_slot _ _ Wf Hl) as (_ & _ & _ & Nd & _). eapply NoDup_map_inj; eauto.
Qed.

Theorem update_recorded : forall c w id d q m iv n nh nb ifp add a, c_half_life c <> 2 -> reach c w ->
  allowed (EvUpdate id d q m iv n nh) w ->
  Forall filt_ok (c_infs c) -> dest_ok d ->
  In nb (w_nbs w) -> n_id nb = n -> In ifp (w_ifs w) -> if_id ifp = n_if nb ->
  id <> Some (c_myid c) -> (id = None -> m = 65535) ->
  martian_prefix (d_prefix d) (d_plen d) = false -> martian_prefix (d_src d) (d_splen d) = false ->
  v4mapped (d_prefix d) = v4mapped (d_src d) ->
  chain_spec 0 (c_infs c) id d (Some (n_addr nb)) (if_ifindex ifp) 0 add a -> add < 65535 ->
  recorded id d q m iv n nh (neighbour_cost (w_now w) ifp nb) add w (run1 (EvUpdate id d q m iv n nh) w).
Proof.
  intros c w id d q m iv n nh nb ifp add a Hl R A Fo Do Hnb Nid Hif Iid I1 I2 M1 M2 V Ch Ad.
  destruct (reach_W c w Hl R) as (Hw & Ec). pose proof (reach_rng c w Hl R) as G.
  destruct A as (A1 & A2 & A3 & A4). unfold known_nb in A1.
  assert (Nb : nb_if n w = Some (nb, ifp)).
  { unfold nb_if, get_nb, get_if.
    destruct (find (fun x => n_id x =? n) (w_nbs w)) as [x|] eqn:F.
    2:{ pose proof (find_none _ _ F nb Hnb) as X. cbn in X. lia. }
    apply find_some in F. destruct F as (F & X).
    assert (x = nb) by (eapply NoDup_map_inj; [apply (W_nbs _ _ Hw)| | |]; auto; lia). subst x.
    destruct (find (fun x => if_id x =? n_if nb) (w_ifs w)) as [y|] eqn:Fi.
    2:{ pose proof (find_none _ _ Fi ifp Hif) as Y. cbn in Y. lia. }
    apply find_some in Fi. destruct Fi as (Fi & Y).
    assert (y = ifp) by (eapply NoDup_map_inj; [apply (W_ifs _ _ Hw)| | |]; auto; lia). subst y. reflexivity. }
  assert (Inp : input_filter (c_infs (w_cfg w)) id d (Some (n_addr nb)) (if_ifindex ifp) = add).
  { rewrite Ec. destruct (input_chain (c_infs c) id d (Some (n_addr nb)) (if_ifindex ifp) Fo Do) as (r0 & Ch').
    destruct Ch as [(x & F1 & E1 & _)|(F1 & E1 & _)], Ch' as [(y & F2 & E2 & _)|(F2 & E2 & _)];
      pose proof (first_match_det _ _ _ _ _ _ _ _ F1 F2) as D; try discriminate; congruence. }
  assert (Add : u16_ok add).
  { pose proof (input_filter_range (c_infs (w_cfg w)) id d (Some (n_addr nb)) (if_ifindex ifp)) as X. rewrite Inp, Ec in X.
    specialize (X Fo Do). unfold u16_ok. lia. }
  pose proof (cost_in (w_now w) ifp nb (rg_ifs _ G ifp Hif) (rg_nbs _ G nb Hnb)) as (Cr & _).
  set (cost := neighbour_cost (w_now w) ifp nb) in *.
  assert (Cu : u16_ok cost) by (unfold u16_ok, INFINITY in *; lia).
  destruct (update_route_spec [] w id d q m iv n nh Hw ltac:(simpl; lia) A2 A3 A4 A1) as (_ & _ & U). cbn [run1].
  set (w' := update_route id d q m iv n nh w) in *. unfold recorded. cbv zeta.
  pose proof (find_route_iff d n w (W_rt _ _ Hw) A2) as Fi.
  destruct U as [Ur Rt | i nh' nb' ifp' Fr Ei En Mf Nb' P | r k nb' ifp' Fr Nb' Ek T Rt].
  - (* nothing to record *)
    apply rt_same_concat in Rt. fold (all_routes w) in Rt. fold (all_routes w') in Rt.
    assert (Un : find_route d n w = None /\ (m >= INFINITY \/ nh = None)).
    { destruct Ur as [X|[X|[X|[(nb' & ifp' & X & Y)|X]]]]; auto.
      - destruct id as [i|]; [apply beq_true in X; subst; congruence|]. unfold INFINITY in X. specialize (I2 eq_refl). lia.
      - rewrite M1, M2 in X. discriminate.
      - contradiction.
      - rewrite Nb in X. inversion X; subst nb' ifp'. rewrite Inp in Y. unfold INFINITY in Y. lia. }
    destruct Un as (Un & Why).
    assert (No : ~ exists r, In r (all_routes w) /\ dest_of r = d /\ r_neigh r = n) by (rewrite Fi; congruence).
    assert (No' : ~ exists r, In r (all_routes w') /\ dest_of r = d /\ r_neigh r = n).
    { intros (r & H & D & N). destruct (in_core (all_routes w') (all_routes w) r (Permutation_sym Rt) H) as (r0 & H0 & C0).
      apply No. exists r0. destruct (core_fields _ _ C0). split; auto. split; congruence. }
    split; [|split; [|split]].
    + intros r H _. destruct (in_core _ _ r Rt H) as (r' & H' & C'). exists r'. split; auto. apply core_same_entry; auto.
    + intros r' H _. destruct (in_core _ _ r' (Permutation_sym Rt) H) as (r & H' & C'). exists r. split; auto. apply core_same_entry; auto.
    + split; [intros X; exfalso; apply No'; destruct X as (x & X); exists x; tauto|].
      intros [(r & X)|(X & Y)]; [exfalso; apply No; exists r; tauto|]. unfold INFINITY in Why. destruct Why; [lia|congruence].
    + intros r' H (D & N). exfalso. apply No'. eauto.
  - (* a new route *)
    assert (No : ~ exists r, In r (all_routes w) /\ dest_of r = d /\ r_neigh r = n) by (rewrite Fi; congruence).
    rewrite Nb in Nb'. inversion Nb'; subst nb' ifp'. clear Nb'. rewrite Inp in P. fold cost in P.
    set (nr := new_route _ _ _ _ _ _ _ _ _ _) in P.
    change (core nr :: map core (all_routes w)) with (map core (nr :: all_routes w)) in P.
    assert (Dn : dest_of nr = d) by (apply mkey_dest).
    assert (Nn : r_neigh nr = n) by reflexivity.
    split; [|split; [|split]].
    + intros r H _. destruct (in_core _ _ r P (or_intror H)) as (r' & H' & C'). exists r'. split; auto. apply core_same_entry; auto.
    + intros r' H Nm. destruct (in_core _ _ r' (Permutation_sym P) H) as (r & H' & C'). destruct H' as [<-|H'].
      * exfalso. apply Nm. destruct (core_fields _ _ C'). split; congruence.
      * exists r. split; auto. apply core_same_entry; auto.
    + split; [intros _; right; unfold INFINITY in Mf; split; [lia|congruence]|]. intros _.
      destruct (in_core _ _ nr P (or_introl eq_refl)) as (r' & H' & C'). exists r'. split; auto. destruct (core_fields _ _ C'). split; congruence.
    + intros r' H (D & N). destruct (in_core _ _ r' (Permutation_sym P) H) as (r & H' & C'). destruct H' as [<-|H'].
      2:{ exfalso. apply No. exists r. destruct (core_fields _ _ C'). split; auto. split; congruence. }
      apply core_same_entry in C'. destruct C' as ((P1 & P2 & P3 & P4 & P5 & P6) & P7 & P8 & P9 & P10).
      unfold metric_of. rewrite <- P2, <- P5, <- P6, <- P7, <- P8, <- P9.
      assert (X : r_seqno nr = q /\ r_refmetric nr = m /\ r_cost nr = u16 cost /\ r_add_metric nr = u16 add /\ r_time nr = sec w /\ r_src nr = mkey i d) by (repeat split).
      destruct X as (-> & -> & -> & -> & -> & ->). rewrite !u16_same by auto.
      split; auto. split; [intros j Ej; subst id; inversion Ej; reflexivity|]. split; [reflexivity|].
      split; [rewrite <- P10; reflexivity|]. split; [intros x Hx Mx; exfalso; apply No; exists x; tauto|].
      split; [intros _; rewrite <- P4; exact En|]. left. auto.
  - (* a known route *)
    rewrite Nb in Nb'. inversion Nb'; subst nb' ifp'. clear Nb'. rewrite Inp in Rt. fold cost in Rt.
    destruct (find_route_In _ _ _ _ (W_rt _ _ Hw) A2 Fr) as (Hr & Dr & Nr).
    assert (X : exists g, rt_same (alter (r_ptr r) g (w_rt w)) (w_rt w') /\
      (forall x, r_neigh (g x) = r_neigh x /\ r_src (g x) = k /\ r_seqno (g x) = q /\ r_time (g x) = T /\
         r_hold_time (g x) = hold_time iv /\ r_ptr (g x) = r_ptr x /\ r_nexthop (g x) = r_nexthop x) /\
      ((r_refmetric (g r) = m /\ r_cost (g r) = cost /\ r_add_metric (g r) = add) \/ krefused w w')).
    { destruct Rt as [Rt|(Ir & Kr & Rt)]; eexists; (split; [exact Rt|]); (split; [intros x; repeat split|]); [|auto].
      left. unfold known_upd, metric_set. cbn. rewrite !u16_same by auto. auto. }
    destruct X as (g & Rg & Gx & Gm). clear Rt. apply rt_same_concat in Rg. fold (all_routes w') in Rg.
    set (h := fun x => if is_ptr (r_ptr r) x then g x else x).
    assert (Ea : concat (alter (r_ptr r) g (w_rt w)) = map h (all_routes w)) by (unfold alter, all_routes; rewrite concat_map; reflexivity).
    rewrite Ea in Rg. clear Ea.
    assert (Hr1 : h r = g r) by (unfold h, is_ptr; rewrite Z.eqb_refl; auto).
    assert (Ho : forall x, In x (all_routes w) -> x <> r -> h x = x).
    { intros x Hx Nx. unfold h, is_ptr. destruct (r_ptr x =? r_ptr r) eqn:E; auto. exfalso. apply Nx.
      eapply NoDup_map_inj; [apply (wf_ptrs _ (W_rt _ _ Hw))| | |]; eauto. lia. }
    assert (Dg : dest_of (g r) = d /\ r_neigh (g r) = n).
    { destruct (Gx r) as (G1 & G2 & _). unfold dest_of. rewrite G2, G1, Ek. split; auto. apply mkey_dest. }
    assert (One : forall x, In x (all_routes w) -> dest_of x = d -> r_neigh x = n -> x = r).
    { intros x Hx Dx Nx. apply (one_route w); auto; [apply (W_rt _ _ Hw)| |]; congruence. }
    split; [|split; [|split]].
    + intros x H Nm. assert (x <> r) by (intros ->; apply Nm; auto).
      destruct (in_core (map h (all_routes w)) (all_routes w') x) as (r' & H' & C'); auto.
      { apply in_map_iff. exists x. split; auto. }
      exists r'. split; auto. apply core_same_entry; auto.
    + intros r' H Nm. destruct (in_core _ _ r' (Permutation_sym Rg) H) as (y & Hy & Cy). apply in_map_iff in Hy.
      destruct Hy as (x & <- & Hx). destruct (Z.eq_dec (r_ptr x) (r_ptr r)) as [E|E].
      * assert (x = r) by (eapply NoDup_map_inj; [apply (wf_ptrs _ (W_rt _ _ Hw))| | |]; eauto). subst x. exfalso. apply Nm.
        rewrite Hr1 in Cy. destruct (core_fields _ _ Cy). destruct Dg. split; congruence.
      * rewrite Ho in Cy by (auto; congruence). exists x. split; auto. apply core_same_entry; auto.
    + split; [intros _; left; exists r; auto|]. intros _.
      destruct (in_core (map h (all_routes w)) (all_routes w') (g r)) as (r' & H' & C'); auto.
      { apply in_map_iff. exists r. auto. }
      exists r'. split; auto. destruct (core_fields _ _ C'). destruct Dg. split; congruence.
    + intros r' H (D & N). destruct (in_core _ _ r' (Permutation_sym Rg) H) as (y & Hy & Cy). apply in_map_iff in Hy.
      destruct Hy as (x & <- & Hx).
      assert (x = r).
      { destruct (Z.eq_dec (r_ptr x) (r_ptr r)) as [E|E].
        - eapply NoDup_map_inj; [apply (wf_ptrs _ (W_rt _ _ Hw))| | |]; eauto.
        - rewrite Ho in Cy by (auto; congruence). destruct (core_fields _ _ Cy). apply One; congruence. }
      subst x. rewrite Hr1 in Cy. apply core_same_entry in Cy. destruct Cy as ((P1 & P2 & P3 & P4 & P5 & P6) & P7 & P8 & P9 & P10).
      destruct (Gx r) as (G1 & G2 & G3 & G4 & G5 & G6 & G7).
      split; [congruence|]. split; [intros i Ei; rewrite <- P2, G2, Ek, Ei; reflexivity|].
      split; [intros Mf; rewrite <- P9, G4; unfold T, INFINITY; destruct (m <? 65535) eqn:X; [reflexivity|lia]|].
      split; [rewrite <- P10, G5; reflexivity|].
      split; [intros x1 Hx1 (Dx & Nx); rewrite (One x1 Hx1 Dx Nx); split; congruence|].
      split; [intros Nm; exfalso; apply (Nm r Hr); auto|].
      destruct Gm as [(E1 & E2 & E3)|Gm]; auto. left. unfold metric_of. rewrite <- P5, <- P7, <- P8, E1, E2, E3. auto.
Qed.

Theorem next_hop_of_creation : forall c w id d q m iv n nh nb ifp add a, c_half_life c <> 2 -> reach c w ->
  allowed (EvUpdate id d q m iv n nh) w ->
  Forall filt_ok (c_infs c) -> dest_ok d ->
  In nb (w_nbs w) -> n_id nb = n -> In ifp (w_ifs w) -> if_id ifp = n_if nb ->
  id <> Some (c_myid c) -> (id = None -> m = 65535) ->
  martian_prefix (d_prefix d) (d_plen d) = false -> martian_prefix (d_src d) (d_splen d) = false ->
  v4mapped (d_prefix d) = v4mapped (d_src d) ->
  chain_spec 0 (c_infs c) id d (Some (n_addr nb)) (if_ifindex ifp) 0 add a -> add < 65535 ->
  let w' := run1 (EvUpdate id d q m iv n nh) w in
  forall r', In r' (all_routes w') -> dest_of r' = d -> r_neigh r' = n ->
    (exists r, In r (all_routes w) /\ r_ptr r = r_ptr r' /\ r_nexthop r = r_nexthop r') \/
    ((forall r, In r (all_routes w) -> dest_of r = d -> r_neigh r <> n) /\ nh = Some (r_nexthop r')).
Proof.
  intros c w id d q m iv n nh nb ifp add a Hl R A Fo Do Hnb Nid Hif Iid I1 I2 M1 M2 V Ch Ad w' r' H D N.
  destruct (update_recorded c w id d q m iv n nh nb ifp add a Hl R A Fo Do Hnb Nid Hif Iid I1 I2 M1 M2 V Ch Ad) as (_ & _ & _ & U).
  destruct (U r' H (conj D N)) as (_ & _ & _ & _ & U1 & U2 & _).
  destruct (find (fun r => (if dest_dec (dest_of r) d then true else false) && (r_neigh r =? n)) (all_routes w)) as [r|] eqn:F.
  - apply find_some in F. destruct F as (F & X). apply andb_prop in X. destruct X as (X & Y). destruct (dest_dec (dest_of r) d); [|discriminate].
    destruct (U1 r F) as (E1 & E2); [split; auto; lia|]. left. exists r. auto.
  - assert (Nm : forall r, In r (all_routes w) -> dest_of r = d -> r_neigh r <> n).
    { intros r Hr Dr Nr. pose proof (find_none _ _ F r Hr) as X. cbv beta in X. destruct (dest_dec (dest_of r) d); [|contradiction].
      rewrite Nr, Z.eqb_refl in X. discriminate. }
    right. split; auto. apply U2. intros r Hr (Dr & Nr). apply (Nm r); auto.
Qed.

(** L_Lose.v: losing the selected route. *)
From Verif Require Import Base M_Util S_Util L_Util M_Slot L_Slot M_Source S_Source L_Source
  M_Filter M_Types M_Neigh M_State M_Table M_Msg M_Route M_Xroute S_World S_Send S_Pend L_Table L_Step L_Msg L_Smooth L_Quiet
  L_Trace L_Select L_Select2 L_Chain L_Chain2 L_Chain3 L_Flush L_Update L_Update2 L_Xroute L_World L_World2 L_World4 L_Send L_Resend4 L_Request L_Pend.
From Coq Require Import Permutation.

(** ** Routes to other destinations stay as they are *)
Definition others (d : dest) (w w' : world) : Prop :=
  (forall r, In r (all_routes w) -> dest_of r <> d ->
     exists r', In r' (all_routes w') /\ core r' = core r /\ r_installed r' = r_installed r) /\
  (forall r', In r' (all_routes w') -> dest_of r' <> d ->
     exists r, In r (all_routes w) /\ core r' = core r /\ r_installed r' = r_installed r).
Lemma others_trans : forall d a b c, others d a b -> others d b c -> others d a c.
Proof.
  intros d a b c (A1 & A2) (B1 & B2). split.
  - intros r Hr D. destruct (A1 r Hr D) as (r1 & H1 & C1 & I1). destruct (B1 r1 H1) as (r2 & H2 & C2 & I2).
    { intros X. apply D. rewrite <- X. symmetry. apply (core_dest _ _ C1). }
    exists r2. split; auto. split; congruence.
  - intros r Hr D. destruct (B2 r Hr D) as (r1 & H1 & C1 & I1). destruct (A2 r1 H1) as (r2 & H2 & C2 & I2).
    { intros X. apply D. rewrite <- X. apply (core_dest _ _ C1). }
    exists r2. split; auto. split; congruence.
Qed.
Lemma others_rt : forall d w w', w_rt w' = w_rt w -> others d w w'.
Proof. intros d w w' E. unfold others, all_routes. rewrite E. split; intros r Hr _; exists r; auto. Qed.
Lemma others_set : forall d p b w, (forall r, find_ptr p w = Some r -> dest_of r = d) -> NoDup (map r_ptr (all_routes w)) ->
  others d w (map_ptr p (set_r_installed b) w).
Proof.
  intros d p b w H Nd. unfold others. rewrite all_map_ptr.
  assert (X : forall r, In r (all_routes w) -> dest_of r <> d -> upd_route p (set_r_installed b) r = r).
  { intros r Hr D. unfold upd_route. destruct (is_ptr p r) eqn:P; auto. exfalso. apply D. apply H.
    unfold is_ptr in P. unfold find_ptr. destruct (find (is_ptr p) (concat (w_rt w))) as [r2|] eqn:F.
    - apply find_some in F. destruct F as (F1 & F2). unfold is_ptr in F2. f_equal. eapply NoDup_map_inj; eauto. lia.
    - apply (find_none _ _ F r) in Hr. unfold is_ptr in Hr. lia. }
  split.
  - intros r Hr D. exists r. split; auto. apply in_map_iff. exists r. auto.
  - intros r' Hr' D. apply in_map_iff in Hr'. destruct Hr' as (r & <- & Hr). exists r. split; auto. rewrite X; auto.
    intros E. apply D. unfold upd_route. destruct (is_ptr p r); auto.
Qed.
Lemma others_perm : forall d w w', Permutation (all_routes w') (all_routes w) -> others d w w'.
Proof.
  intros d w w' P. split; intros r Hr _; exists r; (split; [|auto]).
  - eapply Permutation_in; [symmetry; exact P|exact Hr].
  - eapply Permutation_in; [exact P|exact Hr].
Qed.
Lemma move_perm : forall d p w, Permutation (all_routes (move_installed d p w)) (all_routes w).
Proof.
  intros d p w. unfold move_installed. destruct (find_route_slot d w); auto.
  unfold all_routes. cbn [w_rt set_w_rt]. apply concat_upd_perm. apply move_front_perm.
Qed.
Lemma others_smw : forall d w w', smw w w' -> others d w w'.
Proof.
  intros d w w' (_ & S). unfold others, all_routes.
  assert (H : Forall2 (fun r r' => core r' = core r /\ r_installed r' = r_installed r) (concat (w_rt w)) (concat (w_rt w'))).
  { induction S as [|l l' a b H S IH]; cbn [concat]; auto. apply Forall2_app; auto. }
  clear S. split.
  - intros r Hr _. induction H as [|x y l l' E H IH]; [destruct Hr|]. destruct Hr as [<-|Hr]; [exists y; simpl; tauto|].
    destruct (IH Hr) as (r' & H1 & H2). exists r'. simpl. auto.
  - intros r Hr _. induction H as [|x y l l' E H IH]; [destruct Hr|]. destruct Hr as [<-|Hr]; [exists x; simpl; tauto|].
    destruct (IH Hr) as (r' & H1 & H2). exists r'. simpl. auto.
Qed.
Lemma smw_keep : forall w w', smw w w' -> w_ifs w' = w_ifs w /\ w_out w' = w_out w /\ w_rsd w' = w_rsd w /\ w_xr w' = w_xr w /\ w_ktr w' = w_ktr w.
Proof. intros w w' Sm. rewrite (sm_eq _ _ Sm). cbn. auto. Qed.

(** ** Installing a route when none is selected *)
Lemma kframe_keep : forall w w', kframe w w' -> w_ifs w' = w_ifs w /\ w_out w' = w_out w /\ w_rsd w' = w_rsd w /\ w_rt w' = w_rt w.
Proof. intros w w' (a & b & ->). auto. Qed.
Lemma install_result : forall e w p r, W e w -> find_ptr p w = Some r -> r_installed r = false ->
  find_installed (rdest r) w = None ->
  let w' := install_route p w in
  w_ifs w' = w_ifs w /\ w_out w' = w_out w /\ w_rsd w' = w_rsd w /\ others (dest_of r) w w' /\
  ((w_rt w' = w_rt w /\ (krefused w w' \/ install_denied w r)) \/
   exists r', is_selected w' (dest_of r) r' /\ core r' = core r).
Proof.
  intros e w p r Hw F I N. cbv zeta. unfold install_route. rewrite F, I. pose proof (find_In _ _ _ F) as Hr.
  destruct (slot_nonempty w r (W_rt _ _ Hw) Hr) as (h & t & E). rewrite E.
  assert (Nh : r_installed h = false).
  { unfold find_installed in N. rewrite E in N. destruct (r_installed h); [discriminate N|auto]. }
  rewrite Nh, andb_false_r.
  destruct (W_nbif_ e w r Hw Hr) as (n & i & Nb). rewrite Nb.
  destruct (change_route_add r i (metric_to_kernel (w_cfg w) (route_metric r)) w) as [rc w1] eqn:C.
  pose proof (change_route_add_frame _ _ _ _ _ _ C) as K. destruct (kframe_keep _ _ K) as (K1 & K2 & K3 & K4).
  destruct ((rc <? 0) && negb (rc =? - EEXIST)) eqn:R.
  - split; auto. split; auto. split; auto. split; [apply others_rt; auto|]. left. split; auto.
    apply andb_prop in R. destruct R as (R & _). unfold change_route_add in C.
    destruct (inst_filter r i w) as [[[] table] pref] eqn:If.
    + right. unfold inst_filter in If. pose proof (proj1 (nb_if_iff e w (r_neigh r) n i Hw) Nb) as (B1 & B2 & B3 & B4).
      exists n, i. split; auto. split; auto. split; auto. split; auto. change (dest_of r) with (rdest r).
      destruct (install_filter _ _ _ _) as [m res]. inversion If. cbn [fst]. unfold INFINITY in *. lia.
    + left. apply kernel_route1_log in C. apply C. lia.
  - set (w2 := selected r w None w1). set (w3 := map_ptr p (set_r_installed true) w2).
    assert (Mi : w_ifs (move_installed (rdest r) p w3) = w_ifs w3 /\ w_out (move_installed (rdest r) p w3) = w_out w3 /\
      w_rsd (move_installed (rdest r) p w3) = w_rsd w3) by (unfold move_installed; destruct (find_route_slot _ _); auto).
    destruct Mi as (M1 & M2 & M3). rewrite M1, M2, M3.
    assert (Rt : all_routes w2 = all_routes w) by (unfold all_routes; cbn; rewrite K4; auto).
    pose proof (wf_ptrs _ (W_rt _ _ Hw)) as Nd.
    split; auto. split; auto. split; auto. split.
    + eapply others_trans; [apply (others_rt _ w w2); exact K4|].
      eapply others_trans; [|apply others_perm, move_perm].
      apply others_set; [|rewrite Rt; exact Nd]. intros r2 F2. unfold find_ptr in F2. change (w_rt w2) with (w_rt w1) in F2.
      rewrite K4 in F2. fold (find_ptr p w) in F2. congruence.
    + right. exists (set_r_installed true r). split; [|reflexivity]. split; [|split; reflexivity].
      eapply Permutation_in; [symmetry; apply move_perm|]. unfold w3. rewrite all_map_ptr. apply in_map_iff. exists r.
      unfold upd_route, is_ptr. rewrite (find_ptr_ptr _ _ _ F), Z.eqb_refl. split; auto. rewrite Rt. exact Hr.
Qed.

(** ** The best route, in short *)
Lemma smw_find : forall e w w' p r, W e w -> quiet e w w' -> smw w w' -> find_ptr p w = Some r ->
  exists r', find_ptr p w' = Some r' /\ core r' = core r /\ r_installed r' = r_installed r.
Proof.
  intros e w w' p r Hw Q Sm F. destruct (quiet_find e w w' p r Hw Q F) as (r' & F' & C). exists r'. split; auto. split; auto.
  destruct Sm as (_ & S). pose proof (find_In _ _ _ F) as Hr. pose proof (find_ptr_ptr _ _ _ F) as P.
  assert (H : Forall2 (fun r r' => core r' = core r /\ r_installed r' = r_installed r) (all_routes w) (all_routes w')).
  { unfold all_routes. induction S as [|l l' a b H S IH]; cbn [concat]; auto. apply Forall2_app; auto. }
  assert (X : exists x, In x (all_routes w') /\ core x = core r /\ r_installed x = r_installed r).
  { clear -H Hr. induction H as [|a b l l' E H IH]; [destruct Hr|]. destruct Hr as [<-|Hr]; [exists b; simpl; tauto|].
    destruct (IH Hr) as (x & Hx & X). exists x. simpl. auto. }
  destruct X as (x & Hx & Cx & Ix). pose proof (core_ptr _ _ Cx) as Px. pose proof (quiet_W _ _ _ Q Hw) as Hw'.
  assert (find_ptr p w' = Some x) by (apply find_ptr_iff; [apply (W_rt _ _ Hw')|split; [auto|congruence]]). congruence.
Qed.
Lemma best_digest : forall e w d feas ex, W e w -> dvalid d ->
  match find_best_route d feas ex w with
  | (None, w') => w' = w /\ forall r, In r (all_routes w) -> dest_of r = d -> acceptable r feas ex w = false
  | (Some b, w') => smw w w' /\ quiet e w w' /\
      exists r0 r1, In r0 (all_routes w) /\ dest_of r0 = d /\ acceptable r0 feas ex w = true /\ find_ptr b w = Some r0 /\
        find_ptr b w' = Some r1 /\ core r1 = core r0 /\ r_installed r1 = r_installed r0
  end.
Proof.
  intros e w d feas ex Hw V. pose proof (find_best_spec feas ex e w d Hw) as S. pose proof (W_rt _ _ Hw) as Wf.
  destruct (find_best_route d feas ex w) as [[b|] w'].
  - destruct S as (Hw' & Q & Sm & Hb & _). split; auto. split; auto. unfold elig in Hb. apply in_map_iff in Hb.
    destruct Hb as (r0 & Pb & Hb). apply filter_In in Hb. destruct Hb as (Hb & Ab). apply slot_of_iff in Hb; auto. destruct Hb as (Hr0 & D0).
    assert (F0 : find_ptr b w = Some r0) by (apply find_ptr_iff; auto).
    destruct (smw_find e w w' b r0 Hw Q Sm F0) as (r1 & F1 & C1 & I1). exists r0, r1. auto 10.
  - destruct S as (-> & S). split; auto. intros r Hr D. destruct (acceptable r feas ex w) eqn:A; auto. exfalso.
    assert (X : In (r_ptr r) (elig feas ex w d)) by (apply in_map; apply filter_In; split; auto; apply slot_of_iff; auto).
    rewrite S in X. destruct X.
Qed.
Lemma core_metric : forall r r', core r' = core r -> route_metric r' = route_metric r.
Proof.
  intros r r' C. unfold route_metric. assert (E1 : r_refmetric r' = r_refmetric r) by exact (f_equal r_refmetric C).
  assert (E2 : r_cost r' = r_cost r) by exact (f_equal r_cost C). assert (E3 : r_add_metric r' = r_add_metric r) by exact (f_equal r_add_metric C).
  rewrite E1, E2, E3. auto.
Qed.
Lemma denied_core : forall w w' r r', core r' = core r -> w_nbs w' = w_nbs w -> map ifstat (w_ifs w') = map ifstat (w_ifs w) ->
  w_cfg w' = w_cfg w -> install_denied w' r' -> install_denied w r.
Proof.
  intros w w' r r' C N Is Cf (nb & i & H1 & H2 & H3 & H4 & H5).
  assert (E1 : r_neigh r' = r_neigh r) by exact (f_equal r_neigh C). assert (E2 : r_src r' = r_src r) by exact (f_equal r_src C).
  assert (X : exists i0, In i0 (w_ifs w) /\ ifstat i = ifstat i0).
  { clear -Is H3. revert Is. generalize (w_ifs w). revert H3. generalize (w_ifs w'). induction l as [|a l IH]; intros Hi [|b l'] E; try destruct Hi; cbn [map] in E; try discriminate.
    - subst. exists b. split; [simpl; auto|]. exact (f_equal (hd (ifstat i)) E).
    - destruct (IH H l' (f_equal (@tl _) E)) as (i0 & A & B). exists i0. simpl. auto. }
  destruct X as (i0 & Hi0 & Ei). exists nb, i0. rewrite N in H1. unfold dest_of in *. rewrite E1 in H2. rewrite E2, Cf in H5.
  split; auto. split; auto. split; auto.
  assert (E3 : if_id i = if_id i0) by exact (f_equal if_id Ei). assert (E4 : if_ifindex i = if_ifindex i0) by exact (f_equal if_ifindex Ei).
  rewrite <- E3, <- E4. auto.
Qed.
Lemma krefused_tr : forall a b c d, w_ktr b = w_ktr a -> krefused b c -> w_ktr d = w_ktr c -> krefused a d.
Proof. intros a b c d E1 (l & x & E & H) E2. exists l, x. rewrite E2, E, E1. auto. Qed.
Lemma is_sel_rt : forall w w' d r, w_rt w' = w_rt w -> is_selected w d r -> is_selected w' d r.
Proof. intros. eapply is_sel_kept; eauto. Qed.

(** ** Withdrawing a redistributed route *)
Lemma flush_xroute_own : forall e w A x B, W e w -> w_xr w = A ++ x :: B -> dvalid (x_dest x) ->
  (forall x0 l, w_xr w = x0 :: l -> d_plen (x_dest x0) = d_plen (x_dest x) /\ d_src (x_dest x0) = d_src (x_dest x)) ->
  let w' := flush_xroute (length A) true w in let d := x_dest x in
  pending_all w' d /\ pend_grow d w w' /\ others d w w' /\
  ((exists r, In r (all_routes w) /\ dest_of r = d /\ acceptable r true None w = true) ->
   (forall r, In r (all_routes w) -> dest_of r = d -> acceptable r true None w = true -> route_metric r < INFINITY) ->
   (exists r', is_selected w' d r') \/ krefused w w' \/ exists r, In r (all_routes w) /\ dest_of r = d /\ install_denied w r).
Proof.
  intros e w A x B Hw E V Hd w' d.
  assert (N : nth_error (w_xr w) (length A) = Some x) by (rewrite E, nth_error_app2, Nat.sub_diag by lia; reflexivity).
  assert (Ch : chain e w (set_w_xr (remove_at (Z.of_nat (length A)) (w_xr w)) w)).
  { eapply chain_step. apply S_xr.
    - rewrite E, remove_at_split. apply (xsorted_remove A x B). rewrite <- E. apply (W_xr _ _ Hw).
    - intros y Hy. left. apply in_map. rewrite E, remove_at_split in Hy. rewrite E. apply in_app_or in Hy.
      apply in_or_app. simpl. tauto. }
  unfold w', flush_xroute. rewrite N. destruct (w_xr w) as [|x0 xs] eqn:Ex; [destruct A; discriminate E|].
  destruct (Hd x0 xs eq_refl) as (Hd1 & Hd2).
  assert (mkDest (d_prefix (x_dest x)) (d_plen (x_dest x0)) (d_src (x_dest x0)) (d_splen (x_dest x)) = d) as ->.
  { rewrite Hd1, Hd2. unfold d. destruct (x_dest x); reflexivity. }
  set (w1 := set_w_xr (remove_at (Z.of_nat (length A)) (x0 :: xs)) w) in *.
  pose proof (chain_W _ _ _ Ch Hw) as Hw1.
  assert (Ac : forall r, acceptable r true None w1 = acceptable r true None w) by (intros; apply acceptable_core; reflexivity).
  pose proof (best_digest e w1 d true None Hw1 V) as Bd. destruct (find_best_route d true None w1) as [[b|] w2].
  - destruct Bd as (Sm & Q & r0 & r1 & Hr0 & D0 & A0 & F0 & F1 & C1 & I1). rewrite F1.
    pose proof (quiet_W _ _ _ Q Hw1) as Hw2. destruct (smw_keep _ _ Sm) as (K1 & K2 & K3 & K4 & K5).
    assert (O2 : others d w w2) by (eapply others_trans; [apply (others_rt d w w1); reflexivity|apply others_smw; auto]).
    assert (Fe : feasible r1 w2 = true).
    { assert (Aa : acceptable r1 true None w2 = true) by (rewrite (acceptable_core r0 r1 true None w1 w2); auto using smw_srcs, smw_now).
      unfold acceptable in Aa. destruct (route_expired r1 w2); [discriminate Aa|]. cbn [andb] in Aa.
      destruct (feasible r1 w2); auto. }
    assert (G2 : pend_grow d w w2) by (apply pend_grow_ifs; rewrite K1; reflexivity).
    rewrite Fe, andb_true_r. destruct (route_metric r1 <? INFINITY) eqn:Mf.
    + assert (D1 : dest_of r1 = d) by (rewrite <- D0; apply (core_dest _ _ C1)).
      pose proof (install_any e w2 b r1 Hw2 F1 Fe) as Q3. pose proof (quiet_W _ _ _ Q3 Hw2) as Hw3.
      assert (R3 : w_ifs (install_route b w2) = w_ifs w2 /\ others d w2 (install_route b w2) /\
        ((exists r', is_selected (install_route b w2) d r') \/ krefused w2 (install_route b w2) \/ install_denied w2 r1)).
      { destruct (r_installed r1) eqn:Ii.
        - unfold install_route. rewrite F1, Ii. split; auto. split; [apply others_rt; auto|]. left. exists r1.
          split; [eapply find_In; eauto|auto].
        - destruct (find_installed (rdest r1) w2) as [h|] eqn:Fi.
          + assert (install_route b w2 = w2) as ->.
            { unfold install_route. rewrite F1, Ii. unfold find_installed in Fi.
              destruct (slot_of (rdest r1) w2) as [|h' t] eqn:Es; [discriminate Fi|]. destruct (r_installed h') eqn:Ih; [|discriminate Fi].
              assert (r_ptr h' =? b = false) as ->; [|reflexivity]. destruct (r_ptr h' =? b) eqn:Ep; auto. exfalso.
              assert (find_ptr b w2 = Some h').
              { apply find_ptr_iff; [apply (W_rt _ _ Hw2)|]. split; [|lia]. apply (slot_In w2 (rdest r1)); [apply (W_rt _ _ Hw2)|].
                rewrite Es. simpl. auto. }
              congruence. }
            split; auto. split; [apply others_rt; auto|]. left. exists h. change (rdest r1) with (dest_of r1) in Fi. rewrite D1 in Fi.
            apply (find_installed_iff d) in Fi; auto. apply (W_rt _ _ Hw2).
          + destruct (install_result e w2 b r1 Hw2 F1 Ii Fi) as (R1 & _ & _ & R4 & R5). rewrite D1 in *. split; auto. split; auto.
            destruct R5 as [(_ & [R5|R5])|(r' & R5 & _)]; eauto. }
      destruct R3 as (R3 & O3 & S3).
      destruct (send_all_pend e false d _ Hw3) as (P1 & P2). pose proof (send_update_all_frame false d _ (W_refs _ _ Hw3)) as Fr.
      split; [exact P1|]. split; [|split].
      * eapply pend_grow_trans; [exact G2|]. eapply pend_grow_trans; [|exact P2]. apply pend_grow_ifs. exact R3.
      * eapply others_trans; [exact O2|]. eapply others_trans; [exact O3|]. apply others_rt. apply (f_rt _ _ Fr).
      * intros _ _. destruct S3 as [(r' & S3)|[S3|S3]].
        -- left. exists r'. eapply is_sel_rt; [apply (f_rt _ _ Fr)|exact S3].
        -- right. left. eapply krefused_tr; [|exact S3|apply (f_ktr _ _ Fr)]. rewrite K5. reflexivity.
        -- right. right. exists r0. split; [exact Hr0|]. split; auto. eapply denied_core; [exact C1| | | |exact S3].
           ++ pose proof (quiet_same _ _ _ Q) as Sq. rewrite (q_nbs _ _ Sq). reflexivity.
           ++ rewrite K1. reflexivity.
           ++ pose proof (quiet_same _ _ _ Q) as Sq. rewrite (q_cfg _ _ Sq). reflexivity.
    + destruct (send_resend_pend e d w2 Hw2) as (P1 & P2). pose proof (send_update_resend_frame d w2 (W_refs _ _ Hw2)) as Fr.
      split; auto. split; [eapply pend_grow_trans; eauto|]. split; [eapply others_trans; [exact O2|apply others_rt, (f_rt _ _ Fr)]|].
      intros _ Fin. exfalso. specialize (Fin r0 Hr0 D0). rewrite <- Ac in Fin. specialize (Fin A0).
      rewrite <- (core_metric _ _ C1) in Fin. lia.
  - destruct Bd as (-> & Na). destruct (send_resend_pend e d w1 Hw1) as (P1 & P2).
    pose proof (send_update_resend_frame d w1 (W_refs _ _ Hw1)) as Fr.
    split; auto. split; [exact P2|]. split; [apply others_rt; rewrite (f_rt _ _ Fr); reflexivity|].
    intros (r & Hr & Dr & Ar) _. exfalso. rewrite <- Ac in Ar. rewrite (Na r Hr Dr) in Ar. discriminate Ar.
Qed.

Lemma pend_grow_only : forall e d w w', W e w -> W e w' -> pend_grow d w w' -> only_pending w w' d.
Proof.
  intros e d w w' Hw Hw' G ifp d' N (i' & Hi' & <- & Hd'). destruct (G (if_id i') i') as (i & Gi & In').
  { apply get_if_In; auto. apply (W_ifs _ _ Hw'). }
  pose proof (get_if_id _ _ _ Gi) as Ei. unfold get_if in Gi. apply find_some in Gi. destruct Gi as (Hi & _). exists i. split; auto. split; auto.
  apply In' in Hd'. destruct Hd' as [Hd'|Hd']; auto. congruence.
Qed.
Lemma others_untouched : forall d w w', others d w w' -> untouched w w' d.
Proof.
  intros d w w' (A & B). split; intros r Hr D.
  - destruct (A r Hr D) as (r' & H1 & H2 & H3). exists r'. split; auto. split; auto. apply core_same_entry. auto.
  - destruct (B r Hr D) as (r' & H1 & H2 & H3). exists r'. split; auto. split; auto. apply core_same_entry. auto.
Qed.

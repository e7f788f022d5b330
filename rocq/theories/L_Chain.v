(** L_Chain.v: flushing routes and changing metrics are chains of elementary steps. *)
From Verif Require Import Base M_Util S_Util L_Util M_Slot L_Slot M_Source S_Source L_Source
  M_Filter M_Types M_Neigh M_State M_Table M_Msg M_Route S_World L_Table L_Step L_Msg L_Smooth L_Quiet
  L_Select L_Select2.
From Coq Require Import Permutation.

Definition chain (e : list skey) (w w' : world) : Prop := star false (e, w) (e, w').
Lemma chain_refl : forall e w, chain e w w. Proof. constructor. Qed.
Lemma chain_trans : forall e a b c, chain e a b -> chain e b c -> chain e a c.
Proof. unfold chain. intros. eapply star_trans; eauto. Qed.
Lemma quiet_chain : forall e w w', quiet e w w' -> chain e w w'.
Proof. intros. eapply star_weak; eauto. Qed.
Lemma chain_step : forall e w w' b, mstep b (e, w) (e, w') -> chain e w w'.
Proof. intros. eapply star_loud; eauto. Qed.
Lemma chain_W : forall e w w', chain e w w' -> W e w -> W e w'.
Proof. intros e w w' C Hw. apply (W_star _ _ _ C). auto. Qed.
Lemma star_W : forall q e w e' w', star q (e, w) (e', w') -> W e w -> W e' w'.
Proof. intros q e w e' w' C Hw. apply (W_star _ _ _ C). auto. Qed.

(** ** Reference counts *)
Lemma same_route : forall w r r', rt_wf (w_rt w) -> In r (all_routes w) -> In r' (all_routes w) ->
  dest_of r = dest_of r' -> r_neigh r = r_neigh r' -> r = r'.
Proof.
  intros w r r' Wf H H' D N. unfold all_routes in *. pose proof H as H0. apply in_concat in H0.
  destruct H0 as (l & Hl & Hr).
  assert (Hr' : In r' l).
  { rewrite <- (slot_of_In w l r Wf Hl Hr). apply slot_of_iff; auto. apply (route_dvalid w); auto. }
  destruct (wf_slot _ _ Wf Hl) as (_ & _ & _ & M & _). eapply NoDup_map_inj; eauto.
Qed.

Lemma NoDup_map_on : forall A B (f : A -> B) l, NoDup l ->
  (forall x y, In x l -> In y l -> f x = f y -> x = y) -> NoDup (map f l).
Proof.
  induction l as [|a l IH]; intros N I; [constructor|]. inversion N; subst. cbn [map]. constructor.
  - intro H. apply in_map_iff in H. destruct H as (x & E & Hx). apply I in E; simpl; auto. subst. contradiction.
  - apply IH; auto. intros; apply I; simpl; auto.
Qed.

Lemma users_le : forall e w k, W e w -> (users k w <= length (w_nbs w))%nat.
Proof.
  intros e w k Hw. pose proof (W_rt _ _ Hw) as Wf.
  set (f := fun r => if skey_dec (r_src r) k then true else false).
  assert (E : users k w = length (filter f (all_routes w))).
  { unfold users. induction (all_routes w) as [|a l IH]; auto. cbn [map count_occ filter]. unfold f at 1.
    destruct (skey_dec (r_src a) k); cbn [length]; auto. }
  rewrite E, <- (map_length r_neigh), <- (map_length n_id). apply NoDup_incl_length.
  - apply NoDup_map_on.
    + apply NoDup_filter. eapply NoDup_map_inv. apply (wf_ptrs _ Wf).
    + intros x y Hx Hy En. apply filter_In in Hx. apply filter_In in Hy. unfold f in *.
      destruct Hx as (Hx & Ex), Hy as (Hy & Ey). destruct (skey_dec (r_src x) k); [|discriminate].
      destruct (skey_dec (r_src y) k); [|discriminate]. eapply same_route; eauto. unfold dest_of. congruence.
  - intros n Hn. apply in_map_iff in Hn. destruct Hn as (x & <- & Hx). apply filter_In in Hx.
    apply (W_nb _ _ Hw). tauto.
Qed.

Lemma retain_chain : forall e w k, W e w -> (length e <= 8)%nat -> In k (map s_key (w_srcs w)) ->
  star false (e, w) (k :: e, retain_source k w).
Proof.
  intros e w k Hw L Hk. unfold retain_source. apply get_src_keys in Hk.
  destruct (get_src k (w_srcs w)) as [s|] eqn:G; [|contradiction].
  assert (O : retain_ok s = true).
  { pose proof G as G'. apply get_src_In in G'. destruct G' as (Hs & Ek).
    unfold retain_ok. rewrite (W_cnt _ _ Hw s Hs).
    pose proof (users_le e w (s_key s) Hw). pose proof (W_few _ _ Hw).
    pose proof (count_occ_bound skey_dec (s_key s) e). lia. }
  rewrite O. eapply star_loud. eapply S_retain; eauto.
Qed.
Lemma release_chain : forall e w k, W (k :: e) w -> star false (k :: e, w) (e, release_source k w).
Proof.
  intros e w k Hw. unfold release_source.
  assert (Hk : In k (map s_key (w_srcs w))) by (apply (W_ref _ _ Hw); simpl; auto).
  apply get_src_keys in Hk. destruct (get_src k (w_srcs w)) as [s|] eqn:G; [|contradiction].
  assert (O : release_ok s = true).
  { pose proof G as G'. apply get_src_In in G'. destruct G' as (Hs & Ek).
    unfold release_ok. rewrite (W_cnt _ _ Hw s Hs). cbn [count_occ]. subst k.
    destruct (skey_dec (s_key s) (s_key s)); [lia|contradiction]. }
  rewrite O. eapply star_loud. apply S_release.
Qed.
Lemma release_rt : forall k w, w_rt (release_source k w) = w_rt w.
Proof.
  intros. unfold release_source. destruct (get_src k (w_srcs w)); auto. destruct (release_ok s); auto.
Qed.

Lemma Forall2_length : forall A B (R : A -> B -> Prop) l l', Forall2 R l l' -> length l = length l'.
Proof. induction 1; cbn [length]; auto. Qed.

(** ** flush_route *)
Definition slots_without (A : list (list route)) (l : list route) (B : list (list route)) : list (list route) :=
  A ++ match l with [] => [] | _ => [l] end ++ B.

Lemma rt_same_app : forall A A' B B', rt_same A A' -> rt_same B B' -> rt_same (A ++ B) (A' ++ B').
Proof. intros. apply Forall2_app; auto. Qed.
Lemma rt_same_app_inv : forall A B rt, rt_same (A ++ B) rt ->
  exists A' B', rt = A' ++ B' /\ rt_same A A' /\ rt_same B B'.
Proof. intros A B rt H. apply Forall2_app_inv_l in H. destruct H as (A' & B' & H1 & H2 & E). eauto. Qed.

Lemma slot_same_split : forall l1 r l2 l1' r' l2', core r' = core r -> NoDup (map r_ptr (l1 ++ r :: l2)) ->
  slot_same (l1 ++ r :: l2) (l1' ++ r' :: l2') -> slot_same (l1 ++ l2) (l1' ++ l2').
Proof.
  intros l1 r l2 l1' r' l2' C N H. unfold slot_same in *. rewrite !map_app in *. cbn [map] in H.
  rewrite C in H. apply Permutation_app_inv in H. auto.
Qed.

(** The route table after flushing [p], up to selection and smoothing *)
Lemma flush_spec : forall e w p r, W e w -> find_ptr p w = Some r ->
  chain e w (flush_route p w) /\
  exists A l1 l2 B, w_rt w = A ++ (l1 ++ r :: l2) :: B /\
    rt_same (slots_without A (l1 ++ l2) B) (w_rt (flush_route p w)).
Proof.
  intros e w p r Hw F. unfold flush_route. rewrite F. cbv zeta.
  set (w1 := if r_installed r then uninstall_route p w else w).
  assert (Q : quiet e w w1) by (unfold w1; destruct (r_installed r); [eapply uninstall_chain; eauto|apply quiet_refl]).
  assert (F1 : find_ptr p w1 = Some (set_r_installed false r)).
  { unfold w1. destruct (r_installed r) eqn:I; [eapply uninstall_find; eauto|].
    rewrite F. f_equal. destruct r; cbn in *; subst; auto. }
  pose proof (quiet_W _ _ _ Q Hw) as Hw1.
  set (w2 := unlink_route (rdest r) p w1).
  assert (S2 : star false (e, w1) (r_src r :: e, w2)).
  { eapply star_loud. apply (S_unlink e w1 p (set_r_installed false r)); auto. }
  pose proof (star_W _ _ _ _ _ S2 Hw1) as Hw2.
  set (w3 := if r_installed r then route_lost (r_src r) (route_metric r) w2 else w2).
  assert (Q3 : quiet (r_src r :: e) w2 w3).
  { unfold w3. destruct (r_installed r); [|apply quiet_refl]. apply lost_chain; auto.
    apply get_src_keys. apply (W_ref _ _ Hw2). simpl. auto. }
  pose proof (quiet_W _ _ _ Q3 Hw2) as Hw3. split.
  - eapply star_trans; [eapply star_weak; exact Q|]. eapply star_trans; [exact S2|].
    eapply star_trans; [eapply star_weak; exact Q3|]. apply release_chain; auto.
  - rewrite release_rt. pose proof (q_rt _ _ (quiet_same _ _ _ Q3)) as R3.
    destruct (unlink_spec w1 p _ (W_rt _ _ Hw1) F1) as (A' & l1' & l2' & B' & E' & U).
    change (rdest (set_r_installed false r)) with (rdest r) in U. fold w2 in U.
    pose proof (find_In _ _ _ F) as Hr. destruct (route_split _ _ Hr) as (A & l1 & l2 & B & E).
    exists A, l1, l2, B. split; auto. eapply rt_same_trans; [|exact R3]. rewrite U. cbn [w_rt set_w_rt].
    pose proof (q_rt _ _ (quiet_same _ _ _ Q)) as R1. rewrite E, E' in R1.
    (* both splits are at the same slot *)
    assert (Len : length A = length A').
    { destruct (slot_of_split w A (l1 ++ r :: l2) B r (W_rt _ _ Hw) E) as (_ & X); [apply in_or_app; simpl; auto|].
      destruct (slot_of_split w1 A' (l1' ++ set_r_installed false r :: l2') B' (set_r_installed false r) (W_rt _ _ Hw1) E')
        as (_ & X'); [apply in_or_app; simpl; auto|].
      (* use sameness of the slots to locate r *)
      apply Forall2_app_inv_l in R1. destruct R1 as (C & D & R1 & R2 & E2).
      inversion R2 as [|x y xs ys Rx Ry]; subst D x xs.
      assert (Hin : In (set_r_installed false r) y).
      { assert (Hc : In (core r) (map core y)).
        { eapply Permutation_in; [symmetry; exact Rx|]. rewrite map_app. apply in_or_app. simpl. auto. }
        apply in_map_iff in Hc. destruct Hc as (z & Ez & Hz).
        assert (z = set_r_installed false r); [|subst; auto].
        eapply NoDup_map_inj; [apply (wf_ptrs _ (W_rt _ _ Hw1))| | |].
        - unfold all_routes. rewrite E', E2, concat_mid. rewrite !in_app_iff. auto.
        - rewrite E', concat_mid. rewrite !in_app_iff. simpl. auto.
        - apply core_ptr in Ez. exact Ez. }
      destruct (slot_of_split w1 C y ys (set_r_installed false r) (W_rt _ _ Hw1)) as (_ & X2); auto; [congruence|].
      rewrite X2 in X'. inversion X'. apply Forall2_length in R1. lia. }
    apply rt_same_app_inv in R1. destruct R1 as (C & D & E2 & R1 & R2).
    assert (A' = C /\ (l1' ++ set_r_installed false r :: l2') :: B' = D) as (<- & <-).
    { pose proof (Forall2_length _ _ _ _ _ R1) as LR.
      assert (length A' = length C) by lia. clear - E2 H. revert C E2 H.
      induction A'; destruct C; cbn; intros; try discriminate.
      - auto.
      - inversion E2. inversion H. destruct (IHA' _ H2 H3). subst. auto. }
    inversion R2 as [|x y xs ys Rx Ry]; subst. unfold slots_without.
    apply rt_same_app; auto.
    assert (Sl : slot_same (l1 ++ l2) (l1' ++ l2')).
    { eapply slot_same_split; [| |exact Rx]; [reflexivity|].
      pose proof (wf_ptrs _ (W_rt _ _ Hw)) as N. rewrite E in N. eapply NoDup_concat_slot; eauto. }
    destruct (l1 ++ l2) as [|a la] eqn:El; destruct (l1' ++ l2') as [|b lb] eqn:El'; cbn [app]; auto.
    + unfold slot_same in Sl. cbn [map] in Sl. apply Permutation_sym, Permutation_nil in Sl. discriminate.
    + unfold slot_same in Sl. cbn [map] in Sl. apply Permutation_nil in Sl. discriminate.
    + constructor; auto.
Qed.
Lemma flush_chain : forall e w p r, W e w -> find_ptr p w = Some r -> chain e w (flush_route p w).
Proof. intros e w p r Hw F. apply (flush_spec e w p r Hw F). Qed.

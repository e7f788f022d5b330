(** L_Flush.v: flushing the routes that satisfy a condition removes exactly those. *)
From Verif Require Import Base M_Util S_Util L_Util M_Slot L_Slot M_Source S_Source L_Source
  M_Filter M_Types M_Neigh M_State M_Table M_Msg M_Route S_World L_Table L_Step L_Msg L_Smooth L_Quiet
  L_Select L_Select2 L_Chain L_Chain2 L_Chain3.
From Coq Require Import Permutation.

(** Parts of the state that changes of routes leave alone *)
Record env (w w' : world) : Prop := mkEnv {
  ev_now : w_now w' = w_now w;
  ev_cfg : w_cfg w' = w_cfg w;
  ev_ifs : map ifstat (w_ifs w') = map ifstat (w_ifs w);
  ev_nbs : w_nbs w' = w_nbs w;
  ev_xr : w_xr w' = w_xr w;
  ev_seqno : w_seqno w' = w_seqno w;
  ev_fuel : w_fuel w' = w_fuel w }.
Lemma env_refl : forall w, env w w. Proof. constructor; auto. Qed.
Lemma env_trans : forall a b c, env a b -> env b c -> env a c.
Proof. intros a b c [] []. constructor; congruence. Qed.
Lemma same_env : forall w w', same w w' -> env w w'.
Proof. intros w w' []. constructor; auto. Qed.
Lemma quiet_env : forall e w w', quiet e w w' -> env w w'.
Proof. intros. apply same_env. eapply quiet_same; eauto. Qed.
Lemma keeps_env : forall w w', keeps w w' -> env w w'.
Proof. intros w w' []. constructor; auto. Qed.

Lemma retain_env : forall e w k, W e w -> (length e <= 8)%nat -> In k (map s_key (w_srcs w)) ->
  env w (retain_source k w).
Proof.
  intros e w k Hw L Hk. pose proof (retain_chain e w k Hw L Hk) as C. apply star_W with (1 := C) in Hw.
  revert Hw. unfold retain_source. apply get_src_keys in Hk.
  destruct (get_src k (w_srcs w)) as [s|]; [|contradiction]. destruct (retain_ok s).
  - constructor; auto.
  - intros Hw. constructor; auto.
Qed.
Lemma release_env : forall k w, env w (release_source k w).
Proof.
  intros k w. unfold release_source. destruct (get_src k (w_srcs w)) as [s|]; [|constructor; auto].
  destruct (release_ok s); constructor; auto.
Qed.

Lemma flush_env : forall e w p r, W e w -> find_ptr p w = Some r -> env w (flush_route p w).
Proof.
  intros e w p r Hw F. unfold flush_route. rewrite F. cbv zeta.
  set (w1 := if r_installed r then uninstall_route p w else w).
  assert (Q : quiet e w w1) by (unfold w1; destruct (r_installed r); [eapply uninstall_chain; eauto|apply quiet_refl]).
  assert (F1 : find_ptr p w1 = Some (set_r_installed false r)).
  { unfold w1. destruct (r_installed r) eqn:I; [eapply uninstall_find; eauto|].
    rewrite F. f_equal. destruct r; cbn in *; subst; auto. }
  pose proof (quiet_W _ _ _ Q Hw) as Hw1.
  set (w2 := unlink_route (rdest r) p w1).
  assert (S2 : star false (e, w1) (r_src r :: e, w2)).
  { eapply star_loud. apply (S_unlink e w1 p (set_r_installed false r)); auto. }
  pose proof (star_W _ _ _ _ _ S2 Hw1) as Hw2.
  set (w3 := if r_installed r then route_lost (r_src r) (route_metric r) w2 else w2).
  assert (Q3 : quiet (r_src r :: e) w2 w3).
  { unfold w3. destruct (r_installed r); [|apply quiet_refl]. apply lost_chain; auto.
    apply get_src_keys. apply (W_ref _ _ Hw2). simpl. auto. }
  eapply env_trans; [eapply quiet_env; exact Q|]. eapply env_trans with w2.
  - destruct (unlink_spec w1 p _ (W_rt _ _ Hw1) F1) as (A' & l1' & l2' & B' & E' & U).
    change (rdest (set_r_installed false r)) with (rdest r) in U. fold w2 in U. rewrite U. constructor; auto.
  - eapply env_trans; [eapply quiet_env; exact Q3|apply release_env].
Qed.

(** Routes of the slots from [i] on *)
Lemma skipn_length_app : forall A (l : list A) l' n, n = length l -> skipn n (l ++ l') = l'.
Proof. intros A l l' n ->. rewrite skipn_app, Nat.sub_diag, skipn_all. reflexivity. Qed.

Lemma rt_same_split : forall A B rt, rt_same (A ++ B) rt ->
  rt_same A (firstn (length A) rt) /\ rt_same B (skipn (length A) rt).
Proof.
  intros A B rt H. apply rt_same_app_inv in H. destruct H as (A' & B' & -> & H1 & H2).
  pose proof (Forall2_length _ _ _ _ _ H1) as L. rewrite L. rewrite firstn_app, Nat.sub_diag, firstn_all.
  rewrite skipn_app, Nat.sub_diag, skipn_all. cbn. rewrite app_nil_r. auto.
Qed.
Lemma rt_same_concat : forall a b, rt_same a b -> Permutation (map core (concat b)) (map core (concat a)).
Proof.
  induction 1 as [|x y xs ys H R IH]; cbn [concat map]; auto. rewrite !map_app. apply Permutation_app; auto.
Qed.
Lemma rt_same_len : forall a b, rt_same a b -> length (concat b) = length (concat a).
Proof. intros a b H. apply rt_same_concat in H. apply Permutation_length in H. rewrite !map_length in H. auto. Qed.

Section Sel.
  Variable sel : world -> route -> bool.
  Hypothesis sel_ok : forall w w' r r', env w w' -> core r' = core r -> sel w' r' = sel w r.

  Definition left_ (w : world) (l : list route) : list route := filter (fun r => negb (sel w r)) l.

  Lemma left_core : forall w w' l l', env w w' -> Permutation (map core l') (map core l) ->
    Permutation (map core (left_ w' l')) (map core (left_ w l)).
  Proof.
    intros w w' l l' E P.
    assert (G : forall x y, env x y -> forall k, map core (left_ y k) = filter (fun r => negb (sel x r)) (map core k)).
    { intros x y Exy k. induction k as [|a k IH]; auto. cbn [left_ filter map].
      assert (Ea : sel y a = sel x (core a)) by (apply sel_ok; auto; destruct a; reflexivity).
      unfold left_ in IH. rewrite <- Ea. destruct (sel y a); cbn [negb map]; auto. rewrite IH. auto. }
    rewrite (G w w' E l'). rewrite (G w w (env_refl w) l). clear - P.
    induction P; cbn [filter]; auto.
    - destruct (negb (sel w x)); auto.
    - destruct (negb (sel w x)), (negb (sel w y)); auto. apply perm_swap.
    - etransitivity; eauto.
  Qed.

  Lemma flush_sel_spec : forall fuel e i w, W e w ->
    (forall r, In r (concat (firstn i (w_rt w))) -> sel w r = false) ->
    (length (concat (skipn i (w_rt w))) + length (skipn i (w_rt w)) < fuel)%nat ->
    let w' := flush_sel fuel sel i w in
    env w w' /\ Permutation (map core (all_routes w')) (map core (left_ w (all_routes w))).
  Proof.
    induction fuel as [|f IH]; intros e i w Hw Hd Hf; [lia|]. cbn [flush_sel].
    destruct (nth_error (w_rt w) i) as [l|] eqn:E.
    - apply nth_error_split in E. destruct E as (A & B & E & L).
      assert (Sk : skipn i (w_rt w) = l :: B) by (rewrite E; apply skipn_length_app; auto).
      assert (Fi : firstn i (w_rt w) = A).
      { rewrite E, <- L, firstn_app, Nat.sub_diag, firstn_all. cbn. apply app_nil_r. }
      destruct (find (sel w) l) as [r|] eqn:F.
      + apply find_some in F. destruct F as (Hr & Sr).
        assert (F1 : find_ptr (r_ptr r) w = Some r).
        { apply find_ptr_iff; [apply (W_rt _ _ Hw)|]. split; auto. apply in_concat. exists l.
          rewrite E. split; auto. apply in_or_app. simpl. auto. }
        destruct (flush_spec e w _ r Hw F1) as (C & A' & l1 & l2 & B' & E' & R).
        pose proof (flush_env e w _ r Hw F1) as Ev. set (w1 := flush_route (r_ptr r) w) in *.
        pose proof (chain_W _ _ _ C Hw) as Hw1.
        assert (A' = A /\ l1 ++ r :: l2 = l /\ B' = B) as (-> & El & ->).
        { destruct (slot_of_split w A l B r (W_rt _ _ Hw) E Hr) as (_ & X).
          destruct (slot_of_split w A' _ B' r (W_rt _ _ Hw) E') as (_ & X'); [apply in_or_app; simpl; auto|].
          rewrite X in X'. assert (LA : length A' = length A) by (injection X'; lia).
          rewrite E in E'. clear - E' LA. revert A E' LA.
          induction A'; destruct A; cbn; intros E L; try discriminate.
          - injection E as -> ->. auto.
          - injection E as -> E. injection L as L. destruct (IHA' _ E L) as (-> & -> & ->). auto. }
        subst l. unfold slots_without in R.
        apply rt_same_split in R. destruct R as (R1 & R2). rewrite L in R1, R2.
        assert (Hd1 : forall x, In x (concat (firstn i (w_rt w1))) -> sel w1 x = false).
        { intros x Hx. apply (in_map core) in Hx.
          apply (Permutation_in _ (rt_same_concat _ _ R1)) in Hx. apply in_map_iff in Hx.
          destruct Hx as (y & Ey & Hy). rewrite (sel_ok w w1 y x Ev) by auto. apply Hd. rewrite Fi. auto. }
        assert (Sz : (length (concat (skipn i (w_rt w1))) + length (skipn i (w_rt w1)) < f)%nat).
        { rewrite (rt_same_len _ _ R2), <- (Forall2_length _ _ _ _ _ R2).
          rewrite Sk in Hf. cbn [concat length] in Hf. rewrite !app_length in Hf. cbn [length] in Hf.
          destruct (l1 ++ l2) eqn:El; cbn [app concat length]; rewrite ?app_length; cbn [length].
          - lia.
          - apply (f_equal (@length route)) in El. rewrite app_length in El. cbn [length] in El. lia. }
        destruct (IH e i w1 Hw1 Hd1 Sz) as (Ev' & P). split; [eapply env_trans; eauto|].
        etransitivity; [exact P|].
        assert (P1 : Permutation (map core (all_routes w1)) (map core (concat A ++ (l1 ++ l2) ++ concat B))).
        { unfold all_routes. rewrite <- (firstn_skipn i (w_rt w1)), concat_app, !map_app.
          apply Permutation_app; [apply rt_same_concat; auto|]. apply rt_same_concat in R2. rewrite R2.
          rewrite <- map_app. destruct (l1 ++ l2) as [|x xs]; cbn [app concat map]; [auto|].
          rewrite map_app. auto. }
        rewrite (left_core w w1 _ _ Ev P1). unfold all_routes. rewrite E, concat_app. cbn [concat].
        unfold left_. rewrite <- !app_assoc. cbn [app].
        rewrite !filter_app. cbn [filter]. rewrite Sr. cbn [negb]. rewrite filter_app. auto.
      + assert (Hn : forall x, In x l -> sel w x = false) by (intros x Hx; apply (find_none _ _ F x Hx)).
        assert (Hd1 : forall x, In x (concat (firstn (S i) (w_rt w))) -> sel w x = false).
        { intros x Hx. rewrite E in Hx. rewrite firstn_app in Hx. rewrite L in Hx.
          replace (S i - i)%nat with 1%nat in Hx by lia. change (firstn 1 (l :: B)) with [l] in Hx.
          rewrite firstn_all2 in Hx by lia. rewrite concat_app in Hx. cbn [concat] in Hx.
          rewrite app_nil_r in Hx. apply in_app_iff in Hx. destruct Hx as [Hx|Hx]; auto. apply Hd. rewrite Fi. auto. }
        apply (IH e (S i) w Hw Hd1).
        assert (S2 : skipn (S i) (w_rt w) = B).
        { rewrite E. replace (A ++ l :: B) with ((A ++ [l]) ++ B) by (rewrite <- app_assoc; auto).
          apply skipn_length_app. rewrite app_length. cbn. lia. }
        rewrite S2. rewrite Sk in Hf. cbn [concat length] in Hf. rewrite app_length in Hf. lia.
    - split; [apply env_refl|]. apply nth_error_None in E. rewrite firstn_all2 in Hd by auto.
      assert (left_ w (all_routes w) = all_routes w) as ->; auto.
      unfold left_. fold (all_routes w) in Hd. induction (all_routes w) as [|a k IHk]; auto. cbn [filter].
      rewrite (Hd a) by (simpl; auto). cbn [negb]. f_equal. apply IHk. intros. apply Hd. simpl. auto.
  Qed.

  Lemma flush_sel_all : forall e w, W e w ->
    let w' := flush_sel (flush_fuel w) sel 0 w in
    env w w' /\ Permutation (map core (all_routes w')) (map core (left_ w (all_routes w))).
  Proof.
    intros e w Hw. apply (flush_sel_spec (flush_fuel w) e 0 w Hw).
    - cbn. contradiction.
    - unfold flush_fuel. cbn [skipn]. lia.
  Qed.
End Sel.

Lemma sel_neigh_ok : forall n w w' (r r' : route), env w w' -> core r' = core r ->
  (r_neigh r' =? n) = (r_neigh r =? n).
Proof. intros n w w' r r' _ C. apply (f_equal r_neigh) in C. cbn in C. rewrite C. auto. Qed.
Lemma sel_if_ok : forall i v w w' (r r' : route), env w w' -> core r' = core r ->
  (through_if i w' r' && (negb v || v4mapped (r_nexthop r'))) = (through_if i w r && (negb v || v4mapped (r_nexthop r))).
Proof.
  intros i v w w' r r' E C. unfold through_if, get_nb. rewrite (ev_nbs _ _ E).
  pose proof (f_equal r_neigh C) as C1. pose proof (f_equal r_nexthop C) as C2. cbn in C1, C2. rewrite C1, C2. auto.
Qed.

Lemma flush_neighbour_routes_spec : forall e w n, W e w ->
  let w' := flush_neighbour_routes n w in
  chain e w w' /\ env w w' /\
  Permutation (map core (all_routes w')) (map core (filter (fun r => negb (r_neigh r =? n)) (all_routes w))).
Proof.
  intros e w n Hw. cbv zeta. split; [apply flush_sel_chain; auto|].
  apply (flush_sel_all (fun _ r => r_neigh r =? n)) with (e := e); auto.
  intros. eapply sel_neigh_ok; eauto.
Qed.
Lemma flush_interface_routes_spec : forall e w i v, W e w ->
  let w' := flush_interface_routes i v w in
  chain e w w' /\ env w w' /\
  Permutation (map core (all_routes w'))
    (map core (filter (fun r => negb (through_if i w r && (negb v || v4mapped (r_nexthop r)))) (all_routes w))).
Proof.
  intros e w i v Hw. cbv zeta. split; [apply flush_sel_chain; auto|].
  apply (flush_sel_all (fun w r => through_if i w r && (negb v || v4mapped (r_nexthop r)))) with (e := e); auto.
  intros. eapply sel_if_ok; eauto.
Qed.

(** ** flush_all_routes *)
Lemma flush_slot_spec : forall fuel e i w l A, W e w -> w_rt w = A ++ [l] -> length A = i ->
  (length l < fuel)%nat ->
  let w' := flush_slot fuel i w in env w w' /\ rt_same A (w_rt w').
Proof.
  induction fuel as [|f IH]; intros e i w l A Hw E L Hf; [lia|]. cbn [flush_slot].
  assert (N : nth_error (w_rt w) i = Some l) by (rewrite E, nth_error_app2, L, Nat.sub_diag by lia; auto).
  rewrite N. destruct l as [|r l].
  { destruct (wf_slot _ [] (W_rt _ _ Hw)) as (X & _); [rewrite E; apply in_or_app; simpl; auto|contradiction]. }
  cbv zeta. set (w1 := if r_installed r then uninstall_route (r_ptr r) w else w).
  assert (F : find_ptr (r_ptr r) w = Some r).
  { apply find_ptr_iff; [apply (W_rt _ _ Hw)|]. split; auto. apply in_concat. exists (r :: l).
    rewrite E. split; [apply in_or_app|]; simpl; auto. }
  assert (Q : quiet e w w1) by (unfold w1; destruct (r_installed r); [eapply uninstall_chain; eauto|apply quiet_refl]).
  pose proof (quiet_W _ _ _ Q Hw) as Hw1. destruct (quiet_find _ _ _ _ _ Hw Q F) as (r1 & F1 & C1).
  destruct (flush_spec e w1 _ r1 Hw1 F1) as (C & A' & l1 & l2 & B' & E' & R).
  pose proof (flush_env e w1 _ r1 Hw1 F1) as Ev. set (w2 := flush_route (r_ptr r) w1) in *.
  pose proof (chain_W _ _ _ C Hw1) as Hw2.
  (* where r1 is *)
  pose proof (q_rt _ _ (quiet_same _ _ _ Q)) as R1. rewrite E in R1. apply rt_same_app_inv in R1.
  destruct R1 as (A1 & L1 & E1 & Ra & Rb). inversion Rb as [|x y xs ys Rx Ry]; subst. inversion Ry; subst.
  assert (Hy : In r1 y).
  { assert (Hc : In (core r1) (map core y)).
    { eapply Permutation_in; [symmetry; exact Rx|]. cbn [map]. left. auto. }
    apply in_map_iff in Hc. destruct Hc as (z & Ez & Hz). assert (z = r1); [|subst; auto].
    eapply NoDup_map_inj; [apply (wf_ptrs _ (W_rt _ _ Hw1))| | |].
    - rewrite E1, concat_mid. rewrite !in_app_iff. auto.
    - apply (find_In _ _ _ F1).
    - apply core_ptr in Ez. exact Ez. }
  assert (A' = A1 /\ l1 ++ r1 :: l2 = y /\ B' = []) as (-> & Ey & ->).
  { destruct (slot_of_split w1 A1 y [] r1 (W_rt _ _ Hw1) E1 Hy) as (_ & X).
    destruct (slot_of_split w1 A' _ B' r1 (W_rt _ _ Hw1) E') as (_ & X'); [apply in_or_app; simpl; auto|].
    rewrite X in X'. assert (LA : length A' = length A1) by (injection X'; lia).
    rewrite E1 in E'. clear - E' LA. revert A1 E' LA.
    induction A'; destruct A1; cbn; intros E L; try discriminate.
    - injection E as <- <-. auto.
    - injection E as -> E. injection L as L. destruct (IHA' _ E L) as (-> & <- & ->). auto. }
  unfold slots_without in R. cbn [app] in R. rewrite app_nil_r in R.
  apply rt_same_app_inv in R. destruct R as (A2 & L2 & E2 & R2 & R3).
  assert (Env1 : env w w2) by (eapply env_trans; [eapply quiet_env; eauto|exact Ev]).
  assert (RA : rt_same A A2) by (eapply rt_same_trans; eauto).
  pose proof (Forall2_length _ _ _ _ _ RA) as LA. pose proof (Permutation_length Rx) as Ly.
  rewrite !map_length in Ly. rewrite <- Ey in Ly. rewrite app_length in Ly. cbn [length] in Ly, Hf.
  destruct (l1 ++ l2) as [|b lb] eqn:El.
  - inversion R3; subst. rewrite app_nil_r in E2.
    assert (N2 : nth_error (w_rt w2) (length A) = None) by (apply nth_error_None; rewrite E2; lia).
    destruct f as [|f']; [lia|]. cbn [flush_slot]. rewrite N2. rewrite E2. auto.
  - inversion R3 as [|x' y' xs' ys' Rx' Ry']; subst. inversion Ry'; subst.
    destruct (IH e (length A) w2 y' A2 Hw2 E2) as (Ev2 & R4); auto.
    + pose proof (Permutation_length Rx') as Ly'. rewrite !map_length in Ly'.
      apply (f_equal (@length route)) in El. rewrite app_length in El. lia.
    + split; [eapply env_trans; eauto|]. eapply rt_same_trans; eauto.
Qed.
Lemma flush_all_spec : forall n e w, W e w -> length (w_rt w) = n ->
  env w (flush_all_loop n w) /\ w_rt (flush_all_loop n w) = [].
Proof.
  induction n as [|n IH]; intros e w Hw L; cbn [flush_all_loop].
  - split; [apply env_refl|]. destruct (w_rt w); auto. discriminate.
  - assert (Ex : exists A l, w_rt w = A ++ [l] /\ length A = n).
    { destruct (exists_last (l := w_rt w)) as (A & l & E); [intro X; rewrite X in L; discriminate|].
      exists A, l. split; auto. rewrite E, app_length in L. cbn in L. lia. }
    destruct Ex as (A & l & E & LA).
    destruct (flush_slot_spec (S (length (concat (w_rt w)))) e n w l A Hw E LA) as (Ev & R).
    { rewrite E, concat_app. cbn [concat]. rewrite !app_length. cbn. lia. }
    set (w1 := flush_slot _ n w) in *.
    assert (Hw1 : W e w1) by (eapply chain_W; [apply flush_slot_chain|]; auto).
    destruct (IH e w1 Hw1) as (Ev2 & E2); [rewrite <- (Forall2_length _ _ _ _ _ R); auto|].
    split; [eapply env_trans; eauto|auto].
Qed.

(** L_Expire.v: the periodic pass that removes routes not refreshed for their hold time. *)
From Verif Require Import Base M_Util S_Util L_Util M_Slot L_Slot M_Source S_Source L_Source
  M_Filter M_Types M_Neigh S_Neigh L_Neigh M_State M_Table M_Msg M_Route S_World M_Xroute M_Daemon L_Table L_Step L_Msg L_Smooth L_Quiet L_Trace
  L_Select L_Select2 L_Chain L_Chain2 L_Chain3 L_Flush L_Update L_Update2 L_Daemon L_Inv L_World L_World2 L_World3 L_World4 L_Walk.
From Coq Require Import Permutation.

(** ** How the order of a slot may change *)
Definition live (now : Z) (r : route) : Prop := now <= r_time r + r_hold_time r.
Lemma live_stay : forall now r r', stay r' = stay r -> live now r -> live now r'.
Proof.
  unfold live. intros now r r' E. pose proof (f_equal r_time E). pose proof (f_equal r_hold_time E).
  cbn [r_time r_hold_time stay] in *. lia.
Qed.
Lemma live_expired : forall w r, live (sec w) r <-> route_expired r w = false.
Proof. unfold live, route_expired. intros. lia. Qed.
Lemma core_stay : forall r r', core r' = core r -> stay r' = stay r.
Proof. intros r r' E. rewrite <- (stay_core r'), E. apply stay_core. Qed.

(** Reorderings of a slot that only bring unexpired routes forward *)
Inductive mvl (now : Z) : list route -> list route -> Prop :=
| mvl_stay : forall l l', Forall2 (fun a b => stay b = stay a) l l' -> mvl now l l'
| mvl_front : forall p l, (forall x, In x l -> is_ptr p x = true -> live now x) -> mvl now l (move_front p l)
| mvl_trans : forall a b c, mvl now a b -> mvl now b c -> mvl now a c.

(** The routes of the slot before [p] have not expired *)
Definition clear (now p : Z) (l : list route) : Prop :=
  exists l1 r l2, l = l1 ++ r :: l2 /\ r_ptr r = p /\ Forall (live now) l1.

Lemma Forall2_app_inv : forall A (R : A -> A -> Prop) a b l, Forall2 R (a ++ b) l ->
  exists a' b', l = a' ++ b' /\ Forall2 R a a' /\ Forall2 R b b'.
Proof. intros. apply Forall2_app_inv_l in H. destruct H as (a' & b' & H1 & H2 & ->). eauto. Qed.
Lemma front_split : forall p l1 r l2, is_ptr p r = false ->
  move_front p (l1 ++ r :: l2) =
  (filter (is_ptr p) (l1 ++ l2) ++ filter (fun r => negb (is_ptr p r)) l1) ++ r :: filter (fun r => negb (is_ptr p r)) l2.
Proof.
  intros p l1 r l2 E. unfold move_front. rewrite !filter_app. cbn [filter]. rewrite E. cbn [negb].
  rewrite <- !app_assoc. reflexivity.
Qed.
Lemma clear_mvl : forall now p l l', mvl now l l' -> clear now p l -> clear now p l'.
Proof.
  intros now p l l' M. induction M as [l l' H|q l H|a b c M1 IH1 M2 IH2]; auto.
  - intros (l1 & r & l2 & -> & E & L). apply Forall2_app_inv in H. destruct H as (a & b & -> & H1 & H2).
    inversion H2 as [|? r' ? b' E' H3]; subst. exists a, r', b'. split; auto. split.
    + apply (f_equal r_ptr) in E'. exact E'.
    + clear - H1 L. induction H1; inversion L; subst; constructor; auto. eapply live_stay; eauto.
  - intros (l1 & r & l2 & -> & E & L). destruct (is_ptr q r) eqn:Q.
    + unfold move_front.
      assert (X : In r (filter (is_ptr q) (l1 ++ r :: l2))) by (apply filter_In; split; auto; apply in_or_app; simpl; auto).
      apply in_split in X. destruct X as (m1 & m2 & X). rewrite X. exists m1, r.
      eexists. rewrite <- app_assoc. cbn [app]. split; [reflexivity|]. split; auto.
      apply Forall_forall. intros x Hx.
      assert (Y : In x (filter (is_ptr q) (l1 ++ r :: l2))) by (rewrite X; apply in_or_app; auto).
      apply filter_In in Y. destruct Y. auto.
    + rewrite front_split by auto. eexists; eexists; eexists. split; [reflexivity|]. split; auto.
      apply Forall_app. split.
      * apply Forall_forall. intros x Hx. apply filter_In in Hx. destruct Hx as (Hx & Px). apply H; auto.
        apply in_app_iff in Hx. apply in_or_app. cbn. tauto.
      * apply Forall_forall. intros x Hx. apply filter_In in Hx. destruct Hx as (Hx & _).
        rewrite Forall_forall in L. auto.
Qed.

Definition mv (w w' : world) : Prop := w_now w' = w_now w /\ Forall2 (mvl (sec w)) (w_rt w) (w_rt w').
Lemma mvl_refl : forall now l, mvl now l l.
Proof. intros. apply mvl_stay. apply Forall2_refl. auto. Qed.
Lemma mv_refl : forall w, mv w w.
Proof. intros. split; auto. apply Forall2_refl. apply mvl_refl. Qed.
Lemma mv_trans : forall a b c, mv a b -> mv b c -> mv a c.
Proof.
  intros a b c (N1 & H1) (N2 & H2). split; [congruence|].
  assert (E : sec b = sec a) by (unfold sec; rewrite N1; auto). rewrite E in H2.
  eapply Forall2_trans; eauto. intros. eapply mvl_trans; eauto.
Qed.
Lemma mv_eq : forall w w', w_now w' = w_now w -> w_rt w' = w_rt w -> mv w w'.
Proof. intros w w' N E. split; auto. rewrite E. apply Forall2_refl. apply mvl_refl. Qed.
Lemma mv_frame : forall w w', frame w w' -> mv w w'.
Proof. intros w w' F. apply mv_eq; apply F. Qed.
Lemma mv_kframe : forall w w', kframe w w' -> mv w w'.
Proof. intros w w' (a & b & ->). apply mv_eq; reflexivity. Qed.
Lemma mv_smw : forall w w', smw w w' -> mv w w'.
Proof.
  intros w w' [E R]. split; [rewrite E; reflexivity|]. clear E.
  induction R as [|l l' a b H]; constructor; auto. apply mvl_stay.
  induction H as [|r r' k k' Hr]; constructor; auto. apply core_stay. apply Hr.
Qed.
Lemma mv_map : forall p f w, (forall r, stay (f r) = stay r) -> mv w (map_ptr p f w).
Proof.
  intros p f w E. split; auto. unfold map_ptr. cbn [w_rt set_w_rt].
  induction (w_rt w) as [|l rt IH]; cbn [map]; constructor; auto. apply mvl_stay.
  induction l as [|r l IHl]; cbn [map]; constructor; auto. destruct (is_ptr p r); auto.
Qed.
Lemma mvl_In : forall now l l' x, mvl now l l' -> In x l' -> exists y, In y l /\ stay x = stay y.
Proof.
  intros now l l' x M. revert x. induction M as [l l' H|q l H|a b c M1 IH1 M2 IH2]; intros x Hx.
  - induction H as [|r r' k k' E R IH]; [destruct Hx|]. destruct Hx as [<-|Hx]; [exists r; simpl; auto|].
    destruct (IH Hx) as (y & Hy & Ey). exists y. simpl. auto.
  - exists x. split; auto. unfold move_front in Hx. apply in_app_iff in Hx.
    destruct Hx as [Hx|Hx]; apply filter_In in Hx; tauto.
  - destruct (IH2 _ Hx) as (y & Hy & Ey). destruct (IH1 _ Hy) as (z & Hz & Ez). exists z. split; auto. congruence.
Qed.
Lemma mv_In : forall w w' x, mv w w' -> In x (all_routes w') -> exists y, In y (all_routes w) /\ stay x = stay y.
Proof.
  intros w w' x (_ & M). unfold all_routes. intros Hx. apply in_concat in Hx. destruct Hx as (l' & Hl & Hx).
  induction M as [|l k rt rt' E R IH]; [destruct Hl|]. cbn [concat]. destruct Hl as [->|Hl].
  - destruct (mvl_In _ _ _ _ E Hx) as (y & Hy & Ey). exists y. split; auto. apply in_or_app. auto.
  - destruct (IH Hl) as (y & Hy & Ey). exists y. split; auto. apply in_or_app. auto.
Qed.
(** The route [p] has not expired *)
Definition plive (p : Z) (w : world) : Prop := forall x, In x (all_routes w) -> r_ptr x = p -> live (sec w) x.
Lemma plive_mv : forall p w w', mv w w' -> plive p w -> plive p w'.
Proof.
  intros p w w' M P x Hx Ex. destruct (mv_In _ _ _ M Hx) as (y & Hy & Ey).
  replace (sec w') with (sec w) by (unfold sec; destruct M as (-> & _); auto).
  eapply live_stay; [exact Ey|]. apply P; auto. apply (f_equal r_ptr) in Ey. cbn in Ey. congruence.
Qed.
Lemma plive_find : forall p w r, rt_wf (w_rt w) -> find_ptr p w = Some r -> live (sec w) r -> plive p w.
Proof.
  intros p w r Wf F L x Hx Ex. assert (find_ptr p w = Some x) by (apply find_ptr_iff; auto). congruence.
Qed.
Lemma mv_move : forall d p w, plive p w -> mv w (move_installed d p w).
Proof.
  intros d p w L. unfold move_installed. destruct (find_route_slot d w) as [i|i]; [|apply mv_eq; auto].
  split; auto. cbn [w_rt set_w_rt]. set (k := Z.to_nat i).
  assert (G : forall rt k, (forall l, In l rt -> forall x, In x l -> is_ptr p x = true -> live (sec w) x) ->
    Forall2 (mvl (sec w)) rt (upd k (move_front p (nth k rt [])) rt)).
  { induction rt as [|l rt IH]; intros k0 H; [destruct k0; constructor|].
    destruct k0 as [|k0]; cbn [upd nth].
    - constructor; [apply mvl_front; apply H; left; auto|apply Forall2_refl; apply mvl_refl].
    - constructor; [apply mvl_refl|]. apply IH. intros l0 Hl0. apply H. right; auto. }
  apply G. intros l Hl x Hx Px. apply L; [apply in_concat; eauto|unfold is_ptr in Px; lia].
Qed.

(** ** Functions that select routes *)
Lemma selected_mv : forall r w o w1, mv w1 (selected r w o w1).
Proof. intros. apply mv_eq; reflexivity. Qed.
Lemma install_mv : forall p w, plive p w -> mv w (install_route p w).
Proof.
  intros p w L. unfold install_route. destruct (find_ptr p w) as [r|]; [|apply mv_eq; auto].
  destruct (r_installed r); [apply mv_refl|]. destruct (slot_of (rdest r) w) as [|h t]; [apply mv_eq; auto|].
  destruct (_ && _); [apply mv_refl|]. destruct (nb_if (r_neigh r) w) as [[n i]|]; [|apply mv_eq; auto].
  destruct (change_route_add _ _ _ _) as [rc w1] eqn:C. apply change_route_add_frame, mv_kframe in C.
  destruct (_ && _); auto. set (w2 := map_ptr p (set_r_installed true) (selected r w None w1)).
  assert (M : mv w w2).
  { eapply mv_trans; [exact C|]. eapply mv_trans; [apply (selected_mv r w None w1)|]. apply mv_map. reflexivity. }
  eapply mv_trans; [exact M|]. apply mv_move. eapply plive_mv; eauto.
Qed.
Lemma switch_mv : forall o p w, plive p w -> mv w (switch_routes o p w).
Proof.
  intros [o|] p w L; [|apply install_mv; auto]. cbn [switch_routes].
  destruct (find_ptr o w) as [ro|]; [|apply mv_eq; auto]. destruct (find_ptr p w) as [rn|]; [|apply mv_eq; auto].
  destruct (negb _); [apply mv_refl|]. destruct (nb_if (r_neigh ro) w) as [[no io]|]; [|apply mv_eq; auto].
  destruct (nb_if (r_neigh rn) w) as [[nn inw]|]; [|apply mv_eq; auto].
  destruct (change_route_modify _ _ _ _ _ _ _) as [rc w1] eqn:C. apply change_route_modify_frame, mv_kframe in C.
  destruct (rc <? 0); auto.
  set (w2 := map_ptr p (set_r_installed true) (map_ptr o (set_r_installed false) (selected rn w (Some ro) w1))).
  assert (M : mv w w2).
  { eapply mv_trans; [exact C|]. eapply mv_trans; [apply (selected_mv rn w (Some ro) w1)|].
    eapply mv_trans; apply mv_map; reflexivity. }
  eapply mv_trans; [exact M|]. apply mv_move. eapply plive_mv; eauto.
Qed.
Lemma consider_mv : forall e w p r, W e w -> find_ptr p w = Some r -> live (sec w) r -> mv w (consider_route p w).
Proof.
  intros e w p r Hw F L. pose proof (W_rt _ _ Hw) as Wf. pose proof (plive_find _ _ _ Wf F L) as P.
  pose proof (consider_chain e w p r Hw F) as Q. revert Q. unfold consider_route. rewrite F.
  destruct (r_installed r) eqn:I; [intros _; apply mv_refl|].
  destruct (feasible r w) eqn:Fe; cbn [negb]; [|intros _; apply mv_refl].
  destruct (match find_xroute (rdest r) w with Some x => _ | None => false end); [intros _; apply mv_refl|].
  pose proof (find_In _ _ _ F) as Hr. pose proof (route_dvalid w r Wf Hr) as V.
  assert (G : forall inst w0, mv w w0 -> W e w0 -> find_ptr p w0 <> None ->
    match inst with Some i => find_ptr (r_ptr i) w0 <> None | None => True end ->
    quiet e w0 (switch_routes (option_map r_ptr inst) p w0) -> mv w (consider_install p inst w0)).
  { intros inst w0 M0 Hw0 F0 Fi Qs. eapply mv_trans; [exact M0|]. unfold consider_install. cbv zeta.
    set (w1 := switch_routes (option_map r_ptr inst) p w0) in *.
    assert (M1 : mv w0 w1) by (apply switch_mv; eapply plive_mv; eauto).
    eapply mv_trans; [exact M1|]. pose proof (quiet_W _ _ _ Qs Hw0) as Hw1. pose proof (W_refs _ _ Hw1) as R1.
    destruct (find_ptr p w1) as [r1|] eqn:F1; [|apply mv_eq; auto]. apply mv_frame.
    destruct inst as [i|]; [|apply send_update_all_frame; auto].
    destruct (r_installed r1); [|apply send_update_all_frame; auto].
    destruct (find_ptr (r_ptr i) w0) as [i0|] eqn:Fi0; [|contradiction].
    destruct (quiet_find _ _ _ _ _ Hw0 Qs Fi0) as (i' & Fi' & _). rewrite Fi'.
    apply triggered_frame; auto. congruence. }
  intros _. destruct (find_installed (rdest r) w) as [i|] eqn:Fi.
  - pose proof Fi as Fi'. apply (find_installed_iff (dest_of r)) in Fi'; auto. destruct Fi' as (Hi & Ii & Di).
    assert (Fpi : find_ptr (r_ptr i) w = Some i) by (apply find_ptr_iff; auto).
    destruct (route_metric r >=? INFINITY) eqn:Mr; [apply mv_refl|].
    destruct (route_metric i >=? INFINITY) eqn:Mi.
    + apply G; auto; [apply mv_refl|congruence|congruence|]. cbn [option_map].
      eapply switch_chain; eauto. split; [lia|]. left. lia.
    + destruct (route_metric i >=? route_metric r) eqn:Mir; [|apply mv_refl].
      destruct (smoothed_spec e w (r_ptr i) i Hw Fpi) as (mi & rnd1 & E1 & Q1 & S1 & F1 & _).
      rewrite E1. set (w1 := map_ptr (r_ptr i) (smooth_upd mi (sec w)) (set_w_rnd rnd1 w)) in *.
      pose proof (quiet_W _ _ _ Q1 Hw) as Hw1.
      assert (Npi : r_ptr i <> p).
      { intro E. rewrite E, F in Fpi. inversion Fpi; subst. congruence. }
      assert (Fp1 : find_ptr p w1 = Some r) by (unfold w1; rewrite find_other; auto).
      destruct (smoothed_spec e w1 p r Hw1 Fp1) as (mr & rnd2 & E2 & Q2 & S2 & F2 & _).
      rewrite E2. set (w2 := map_ptr p (smooth_upd mr (sec w1)) (set_w_rnd rnd2 w1)) in *.
      pose proof (quiet_W _ _ _ Q2 Hw1) as Hw2.
      assert (M2 : mv w w2) by (eapply mv_trans; apply mv_smw; eauto).
      destruct (mi >? mr) eqn:Mm; auto.
      assert (Fi2 : find_ptr (r_ptr i) w2 = Some (smooth_upd mi (sec w) i))
        by (unfold w2; rewrite find_other; auto).
      apply G; auto; [congruence|congruence|]. cbn [option_map].
      apply switch_chain with (ro := smooth_upd mi (sec w) i) (rn := smooth_upd mr (sec w1) r);
        try assumption; try exact Ii; try exact I; try exact Di.
      split; [change (route_metric r < INFINITY); lia|]. right.
      change (route_metric r <= route_metric i /\ mr < mi). lia.
  - apply G; auto; [apply mv_refl|congruence|]. cbn [option_map switch_routes]. eapply install_chain; eauto.
Qed.
Lemma acceptable_live : forall r f x w, acceptable r f x w = true -> live (sec w) r.
Proof.
  intros r f x w A. apply live_expired. unfold acceptable in A. destruct (route_expired r w); auto.
Qed.
Lemma changed_mv : forall e w p r k m, W e w -> find_ptr p w = Some r -> live (sec w) r ->
  mv w (route_changed p k m w).
Proof.
  intros e w p r k m Hw F L. unfold route_changed. rewrite F. cbv zeta.
  match goal with |- mv w (match find_ptr p ?x with _ => _ end) => set (w1 := x) end.
  assert (Q : quiet e w w1 /\ mv w w1).
  { unfold w1. destruct (r_installed r); [|split; [apply quiet_refl|apply mv_refl]].
    destruct (find_best_route (rdest r) true None w) as [b w2] eqn:E.
    destruct (find_best_chain true None e w (rdest r) b w2 Hw E) as (Q & S & H).
    destruct b as [q|]; [|split; [auto|apply mv_smw; auto]].
    destruct H as (rb & Fb & A & _). rewrite Fb. destruct (_ <? _); [|split; [auto|apply mv_smw; auto]].
    pose proof (quiet_W _ _ _ Q Hw) as Hw2. split.
    - eapply quiet_trans; [exact Q|]. eapply consider_chain; eauto.
    - eapply mv_trans; [apply mv_smw; exact S|]. eapply consider_mv; eauto. eapply acceptable_live; eauto. }
  destruct Q as (Q & M).
  pose proof (quiet_W _ _ _ Q Hw) as Hw1. destruct (quiet_find _ _ _ _ _ Hw Q F) as (r1 & F1 & C). rewrite F1.
  eapply mv_trans; [exact M|]. destruct (r_installed r1).
  - apply mv_frame. apply triggered_frame; [eapply W_refs; eauto|congruence].
  - eapply consider_mv; eauto. replace (sec w1) with (sec w) by (unfold sec; destruct M as (-> & _); auto).
    eapply live_stay; [|exact L]. apply core_stay. auto.
Qed.
Lemma change_mv : forall e w p r a b c, W e w -> find_ptr p w = Some r -> mv w (change_route_metric p a b c w).
Proof.
  intros e w p r a b c Hw F. unfold change_route_metric. rewrite F.
  destruct (W_nbif_ _ _ _ Hw (find_In _ _ _ F)) as (n & i & Nb). rewrite Nb. cbv zeta.
  match goal with |- context [match ?x with (rc, w1) => _ end] => destruct x as [rc w1] eqn:K end.
  assert (KF : kframe w w1).
  { destruct (_ && _); [eapply change_route_modify_frame; eauto|inversion K; apply kframe_refl]. }
  destruct (rc <? 0); [apply mv_kframe; auto|].
  pose proof (W_kframe _ _ _ KF Hw) as Hw1.
  assert (F1 : find_ptr p w1 = Some r) by (rewrite (kframe_find _ _ _ KF); auto).
  destruct (smoothed_spec e w1 p r Hw1 F1) as (m & rnd & E1 & Q1 & S1 & _). rewrite E1. cbn [snd].
  eapply mv_trans; [apply mv_kframe; exact KF|]. eapply mv_trans; [apply mv_smw; exact S1|].
  apply mv_map. intros x. destruct (_ =? 0); reflexivity.
Qed.
Lemma urm_mv : forall e w p r, W e w -> find_ptr p w = Some r -> live (sec w) r ->
  mv w (update_route_metric p w).
Proof.
  intros e w p r Hw F L. unfold update_route_metric. rewrite F. cbv zeta.
  destruct (smoothed_spec e w p r Hw F) as (m & rnd & E1 & Q1 & S1 & F1 & _). rewrite E1.
  set (w1 := map_ptr p (smooth_upd m (sec w)) (set_w_rnd rnd w)) in *.
  replace (route_expired r w) with false by (symmetry; apply live_expired; auto).
  pose proof (quiet_W _ _ _ Q1 Hw) as Hw1. pose proof (mv_smw _ _ S1) as M1.
  destruct (W_nbif_ _ _ _ Hw1 (find_In _ _ _ F1)) as (n & i & Nb). cbn [r_neigh smooth_upd set_r_smoothed set_r_smoothed_time] in Nb.
  rewrite Nb.
  match goal with |- context [change_route_metric p ?a ?b ?c w1] => set (w2 := change_route_metric p a b c w1);
    assert (M2 : mv w1 w2) by (eapply change_mv; eauto);
    assert (Ma : metric_args w1 a b c) end.
  { split; [pose proof (W_rng _ _ Hw1 _ (find_In _ _ _ F1)) as G; apply G|].
    split; right; [|eauto]. destruct (nb_if_In _ _ _ _ Nb) as (In1 & In2).
    exists n, i. split; [exact In1|]. split; [apply in_map; exact In2|reflexivity]. }
  destruct (change_spec e w1 p _ _ _ _ Hw1 F1 Ma) as (C2 & K2 & _ & _ & r2 & F2 & _). fold w2 in C2, K2, F2.
  rewrite F2. pose proof (chain_W _ _ _ C2 Hw1) as Hw2.
  pose proof (mv_trans _ _ _ M1 M2) as M.
  assert (Lr : forall w3 r3, W e w3 -> mv w w3 -> find_ptr p w3 = Some r3 -> live (sec w3) r3).
  { intros w3 r3 Hw3 M3 F3. apply (plive_mv p w w3 M3); [|apply (find_In _ _ _ F3)|eapply find_ptr_ptr; eauto].
    eapply plive_find; eauto. apply (W_rt _ _ Hw). }
  destruct (negb _).
  - eapply mv_trans; [exact M|]. eapply changed_mv; eauto.
  - destruct (smoothed_spec e w2 p r2 Hw2 F2) as (m3 & rnd3 & E3 & Q3 & S3 & F3 & _). rewrite E3.
    match goal with |- mv w (if _ then route_changed p _ _ ?x else _) => set (w3 := x) in * end.
    assert (M3 : mv w w3) by (eapply mv_trans; [exact M|apply mv_smw; auto]).
    destruct (negb _); auto. eapply mv_trans; [exact M3|]. pose proof (quiet_W _ _ _ Q3 Hw2). eapply changed_mv; eauto.
Qed.

(** ** The pass *)
Lemma old_live : forall w r, 0 <= r_hold_time r -> route_old r w = false -> live (sec w) r.
Proof.
  unfold route_old, live. intros w r H O. assert (Z.quot (r_hold_time r * 7) 8 <= r_hold_time r); [|lia].
  rewrite Z.quot_div_nonneg by lia. apply Z.div_le_upper_bound; lia.
Qed.
Lemma stays_live : forall now l l', Permutation (map stay l') (map stay l) -> Forall (live now) l -> Forall (live now) l'.
Proof.
  intros now l l' P H. apply Forall_forall. intros x Hx. apply (in_map stay) in Hx. apply (Permutation_in _ P) in Hx.
  apply in_map_iff in Hx. destruct Hx as (y & E & Hy). rewrite Forall_forall in H. eapply live_stay; [|apply H, Hy]. auto.
Qed.
Lemma cores_live : forall now l l', Permutation (map core l') (map core l) -> Forall (live now) l -> Forall (live now) l'.
Proof.
  intros now l l' P. apply stays_live. apply (Permutation_map stay) in P. rewrite !map_map in P.
  exact P.
Qed.

Lemma mvl_live : forall now l l', mvl now l l' -> Forall (live now) l -> Forall (live now) l'.
Proof.
  intros now l l' M H. apply Forall_forall. intros x Hx. destruct (mvl_In _ _ _ _ M Hx) as (y & Hy & E).
  rewrite Forall_forall in H. eapply live_stay; [exact E|]. auto.
Qed.
Lemma mvs_live : forall now a a', Forall2 (mvl now) a a' -> Forall (live now) (concat a) -> Forall (live now) (concat a').
Proof.
  induction 1 as [|l l' a a' M R IH]; cbn [concat]; auto. intros H. apply Forall_app in H. destruct H.
  apply Forall_app. split; auto. eapply mvl_live; eauto.
Qed.
Lemma Forall2_firstn : forall A (R : A -> A -> Prop) n a b, Forall2 R a b -> Forall2 R (firstn n a) (firstn n b).
Proof. induction n; intros a b H; cbn [firstn]; [constructor|]. destruct H; constructor; auto. Qed.
Lemma firstn_exact : forall A (a b : list A), firstn (length a) (a ++ b) = a.
Proof. intros. rewrite firstn_app, Nat.sub_diag, firstn_all. cbn. apply app_nil_r. Qed.

(** *** Nothing moves unless the metric changed *)
Definition pw : list (list route) -> list (list route) -> Prop := Forall2 (Forall2 (fun a b => stay b = stay a)).
Lemma pw_refl : forall rt, pw rt rt.
Proof. intros. apply Forall2_refl. intros. apply Forall2_refl. auto. Qed.
Lemma pw_trans : forall a b c, pw a b -> pw b c -> pw a c.
Proof.
  intros a b c. apply Forall2_trans. intros x y z H1 H2. eapply Forall2_trans; [|exact H1|exact H2].
  cbn. intros. congruence.
Qed.
Lemma pw_smw : forall w w', smw w w' -> pw (w_rt w) (w_rt w').
Proof.
  intros w w' [_ R]. induction R as [|l l' a b H]; constructor; auto.
  induction H as [|r r' k k' Hr]; constructor; auto. apply core_stay. apply Hr.
Qed.
Lemma pw_map : forall p f w, (forall r, stay (f r) = stay r) -> pw (w_rt w) (w_rt (map_ptr p f w)).
Proof.
  intros p f w E. unfold map_ptr. cbn [w_rt set_w_rt].
  induction (w_rt w) as [|l rt IH]; cbn [map]; constructor; auto.
  induction l as [|r l IHl]; cbn [map]; constructor; auto. destruct (is_ptr p r); auto.
Qed.
Lemma pw_kframe : forall w w', kframe w w' -> pw (w_rt w) (w_rt w').
Proof. intros w w' (a & b & ->). apply pw_refl. Qed.

(** The link cost or the filter's cost in the route is not the current one *)
Definition stale (w : world) (r : route) : bool :=
  match nb_if (r_neigh r) w with
  | Some (n, i) =>
      negb ((r_cost r =? u16 (neighbour_cost (w_now w) i n)) &&
            (r_add_metric r =? u16 (input_filter (c_infs (w_cfg w)) (Some (k_id (r_src r))) (rdest r)
                                      (Some (n_addr n)) (if_ifindex i))))
  | None => false
  end.
Lemma stale_core : forall w r r', core r' = core r -> stale w r' = stale w r.
Proof.
  intros w r r' E. change (stale w r') with (stale w (core r')). rewrite E. reflexivity.
Qed.

Lemma change_same : forall e w p r b c, W e w -> find_ptr p w = Some r -> settled w r ->
  metric_args w (r_refmetric r) b c ->
  let w' := change_route_metric p (r_refmetric r) b c w in
  exists r', find_ptr p w' = Some r' /\ pw (w_rt w) (w_rt w') /\ sec w' = sec w /\ w_cfg w' = w_cfg w /\
    (route_metric r' = route_metric r -> settled w' r' /\ r_smoothed r' = r_smoothed r).
Proof.
  intros e w p r b c Hw F St Ma. cbv zeta. unfold change_route_metric. rewrite F.
  destruct (W_nbif_ _ _ _ Hw (find_In _ _ _ F)) as (n & i & Nb). rewrite Nb. cbv zeta.
  match goal with |- context [match ?x with (rc, w1) => _ end] => destruct x as [rc w1] eqn:K end.
  assert (KF : kframe w w1).
  { destruct (_ && _); [eapply change_route_modify_frame; eauto|inversion K; apply kframe_refl]. }
  assert (F1 : find_ptr p w1 = Some r) by (rewrite (kframe_find _ _ _ KF); auto).
  assert (Se : sec w1 = sec w /\ w_cfg w1 = w_cfg w) by (destruct KF as (? & ? & ->); auto).
  destruct Se as (Se & Sc).
  destruct (rc <? 0).
  { exists r. split; auto. split; [apply pw_kframe; auto|]. split; auto. split; auto. intros _. split; auto.
    unfold settled in *. rewrite Se, Sc. auto. }
  pose proof (W_kframe _ _ _ KF Hw) as Hw1.
  destruct (smoothed_spec e w1 p r Hw1 F1) as (m & rnd & E1 & Q1 & S1 & F2 & Sm). rewrite E1. cbn [snd].
  rewrite Se, Sc, St in Sm. injection Sm as <- _. rewrite Se in *.
  set (w2 := map_ptr p (smooth_upd (r_smoothed r) (sec w)) (set_w_rnd rnd w1)) in *.
  eexists. split; [|split; [|split; [|split]]].
  - apply map_ptr_find; [|exact F2]. intros x. destruct (_ =? 0); reflexivity.
  - eapply pw_trans; [apply pw_kframe; exact KF|]. eapply pw_trans; [apply pw_smw; exact S1|].
    apply pw_map. intros x. destruct (_ =? 0); reflexivity.
  - exact Se.
  - exact Sc.
  - cbv beta.
    set (r1 := set_r_refmetric _ (set_r_cost _ (set_r_add_metric _ (smooth_upd _ _ r)))).
    change (w_cfg (map_ptr p _ w2)) with (w_cfg w1).
    destruct (c_half_life (w_cfg w) =? 0) eqn:H0; intros M.
    + change (route_metric r1 = route_metric r) in M. split.
      * intros rnd0. change (smooth (sec w1) (c_half_life (w_cfg w1)) (route_metric r1) (route_metric r1) (sec w) rnd0 =
          (route_metric r1, sec w1, rnd0, true)). unfold smooth. rewrite Z.eqb_refl, orb_true_r. auto.
      * change (route_metric r1 = r_smoothed r). rewrite M. specialize (St rnd). unfold smooth in St.
        replace (c_half_life (w_cfg w) <=? 0) with true in St by (symmetry; lia). cbn [orb] in St.
        injection St as St. auto.
    + split; [|reflexivity]. intros rnd0.
      change (smooth (sec w1) (c_half_life (w_cfg w1)) (route_metric r1) (r_smoothed r) (sec w) rnd0 =
          (r_smoothed r, sec w1, rnd0, true)). rewrite M, Se, Sc. apply (smooth_idem _ _ _ _ _ _ _ _ (St rnd)).
Qed.

Lemma urm_order : forall e w p r, W e w -> find_ptr p w = Some r -> live (sec w) r ->
  let w' := update_route_metric p w in
  exists r', find_ptr p w' = Some r' /\ (stale w r = false -> stale w r' = false) /\
    (pw (w_rt w) (w_rt w') \/ (stale w r = true /\ stale w r' = false)).
Proof.
  intros e w p r Hw F L. cbv zeta.
  destruct (urm_spec e w p r Hw F) as (O & r' & F' & Rr). exists r'. split; auto.
  assert (Ex : route_expired r w = false) by (apply live_expired; auto).
  assert (Rr' : (stale w r' = stale w r /\ route_metric r' = route_metric r) \/
                (stale w r' = false /\ (stale w r = false -> route_metric r' = route_metric r))).
  { destruct Rr as [Rr|((_ & [C|(s & C)]) & _)].
    - right. unfold refreshed in Rr. rewrite Ex in Rr. destruct Rr as (n & i & Nb & E & _).
      assert (E1 : r_cost r' = u16 (neighbour_cost (w_now w) i n)) by exact (f_equal r_cost E).
      assert (E2 : r_add_metric r' = u16 (input_filter (c_infs (w_cfg w)) (Some (k_id (r_src r))) (rdest r) (Some (n_addr n)) (if_ifindex i)))
        by exact (f_equal r_add_metric E).
      assert (E3 : r_neigh r' = r_neigh r) by exact (f_equal r_neigh E).
      assert (E4 : r_src r' = r_src r) by exact (f_equal r_src E).
      assert (E5 : r_refmetric r' = u16 (r_refmetric r)) by exact (f_equal r_refmetric E).
      pose proof (W_rng _ _ Hw _ (find_In _ _ _ F)) as (G & _).
      unfold stale, rdest. rewrite E3, Nb, E1, E2, E4. fold (rdest r). split; [rewrite !Z.eqb_refl; reflexivity|].
      intros Sr. apply negb_false_iff, andb_true_iff in Sr. unfold route_metric. rewrite E1, E2, E5.
      replace (u16 (r_refmetric r)) with (r_refmetric r) by (unfold u16, u16_ok in *; rewrite Z.mod_small; lia).
      destruct Sr as (S1 & S2). apply Z.eqb_eq in S1. apply Z.eqb_eq in S2. rewrite <- S1, <- S2. auto.
    - left. split; [apply stale_core; auto|]. change (route_metric (core r') = route_metric (core r)). rewrite C. auto.
    - left. split; [apply (stale_core w (set_r_seqno s r)); auto|].
      change (route_metric (core r') = route_metric (core (set_r_seqno s r))). rewrite C. auto. }
  split; [intros Sf; destruct Rr' as [(C & _)|(C & _)]; congruence|].
  revert F' Rr'. clear O Rr. unfold update_route_metric. rewrite F. cbv zeta.
  destruct (settled_after e w p r Hw F) as (m & rnd & E1 & Q1 & S1 & F1 & St & _). rewrite E1.
  set (w1 := map_ptr p (smooth_upd m (sec w)) (set_w_rnd rnd w)) in *. rewrite Ex.
  pose proof (quiet_W _ _ _ Q1 Hw) as Hw1.
  destruct (W_nbif_ _ _ _ Hw1 (find_In _ _ _ F1)) as (n & i & Nb).
  change (r_neigh (smooth_upd m (sec w) r)) with (r_neigh r) in Nb. rewrite Nb.
  match goal with |- context [change_route_metric p ?a ?b ?c w1] => set (w2 := change_route_metric p a b c w1);
    assert (Ma : metric_args w1 a b c) end.
  { split; [pose proof (W_rng _ _ Hw1 _ (find_In _ _ _ F1)) as G; apply G|].
    split; right; [|eauto]. destruct (nb_if_In _ _ _ _ Nb) as (In1 & In2).
    exists n, i. split; [exact In1|]. split; [apply in_map; exact In2|reflexivity]. }
  destruct (change_same e w1 p _ _ _ Hw1 F1 St Ma) as (r2 & F2 & P2 & Se2 & Sc2 & H2).
  destruct (change_spec e w1 p _ _ _ _ Hw1 F1 Ma) as (C2 & K2 & _).
  change (r_refmetric (smooth_upd m (sec w) r)) with (r_refmetric r) in *. fold w2 in F2, P2, Se2, Sc2, H2, C2, K2.
  rewrite F2. pose proof (chain_W _ _ _ C2 Hw1) as Hw2.
  assert (P12 : pw (w_rt w) (w_rt w2)) by (eapply pw_trans; [apply pw_smw; exact S1|exact P2]).
  destruct (route_metric r2 =? route_metric r) eqn:M; cbn [negb].
  - assert (M' : route_metric r2 = route_metric (smooth_upd m (sec w) r)) by (change (route_metric (smooth_upd m (sec w) r)) with (route_metric r); lia).
    destruct (H2 M') as (St2 & Sm2). change (r_smoothed (smooth_upd m (sec w) r)) with m in Sm2.
    destruct (smoothed_spec e w2 p r2 Hw2 F2) as (m3 & rnd3 & E3 & Q3 & S3 & F3 & Sm3). rewrite E3.
    rewrite St2 in Sm3. injection Sm3 as <- _. rewrite Sm2, Z.eqb_refl. cbn [negb]. intros _ _.
    left. eapply pw_trans; [exact P12|]. apply pw_smw. first [exact S3|rewrite <- Sm2; exact S3].
  - intros F' Rr'. assert (Q : quiet e w2 (route_changed p (r_src r) (route_metric r) w2)) by (eapply changed_chain; eauto).
    destruct (quiet_find _ _ _ _ _ Hw2 Q F2) as (r3 & F3 & C3). rewrite F3 in F'. injection F' as <-.
    assert (Nm : route_metric r3 <> route_metric r).
    { change (route_metric (core r3) <> route_metric r). rewrite C3. change (route_metric (core r2)) with (route_metric r2). lia. }
    destruct Rr' as [(_ & C)|(C & C')]; [contradiction|].
    right. split; [|exact C]. destruct (stale w r) eqn:Sr; [reflexivity|]. exfalso. exact (Nm (C' eq_refl)).
Qed.

(** *** The pass ends, and leaves only routes that have not expired *)
Definition tsize (rt : list (list route)) : nat := (length (concat rt) + length rt)%nat.
Definition einv (i : nat) (p : option Z) (w : world) (k : nat) : Prop :=
  Forall (live (sec w)) (concat (firstn i (w_rt w))) /\
  match p with
  | None => k = S (tsize (skipn i (w_rt w)))
  | Some q => exists A l1 r l2 B, w_rt w = A ++ (l1 ++ r :: l2) :: B /\ length A = i /\ r_ptr r = q /\
      Forall (live (sec w)) l1 /\ k = S (S (length l2 + tsize B))
  end.

Lemma NoDup_filter_map : forall A B (g : A -> B) (f : A -> bool) l, NoDup (map g l) -> NoDup (map g (filter f l)).
Proof.
  induction l as [|a l IH]; intros N; [constructor|]. cbn [map filter] in *. inversion N; subst.
  destruct (f a); auto. cbn [map]. constructor; auto. intros X. apply in_map_iff in X. destruct X as (x & E & Hx).
  apply filter_In in Hx. apply H1. rewrite <- E. apply in_map. tauto.
Qed.
Lemma count_le : forall (f : route -> bool) L L', NoDup (map r_ptr L') ->
  (forall x', In x' L' -> f x' = true -> exists x, In x L /\ r_ptr x = r_ptr x' /\ f x = true) ->
  (length (filter f L') <= length (filter f L))%nat.
Proof.
  intros f L L' N H. rewrite <- (map_length r_ptr (filter f L')), <- (map_length r_ptr (filter f L)).
  apply NoDup_incl_length; [apply NoDup_filter_map; auto|].
  intros q Hq. apply in_map_iff in Hq. destruct Hq as (x' & <- & Hx). apply filter_In in Hx. destruct Hx as (Hx & Fx).
  destruct (H x' Hx Fx) as (x & Hx1 & E & Fx1). rewrite <- E. apply in_map. apply filter_In. auto.
Qed.
Lemma count_lt : forall (f : route -> bool) L L' y, NoDup (map r_ptr L') ->
  (forall x', In x' L' -> f x' = true -> exists x, In x L /\ r_ptr x = r_ptr x' /\ f x = true) ->
  In y L -> f y = true -> (forall x', In x' L' -> r_ptr x' = r_ptr y -> f x' = false) ->
  (length (filter f L') < length (filter f L))%nat.
Proof.
  intros f L L' y N H Hy Fy Ny. rewrite <- (map_length r_ptr (filter f L')), <- (map_length r_ptr (filter f L)).
  change (length (r_ptr y :: map r_ptr (filter f L')) <= length (map r_ptr (filter f L)))%nat.
  apply NoDup_incl_length.
  - constructor; [|apply NoDup_filter_map; auto]. intros X. apply in_map_iff in X. destruct X as (x & E & Hx).
    apply filter_In in Hx. destruct Hx as (Hx & Fx). rewrite (Ny x Hx E) in Fx. discriminate.
  - intros q [<-|Hq]; [apply in_map; apply filter_In; auto|].
    apply in_map_iff in Hq. destruct Hq as (x' & <- & Hx). apply filter_In in Hx. destruct Hx as (Hx & Fx).
    destruct (H x' Hx Fx) as (x & Hx1 & E & Fx1). rewrite <- E. apply in_map. apply filter_In. auto.
Qed.
Lemma pw_mid : forall A l1 r l2 B rt', pw (A ++ (l1 ++ r :: l2) :: B) rt' ->
  exists A' l1' r' l2' B', rt' = A' ++ (l1' ++ r' :: l2') :: B' /\ length A' = length A /\ stay r' = stay r /\
    length l1' = length l1 /\ length l2' = length l2.
Proof.
  intros A l1 r l2 B rt' H. apply Forall2_app_inv_l in H. destruct H as (A' & X & H1 & H2 & ->).
  inversion H2 as [|? l' ? B' Hl Hb]; subst. apply Forall2_app_inv_l in Hl. destruct Hl as (l1' & Y & H3 & H4 & ->).
  inversion H4 as [|? r' ? l2' Hr Hl2]; subst. exists A', l1', r', l2', B'. split; auto.
  apply Forall2_length in H1, H3, Hl2. auto.
Qed.
Lemma split_unique : forall w A l1 r l2 B A' l1' r' l2' B', rt_wf (w_rt w) ->
  w_rt w = A ++ (l1 ++ r :: l2) :: B -> w_rt w = A' ++ (l1' ++ r' :: l2') :: B' -> r_ptr r = r_ptr r' ->
  A = A' /\ l1 = l1' /\ r = r' /\ l2 = l2' /\ B = B'.
Proof.
  intros w A l1 r l2 B A' l1' r' l2' B' Wf E E' P.
  pose proof (find_split _ _ _ _ _ _ Wf E) as F. pose proof (find_split _ _ _ _ _ _ Wf E') as F'.
  rewrite P, F' in F. injection F as <-.
  destruct (slot_of_split w A _ B r' Wf E) as (S1 & X); [apply in_or_app; simpl; auto|].
  destruct (slot_of_split w A' _ B' r' Wf E') as (S2 & X'); [apply in_or_app; simpl; auto|].
  rewrite X in X'. assert (LA : length A' = length A) by (injection X'; lia). rewrite S1 in S2.
  assert (EA : A = A' /\ B = B').
  { rewrite E in E'. clear - E' LA. revert A' E' LA.
    induction A; destruct A'; cbn; intros E L; try discriminate.
    - injection E as _ ->. auto.
    - injection E as -> E. injection L as L. destruct (IHA _ E L) as (-> & ->). auto. }
  destruct EA as (-> & ->). split; auto.
  pose proof (wf_ptrs _ Wf) as N. rewrite E in N. pose proof (ptr_unique_in _ _ _ _ _ N) as U.
  pose proof (wf_ptrs _ Wf) as N'. rewrite E' in N'. pose proof (ptr_unique_in _ _ _ _ _ N') as U'.
  assert (G : l1 = l1' /\ r' :: l2 = r' :: l2').
  { assert (V : forall x, In x l1 -> is_ptr (r_ptr r') x = false) by (intros; apply U; auto).
    assert (V' : forall x, In x l1' -> is_ptr (r_ptr r') x = false) by (intros; apply U'; auto).
    clear - S2 V V'. revert l1' S2 V'. induction l1 as [|a l1 IH]; intros [|b l1'] E V'; cbn in E.
    - auto.
    - injection E as -> _. specialize (V' b (or_introl eq_refl)). unfold is_ptr in V'. lia.
    - injection E as -> _. specialize (V r' (or_introl eq_refl)). unfold is_ptr in V. lia.
    - injection E as -> E. destruct (IH (fun x H => V x (or_intror H)) _ E (fun x H => V' x (or_intror H))) as (-> & G). auto. }
  destruct G as (-> & G). injection G as ->. auto.
Qed.

Lemma env_get_if : forall w w' id, env w w' -> option_map ifstat (get_if id w') = option_map ifstat (get_if id w).
Proof.
  intros w w' id E. unfold get_if. pose proof (ev_ifs _ _ E) as X. clear - X. revert X.
  generalize (w_ifs w'). induction (w_ifs w) as [|a l IH]; intros [|b l'] X; try discriminate X; auto.
  cbn [map] in X.
  assert (Xa : ifstat b = ifstat a) by (apply (f_equal (hd_error (A:=_))) in X; cbn in X; congruence).
  assert (Xl : map ifstat l' = map ifstat l) by (apply (f_equal (tl (A:=_))) in X; exact X).
  cbn [find].
  assert (if_id b = if_id a) as -> by (apply (f_equal if_id) in Xa; exact Xa).
  destruct (if_id a =? id); cbn [option_map]; [rewrite Xa; auto|apply IH; auto].
Qed.
Lemma stale_env : forall w w' r, env w w' -> stale w' r = stale w r.
Proof.
  intros w w' r E. unfold stale. unfold nb_if, get_nb. rewrite (ev_nbs _ _ E). destruct (find _ (w_nbs w)) as [nb|]; auto.
  pose proof (env_get_if w w' (n_if nb) E) as Eif.
  destruct (get_if (n_if nb) w') as [i'|], (get_if (n_if nb) w) as [i|]; try discriminate Eif; auto.
  assert (Ei : ifstat i' = ifstat i) by (cbn [option_map] in Eif; congruence).
  destruct (cost_stat (w_now w) i' i nb Ei) as (E1 & E2).
  rewrite (ev_now _ _ E), (ev_cfg _ _ E), E1, E2. auto.
Qed.

Lemma unlink_cases : forall (rt : list (list route)) l, rt = match l with [] => [] | _ => [l] end ->
  (tsize rt <= S (length l))%nat.
Proof. intros rt [|a l] ->; unfold tsize; cbn; [lia|]. rewrite app_nil_r. lia. Qed.
Lemma tsize_app : forall a b, tsize (a ++ b) = (tsize a + tsize b)%nat.
Proof. intros. unfold tsize. rewrite concat_app, !app_length. lia. Qed.
Lemma tsize_same : forall a b, rt_same a b -> tsize b = tsize a.
Proof. intros a b H. unfold tsize. rewrite (rt_same_len _ _ H), <- (Forall2_length _ _ _ _ _ H). auto. Qed.
Lemma tsize_kept : forall a b, Forall2 slot_kept a b -> tsize b = tsize a /\ length (concat b) = length (concat a).
Proof.
  intros a b H. unfold tsize.
  assert (X : length (concat b) = length (concat a) /\ length a = length b); [|lia].
  induction H as [|l l' a b H R IH]; cbn [concat length]; auto. rewrite !app_length. apply Permutation_length in H.
  rewrite !map_length in H. lia.
Qed.

Lemma app_inj_length : forall A (a b c d : list A), length a = length c -> a ++ b = c ++ d -> a = c /\ b = d.
Proof.
  induction a as [|x a IH]; intros b [|y c] d L E; cbn in *; try discriminate; auto.
  injection E as -> E. injection L as L. destruct (IH _ _ _ L E) as (-> & ->). auto.
Qed.

Section Pass.
  Variable w0 : world.
  Variable n0 : nat.
  Let cnt (w : world) : nat := length (filter (stale w0) (all_routes w)).
  Let size (w : world) : nat := length (all_routes w).

  Lemma expire_loop_spec : forall fuel e w i p k, W e w -> env w0 w -> einv i p w k ->
    (size w <= n0)%nat -> ((size w + cnt w) * S n0 + k <= fuel)%nat ->
    let w' := expire_loop fuel i p w in env w w' /\ Forall (live (sec w)) (all_routes w').
  Proof.
    induction fuel as [|f IH]; intros e w i p k Hw E0 (L & P) Sz Fu.
    { exfalso. destruct p as [p|]; [destruct P as (? & ? & ? & ? & ? & ? & ? & ? & ? & ->)|subst k]; lia. }
    cbn [expire_loop]. cbv zeta. pose proof (W_rt _ _ Hw) as Wf. destruct p as [p|].
    - destruct P as (A & l1 & r & l2 & B & Er & La & <- & L1 & ->).
      pose proof (find_split _ _ _ _ _ _ Wf Er) as F. rewrite F.
      pose proof (find_In _ _ _ F) as Hr. pose proof (W_rng _ _ Hw _ Hr) as Rg.
      destruct ((r_time r >? sec w) || route_old r w) eqn:O.
      + destruct (flush_spec e w _ r Hw F) as (C & A' & k1 & k2 & B' & E' & R).
        pose proof (flush_env e w _ r Hw F) as Ev. set (w1 := flush_route (r_ptr r) w) in *.
        pose proof (chain_W _ _ _ C Hw) as Hw1.
        destruct (split_unique _ _ _ _ _ _ _ _ _ _ _ Wf Er E' eq_refl) as (<- & <- & _ & <- & <-).
        assert (Ec : Permutation (map core (all_routes w1)) (map core (concat A ++ (l1 ++ l2) ++ concat B))).
        { unfold all_routes. rewrite (rt_same_concat _ _ R). unfold slots_without. rewrite !concat_app.
          destruct (l1 ++ l2) as [|x xs]; cbn [app concat]; rewrite ?app_nil_r; auto. }
        assert (Sz1 : S (size w1) = size w).
        { unfold size. apply Permutation_length in Ec. rewrite !map_length in Ec. rewrite Ec.
          unfold all_routes. rewrite Er, concat_mid. rewrite !app_length. cbn [length]. lia. }
        assert (Cn : (cnt w1 <= cnt w)%nat).
        { apply count_le; [apply (wf_ptrs _ (W_rt _ _ Hw1))|]. intros x' Hx' Sx.
          apply (in_map core), (Permutation_in _ Ec), in_map_iff in Hx'. destruct Hx' as (x & Ex & Hx).
          exists x. split; [|split].
          - unfold all_routes. rewrite Er, concat_mid. rewrite !in_app_iff in *. cbn [In]. tauto.
          - apply (f_equal r_ptr) in Ex. exact Ex.
          - rewrite (stale_core w0 x' x Ex). auto. }
        unfold slots_without in R. apply rt_same_split in R. destruct R as (R1 & R2). rewrite La in R1, R2.
        assert (Es : sec w1 = sec w) by (unfold sec; rewrite (ev_now _ _ Ev); auto).
        assert (Ts : (tsize (skipn i (w_rt w1)) <= S (length l1 + length l2) + tsize B)%nat).
        { rewrite (tsize_same _ _ R2), tsize_app. pose proof (unlink_cases _ (l1 ++ l2) eq_refl) as X.
          rewrite app_length in X. lia. }
        assert (Ll : (length l1 < size w)%nat).
        { unfold size, all_routes. rewrite Er, concat_mid, !app_length. cbn [length]. lia. }
        destruct (IH e w1 i None (S (tsize (skipn i (w_rt w1)))) Hw1) as (N & H).
        * eapply env_trans; eauto.
        * split; auto. rewrite Es. rewrite Er, <- La, firstn_exact in L.
          eapply cores_live; [apply rt_same_concat; exact R1|exact L].
        * lia.
        * nia.
        * rewrite Es in H. split; auto. eapply env_trans; eauto.
      + apply orb_false_iff in O. destruct O as (_ & O).
        assert (Lr : live (sec w) r) by (apply old_live; auto; destruct Rg as (_ & _ & _ & _ & _ & Rg); lia).
        pose proof (urm_mv e w _ r Hw F Lr) as M.
        destruct (urm_spec e w _ r Hw F) as (On & _).
        destruct (urm_order e w _ r Hw F Lr) as (r1 & F1 & Sr & Or). rewrite F1.
        set (w1 := update_route_metric (r_ptr r) w) in *. pose proof (only_W _ _ _ _ On Hw) as Hw1.
        pose proof (on_keeps _ _ _ _ On) as Kp.
        set (w2 := if r_installed r1 && (r_refmetric r1 <? INFINITY) && route_old r1 w1 then send_unicast_request (r_neigh r1) (rdest r1) w1 else w1).
        assert (Fr : frame w1 w2).
        { unfold w2. destruct (_ && _); [|apply frame_refl]. apply unicast_request_frame.
          - apply (W_refs _ _ Hw1).
          - unfold has_nb. destruct (W_nbif_ _ _ _ Hw1 (find_In _ _ _ F1)) as (? & ? & ->). discriminate. }
        assert (Q2 : quiet e w1 w2) by (apply quiet_frame; auto).
        pose proof (quiet_W _ _ _ Q2 Hw1) as Hw2. pose proof (W_rt _ _ Hw2) as Wf2.
        pose proof (mv_trans _ _ _ M (mv_frame _ _ Fr)) as M2.
        pose proof (keeps_trans _ _ _ Kp (quiet_keeps _ _ _ Q2)) as K2.
        pose proof (keeps_env _ _ K2) as Ev2.
        assert (Es : sec w2 = sec w) by (unfold sec; rewrite (ev_now _ _ Ev2); auto).
        assert (Rt2 : w_rt w2 = w_rt w1) by apply Fr.
        assert (A2 : all_routes w2 = all_routes w1) by (unfold all_routes; rewrite Rt2; auto).
        (* sizes *)
        assert (Sz2 : size w2 = size w).
        { unfold size, all_routes. apply (tsize_kept _ _ (kp_rt _ _ K2)). }
        assert (St0 : forall x, stale w0 x = stale w x) by (intros; symmetry; apply stale_env; auto).
        assert (Src : forall x', In x' (all_routes w2) -> r_ptr x' <> r_ptr r ->
          exists x, In x (all_routes w) /\ r_ptr x = r_ptr x' /\ stale w0 x = stale w0 x').
        { intros x' Hx' Np. destruct (keeps_In' _ _ _ K2 Hx') as (x & Hx & Sx).
          assert (Px : r_ptr x = r_ptr x') by (apply (f_equal r_ptr) in Sx; exact Sx).
          assert (Fx : find_ptr (r_ptr x') w = Some x) by (apply find_ptr_iff; auto).
          destruct (on_others _ _ _ _ On _ _ Np Fx) as (y & Fy & Cy).
          assert (find_ptr (r_ptr x') w1 = Some x').
          { apply find_ptr_iff; [apply (W_rt _ _ Hw1)|]. rewrite <- A2. auto. }
          assert (y = x') as -> by congruence. exists x. split; auto. split; auto. symmetry. apply stale_core; auto. }
        assert (Sp : forall x', In x' (all_routes w2) -> r_ptr x' = r_ptr r -> x' = r1).
        { intros x' Hx' Ep. assert (find_ptr (r_ptr r) w1 = Some x').
          { apply find_ptr_iff; [apply (W_rt _ _ Hw1)|]. rewrite <- A2. auto. }
          congruence. }
        assert (Cn : (cnt w2 <= cnt w)%nat).
        { apply count_le; [apply (wf_ptrs _ Wf2)|]. intros x' Hx' Sx.
          destruct (Z.eq_dec (r_ptr x') (r_ptr r)) as [Ep|Np].
          - rewrite (Sp _ Hx' Ep) in Sx. exists r. split; auto. split; auto. rewrite St0 in *.
            destruct (stale w r); auto. rewrite Sr in Sx by auto. discriminate.
          - destruct (Src _ Hx' Np) as (x & H1 & H2 & H3). exists x. rewrite H3. auto. }
        (* where the route is now *)
        assert (I2 : exists A2 k1 r2 k2 B2, w_rt w2 = A2 ++ (k1 ++ r2 :: k2) :: B2 /\ length A2 = i /\ r_ptr r2 = r_ptr r /\
                       Forall (live (sec w2)) k1).
        { destruct M2 as (_ & M2). rewrite Es. rewrite Er in M2. apply Forall2_app_inv_l in M2.
          destruct M2 as (A' & B' & M21 & M22 & E'). inversion M22 as [|? l' ? B'' Ml Mb]; subst.
          destruct (clear_mvl (sec w) (r_ptr r) _ _ Ml) as (k1 & r2 & k2 & -> & Ep & Lk).
          - exists l1, r, l2. auto.
          - exists A', k1, r2, k2, B''. split; auto. split; [symmetry; eapply Forall2_length; eauto|]. auto. }
        destruct I2 as (A2' & k1 & r2 & k2 & B2 & E2 & La2 & Ep & Lk).
        assert (L2 : Forall (live (sec w2)) (concat A2')).
        { destruct M2 as (_ & M2). rewrite Es. eapply mvs_live; [|exact L]. apply (Forall2_firstn _ _ i) in M2.
          assert (X : firstn i (w_rt w2) = A2') by (rewrite E2, <- La2; apply firstn_exact). rewrite X in M2. exact M2. }
        assert (TB : tsize B2 = tsize B /\ (length k1 + length k2 = length l1 + length l2)%nat).
        { pose proof (kp_rt _ _ K2) as R. rewrite Er, E2 in R. apply Forall2_app_inv_l in R.
          destruct R as (X & Y & R1 & R2 & R3). apply Forall2_length in R1.
          assert (X = A2' /\ Y = (k1 ++ r2 :: k2) :: B2) as (-> & ->).
          { apply app_inj_length; [lia|auto]. }
          inversion R2 as [|? ? ? ? Hl Hb]; subst. split; [apply (tsize_kept _ _ Hb)|].
          unfold slot_kept in Hl. apply Permutation_length in Hl. rewrite !map_length, !app_length in Hl. cbn [length] in Hl. lia. }
        destruct TB as (TB & TL).
        assert (Dec : (length k2 <= length l2)%nat \/ (cnt w2 < cnt w)%nat).
        { destruct Or as [Or|(O1 & O2)].
          - left. rewrite <- Rt2, Er in Or. apply pw_mid in Or.
            destruct Or as (X & y1 & y & y2 & Y & Ey & _ & Sy & _ & Ly).
            assert (Py : r_ptr y = r_ptr r2) by (apply (f_equal r_ptr) in Sy; cbn in Sy; congruence).
            destruct (split_unique _ _ _ _ _ _ _ _ _ _ _ Wf2 Ey E2 Py) as (_ & _ & _ & <- & _). lia.
          - right. apply count_lt with (y := r); auto; [apply (wf_ptrs _ Wf2)| | |].
            + intros x' Hx' Sx. destruct (Z.eq_dec (r_ptr x') (r_ptr r)) as [Ex|Np].
              * rewrite (Sp _ Hx' Ex) in Sx. exists r. split; auto. split; auto. rewrite St0. auto.
              * destruct (Src _ Hx' Np) as (x & H1 & H2 & H3). exists x. rewrite H3. auto.
            + rewrite St0. auto.
            + intros x' Hx' Ex. rewrite (Sp _ Hx' Ex), St0. auto. }
        assert (Ll : (length k1 + length k2 < n0)%nat).
        { unfold size, all_routes in Sz2, Sz. rewrite <- Sz2, E2, concat_mid, !app_length in Sz. cbn [length] in Sz. lia. }
        assert (Lr2 : live (sec w2) r2).
        { apply (plive_mv (r_ptr r) w w2 M2); auto.
          - eapply plive_find; eauto.
          - unfold all_routes. rewrite E2, concat_mid. rewrite !in_app_iff. cbn [In]. auto. }
        assert (Fi : forall j q kk, einv j q w2 kk -> (S kk <= S (S (length l2 + tsize B)) \/ (cnt w2 < cnt w /\ kk <= S (S (length k2 + tsize B))))%nat ->
          env w (expire_loop f j q w2) /\ Forall (live (sec w)) (all_routes (expire_loop f j q w2))).
        { intros j q kk Iv Hk. destruct (IH e w2 j q kk Hw2) as (N & H); auto.
          - eapply env_trans; eauto.
          - lia.
          - rewrite Sz2. destruct Hk as [Hk|(Hk & Hk')]; nia.
          - rewrite Es in H. split; auto. eapply env_trans; eauto. }
        rewrite <- Ep, (next_ptr_split _ _ _ _ _ _ Wf2 E2).
        destruct k2 as [|x k2]; cbv iota.
        * apply (Fi _ _ (S (tsize B2))); [|rewrite TB; left; lia].
          split.
          -- rewrite E2, <- La2. replace (A2' ++ (k1 ++ [r2]) :: B2) with ((A2' ++ [k1 ++ [r2]]) ++ B2)
               by (rewrite <- app_assoc; auto).
             replace (S (length A2')) with (length (A2' ++ [k1 ++ [r2]])) by (rewrite app_length; cbn; lia).
             rewrite firstn_exact, concat_app. apply Forall_app. split; auto.
             cbn [concat]. rewrite app_nil_r. apply Forall_app. auto.
          -- rewrite E2, <- La2. replace (A2' ++ (k1 ++ [r2]) :: B2) with ((A2' ++ [k1 ++ [r2]]) ++ B2)
               by (rewrite <- app_assoc; auto).
             rewrite skipn_length_app; auto. rewrite app_length. cbn. lia.
        * apply (Fi _ _ (S (S (length k2 + tsize B2)))).
          -- split; [rewrite E2, <- La2, firstn_exact; auto|].
             exists A2', (k1 ++ [r2]), x, k2, B2. rewrite <- app_assoc. cbn [app]. split; auto. split; auto. split; auto.
             split; auto. apply Forall_app. auto.
          -- rewrite TB. cbn [length] in *. destruct Dec as [D|D]; [left; lia|right; lia].
    - subst k. destruct (nth_error (w_rt w) i) as [[|r l]|] eqn:E.
      + exfalso. apply nth_error_In in E. destruct (wf_slot _ _ (W_rt _ _ Hw) E) as (N & _). contradiction.
      + apply nth_error_split in E. destruct E as (A & B & E & La).
        apply (IH e w i (Some (r_ptr r)) (S (S (length l + tsize B)))); auto.
        * split; auto. exists A, [], r, l, B. auto.
        * rewrite E, skipn_length_app in Fu by auto. unfold tsize in *. cbn [concat length] in Fu. rewrite app_length in Fu.
          cbn [length] in Fu. lia.
      + split; [apply env_refl|]. apply nth_error_None in E. rewrite firstn_all2 in L by auto. exact L.
  Qed.
End Pass.

Lemma filter_length_le : forall A (f : A -> bool) l, (length (filter f l) <= length l)%nat.
Proof. induction l as [|a l IH]; cbn; auto. destruct (f a); cbn; lia. Qed.
Lemma expire_spec : forall e w, W e w ->
  env w (expire_routes w) /\ Forall (live (sec w)) (all_routes (expire_routes w)).
Proof.
  intros e w Hw. unfold expire_routes.
  apply (expire_loop_spec w (length (all_routes w)) (expire_fuel w) e w 0 None (S (tsize (w_rt w)))); auto.
  - apply env_refl.
  - split; cbn; auto.
  - pose proof (filter_length_le _ (stale w) (all_routes w)) as X. unfold expire_fuel, tsize. fold (all_routes w).
    set (n := length (all_routes w)) in *. set (c := length (filter _ _)) in *. set (m := length (w_rt w)). nia.
Qed.

(** ** What is removed *)
Definition recent (now : Z) (r : route) : Prop := r_time r <= now /\ now - Z.quot (r_hold_time r * 7) 8 <= r_time r.
Lemma recent_stay : forall now r r', stay r' = stay r -> recent now r -> recent now r'.
Proof.
  unfold recent. intros now r r' E. pose proof (f_equal r_time E) as E1. pose proof (f_equal r_hold_time E) as E2.
  cbn [r_time r_hold_time stay] in *. rewrite E1, E2. auto.
Qed.
Lemma expire_loop_kept : forall fuel e w i p x, W e w ->
  match p with Some p => find_ptr p w <> None | None => True end ->
  In x (all_routes w) -> recent (sec w) x ->
  exists y, In y (all_routes (expire_loop fuel i p w)) /\ stay y = stay x.
Proof.
  induction fuel as [|f IH]; intros e w i p x Hw P Hx Rx; cbn [expire_loop]; [exists x; auto|].
  assert (T : forall w1 i p, W e w1 -> match p with Some p => find_ptr p w1 <> None | None => True end ->
     w_now w1 = w_now w -> (exists y, In y (all_routes w1) /\ stay y = stay x) ->
     exists y, In y (all_routes (expire_loop f i p w1)) /\ stay y = stay x).
  { intros w1 j q Hw1 Pq N (y & Hy & Ey). destruct (IH e w1 j q y Hw1 Pq Hy) as (z & Hz & Ez).
    - replace (sec w1) with (sec w) by (unfold sec; rewrite N; auto). eapply recent_stay; eauto.
    - exists z. split; auto. congruence. }
  destruct p as [p|].
  - destruct (find_ptr p w) as [r|] eqn:F; [|contradiction].
    destruct ((r_time r >? sec w) || route_old r w) eqn:O.
    + destruct (flush_spec e w _ r Hw F) as (C & A & k1 & k2 & B & E & R).
      pose proof (flush_env e w _ r Hw F) as Ev. set (w1 := flush_route p w) in *.
      pose proof (chain_W _ _ _ C Hw) as Hw1. apply T; auto; [apply Ev|].
      assert (Y : In (core x) (map core (all_routes w1))).
      { eapply Permutation_in; [symmetry; apply rt_same_concat; exact R|]. apply in_map.
        unfold all_routes in Hx. rewrite E in Hx. unfold slots_without. rewrite concat_mid in Hx.
        assert (Nx : x <> r).
        { intros ->. destruct Rx as (R1 & R2). unfold route_old in O. lia. }
        rewrite !in_app_iff in Hx. cbn [In] in Hx. rewrite !concat_app, !in_app_iff.
        assert (K : In x (k1 ++ k2) -> In x (concat match k1 ++ k2 with [] => [] | _ => [k1 ++ k2] end)).
        { destruct (k1 ++ k2) eqn:K; [intros []|]. intros Y. cbn [concat]. rewrite app_nil_r. exact Y. }
        rewrite in_app_iff in K. intuition congruence. }
      apply in_map_iff in Y. destruct Y as (y & Ey & Hy). exists y. split; auto. apply core_stay; auto.
    + destruct (urm_spec e w _ r Hw F) as (On & r1 & F1 & _). cbv zeta. rewrite F1.
      set (w1 := update_route_metric p w) in *. pose proof (only_W _ _ _ _ On Hw) as Hw1.
      set (w2 := if r_installed r1 && (r_refmetric r1 <? INFINITY) && route_old r1 w1 then send_unicast_request (r_neigh r1) (rdest r1) w1 else w1).
      assert (Fr : frame w1 w2).
      { unfold w2. destruct (_ && _); [|apply frame_refl]. apply unicast_request_frame.
        - apply (W_refs _ _ Hw1).
        - unfold has_nb. destruct (W_nbif_ _ _ _ Hw1 (find_In _ _ _ F1)) as (? & ? & ->). discriminate. }
      assert (Q2 : quiet e w1 w2) by (apply quiet_frame; auto).
      pose proof (quiet_W _ _ _ Q2 Hw1) as Hw2.
      pose proof (keeps_trans _ _ _ (on_keeps _ _ _ _ On) (quiet_keeps _ _ _ Q2)) as K.
      destruct (next_ptr p w2) as [q|] eqn:N.
      * destruct (next_ptr_find _ _ _ (W_rt _ _ Hw2) N) as (rq & Fq).
        apply T; auto; [congruence|apply K|]. apply (keeps_In _ _ _ K Hx).
      * apply T; auto; [apply K|]. apply (keeps_In _ _ _ K Hx).
  - destruct (nth_error (w_rt w) i) as [[|r l]|] eqn:E; [exists x; auto| |exists x; auto].
    apply T; eauto. apply nth_error_In in E.
    assert (F : find_ptr (r_ptr r) w = Some r).
    { apply find_ptr_iff; [apply (W_rt _ _ Hw)|]. split; auto. apply in_concat. exists (r :: l). simpl. auto. }
    congruence.
Qed.
Lemma expire_loop_from : forall fuel e w i p y, W e w ->
  match p with Some p => find_ptr p w <> None | None => True end ->
  In y (all_routes (expire_loop fuel i p w)) -> exists x, In x (all_routes w) /\ stay y = stay x.
Proof.
  induction fuel as [|f IH]; intros e w i p y Hw P Hy; cbn [expire_loop] in Hy; [exists y; auto|].
  assert (T : forall w1 i p, W e w1 -> match p with Some p => find_ptr p w1 <> None | None => True end ->
     (forall x, In x (all_routes w1) -> exists z, In z (all_routes w) /\ stay x = stay z) ->
     In y (all_routes (expire_loop f i p w1)) -> exists x, In x (all_routes w) /\ stay y = stay x).
  { intros w1 j q Hw1 Pq N Hy1. destruct (IH e w1 j q y Hw1 Pq Hy1) as (x & Hx & Ex).
    destruct (N x Hx) as (z & Hz & Ez). exists z. split; auto. congruence. }
  destruct p as [p|].
  - destruct (find_ptr p w) as [r|] eqn:F; [|contradiction].
    destruct ((r_time r >? sec w) || route_old r w) eqn:O.
    + destruct (flush_spec e w _ r Hw F) as (C & A & k1 & k2 & B & E & R). set (w1 := flush_route p w) in *.
      pose proof (chain_W _ _ _ C Hw) as Hw1. revert Hy. apply T; auto. intros x Hx.
      apply (in_map core) in Hx. apply (Permutation_in _ (rt_same_concat _ _ R)) in Hx. apply in_map_iff in Hx.
      destruct Hx as (z & Ez & Hz). exists z. split; [|apply core_stay; auto].
      unfold all_routes. rewrite E, concat_mid. unfold slots_without in Hz. rewrite !concat_app, !in_app_iff in *. cbn [In].
      destruct Hz as [Hz|[Hz|Hz]]; auto. destruct (k1 ++ k2) as [|a k] eqn:K; [destruct Hz|].
      rewrite <- K in Hz. cbn [concat] in Hz. rewrite app_nil_r, in_app_iff in Hz. tauto.
    + destruct (urm_spec e w _ r Hw F) as (On & r1 & F1 & _). cbv zeta in Hy. rewrite F1 in Hy.
      set (w1 := update_route_metric p w) in *. pose proof (only_W _ _ _ _ On Hw) as Hw1.
      set (w2 := if r_installed r1 && (r_refmetric r1 <? INFINITY) && route_old r1 w1 then send_unicast_request (r_neigh r1) (rdest r1) w1 else w1) in *.
      assert (Fr : frame w1 w2).
      { unfold w2. destruct (_ && _); [|apply frame_refl]. apply unicast_request_frame.
        - apply (W_refs _ _ Hw1).
        - unfold has_nb. destruct (W_nbif_ _ _ _ Hw1 (find_In _ _ _ F1)) as (? & ? & ->). discriminate. }
      assert (Q2 : quiet e w1 w2) by (apply quiet_frame; auto).
      pose proof (quiet_W _ _ _ Q2 Hw1) as Hw2.
      pose proof (keeps_trans _ _ _ (on_keeps _ _ _ _ On) (quiet_keeps _ _ _ Q2)) as K.
      assert (Kx : forall x, In x (all_routes w2) -> exists z, In z (all_routes w) /\ stay x = stay z).
      { intros x Hx. destruct (keeps_In' _ _ _ K Hx) as (z & Hz & Ez). eauto. }
      destruct (next_ptr p w2) as [q|] eqn:N.
      * destruct (next_ptr_find _ _ _ (W_rt _ _ Hw2) N) as (rq & Fq). revert Hy. apply T; auto. congruence.
      * revert Hy. apply T; auto.
  - destruct (nth_error (w_rt w) i) as [[|r l]|] eqn:E; [exists y; auto| |exists y; auto].
    revert Hy. apply T; eauto. apply nth_error_In in E.
    assert (F : find_ptr (r_ptr r) w = Some r).
    { apply find_ptr_iff; [apply (W_rt _ _ Hw)|]. split; auto. apply in_concat. exists (r :: l). simpl. auto. }
    congruence.
Qed.
Lemma expire_kept : forall w x, W [] w -> In x (all_routes w) -> recent (sec w) x ->
  exists y, In y (all_routes (expire_routes w)) /\ stay y = stay x.
Proof. intros. eapply expire_loop_kept; eauto. Qed.
Lemma expire_from : forall w y, W [] w -> In y (all_routes (expire_routes w)) ->
  exists x, In x (all_routes w) /\ stay y = stay x.
Proof. intros w y Hw. eapply expire_loop_from; eauto. Qed.

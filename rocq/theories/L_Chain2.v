(** L_Chain2.v: changing metrics and walking the table are chains of elementary steps. *)
From Verif Require Import Base M_Util S_Util L_Util M_Slot L_Slot M_Source S_Source L_Source
  M_Filter M_Types M_Neigh M_State M_Table M_Msg M_Route S_World L_Table L_Step L_Msg L_Smooth L_Quiet L_Trace
  L_Select L_Select2 L_Chain.
From Coq Require Import Permutation.

(** ** Rewriting changes of one route *)
Lemma map_ptr_ext : forall w p r f g, rt_wf (w_rt w) -> find_ptr p w = Some r -> f r = g r ->
  map_ptr p f w = map_ptr p g w.
Proof.
  intros w p r f g Wf F E. unfold map_ptr. f_equal. apply map_ext_in. intros l Hl. apply map_ext_in. intros x Hx.
  destruct (is_ptr p x) eqn:P; auto.
  assert (find_ptr p w = Some x).
  { apply find_ptr_iff; auto. unfold is_ptr in P. split; [|lia]. apply in_concat. eauto. }
  congruence.
Qed.
Lemma map_ptr_comp : forall w p f g, (forall r, r_ptr (f r) = r_ptr r) ->
  map_ptr p g (map_ptr p f w) = map_ptr p (fun r => g (f r)) w.
Proof.
  intros w p f g E. unfold map_ptr. cbn [w_rt set_w_rt].
  replace (map (map (fun r => if is_ptr p r then g r else r)) (map (map (fun r => if is_ptr p r then f r else r)) (w_rt w)))
    with (map (map (fun r => if is_ptr p r then g (f r) else r)) (w_rt w)).
  - destruct w. reflexivity.
  - rewrite map_map. apply map_ext. intros l. rewrite map_map. apply map_ext. intros r.
    destruct (is_ptr p r) eqn:P; [|rewrite P; auto]. unfold is_ptr in *. rewrite E, P. auto.
Qed.

(** ** What changing metrics keeps *)
Definition stay (r : route) : route :=
  mkRoute (r_ptr r) (r_src r) 0 0 0 0 (r_neigh r) (r_nexthop r) (r_time r) (r_hold_time r) 0 0 false.
Definition slot_kept (l l' : list route) : Prop := Permutation (map stay l') (map stay l).
Record keeps (w w' : world) : Prop := mkKeeps {
  kp_now : w_now w' = w_now w;
  kp_cfg : w_cfg w' = w_cfg w;
  kp_ifs : map ifstat (w_ifs w') = map ifstat (w_ifs w);
  kp_nbs : w_nbs w' = w_nbs w;
  kp_rt : Forall2 slot_kept (w_rt w) (w_rt w');
  kp_next : w_next w' = w_next w;
  kp_xr : w_xr w' = w_xr w;
  kp_seqno : w_seqno w' = w_seqno w;
  kp_fuel : w_fuel w' = w_fuel w }.
Lemma stay_core : forall r, stay (core r) = stay r. Proof. reflexivity. Qed.
Lemma same_keeps : forall w w', same w w' -> keeps w w'.
Proof.
  intros w w' S. destruct S. constructor; auto. clear - q_rt.
  induction q_rt as [|l l' a b H]; constructor; auto. unfold slot_kept, slot_same in *.
  apply (Permutation_map stay) in H. rewrite !map_map in H. exact H.
Qed.
Lemma quiet_keeps : forall e w w', quiet e w w' -> keeps w w'.
Proof. intros. apply same_keeps. eapply quiet_same; eauto. Qed.
Lemma keeps_refl : forall w, keeps w w.
Proof. intros. apply same_keeps, same_refl. Qed.
Lemma keeps_trans : forall a b c, keeps a b -> keeps b c -> keeps a c.
Proof.
  intros a b c [] []. constructor; try congruence.
  eapply Forall2_trans; eauto. unfold slot_kept. intros x y z H1 H2. etransitivity; eauto.
Qed.
Lemma keeps_map : forall w w1 p f, keeps w w1 -> (forall r, stay (f r) = stay r) -> keeps w (map_ptr p f w1).
Proof.
  intros w w1 p f K E. eapply keeps_trans; eauto. constructor; auto. unfold map_ptr. cbn [w_rt set_w_rt].
  apply Forall2_map. intros l _. unfold slot_kept. rewrite map_map. apply Permutation_refl'.
  apply map_ext. intros r. destruct (is_ptr p r); auto.
Qed.
Lemma keeps_perm : forall w w', keeps w w' ->
  Permutation (map stay (all_routes w')) (map stay (all_routes w)).
Proof.
  intros w w' K. unfold all_routes. generalize (kp_rt _ _ K). generalize (w_rt w), (w_rt w').
  induction 1 as [|l l' a b H]; cbn [concat map]; auto. rewrite !map_app. apply Permutation_app; auto.
Qed.
Lemma keeps_In : forall w w' r, keeps w w' -> In r (all_routes w) ->
  exists r', In r' (all_routes w') /\ stay r' = stay r.
Proof.
  intros w w' r K H. apply (in_map stay) in H.
  apply (Permutation_in _ (Permutation_sym (keeps_perm _ _ K))) in H. apply in_map_iff in H.
  destruct H as (r' & E & H). eauto.
Qed.
Lemma keeps_In' : forall w w' r, keeps w w' -> In r (all_routes w') ->
  exists r', In r' (all_routes w) /\ stay r' = stay r.
Proof.
  intros w w' r K H. apply (in_map stay) in H. apply (Permutation_in _ (keeps_perm _ _ K)) in H.
  apply in_map_iff in H. destruct H as (r' & E & H). eauto.
Qed.
Lemma keeps_find : forall w w' p r, keeps w w' -> rt_wf (w_rt w') -> find_ptr p w = Some r ->
  exists r', find_ptr p w' = Some r' /\ stay r' = stay r.
Proof.
  intros w w' p r K Wf F. destruct (keeps_In _ _ _ K (find_In _ _ _ F)) as (r' & H & E).
  exists r'. split; auto. apply find_ptr_iff; auto. split; auto.
  apply (f_equal r_ptr) in E. cbn in E. rewrite E. eapply find_ptr_ptr; eauto.
Qed.
Lemma kframe_keeps : forall w w', kframe w w' -> keeps w w'.
Proof.
  intros w w' (a & b & ->). constructor; cbn; auto. apply (kp_rt _ _ (keeps_refl w)).
Qed.

(** ** change_route_metric *)
Lemma map_ptr_find : forall p f w r, (forall r, r_ptr (f r) = r_ptr r) -> find_ptr p w = Some r ->
  find_ptr p (map_ptr p f w) = Some (f r).
Proof.
  intros p f w r E F. rewrite find_ptr_map_ptr by auto. rewrite F. cbn [option_map]. unfold upd_route, is_ptr.
  rewrite (find_ptr_ptr _ _ _ F), Z.eqb_refl. auto.
Qed.
Lemma kframe_find : forall w w' p, kframe w w' -> find_ptr p w' = find_ptr p w.
Proof. intros w w' p (a & b & ->). reflexivity. Qed.
Lemma metric_upd_ptr : forall c now a b d r, r_ptr (metric_upd c now a b d r) = r_ptr r.
Proof. intros. unfold metric_upd. cbv zeta. destruct (_ =? 0); reflexivity. Qed.
Lemma metric_upd_stay : forall c now a b d r, stay (metric_upd c now a b d r) = stay r.
Proof. intros. unfold metric_upd. cbv zeta. destruct (_ =? 0); reflexivity. Qed.

Definition metric_effect (r : route) (ref cost add : Z) (r' : route) : Prop :=
  core r' = set_r_refmetric (u16 ref) (set_r_cost (u16 cost) (set_r_add_metric (u16 add) (core r))) /\
  r_installed r' = r_installed r.

Lemma retract_args : forall w, metric_args w INFINITY INFINITY 0.
Proof. intros. split; [unfold u16_ok, INFINITY; lia|auto]. Qed.

Lemma change_spec : forall e w p r a b c, W e w -> find_ptr p w = Some r -> metric_args w a b c ->
  let w' := change_route_metric p a b c w in
  chain e w w' /\ keeps w w' /\ (forall q, q <> p -> find_ptr q w' = find_ptr q w) /\
  w_srcs w' = w_srcs w /\
  exists r', find_ptr p w' = Some r' /\
    (metric_effect r a b c r' \/ (w_rt w' = w_rt w /\ r_installed r = true /\ krefused w w')).
Proof.
  intros e w p r a b c Hw F Ma. cbv zeta. unfold change_route_metric. rewrite F.
  destruct (W_nbif_ _ _ _ Hw (find_In _ _ _ F)) as (n & i & Nb). rewrite Nb. cbv zeta.
  match goal with |- context [match ?x with (rc, w1) => _ end] => destruct x as [rc w1] eqn:K end.
  assert (KF : kframe w w1).
  { destruct (_ && _); [eapply change_route_modify_frame; eauto|inversion K; apply kframe_refl]. }
  destruct (rc <? 0) eqn:Rc.
  - assert (I : r_installed r = true).
    { destruct (r_installed r); auto. cbn in K. inversion K; subst. lia. }
    split; [|split; [|split; [|split]]].
    + destruct (_ && _) eqn:T; [|inversion K; subst; cbn in Rc; discriminate].
      eapply chain_step. eapply S_modfail; eauto. exists r. split; [apply (find_In _ _ _ F)|auto].
    + apply kframe_keeps; auto.
    + intros. apply kframe_find; auto.
    + destruct KF as (? & ? & ->). reflexivity.
    + exists r. rewrite (kframe_find _ _ _ KF). split; auto. right. split; [apply kframe_rt; auto|]. split; auto.
      destruct (_ && _); [apply modify_log in K; apply K; lia|inversion K; subst; lia].
  - pose proof (W_kframe _ _ _ KF Hw) as Hw1.
    assert (F1 : find_ptr p w1 = Some r) by (rewrite (kframe_find _ _ _ KF); auto).
    destruct (smoothed_spec e w1 p r Hw1 F1) as (m & rnd & E1 & Q & SW & F2 & Sm). rewrite E1. cbn [snd].
    assert (En : sec w1 = sec w /\ w_cfg w1 = w_cfg w /\ w_rnd w1 = w_rnd w /\ w_srcs w1 = w_srcs w).
    { destruct KF as (? & ? & ->). auto. }
    destruct En as (En & Ec & Er & Es). rewrite En, Ec, Er in Sm. rewrite En in *.
    assert (Um : u16_ok m).
    { assert (G : forall x, In x (all_routes (map_ptr p (smooth_upd m (sec w)) (set_w_rnd rnd w1))) -> route_rng x).
      { apply (W_rng e). apply (quiet_W _ _ _ Q Hw1). }
      specialize (G _ (find_In _ _ _ F2)). destruct G as (_ & _ & _ & _ & G & _). exact G. }
    change (fun r0 => if c_half_life (w_cfg w) =? 0 then _ else _) with (metric_upd (w_cfg w) (sec w) a b c).
    split; [|split; [|split; [|split]]].
    + eapply chain_step. eapply S_metric; eauto.
    + apply keeps_map; [|apply metric_upd_stay]. apply keeps_trans with w1; [apply kframe_keeps; auto|].
      eapply quiet_keeps; eauto.
    + intros q Nq. rewrite find_other by (auto; apply metric_upd_ptr). rewrite find_other by auto.
      apply (kframe_find _ _ q KF).
    + cbn. auto.
    + exists (metric_upd (w_cfg w) (sec w) a b c (smooth_upd m (sec w) r)). split.
      * apply map_ptr_find; auto. intros; apply metric_upd_ptr.
      * left. split; unfold metric_upd; cbv zeta; destruct (_ =? 0); reflexivity.
Qed.

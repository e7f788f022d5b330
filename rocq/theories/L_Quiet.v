(** L_Quiet.v: what the quiet steps (selection, smoothing, messages) leave alone. *)
From Verif Require Import Base M_Util S_Util L_Util M_Slot L_Slot M_Source S_Source L_Source
  M_Filter M_Types M_Neigh M_State M_Table M_Msg M_Route S_World L_Table L_Step L_Msg L_Smooth.
From Coq Require Import Permutation.

(** A route without the fields that selection and smoothing change. *)
Definition core (r : route) : route :=
  set_r_smoothed 0 (set_r_smoothed_time 0 (set_r_installed false r)).

Definition slot_same (l l' : list route) : Prop := Permutation (map core l') (map core l).
Definition rt_same (rt rt' : list (list route)) : Prop := Forall2 slot_same rt rt'.

Record same (w w' : world) : Prop := mkSame {
  q_now : w_now w' = w_now w;
  q_cfg : w_cfg w' = w_cfg w;
  q_ifs : map ifstat (w_ifs w') = map ifstat (w_ifs w);
  q_nbs : w_nbs w' = w_nbs w;
  q_keys : map s_key (w_srcs w') = map s_key (w_srcs w);
  q_rt : rt_same (w_rt w) (w_rt w');
  q_next : w_next w' = w_next w;
  q_xr : w_xr w' = w_xr w;
  q_seqno : w_seqno w' = w_seqno w;
  q_fuel : w_fuel w' = w_fuel w }.

Lemma rt_same_refl : forall rt, rt_same rt rt.
Proof. induction rt; constructor; auto. unfold slot_same. auto. Qed.
Lemma rt_same_trans : forall a b c, rt_same a b -> rt_same b c -> rt_same a c.
Proof.
  intros a b c H. revert c. induction H; intros c G; inversion G; subst; constructor; auto.
  - unfold slot_same in *. etransitivity; eauto.
  - apply IHForall2. auto.
Qed.
Lemma same_refl : forall w, same w w.
Proof. intros. constructor; auto. apply rt_same_refl. Qed.
Lemma same_trans : forall a b c, same a b -> same b c -> same a c.
Proof. intros a b c [] []. constructor; try congruence. eapply rt_same_trans; eauto. Qed.
Lemma frame_same : forall w w', frame w w' -> same w w'.
Proof.
  intros w w' F. destruct (srcs_evo_keys _ _ _ _ (f_srcs _ _ F)) as (K & _).
  destruct F. constructor; auto. rewrite f_rt. apply rt_same_refl.
Qed.
Lemma kframe_same : forall w w', kframe w w' -> same w w'.
Proof. intros w w' (a & b & ->). constructor; auto. apply rt_same_refl. Qed.

Lemma rt_same_map : forall (f : route -> route) rt, (forall r, core (f r) = core r) -> rt_same rt (map (map f) rt).
Proof.
  intros f rt H. induction rt; constructor; auto. unfold slot_same. rewrite map_map.
  rewrite (map_ext _ core); auto.
Qed.
Lemma map_ptr_same : forall p f w, (forall r, core (f r) = core r) -> same w (map_ptr p f w).
Proof.
  intros. constructor; auto. cbn. apply rt_same_map. intros r. destruct (is_ptr p r); auto.
Qed.

Lemma filter_perm : forall A (f : A -> bool) l, Permutation (filter f l ++ filter (fun x => negb (f x)) l) l.
Proof.
  induction l as [|a l IH]; auto. cbn [filter]. destruct (f a); cbn [negb app].
  - constructor. auto.
  - symmetry. etransitivity; [|apply Permutation_middle]. constructor. symmetry. auto.
Qed.
Lemma move_front_perm : forall p l, Permutation (move_front p l) l.
Proof. intros. apply filter_perm. Qed.
Lemma upd_Forall2 : forall i l' rt, slot_same (nth i rt []) l' -> rt_same rt (upd i l' rt).
Proof.
  induction i; intros l' rt H; destruct rt as [|a rt]; cbn [upd nth] in *.
  - apply rt_same_refl.
  - constructor; [auto|apply rt_same_refl].
  - apply rt_same_refl.
  - constructor; [unfold slot_same; auto|]. apply IHi. auto.
Qed.
Lemma move_installed_same : forall d p w, same w (move_installed d p w).
Proof.
  intros. unfold move_installed. destruct (find_route_slot d w).
  - constructor; auto. cbn. apply upd_Forall2. unfold slot_same. apply Permutation_map. apply move_front_perm.
  - constructor; auto. apply rt_same_refl.
Qed.
Lemma selected_same : forall r w o w1, same w1 (selected r w o w1).
Proof. intros. constructor; auto. apply rt_same_refl. Qed.

Lemma mstep_same : forall s t, mstep true s t -> fst t = fst s /\ same (snd s) (snd t).
Proof.
  intros s t H. inversion H; subst; cbn [fst snd]; split; auto.
  - apply frame_same; auto.
  - eapply same_trans; [|apply map_ptr_same; auto]. constructor; auto. apply rt_same_refl.
  - eapply same_trans; [|apply move_installed_same]. eapply same_trans; [|apply map_ptr_same; auto].
    eapply same_trans; [|apply selected_same]. apply kframe_same. eapply change_route_add_frame; eauto.
  - apply kframe_same. eapply change_route_add_frame; eauto.
  - eapply same_trans; [apply map_ptr_same with (p := p) (f := set_r_installed false); auto|].
    apply kframe_same. destruct (change_route_flush _ _ _ _) eqn:E. eapply change_route_flush_frame; eauto.
  - eapply same_trans; [|apply move_installed_same]. eapply same_trans; [|apply map_ptr_same; auto].
    eapply same_trans; [|apply map_ptr_same; auto].
    eapply same_trans; [|apply selected_same]. apply kframe_same. eapply change_route_modify_frame; eauto.
  - apply kframe_same. eapply change_route_modify_frame; eauto.
Qed.
Lemma star_same : forall s t, star true s t -> fst t = fst s /\ same (snd s) (snd t).
Proof.
  intros s t H. remember true as q. induction H; subst.
  - split; auto. apply same_refl.
  - destruct H as [ -> |H]; [|discriminate]. apply mstep_same in H0. destruct H0 as (E1 & S1).
    destruct IHstar as (E2 & S2). split; [congruence|]. eapply same_trans; eauto.
Qed.
Lemma qstar : forall e w e' w', star true (e, w) (e', w') -> e' = e /\ same w w'.
Proof. intros. apply (star_same _ _ H). Qed.

(** ** Consequences *)
Lemma same_perm : forall w w', same w w' -> Permutation (map core (all_routes w')) (map core (all_routes w)).
Proof.
  intros w w' S. apply q_rt in S. unfold all_routes. induction S; auto.
  cbn [concat]. rewrite !map_app. apply Permutation_app; auto.
Qed.
Lemma same_In : forall w w' r, same w w' -> In r (all_routes w) ->
  exists r', In r' (all_routes w') /\ core r' = core r.
Proof.
  intros w w' r S H. apply (in_map core) in H. eapply Permutation_in in H; [|symmetry; apply same_perm; eauto].
  apply in_map_iff in H. destruct H as (r' & E & H). eauto.
Qed.
Lemma same_In' : forall w w' r', same w w' -> In r' (all_routes w') ->
  exists r, In r (all_routes w) /\ core r' = core r.
Proof.
  intros w w' r' S H. apply (in_map core) in H. eapply Permutation_in in H; [|apply same_perm; eauto].
  apply in_map_iff in H. destruct H as (r & E & H). eauto.
Qed.
Lemma core_ptr : forall r r', core r = core r' -> r_ptr r = r_ptr r'.
Proof. intros r r' H. apply (f_equal r_ptr) in H. exact H. Qed.
Lemma core_fields : forall r r', core r' = core r ->
  r_ptr r' = r_ptr r /\ r_src r' = r_src r /\ r_refmetric r' = r_refmetric r /\ r_cost r' = r_cost r /\
  r_add_metric r' = r_add_metric r /\ r_seqno r' = r_seqno r /\ r_neigh r' = r_neigh r /\
  r_nexthop r' = r_nexthop r /\ r_time r' = r_time r /\ r_hold_time r' = r_hold_time r.
Proof. intros r r' H. unfold core in H. destruct r, r'. cbn in *. inversion H; subst. repeat split. Qed.
Lemma core_metric : forall r r', core r' = core r -> route_metric r' = route_metric r.
Proof. intros r r' H. apply core_fields in H. unfold route_metric. destruct H as (_ & _ & -> & -> & -> & _). auto. Qed.
Lemma core_dest : forall r r', core r' = core r -> rdest r' = rdest r.
Proof. intros r r' H. apply core_fields in H. unfold rdest. destruct H as (_ & -> & _). auto. Qed.

Lemma same_find : forall e e' w w' p r, W e w -> W e' w' -> same w w' -> find_ptr p w = Some r ->
  exists r', find_ptr p w' = Some r' /\ core r' = core r.
Proof.
  intros e e' w w' p r Hw Hw' S F. apply find_ptr_iff in F; [|apply (W_rt _ _ Hw)]. destruct F as (H & P).
  destruct (same_In _ _ _ S H) as (r' & H' & E). exists r'. split; auto.
  apply find_ptr_iff; [apply (W_rt _ _ Hw')|]. split; auto. rewrite (core_ptr _ _ E). auto.
Qed.
Lemma same_find_None : forall w w' p, same w w' -> find_ptr p w = None -> find_ptr p w' = None.
Proof.
  intros w w' p S F. apply find_ptr_None in F. apply find_ptr_None. intro H. apply F.
  apply in_map_iff in H. destruct H as (r' & E & H). destruct (same_In' _ _ _ S H) as (r & Hr & Ec).
  apply in_map_iff. exists r. split; auto. rewrite <- (core_ptr _ _ Ec). auto.
Qed.

(** The quiet chains, with the invariant *)
Definition quiet (e : list skey) (w w' : world) : Prop := star true (e, w) (e, w').
Lemma quiet_refl : forall e w, quiet e w w.
Proof. intros. constructor. Qed.
Lemma quiet_trans : forall e a b c, quiet e a b -> quiet e b c -> quiet e a c.
Proof. unfold quiet. intros. eapply star_trans; eauto. Qed.
Lemma quiet_step : forall e w w', mstep true (e, w) (e, w') -> quiet e w w'.
Proof. intros. apply star_quiet. auto. Qed.
Lemma quiet_frame : forall e w w', frame w w' -> quiet e w w'.
Proof. intros. apply quiet_step. constructor. auto. Qed.
Lemma quiet_W : forall e w w', quiet e w w' -> W e w -> W e w'.
Proof. intros e w w' Q Hw. apply (W_star _ _ _ Q). auto. Qed.
Lemma quiet_same : forall e w w', quiet e w w' -> same w w'.
Proof. intros e w w' Q. apply qstar in Q. tauto. Qed.
Lemma quiet_find : forall e w w' p r, W e w -> quiet e w w' -> find_ptr p w = Some r ->
  exists r', find_ptr p w' = Some r' /\ core r' = core r.
Proof. intros. eapply same_find; eauto using quiet_W, quiet_same. Qed.

(** L_Update.v: update_route and handle_request. *)
From Verif Require Import Base M_Util S_Util L_Util M_Slot L_Slot M_Source S_Source L_Source
  M_Filter M_Types M_Neigh M_State M_Table M_Msg M_Route S_World L_Table L_Step L_Msg L_Smooth L_Quiet L_Trace
  L_Select L_Select2 L_Chain L_Chain2 L_Chain3 L_Flush.
From Coq Require Import Permutation.

(** ** Effects on the table up to selection and smoothing *)
Definition alter (p : Z) (g : route -> route) (rt : list (list route)) : list (list route) :=
  map (map (fun r => if is_ptr p r then g r else r)) rt.
Lemma map_ptr_alter : forall p g w, w_rt (map_ptr p g w) = alter p g (w_rt w).
Proof. reflexivity. Qed.
Definition core_ok (g : route -> route) : Prop := forall r, core (g r) = core (g (core r)) /\ r_ptr (g r) = r_ptr r.

Lemma alter_same : forall p g rt rt', core_ok g -> rt_same rt rt' -> rt_same (alter p g rt) (alter p g rt').
Proof.
  intros p g rt rt' G H. unfold alter. induction H as [|l l' a b S R IH]; cbn [map]; constructor; auto.
  unfold slot_same in *. rewrite !map_map.
  assert (E : forall k, map (fun r => core (if is_ptr p r then g r else r)) k =
                        map (fun r => core (if is_ptr p r then g r else r)) (map core k)).
  { intros k. rewrite map_map. apply map_ext. intros r. change (is_ptr p (core r)) with (is_ptr p r).
    destruct (is_ptr p r); auto. apply G. }
  rewrite (E l), (E l'). apply Permutation_map. exact S.
Qed.
Lemma alter_alter : forall p f g rt, core_ok f -> alter p g (alter p f rt) = alter p (fun r => g (f r)) rt.
Proof.
  intros p f g rt H. unfold alter. rewrite map_map. apply map_ext. intros l. rewrite map_map. apply map_ext.
  intros r. destruct (is_ptr p r) eqn:P; [|rewrite P; auto]. unfold is_ptr in *.
  rewrite (proj2 (H r)), P. auto.
Qed.
Lemma alter_core : forall p f g rt, (forall r, core (f r) = core (g r)) -> rt_same (alter p f rt) (alter p g rt).
Proof.
  intros p f g rt H. unfold alter. induction rt as [|l rt IH]; cbn [map]; constructor; auto.
  unfold slot_same. rewrite !map_map. apply Permutation_refl'. apply map_ext. intros r. destruct (is_ptr p r); auto. 
Qed.
Lemma alter_id : forall p f rt, (forall r, core (f r) = core r) -> rt_same rt (alter p f rt).
Proof.
  intros p f rt H. unfold alter. apply Forall2_map. intros l _. unfold slot_same. rewrite map_map.
  apply Permutation_refl'. apply map_ext. intros r. destruct (is_ptr p r); auto. 
Qed.

Definition metric_set (ref cost add : Z) (r : route) : route :=
  set_r_refmetric (u16 ref) (set_r_cost (u16 cost) (set_r_add_metric (u16 add) r)).
Lemma metric_set_ok : forall a b c, core_ok (metric_set a b c).
Proof. split; reflexivity. Qed.

Lemma change_rt : forall e w p r a b c, W e w -> find_ptr p w = Some r ->
  let w' := change_route_metric p a b c w in
  rt_same (alter p (metric_set a b c) (w_rt w)) (w_rt w') \/ (w_rt w' = w_rt w /\ r_installed r = true /\ krefused w w').
Proof.
  intros e w p r a b c Hw F. cbv zeta. unfold change_route_metric. rewrite F.
  destruct (W_nbif_ _ _ _ Hw (find_In _ _ _ F)) as (n & i & Nb). rewrite Nb. cbv zeta.
  match goal with |- context [match ?x with (rc, w1) => _ end] => destruct x as [rc w1] eqn:K end.
  assert (KF : kframe w w1).
  { destruct (_ && _); [eapply change_route_modify_frame; eauto|inversion K; apply kframe_refl]. }
  destruct (rc <? 0) eqn:Rc.
  - right. split; [apply kframe_rt; auto|].
    destruct (r_installed r); [|cbn in K; inversion K; subst; lia]. split; auto.
    destruct (_ && _); [apply modify_log in K; apply K; lia|inversion K; subst; lia].
  - left. pose proof (W_kframe _ _ _ KF Hw) as Hw1.
    assert (F1 : find_ptr p w1 = Some r) by (rewrite (kframe_find _ _ _ KF); auto).
    destruct (smoothed_spec e w1 p r Hw1 F1) as (m & rnd & E1 & Q & SW & F2 & Sm). rewrite E1. cbn [snd].
    rewrite !map_ptr_alter. cbn [w_rt set_w_rnd]. rewrite (kframe_rt _ _ KF).
    rewrite alter_alter by (split; reflexivity). apply alter_core.
    intros x. destruct (c_half_life (w_cfg w) =? 0); reflexivity.
Qed.

(** ** Steps of update_known *)
Lemma retain_rt : forall k w, w_rt (retain_source k w) = w_rt w.
Proof. intros. unfold retain_source. destruct (get_src k (w_srcs w)); auto. destruct (retain_ok s); auto. Qed.
Lemma rt_find : forall w w' p, w_rt w' = w_rt w -> find_ptr p w' = find_ptr p w.
Proof. intros w w' p E. unfold find_ptr. rewrite E. auto. Qed.

Lemma unfeasible_frame : forall e w n f s m k, W e w -> In n (map n_id (w_nbs w)) -> In k (map s_key (w_srcs w)) ->
  frame w (send_unfeasible_request n f s m k w).
Proof.
  intros e w n f s m k Hw Hn Hk. unfold send_unfeasible_request. apply get_src_keys in Hk.
  destruct (get_src k (w_srcs w)) as [x|]; [|contradiction].
  destruct (_ >? 100); [apply frame_refl|]. destruct (_ || _); [|apply frame_refl].
  apply unicast_multihop_frame; [apply (W_refs _ _ Hw)|eapply W_get_nb; eauto].
Qed.

Definition known_upd (k : skey) (seqno T refmetric cost add hold : Z) (r : route) : route :=
  set_r_hold_time hold (metric_set refmetric cost add (set_r_seqno seqno (set_r_time T (set_r_src k r)))).
(** the kernel refused the new metric *)
Definition known_ref (k : skey) (seqno T hold : Z) (r : route) : route :=
  set_r_hold_time hold (set_r_seqno seqno (set_r_time T (set_r_src k r))).

Lemma args_env : forall w w' a b c, env w w' -> metric_args w a b c -> metric_args w' a b c.
Proof.
  intros w w' a b c E (U & B & C). split; auto. destruct E. split.
  - destruct B as [B | (n & i & H1 & H2 & H3)]; auto. right. exists n, i.
    rewrite ev_nbs, ev_ifs, ev_now. auto.
  - destruct C as [C | (id & d & x & y & H)]; auto. right. exists id, d, x, y. rewrite ev_cfg. auto.
Qed.

Lemma update_known_spec : forall e w r k feas seqno refmetric metric cost add hold n,
  W e w -> (length e <= 7)%nat -> In r (all_routes w) -> dest_of_key k = dest_of r ->
  In k (map s_key (w_srcs w)) -> u16_ok seqno -> 15 <= hold -> In n (map n_id (w_nbs w)) -> metric_args w refmetric cost add ->
  let w' := update_known r k feas seqno refmetric metric cost add hold n w in
  let T := if refmetric <? INFINITY then sec w else r_time r in
  chain e w w' /\ env w w' /\
  (rt_same (alter (r_ptr r) (known_upd k seqno T refmetric cost add hold) (w_rt w)) (w_rt w') \/
   (r_installed r = true /\ krefused w w' /\ rt_same (alter (r_ptr r) (known_ref k seqno T hold) (w_rt w)) (w_rt w'))).
Proof.
  intros e w r k feas seqno refmetric metric cost add hold n Hw Le Hr Dk Hk Us Hh Hn Ma. cbv zeta.
  unfold update_known. cbv zeta. set (p := r_ptr r).
  assert (F : find_ptr p w = Some r) by (apply find_ptr_iff; [apply (W_rt _ _ Hw)|]; auto).
  set (lost0 := negb feas && r_installed r && negb (skey_eqb k (r_src r))).
  set (w1 := if lost0 then uninstall_route p w else w).
  assert (Q1 : quiet e w w1) by (unfold w1; destruct lost0; [eapply uninstall_chain; eauto|apply quiet_refl]).
  pose proof (quiet_W _ _ _ Q1 Hw) as Hw1. destruct (quiet_find _ _ _ _ _ Hw Q1 F) as (r1 & F1 & C1).
  assert (I1 : r_installed r1 = true -> r_installed r = true).
  { unfold w1 in F1. destruct lost0.
    - rewrite (uninstall_find e w p r Hw F) in F1. injection F1 as <-. discriminate.
    - rewrite F in F1. injection F1 as <-. auto. }
  assert (Hk1 : In k (map s_key (w_srcs w1))) by (rewrite (q_keys _ _ (quiet_same _ _ _ Q1)); auto).
  pose proof (retain_chain e w1 k Hw1 ltac:(lia) Hk1) as C2. set (w2 := retain_source k w1) in *.
  pose proof (star_W _ _ _ _ _ C2 Hw1) as Hw2.
  assert (Ev2 : env w1 w2) by (eapply retain_env; eauto; lia).
  assert (R2 : w_rt w2 = w_rt w1) by apply retain_rt.
  assert (F2 : find_ptr p w2 = Some r1) by (rewrite (rt_find w1 w2 p R2); auto).
  assert (Src1 : r_src r1 = r_src r) by (apply (f_equal r_src) in C1; exact C1).
  assert (Tm1 : r_time r1 = r_time r) by (apply (f_equal r_time) in C1; exact C1).
  set (T := if refmetric <? INFINITY then sec w else r_time r).
  (* the new source, seqno and time *)
  set (w3a := map_ptr p (set_r_src k) w2).
  assert (S3a : mstep false (k :: e, w2) (r_src r :: e, w3a)).
  { rewrite <- Src1. apply S_setsrc; auto. rewrite Dk. unfold dest_of. rewrite Src1. auto. }
  pose proof (star_W _ _ _ _ _ (star_loud _ _ _ S3a) Hw2) as Hw3a.
  assert (F3a : find_ptr p w3a = Some (set_r_src k r1)) by (apply map_ptr_find; auto).
  set (w3 := map_ptr p (fun r0 => set_r_seqno seqno (set_r_time (if refmetric <? INFINITY then sec w else r_time r0) (set_r_src k r0))) w2).
  assert (E3 : w3 = map_ptr p (fun r0 => set_r_seqno seqno (set_r_time T (set_r_hold_time (r_hold_time r1) r0))) w3a).
  { unfold w3, w3a. rewrite map_ptr_comp by reflexivity. eapply map_ptr_ext; [apply (W_rt _ _ Hw2)|exact F2|].
    unfold T. rewrite Tm1. reflexivity. }
  assert (S3 : mstep false (r_src r :: e, w3a) (r_src r :: e, w3)) by (rewrite E3; apply S_touch; auto; apply (W_rng _ _ Hw2 r1 (find_In _ _ _ F2))).
  pose proof (star_W _ _ _ _ _ (star_loud _ _ _ S3) Hw3a) as Hw3.
  assert (F3 : exists r3, find_ptr p w3 = Some r3 /\ r_installed r3 = r_installed r1 /\ r_src r3 = k).
  { eexists. split; [apply map_ptr_find; [reflexivity|exact F2]|split; reflexivity]. }
  destruct F3 as (r3 & F3 & I3 & X3).
  (* the metric *)
  assert (Ma3 : metric_args w3 refmetric cost add).
  { apply (args_env w2); [constructor; auto|]. apply (args_env w1); auto.
    apply (args_env w); auto. eapply quiet_env; eauto. }
  destruct (change_spec (r_src r :: e) w3 p r3 refmetric cost add Hw3 F3 Ma3) as (C4 & K4 & _ & _ & r4 & F4 & _).
  pose proof (change_rt (r_src r :: e) w3 p r3 refmetric cost add Hw3 F3) as A4. cbv zeta in A4.
  set (w4a := change_route_metric p refmetric cost add w3) in *.
  pose proof (chain_W _ _ _ C4 Hw3) as Hw4a.
  set (w4 := map_ptr p (set_r_hold_time hold) w4a).
  assert (S4 : mstep false (r_src r :: e, w4a) (r_src r :: e, w4)).
  { unfold w4. rewrite (map_ptr_ext w4a p r4 _ (fun r0 => set_r_seqno (r_seqno r4) (set_r_time (r_time r4) (set_r_hold_time hold r0)))).
    - apply S_touch; auto. pose proof (W_rng _ _ Hw4a r4 (find_In _ _ _ F4)) as G. apply G.
    - apply (W_rt _ _ Hw4a).
    - auto.
    - reflexivity. }
  pose proof (star_W _ _ _ _ _ (star_loud _ _ _ S4) Hw4a) as Hw4.
  assert (F4' : find_ptr p w4 = Some (set_r_hold_time hold r4)) by (apply map_ptr_find; auto).
  (* selection *)
  pose proof (changed_chain (r_src r :: e) w4 p _ (r_src r) (route_metric r) Hw4 F4') as Q5.
  set (w5 := route_changed p (r_src r) (route_metric r) w4) in *.
  pose proof (quiet_W _ _ _ Q5 Hw4) as Hw5. destruct (quiet_find _ _ _ _ _ Hw4 Q5 F4') as (r5 & F5 & C5).
  rewrite F5.
  match goal with |- context [release_source (r_src r) ?x] => set (w6 := x) end.
  assert (Ev5 : env w w5).
  { eapply env_trans; [eapply quiet_env; exact Q1|]. eapply env_trans; [exact Ev2|].
    apply env_trans with w3; [constructor; auto|]. eapply env_trans; [eapply keeps_env; exact K4|].
    apply env_trans with w4; [constructor; auto|]. eapply quiet_env; eauto. }
  assert (K5 : In k (map s_key (w_srcs w5))).
  { apply (W_ref _ _ Hw5). left. assert (r_src r5 = k) as <-; [|apply in_map; eapply find_In; eauto].
    apply (f_equal r_src) in C5. cbn in C5. rewrite C5.
    destruct (keeps_find _ _ _ _ K4 (W_rt _ _ Hw4a) F3) as (x & Fx & Sx).
    rewrite F4 in Fx. injection Fx as <-. apply (f_equal r_src) in Sx. cbn in Sx. congruence. }
  assert (Q6 : quiet (r_src r :: e) w5 w6).
  { unfold w6. destruct (_ || _).
    - apply lost_chain; auto. apply get_src_keys. apply (W_ref _ _ Hw5). simpl. auto.
    - destruct (negb feas); [|apply quiet_refl]. apply quiet_frame.
      eapply unfeasible_frame; eauto. rewrite (ev_nbs _ _ Ev5). auto. }
  pose proof (quiet_W _ _ _ Q6 Hw5) as Hw6. split; [|split].
  - eapply star_trans; [eapply star_weak; exact Q1|]. eapply star_trans; [exact C2|].
    eapply star_trans; [eapply star_loud; exact S3a|]. eapply star_trans; [eapply star_loud; exact S3|].
    eapply star_trans; [exact C4|]. eapply star_trans; [eapply star_loud; exact S4|].
    eapply star_trans; [eapply star_weak; exact Q5|]. eapply star_trans; [eapply star_weak; exact Q6|].
    apply release_chain; auto.
  - eapply env_trans; [exact Ev5|]. eapply env_trans; [eapply quiet_env; exact Q6|apply release_env].
  - rewrite release_rt.
    assert (R6 : rt_same (w_rt w4) (w_rt w6)).
    { eapply rt_same_trans; [apply (q_rt _ _ (quiet_same _ _ _ Q5))|apply (q_rt _ _ (quiet_same _ _ _ Q6))]. }
    assert (R1 : rt_same (w_rt w) (w_rt w2)) by (rewrite R2; apply (q_rt _ _ (quiet_same _ _ _ Q1))).
    set (g := fun r0 => set_r_seqno seqno (set_r_time T (set_r_src k r0))).
    assert (R3 : rt_same (alter p g (w_rt w)) (w_rt w3)).
    { assert (G : w_rt w3 = alter p g (w_rt w2)).
      { transitivity (w_rt (map_ptr p g w2)); [|reflexivity]. f_equal. unfold w3.
        eapply map_ptr_ext; [apply (W_rt _ _ Hw2)|exact F2|]. unfold g, T. rewrite Tm1. reflexivity. }
      rewrite G. apply alter_same; auto. split; reflexivity. }
    destruct A4 as [A4|(A4 & I4 & Rf)].
    + left. eapply rt_same_trans; [|exact R6]. unfold w4. rewrite map_ptr_alter.
      eapply rt_same_trans; [|apply alter_same; [split; reflexivity|exact A4]].
      rewrite alter_alter by apply metric_set_ok.
      eapply rt_same_trans; [|apply alter_same; [split; reflexivity|exact R3]].
      rewrite alter_alter by (split; reflexivity). apply rt_same_refl.
    + right. split; [apply I1; congruence|]. split.
      { eapply refused_l; [apply (star_log _ _ _ Q1)|]. eapply refused_l; [apply (star_log _ _ _ C2)|].
        eapply refused_l; [apply (mstep_log _ _ _ S3a)|]. eapply refused_l; [apply (mstep_log _ _ _ S3)|].
        eapply refused_r; [exact Rf|]. eapply kmono_trans; [apply (mstep_log _ _ _ S4)|].
        eapply kmono_trans; [apply (star_log _ _ _ Q5)|]. eapply kmono_trans; [apply (star_log _ _ _ Q6)|].
        apply (star_log _ _ _ (release_chain e w6 (r_src r) Hw6)). }
      eapply rt_same_trans; [|exact R6]. unfold w4. rewrite map_ptr_alter, A4.
      eapply rt_same_trans; [|apply alter_same; [split; reflexivity|exact R3]].
      rewrite alter_alter by (split; reflexivity). apply rt_same_refl.
Qed.

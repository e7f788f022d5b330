(** L_Msg.v: the sending functions change only messages, pending updates,
    retransmissions and the feasibility distances of announced routes. *)
From Verif Require Import Base M_Util S_Util L_Util M_Slot L_Slot M_Source S_Source L_Source
  M_Filter M_Types M_Neigh M_State M_Table M_Msg M_Route S_World L_Table L_Resend L_Step.

(** Every pointer in a route is valid. *)
Definition refs (w : world) : Prop :=
  forall r, In r (all_routes w) -> nb_if (r_neigh r) w <> None /\ src_of r w <> None.
Definition has_if (i : Z) (w : world) : Prop := In i (map if_id (w_ifs w)).
Definition has_nb (n : Z) (w : world) : Prop := nb_if n w <> None.

Lemma get_if_iff : forall i w, has_if i w <-> get_if i w <> None.
Proof.
  intros. unfold has_if, get_if. split.
  - intros H. apply in_map_iff in H. destruct H as (x & E & Hx).
    destruct (find (fun y => if_id y =? i) (w_ifs w)) eqn:F; [discriminate|].
    eapply find_none in F; eauto. cbn in F. lia.
  - intros H. destruct (find (fun y => if_id y =? i) (w_ifs w)) as [x|] eqn:F; [|contradiction].
    apply find_some in F. destruct F as (F & E). apply in_map_iff. exists x. split; auto. lia.
Qed.
Lemma get_if_has : forall i w x, get_if i w = Some x -> has_if i w.
Proof. intros. apply get_if_iff. congruence. Qed.
Lemma get_if_id : forall i w x, get_if i w = Some x -> if_id x = i.
Proof. unfold get_if. intros i w x H. apply find_some in H. destruct H. lia. Qed.
Lemma get_nb_id : forall i w x, get_nb i w = Some x -> n_id x = i.
Proof. unfold get_nb. intros i w x H. apply find_some in H. destruct H. lia. Qed.
Lemma nb_if_get : forall n w nb i, nb_if n w = Some (nb, i) -> get_nb n w = Some nb /\ get_if (n_if nb) w = Some i.
Proof.
  unfold nb_if. intros n w nb i H. destruct (get_nb n w) as [x|]; [|discriminate].
  destruct (get_if (n_if x) w) as [y|] eqn:E; [|discriminate]. inversion H; subst. auto.
Qed.
Lemma nb_if_In : forall n w nb i, nb_if n w = Some (nb, i) -> In nb (w_nbs w) /\ In i (w_ifs w).
Proof.
  intros n w nb i H. apply nb_if_get in H. destruct H as (A & B). apply find_some in A. apply find_some in B. tauto.
Qed.
Lemma nb_if_has : forall n w nb i, nb_if n w = Some (nb, i) -> has_if (if_id i) w.
Proof.
  intros n w nb i H. apply nb_if_get in H. destruct H as (_ & H).
  rewrite (get_if_id _ _ _ H). eapply get_if_has; eauto.
Qed.
Lemma nb_if_nb : forall n w nb i, nb_if n w = Some (nb, i) -> n_id nb = n.
Proof. intros n w nb i H. apply nb_if_get in H. destruct H. eapply get_nb_id; eauto. Qed.

Lemma W_get_nb : forall e w n, W e w -> In n (map n_id (w_nbs w)) -> has_nb n w.
Proof.
  intros e w n Hw H. apply in_map_iff in H. destruct H as (x & E & Hx).
  unfold has_nb, nb_if, get_nb. destruct (find (fun y => n_id y =? n) (w_nbs w)) as [y|] eqn:F.
  - apply find_some in F. destruct F as (F & _). apply (W_nbif _ _ Hw) in F. apply get_if_iff in F.
    destruct (get_if (n_if y) w); congruence.
  - eapply find_none in F; eauto. cbn in F. lia.
Qed.

Lemma W_refs : forall e w, W e w -> refs w.
Proof.
  intros e w Hw r Hr. split.
  - eapply W_get_nb; eauto. apply (W_nb _ _ Hw). auto.
  - unfold src_of. intros G. assert (H : In (r_src r) (map s_key (w_srcs w))).
    { apply (W_ref _ _ Hw). left. apply in_map. auto. }
    apply in_map_iff in H. destruct H as (s & E & Hs). eapply get_src_None; eauto.
Qed.

Lemma frame_ids : forall w w', frame w w' -> map if_id (w_ifs w') = map if_id (w_ifs w).
Proof. intros w w' F. apply ifstat_ids. apply (f_ifs _ _ F). Qed.
Lemma frame_has_if : forall i w w', frame w w' -> has_if i w -> has_if i w'.
Proof. intros i w w' F. unfold has_if. rewrite (frame_ids _ _ F). auto. Qed.
Lemma frame_has_nb : forall n w w', frame w w' -> has_nb n w -> has_nb n w'.
Proof.
  intros n w w' F. unfold has_nb, nb_if, get_nb. rewrite (f_nbs _ _ F).
  destruct (find (fun x => n_id x =? n) (w_nbs w)) as [y|]; auto. intros H.
  assert (G : has_if (n_if y) w') by (eapply frame_has_if; eauto; apply get_if_iff; destruct (get_if (n_if y) w); congruence).
  apply get_if_iff in G. destruct (get_if (n_if y) w'); congruence.
Qed.
Lemma get_src_keys : forall k t, get_src k t <> None <-> In k (map s_key t).
Proof.
  intros. split.
  - intros H. destruct (get_src k t) as [s|] eqn:G; [|contradiction]. apply get_src_In in G.
    apply in_map_iff. exists s. tauto.
  - intros H G. apply in_map_iff in H. destruct H as (s & E & Hs). eapply get_src_None; eauto.
Qed.
Lemma frame_refs : forall w w', frame w w' -> refs w -> refs w'.
Proof.
  intros w w' F R r Hr. unfold all_routes in Hr. rewrite (f_rt _ _ F) in Hr. destruct (R r Hr) as (A & B). split.
  - eapply frame_has_nb; eauto.
  - unfold src_of in *. apply get_src_keys. destruct (srcs_evo_keys _ _ _ _ (f_srcs _ _ F)) as (K & _).
    rewrite K. apply get_src_keys. auto.
Qed.

(** ** Composition *)
Lemma frame_fold : forall A (f : world -> A -> world) l w,
  (forall x w', In x l -> frame w w' -> frame w' (f w' x)) -> frame w (fold_left f l w).
Proof.
  intros A f l w H.
  assert (G : forall l' w1, (forall x, In x l' -> In x l) -> frame w w1 -> frame w (fold_left f l' w1)).
  { induction l' as [|x l' IH]; simpl; intros w1 S F; auto. apply IH; auto.
    eapply frame_trans; eauto. }
  apply G; auto. apply frame_refl.
Qed.

Lemma frame_out : forall l w, frame w (set_w_out l w).
Proof. intros. constructor; auto; [constructor|apply evo_refl'; auto]. Qed.
Lemma frame_rst : forall w w', w' = set_w_rsd_time (w_rsd_time w') (set_w_rsd (w_rsd w') w) ->
  (forall i, In (Some i) (map rs_ifp (w_rsd w')) -> In (Some i) (map rs_ifp (w_rsd w)) \/ has_if i w) ->
  rsd_evo w w' -> frame w w'.
Proof. intros w w' E C V. constructor; auto; try (rewrite E; reflexivity). rewrite E. constructor. Qed.
Lemma frame_rnd : forall l w, frame w (set_w_rnd l w).
Proof. intros. constructor; auto; [constructor|apply evo_refl'; auto]. Qed.
Lemma frame_map_if : forall i f w, (forall x, ifstat (f x) = ifstat x) -> frame w (map_if i f w).
Proof.
  intros i f w H. constructor; auto; [|constructor|apply evo_refl'; auto]. cbn. rewrite map_map. apply map_ext.
  intros x. destruct (if_id x =? i); auto.
Qed.
Lemma frame_src : forall r w, In r (all_routes w) -> r_installed r = true ->
  frame w (set_w_srcs (update_source (sec w) (r_src r) (r_seqno r) (route_metric r) (w_srcs w)) w).
Proof. intros. constructor; auto; [cbn; apply evo_upd; auto; constructor|apply evo_refl'; auto]. Qed.

Lemma find_installed_In : forall d w r, find_installed d w = Some r -> In r (all_routes w) /\ r_installed r = true.
Proof.
  unfold find_installed, slot_of. intros d w r. destruct (find_route_slot d w) as [i|]; [|discriminate].
  destruct (nth (Z.to_nat i) (w_rt w) []) as [|h t] eqn:E; [discriminate|].
  destruct (r_installed h) eqn:I; [|discriminate]. intros H. inversion H; subst. split; auto.
  apply in_concat. exists (r :: t). split; simpl; auto.
  assert (L : (Z.to_nat i < length (w_rt w))%nat).
  { apply Nat.nle_gt. intros L. rewrite nth_overflow in E by auto. discriminate. }
  rewrite <- E. apply nth_In. auto.
Qed.

(** ** resend.c *)
Lemma recompute_frame : forall w, frame w (recompute_resend_time w).
Proof. intros. apply frame_rst; [destruct w; reflexivity|auto|apply recompute_evo]. Qed.
Lemma upd_first_In : forall A f g (l : list A) x, In x (upd_first f g l) ->
  In x l \/ exists y, In y l /\ f y = true /\ x = g y.
Proof.
  induction l as [|a l IH]; cbn [upd_first]; intros x H; [contradiction|].
  destruct (f a) eqn:F; destruct H as [<-|H].
  - right. exists a. simpl. auto.
  - simpl. auto.
  - simpl. auto.
  - destruct (IH x H) as [G|(y & G1 & G2 & G3)]; simpl; auto. right. exists y. auto.
Qed.
Lemma again_ifp : forall now s id i dl r r' go, again_resend now s id i dl r = (r', go) ->
  rs_ifp r' = None \/ rs_ifp r' = rs_ifp r.
Proof.
  unfold again_resend. intros now s id i dl r r' go. destruct id as [x|].
  - destruct (_ && _).
    + intros H; inversion H; subst. auto.
    + intros H; inversion H; subst. cbn. destruct (opt_eqb _ _); auto.
  - intros H; inversion H; subst. cbn. destruct (opt_eqb _ _); auto.
Qed.
Lemma record_frame : forall k d s id i dl w, match i with Some x => has_if x w | None => True end ->
  frame w (record_resend k d s id i dl w).
Proof.
  intros k d s id i dl w Hi. apply frame_rst; [| |apply record_evo].
  - unfold record_resend. destruct (_ || _); [destruct w; reflexivity|].
    destruct (find_resend k d w); [destruct (again_resend _ _ _ _ _ _)|];
      match goal with |- _ = set_w_rsd_time (w_rsd_time (if ?b then _ else _)) _ => destruct b; reflexivity end.
  - unfold record_resend. destruct (_ || _); [auto|].
    destruct (find_resend k d w) as [r|] eqn:Fr.
    + destruct (again_resend _ _ _ _ _ _) as [r' go] eqn:A. apply again_ifp in A. intros j Hj.
      match type of Hj with context [set_w_rsd ?l w] => assert (Hj' : In (Some j) (map rs_ifp l)) by (destruct (go && _); exact Hj) end.
      apply in_map_iff in Hj'. destruct Hj' as (y & E & Hy).
      apply upd_first_In in Hy. left. destruct Hy as [Hy|(z & Hz & _ & ->)].
      * apply in_map_iff. eauto.
      * unfold find_resend in Fr. apply find_some in Fr. destruct Fr as (Fr & _).
        apply in_map_iff. exists r. split; auto. destruct A as [A|A]; congruence.
    + intros j Hj.
      match type of Hj with context [set_w_rsd ?l w] => assert (Hj' : In (Some j) (map rs_ifp l)) by (destruct (negb _); exact Hj) end.
      cbn [map In] in Hj'. destruct Hj' as [Hj'|Hj']; auto. cbn [rs_ifp] in Hj'. subst i. auto.
Qed.
Lemma satisfy_frame : forall d s id i w, frame w (satisfy_request d s id i w).
Proof.
  intros. apply frame_rst; [| |apply satisfy_evo].
  - unfold satisfy_request. destruct (find_request d w); [|destruct w; reflexivity].
    destruct (match i with Some _ => _ | None => _ end); [destruct w; reflexivity|].
    destruct (_ || _); [reflexivity|destruct w; reflexivity].
  - unfold satisfy_request. destruct (find_request d w); [|auto].
    destruct (match i with Some _ => _ | None => _ end); [auto|].
    destruct (_ || _); [|auto].
    intros j Hj. left. apply in_map_iff in Hj. destruct Hj as (y & E & Hy). cbn in Hy.
    apply upd_first_In in Hy. apply in_map_iff.
    destruct Hy as [Hy|(z & Hz & _ & ->)]; [exists y|exists z]; auto.
Qed.
Lemma expire_resend_frame : forall w, frame w (expire_resend w).
Proof.
  intros. apply frame_rst; [| |apply expire_evo].
  - unfold expire_resend. destruct (_ =? _)%nat; [destruct w; reflexivity|reflexivity].
  - unfold expire_resend. destruct (_ =? _)%nat; [auto|].
    intros j Hj. left. apply in_map_iff in Hj. destruct Hj as (y & E & Hy). cbn in Hy.
    apply filter_In in Hy. apply in_map_iff. exists y. tauto.
Qed.

(** ** message.c *)
Lemma emit_frame : forall b t w, frame w (emit b t w).
Proof. intros. apply frame_out. Qed.
Lemma rand_frame : forall w, frame w (snd (rand w)).
Proof. intros. unfold rand. destruct (w_rnd w); [apply frame_refl|apply frame_rnd]. Qed.
Lemma update_jitter_frame : forall i u w m w1, update_jitter i u w = (m, w1) -> frame w w1.
Proof.
  unfold update_jitter. intros i u w m w1. pose proof (rand_frame w) as F. destruct (rand w).
  intros H; inversion H; subst; auto.
Qed.
Lemma set_timeout_frame : forall ms w m w1, set_timeout ms w = (m, w1) -> frame w w1.
Proof.
  unfold set_timeout. intros ms w m w1. pose proof (rand_frame w) as F. destruct (rand w).
  intros H; inversion H; subst; auto.
Qed.
Lemma rbu_frame : forall b i id d s m w, frame w (really_buffer_update b i id d s m w).
Proof.
  intros. unfold really_buffer_update. destruct (negb _); [apply frame_refl|].
  destruct (_ && flag i IF_RFC6126); [apply frame_refl|]. destruct (_ >=? _); [apply frame_refl|].
  destruct (_ && _); [apply frame_refl|apply emit_frame].
Qed.
Lemma rsu_frame : forall i id d s m w, frame w (really_send_update i id d s m w).
Proof.
  intros. unfold really_send_update. destruct (negb _); [apply frame_refl|].
  apply frame_fold. intros. apply rbu_frame.
Qed.

Lemma flush1_frame : forall i w last b, refs w -> frame w (fst (flush1 i (w, last) b)).
Proof.
  intros i w last b R. unfold flush1. destruct (match last with Some l => _ | None => false end); [apply frame_refl|].
  destruct (find_installed (snd b) w) as [r|] eqn:F.
  - assert (G : forall w1, frame w w1 -> forall last',
       frame w (fst match nb_if (r_neigh r) w1 with
          | None => (fault w1, last)
          | Some (_, ri) =>
              if flag i IF_SPLIT_HORIZON && (if_id ri =? if_id i) then (w1, last)
              else
                let w2 := really_send_update i (k_id (r_src r)) (rdest r) (r_seqno r) (route_metric r) w1 in
                (set_w_srcs (update_source (sec w2) (r_src r) (r_seqno r) (route_metric r) (w_srcs w2)) w2, last')
          end)).
    { intros w1 F1 last'. apply find_installed_In in F. destruct F as (Hr & Hi).
      destruct (R r Hr) as (A & _). pose proof (frame_has_nb _ _ _ F1 A) as A1. unfold has_nb in A1.
      destruct (nb_if (r_neigh r) w1) as [[n ri]|]; [|contradiction].
      destruct (_ && _); cbn [fst]; auto. eapply frame_trans; [exact F1|].
      eapply frame_trans; [apply rsu_frame|]. apply frame_src; auto.
      unfold all_routes. rewrite (f_rt _ _ (rsu_frame _ _ _ _ _ w1)), (f_rt _ _ F1). auto. }
    destruct (find_xroute (snd b) w) as [x|].
    + destruct (x_metric x <=? c_kernel_metric (w_cfg w)); [apply rsu_frame|].
      apply G. destruct (_ <? _); [apply satisfy_frame|apply frame_refl].
    + apply G. destruct (_ <? _); [apply satisfy_frame|apply frame_refl].
  - destruct (find_xroute (snd b) w) as [x|]; apply rsu_frame.
Qed.
Lemma flush_fold_frame : forall i l w last, refs w -> frame w (fst (fold_left (flush1 i) l (w, last))).
Proof.
  intros i l. induction l as [|b l IH]; intros w last R; cbn [fold_left]; [apply frame_refl|].
  pose proof (flush1_frame i w last b R) as F. destruct (flush1 i (w, last) b) as [w1 last1].
  cbn [fst] in F. eapply frame_trans; [exact F|]. apply IH. eapply frame_refs; eauto.
Qed.

Ltac noif H := rewrite get_if_iff in H; destruct (get_if _ _) as [?i|] eqn:?; [|contradiction].

Lemma flushupdates_frame : forall ifp w, refs w -> has_if ifp w -> frame w (flushupdates ifp w).
Proof.
  intros ifp w R H. unfold flushupdates. apply get_if_iff in H. destruct (get_if ifp w) as [i|]; [|contradiction].
  match goal with |- frame w (map_if _ _ ?x) => assert (F : frame w x) end.
  { destruct (match if_pend i with [] => true | _ => false end); [apply frame_refl|].
    assert (F1 : frame w (map_if ifp (fun x => set_if_pend [] (set_if_bufsize 0 x)) w))
      by (apply frame_map_if; auto).
    destruct (negb (if_up i)); auto. eapply frame_trans; [exact F1|].
    apply flush_fold_frame. eapply frame_refs; eauto. }
  eapply frame_trans; [exact F|]. apply frame_map_if. auto.
Qed.
Lemma schedule_flush_frame : forall ifp u w, has_if ifp w -> frame w (schedule_update_flush ifp u w).
Proof.
  intros ifp u w H. unfold schedule_update_flush. apply get_if_iff in H.
  destruct (get_if ifp w) as [i|]; [|contradiction].
  destruct (update_jitter i u w) as [ms w1] eqn:E1. apply update_jitter_frame in E1.
  destruct (_ && _); auto. destruct (set_timeout ms w1) as [t w2] eqn:E2. apply set_timeout_frame in E2.
  eapply frame_trans; [exact E1|]. eapply frame_trans; [exact E2|]. apply frame_map_if. auto.
Qed.
Lemma buffer_update_frame : forall ifp d w, refs w -> has_if ifp w -> frame w (buffer_update ifp d w).
Proof.
  intros ifp d w R H. unfold buffer_update. pose proof H as H'. apply get_if_iff in H.
  destruct (get_if ifp w) as [i|]; [|contradiction].
  match goal with |- frame w (map_if _ _ ?x) => assert (F : frame w x) end.
  { destruct (_ && _); [apply flushupdates_frame; auto|apply frame_refl]. }
  eapply frame_trans; [exact F|]. apply frame_map_if.
  intros x. destruct (if_bufsize x =? 0); reflexivity.
Qed.
Lemma send_update_if_frame : forall ifp u d w, refs w -> has_if ifp w -> frame w (send_update_if ifp u d w).
Proof.
  intros ifp u d w R H. unfold send_update_if. pose proof H as H'. apply get_if_iff in H.
  destruct (get_if ifp w) as [i|]; [|contradiction]. destruct (negb _); [apply frame_refl|].
  pose proof (buffer_update_frame ifp d w R H') as F. eapply frame_trans; [exact F|].
  apply schedule_flush_frame. eapply frame_has_if; eauto.
Qed.
Lemma self_update_frame : forall ifp w, refs w -> has_if ifp w -> frame w (send_self_update_if ifp w).
Proof.
  intros. unfold send_self_update_if. apply frame_fold. intros x w' _ F.
  apply send_update_if_frame; [eapply frame_refs|eapply frame_has_if]; eauto.
Qed.
Lemma send_update_wild_frame : forall ifp u ss w, refs w -> has_if ifp w -> frame w (send_update_wild ifp u ss w).
Proof.
  intros ifp u ss w R H. unfold send_update_wild. pose proof H as H'. apply get_if_iff in H.
  destruct (get_if ifp w) as [i|]; [|contradiction]. destruct (negb _); [apply frame_refl|].
  pose proof (self_update_frame ifp w R H') as F1. set (w1 := send_self_update_if ifp w) in *.
  match goal with |- context[fold_left ?f ?l w1] => assert (F2 : frame w1 (fold_left f l w1)) end.
  { apply frame_fold. intros r w' _ F'. destruct (eqb _ ss); [|apply frame_refl].
    apply buffer_update_frame.
    - eapply frame_refs; [exact F'|]. eapply frame_refs; eauto.
    - eapply frame_has_if; [exact F'|]. eapply frame_has_if; eauto. }
  set (w2 := fold_left _ _ w1) in *.
  destruct (set_timeout (if_update_interval i) w2) as [t w3] eqn:E. apply set_timeout_frame in E.
  assert (F3 : frame w w3) by (eapply frame_trans; [|exact E]; eapply frame_trans; eauto).
  assert (F4 : frame w (map_if ifp (fun x => set_if_last_update (sec w3) (set_if_update_timeout t x)) w3)).
  { eapply frame_trans; [exact F3|]. apply frame_map_if. auto. }
  eapply frame_trans; [exact F4|]. apply schedule_flush_frame. eapply frame_has_if; eauto.
Qed.
Lemma send_update_full_frame : forall ifp u w, refs w -> has_if ifp w -> frame w (send_update_full ifp u w).
Proof.
  intros ifp u w R H. unfold send_update_full. pose proof H as H'. apply get_if_iff in H.
  destruct (get_if ifp w) as [i|]; [|contradiction]. destruct (negb _); [apply frame_refl|].
  pose proof (send_update_wild_frame ifp u false w R H') as F1.
  assert (F2 : frame w (send_update_wild ifp u true (send_update_wild ifp u false w))).
  { eapply frame_trans; [exact F1|]. apply send_update_wild_frame; [eapply frame_refs|eapply frame_has_if]; eauto. }
  eapply frame_trans; [exact F2|]. apply schedule_flush_frame. eapply frame_has_if; eauto.
Qed.

Lemma all_ifs : forall w i, In i (map if_id (w_ifs w)) -> forall w', frame w w' -> has_if i w'.
Proof. intros. eapply frame_has_if; eauto. Qed.

Lemma send_update_all_frame : forall u d w, refs w -> frame w (send_update_all u d w).
Proof.
  intros u d w R. unfold send_update_all.
  set (w1 := fold_left _ _ w).
  assert (F : frame w w1).
  { apply frame_fold. intros i w' Hi F. apply send_update_if_frame; [eapply frame_refs|eapply all_ifs]; eauto. }
  destruct (find_installed d w1) as [r|] eqn:E; auto. destruct (_ <? _); auto.
  apply find_installed_In in E. destruct E as (Hr & _).
  destruct (frame_refs _ _ F R r Hr) as (_ & B). destruct (src_of r w1); [|contradiction].
  eapply frame_trans; [exact F|]. apply satisfy_frame.
Qed.
Lemma send_update_resend_frame : forall d w, refs w -> frame w (send_update_resend d w).
Proof.
  intros. unfold send_update_resend. eapply frame_trans; [apply send_update_all_frame; auto|apply record_frame; auto].
Qed.
Lemma wild_retraction_frame : forall ifp w, has_if ifp w -> frame w (send_wildcard_retraction ifp w).
Proof.
  intros ifp w H. unfold send_wildcard_retraction. apply get_if_iff in H.
  destruct (get_if ifp w) as [i|]; [|contradiction]. destruct (negb _); [apply frame_refl|].
  apply frame_fold. intros. apply emit_frame.
Qed.
Lemma send_request_frame : forall b i d w, frame w (send_request b i d w).
Proof. intros. unfold send_request. destruct (_ && _); [apply frame_refl|apply emit_frame]. Qed.
Lemma multicast_request_if_frame : forall d ifp w, refs w -> has_if ifp w -> frame w (send_multicast_request_if d ifp w).
Proof.
  intros d ifp w R H. unfold send_multicast_request_if. pose proof H as H'. apply get_if_iff in H.
  destruct (get_if ifp w) as [i|]; [|contradiction]. destruct (negb _); [apply frame_refl|].
  pose proof (flushupdates_frame ifp w R H') as F. eapply frame_trans; [exact F|].
  apply frame_fold. intros. apply send_request_frame.
Qed.
Lemma multicast_request_all_frame : forall d w, refs w -> frame w (send_multicast_request_all d w).
Proof.
  intros d w R. unfold send_multicast_request_all. apply frame_fold. intros i w' Hi F.
  apply multicast_request_if_frame; [eapply frame_refs|eapply all_ifs]; eauto.
Qed.
Lemma unicast_request_frame : forall n d w, refs w -> has_nb n w -> frame w (send_unicast_request n d w).
Proof.
  intros n d w R H. unfold send_unicast_request. unfold has_nb in H.
  destruct (nb_if n w) as [[nb i]|] eqn:E; [|contradiction]. destruct (negb _); [apply frame_refl|].
  eapply frame_trans; [apply flushupdates_frame; auto; eapply nb_if_has; eauto|apply send_request_frame].
Qed.
Lemma multihop_frame : forall b i d s id h w, frame w (send_multihop_request b i d s id h w).
Proof. intros. unfold send_multihop_request. destruct (_ && _); [apply frame_refl|apply emit_frame]. Qed.
Lemma multicast_multihop_if_frame : forall d s id h ifp w, refs w -> has_if ifp w ->
  frame w (send_multicast_multihop_request_if d s id h ifp w).
Proof.
  intros d s id h ifp w R H. unfold send_multicast_multihop_request_if. pose proof H as H'. apply get_if_iff in H.
  destruct (get_if ifp w) as [i|]; [|contradiction].
  pose proof (flushupdates_frame ifp w R H') as F. destruct (negb _); auto. eapply frame_trans; [exact F|].
  apply frame_fold. intros. apply multihop_frame.
Qed.
Lemma multicast_multihop_frame : forall ifp d s id h w, refs w ->
  match ifp with Some i => has_if i w | None => True end ->
  frame w (send_multicast_multihop_request ifp d s id h w).
Proof.
  intros ifp d s id h w R H. unfold send_multicast_multihop_request. destruct ifp as [i|].
  - apply multicast_multihop_if_frame; auto.
  - apply frame_fold. intros i w' Hi F. pose proof (all_ifs _ _ Hi _ F) as G.
    pose proof G as G'. apply get_if_iff in G'. destruct (get_if i w') as [x|]; [|contradiction].
    destruct (if_up x); [|apply frame_refl]. apply multicast_multihop_if_frame; auto. eapply frame_refs; eauto.
Qed.
Lemma unicast_multihop_frame : forall n d s id h w, refs w -> has_nb n w ->
  frame w (send_unicast_multihop_request n d s id h w).
Proof.
  intros n d s id h w R H. unfold send_unicast_multihop_request. unfold has_nb in H.
  destruct (nb_if n w) as [[nb i]|] eqn:E; [|contradiction].
  eapply frame_trans; [apply flushupdates_frame; auto; eapply nb_if_has; eauto|apply multihop_frame].
Qed.

(** ** do_resend *)
Lemma nth_error_upd_In : forall A k (x : A) l y, In y (upd k x l) -> y = x \/ In y l.
Proof.
  induction k; destruct l; cbn; intros y H; auto; try contradiction.
  - destruct H; auto.
  - destruct H as [H|H]; auto. destruct (IHk x l y H); auto.
Qed.
Definition rsd_ok (w : world) : Prop := forall i, In (Some i) (map rs_ifp (w_rsd w)) -> has_if i w.
Lemma frame_rsd_ok : forall w w', frame w w' -> rsd_ok w -> rsd_ok w'.
Proof.
  intros w w' F H i Hi. eapply frame_has_if; eauto. destruct (f_rsd _ _ F i Hi); auto.
Qed.
Lemma resend_send_frame : forall w r, refs w -> (forall i, rs_ifp r = Some i -> has_if i w) -> frame w (resend_send w r).
Proof.
  intros w r R H. unfold resend_send. destruct (_ =? _).
  - apply multicast_multihop_frame; auto. destruct (rs_ifp r); auto.
  - destruct (rs_ifp r); [apply send_update_if_frame; auto|apply send_update_all_frame; auto].
Qed.
Lemma do_resend1_frame : forall w k, refs w -> rsd_ok w -> frame w (do_resend1 w k).
Proof.
  intros w k R O. rewrite do_resend1_eq. destruct (nth_error (w_rsd w) k) as [r|] eqn:N; [|apply frame_refl].
  destruct (rdue (w_now w) r) eqn:D; [|apply frame_refl]. cbv zeta.
  assert (F : frame w (resend_send w r)).
  { apply resend_send_frame; auto. intros i E. apply O. apply nth_error_In in N. apply in_map_iff. eauto. }
  destruct (nth_error (w_rsd (resend_send w r)) k) as [r1|] eqn:N1; auto.
  eapply frame_trans; [exact F|]. apply frame_rst; [reflexivity| |].
  - intros i Hi. left.
    apply in_map_iff in Hi. destruct Hi as (y & E & Hy). cbn in Hy. apply nth_error_upd_In in Hy.
    apply nth_error_In in N1. apply in_map_iff. destruct Hy as [->|Hy]; [exists r1|exists y]; auto.
  - apply (do_resend1_dec w k r); auto.
Qed.
Lemma do_resend_frame : forall w, refs w -> rsd_ok w -> frame w (do_resend w).
Proof.
  intros w R O. unfold do_resend. eapply frame_trans; [|apply recompute_frame].
  apply frame_fold. intros k w' _ F. apply do_resend1_frame; [eapply frame_refs|eapply frame_rsd_ok]; eauto.
Qed.
Lemma W_rsd_ok : forall e w, W e w -> rsd_ok w.
Proof. intros e w Hw i Hi. apply (W_rsd _ _ Hw). auto. Qed.

(** L_Select2.v: selection and loss of routes are quiet chains (continued). *)
From Verif Require Import Base M_Util S_Util L_Util M_Slot L_Slot M_Source S_Source L_Source
  M_Filter M_Types M_Neigh M_State M_Table M_Msg M_Route S_World L_Table L_Step L_Msg L_Smooth L_Quiet L_Select.
From Coq Require Import Permutation.

Lemma W_nbif_ : forall e w r, W e w -> In r (all_routes w) -> exists n i, nb_if (r_neigh r) w = Some (n, i).
Proof.
  intros e w r Hw Hr. destruct (W_refs _ _ Hw r Hr) as (A & _).
  destruct (nb_if (r_neigh r) w) as [[n i]|]; [eauto|contradiction].
Qed.
Lemma find_In : forall p w r, find_ptr p w = Some r -> In r (all_routes w).
Proof. intros p w r H. apply find_ptr_In in H. tauto. Qed.

(** ** install_route, uninstall_route, switch_routes *)
Lemma slot_nonempty : forall w r, rt_wf (w_rt w) -> In r (all_routes w) ->
  exists h t, slot_of (rdest r) w = h :: t.
Proof.
  intros w r Wf Hr. assert (H : In r (slot_of (rdest r) w)).
  { apply slot_of_iff; auto. apply (route_dvalid w); auto. }
  destruct (slot_of (rdest r) w) as [|h t]; [contradiction|eauto].
Qed.

Lemma install_chain : forall e w p r, W e w -> find_ptr p w = Some r -> r_installed r = false ->
  feasible r w = true -> find_installed (rdest r) w = None ->
  quiet e w (install_route p w).
Proof.
  intros e w p r Hw F I Fe N. unfold install_route. rewrite F, I.
  pose proof (find_In _ _ _ F) as Hr.
  destruct (slot_nonempty w r (W_rt _ _ Hw) Hr) as (h & t & E). rewrite E.
  destruct (negb (r_ptr h =? p) && r_installed h); [apply quiet_refl|].
  destruct (W_nbif_ e w r Hw Hr) as (n & i & Nb). rewrite Nb.
  destruct (change_route_add r i (metric_to_kernel (w_cfg w) (route_metric r)) w) as [rc w1] eqn:C.
  destruct ((rc <? 0) && negb (rc =? - EEXIST)) eqn:R; apply quiet_step.
  - eapply S_instfail; eauto.
  - eapply S_inst; eauto.
Qed.

Lemma uninstall_chain : forall e w p r, W e w -> find_ptr p w = Some r -> quiet e w (uninstall_route p w).
Proof.
  intros e w p r Hw F. unfold uninstall_route. rewrite F.
  destruct (r_installed r) eqn:I; cbn [negb]; [|apply quiet_refl].
  destruct (W_nbif_ e w r Hw (find_In _ _ _ F)) as (n & i & Nb). rewrite Nb.
  apply quiet_step. eapply S_uninst; eauto.
Qed.
Lemma uninstall_find : forall e w p r, W e w -> find_ptr p w = Some r ->
  find_ptr p (uninstall_route p w) = Some (set_r_installed false r).
Proof.
  intros e w p r Hw F. unfold uninstall_route. rewrite F.
  destruct (r_installed r) eqn:I; cbn [negb].
  - destruct (W_nbif_ e w r Hw (find_In _ _ _ F)) as (n & i & Nb). rewrite Nb.
    destruct (change_route_flush r i (metric_to_kernel (w_cfg w) (route_metric r))
                (map_ptr p (set_r_installed false) w)) as [rc w1] eqn:E.
    apply change_route_flush_frame in E. cbn [snd].
    assert (X : find_ptr p w1 = find_ptr p (map_ptr p (set_r_installed false) w))
      by (unfold find_ptr; rewrite (kframe_rt _ _ E); auto).
    rewrite X, find_ptr_map_ptr, F by auto. cbn. unfold upd_route, is_ptr.
    rewrite (find_ptr_ptr _ _ _ F), Z.eqb_refl. auto.
  - rewrite F. f_equal. destruct r. cbn in *. subst. auto.
Qed.

Lemma switch_chain : forall e w o p ro rn, W e w -> find_ptr o w = Some ro -> find_ptr p w = Some rn ->
  r_installed ro = true -> r_installed rn = false -> dest_of ro = dest_of rn ->
  feasible rn w = true -> better_than rn ro ->
  quiet e w (switch_routes (Some o) p w).
Proof.
  intros e w o p ro rn Hw Fo Fn Io In_ D Fe B. unfold switch_routes. rewrite Fo, Fn, Io. cbn [negb].
  destruct (W_nbif_ e w ro Hw (find_In _ _ _ Fo)) as (no & io & No). rewrite No.
  destruct (W_nbif_ e w rn Hw (find_In _ _ _ Fn)) as (nn & inw & Nn). rewrite Nn.
  destruct (change_route_modify ro io (metric_to_kernel (w_cfg w) (route_metric ro)) (r_nexthop rn)
              (if_ifindex inw) (metric_to_kernel (w_cfg w) (route_metric rn)) w) as [rc w1] eqn:C.
  destruct (rc <? 0) eqn:R; apply quiet_step.
  - eapply S_modfail with (p := o) (r := ro); eauto. exists rn. split; [apply (find_In _ _ _ Fn)|auto].
  - eapply S_switch with (ro := ro) (rn := rn); eauto.
Qed.

(** ** send_triggered_update *)
Lemma triggered_frame : forall p k m w, refs w -> find_ptr p w <> None -> frame w (send_triggered_update p k m w).
Proof.
  intros p k m w R H. unfold send_triggered_update. destruct (find_ptr p w) as [r|]; [|contradiction].
  destruct (negb (r_installed r)); [apply frame_refl|]. destruct (trig_urgency r k m w) as [u|]; [|apply frame_refl].
  match goal with |- frame w (if _ then _ else ?x) => assert (F : frame w x) end.
  { destruct (u >=? 2); [apply send_update_resend_frame|apply send_update_all_frame]; auto. }
  destruct (_ && _); auto. eapply frame_trans; [exact F|].
  apply multicast_request_all_frame. eapply frame_refs; eauto.
Qed.

(** ** consider_route *)
Lemma consider_install_chain : forall e w w1 p r inst, W e w -> find_ptr p w = Some r ->
  match inst with Some i => find_ptr (r_ptr i) w <> None | None => True end ->
  w1 = switch_routes (option_map r_ptr inst) p w -> quiet e w w1 ->
  quiet e w (consider_install p inst w).
Proof.
  intros e w w1 p r inst Hw F Hi -> Q. unfold consider_install. cbv zeta.
  destruct (quiet_find _ _ _ _ _ Hw Q F) as (r' & F' & C). rewrite F'.
  pose proof (quiet_W _ _ _ Q Hw) as Hw1. pose proof (W_refs _ _ Hw1) as R1.
  eapply quiet_trans; [exact Q|]. apply quiet_frame. destruct inst as [i|].
  - destruct (r_installed r'); [|apply send_update_all_frame; auto].
    destruct (find_ptr (r_ptr i) w) as [i0|] eqn:Fi; [|contradiction].
    destruct (quiet_find _ _ _ _ _ Hw Q Fi) as (i' & Fi' & Ci). rewrite Fi'.
    apply triggered_frame; auto. congruence.
  - apply send_update_all_frame; auto.
Qed.

Lemma consider_chain : forall e w p r, W e w -> find_ptr p w = Some r -> quiet e w (consider_route p w).
Proof.
  intros e w p r Hw F. unfold consider_route. rewrite F. pose proof (W_rt _ _ Hw) as Wf.
  pose proof (find_In _ _ _ F) as Hr. pose proof (route_dvalid w r Wf Hr) as V.
  destruct (r_installed r) eqn:I; [apply quiet_refl|].
  destruct (feasible r w) eqn:Fe; cbn [negb]; [|apply quiet_refl].
  destruct (match find_xroute (rdest r) w with Some x => _ | None => false end); [apply quiet_refl|].
  destruct (find_installed (rdest r) w) as [i|] eqn:Fi.
  - pose proof Fi as Fi'. apply (find_installed_iff (dest_of r)) in Fi'; auto. destruct Fi' as (Hi & Ii & Di).
    assert (Fpi : find_ptr (r_ptr i) w = Some i) by (apply find_ptr_iff; auto).
    destruct (route_metric r >=? INFINITY) eqn:Mr; [apply quiet_refl|].
    destruct (route_metric i >=? INFINITY) eqn:Mi.
    + eapply consider_install_chain; eauto; [cbn; congruence|]. cbn [option_map].
      eapply switch_chain; eauto. split; [lia|]. left. lia.
    + destruct (route_metric i >=? route_metric r) eqn:Mir; [|apply quiet_refl].
      destruct (smoothed_spec e w (r_ptr i) i Hw Fpi) as (mi & rnd1 & E1 & Q1 & S1 & F1 & _).
      rewrite E1. set (w1 := map_ptr (r_ptr i) (smooth_upd mi (sec w)) (set_w_rnd rnd1 w)) in *.
      pose proof (quiet_W _ _ _ Q1 Hw) as Hw1.
      assert (Npi : r_ptr i <> p).
      { intro E. rewrite E, F in Fpi. inversion Fpi; subst. congruence. }
      assert (Fp1 : find_ptr p w1 = Some r) by (unfold w1; rewrite find_other; auto).
      destruct (smoothed_spec e w1 p r Hw1 Fp1) as (mr & rnd2 & E2 & Q2 & S2 & F2 & _).
      rewrite E2. set (w2 := map_ptr p (smooth_upd mr (sec w1)) (set_w_rnd rnd2 w1)) in *.
      pose proof (quiet_W _ _ _ Q2 Hw1) as Hw2.
      assert (Q12 : quiet e w w2) by (eapply quiet_trans; eauto).
      destruct (mi >? mr) eqn:Mm; auto. eapply quiet_trans; [exact Q12|].
      assert (Fi2 : find_ptr (r_ptr i) w2 = Some (smooth_upd mi (sec w) i))
        by (unfold w2; rewrite find_other; auto).
      apply consider_install_chain with (w1 := switch_routes (Some (r_ptr i)) p w2)
        (r := smooth_upd mr (sec w1) r); auto; [rewrite Fi2; discriminate|].
      apply switch_chain with (ro := smooth_upd mi (sec w) i) (rn := smooth_upd mr (sec w1) r);
        try assumption; try exact Ii; try exact I; try exact Di.
      split; [change (route_metric r < INFINITY); lia|]. right.
      change (route_metric r <= route_metric i /\ mr < mi). lia.
  - eapply consider_install_chain; eauto. cbn [option_map switch_routes]. eapply install_chain; eauto.
Qed.

(** ** route_changed *)
Lemma changed_chain : forall e w p r k m, W e w -> find_ptr p w = Some r -> quiet e w (route_changed p k m w).
Proof.
  intros e w p r k m Hw F. unfold route_changed. rewrite F. cbv zeta.
  match goal with |- quiet e w (match find_ptr p ?x with _ => _ end) => set (w1 := x) end.
  assert (Q : quiet e w w1).
  { unfold w1. destruct (r_installed r); [|apply quiet_refl].
    destruct (find_best_route (rdest r) true None w) as [b w2] eqn:E.
    destruct (find_best_chain true None e w (rdest r) b w2 Hw E) as (Q & S & H). destruct b as [q|]; auto.
    destruct H as (rb & Fb & _). rewrite Fb. destruct (_ <? _); auto. eapply quiet_trans; [exact Q|].
    eapply consider_chain; eauto using quiet_W. }
  pose proof (quiet_W _ _ _ Q Hw) as Hw1. destruct (quiet_find _ _ _ _ _ Hw Q F) as (r1 & F1 & C). rewrite F1.
  eapply quiet_trans; [exact Q|]. destruct (r_installed r1).
  - apply quiet_frame. apply triggered_frame; [eapply W_refs; eauto|congruence].
  - eapply consider_chain; eauto.
Qed.

(** ** send_request_resend, route_lost *)
Lemma request_resend_chain : forall e w d s id, W e w -> quiet e w (send_request_resend d s id w).
Proof.
  intros e w d s id Hw. unfold send_request_resend.
  destruct (find_best_route d false None w) as [b w1] eqn:E.
  destruct (find_best_chain false None e w d b w1 Hw E) as (Q & S & H).
  pose proof (quiet_W _ _ _ Q Hw) as Hw1. pose proof (W_refs _ _ Hw1) as R1.
  eapply quiet_trans; [exact Q|]. destruct b as [q|].
  - destruct H as (r & F & _). rewrite F.
    destruct (W_nbif_ e w1 r Hw1 (find_In _ _ _ F)) as (n & i & Nb).
    pose proof (nb_if_get _ _ _ _ Nb) as (G1 & G2). rewrite G1.
    assert (Fr : frame w1 (send_unicast_multihop_request (r_neigh r) d s id 127 w1)).
    { apply unicast_multihop_frame; auto. unfold has_nb. congruence. }
    eapply quiet_trans; [apply quiet_frame; exact Fr|]. apply quiet_frame. apply record_frame.
    eapply frame_has_if; [exact Fr|]. eapply get_if_has; eauto.
  - apply quiet_frame. apply frame_fold. intros i w' Hi F. pose proof (all_ifs _ _ Hi _ F) as G.
    apply get_if_iff in G. destruct (get_if i w'); [|contradiction].
    destruct (if_up i0); [apply multihop_frame|apply frame_refl].
Qed.

Lemma lost_chain : forall e w k m, W e w -> get_src k (w_srcs w) <> None -> quiet e w (route_lost k m w).
Proof.
  intros e w k m Hw Hk. unfold route_lost.
  destruct (find_best_route (kdest k) true None w) as [b w1] eqn:E.
  destruct (find_best_chain true None e w (kdest k) b w1 Hw E) as (Q & S & H).
  pose proof (quiet_W _ _ _ Q Hw) as Hw1.
  assert (G : quiet e w1 (if m <? INFINITY then
        let w2 := send_update_resend (kdest k) w1 in
        if m <=? INFINITY / 2 then
          match get_src k (w_srcs w2) with
          | Some s => send_request_resend (kdest k) (wanted_seqno s) (k_id k) w2
          | None => fault w2
          end
        else w2
      else w1)).
  { destruct (m <? INFINITY); [|apply quiet_refl]. cbv zeta.
    pose proof (send_update_resend_frame (kdest k) w1 (W_refs _ _ Hw1)) as F.
    destruct (m <=? INFINITY / 2); [|apply quiet_frame; auto].
    assert (K : get_src k (w_srcs (send_update_resend (kdest k) w1)) <> None).
    { apply get_src_keys. destruct (srcs_evo_keys _ _ _ _ (f_srcs _ _ F)) as (-> & _).
      rewrite (smw_srcs _ _ S). apply get_src_keys. auto. }
    destruct (get_src k (w_srcs (send_update_resend (kdest k) w1))) as [s|]; [|contradiction].
    eapply quiet_trans; [apply quiet_frame; exact F|]. apply request_resend_chain.
    eapply W_frame; eauto. }
  eapply quiet_trans; [exact Q|]. destruct b as [q|]; auto. destruct H as (r & F & _). rewrite F.
  destruct (feasible r w1); auto. eapply consider_chain; eauto.
Qed.

(** L_Lose3.v: the selected route is retracted. *)
From Verif Require Import Base M_Util S_Util L_Util M_Slot L_Slot M_Source S_Source L_Source
  M_Filter M_Types M_Neigh M_State M_Table M_Msg M_Route M_Xroute S_World S_Send S_Pend L_Table L_Step L_Msg L_Smooth L_Quiet
  L_Trace L_Select L_Select2 L_Chain L_Chain2 L_Chain3 L_Flush L_Update L_Update2 L_Xroute M_Daemon L_Daemon L_Inv L_World L_World2 L_World4 L_Send L_Resend4 L_Out L_Request L_Pend
  L_Lose L_Lose2.
From Coq Require Import Permutation.

Record told_so (e : list skey) (w0 w : world) (d : dest) : Prop := mkToldSo {
  ts_W : W e w;
  ts_st : map ifstat (w_ifs w) = map ifstat (w_ifs w0);
  ts_out : exists l, w_out w = w_out w0 ++ l;
  ts_vp : forall i, In i (w_ifs w) -> Forall dvalid (if_pend i);
  ts_ann : announced w0 w d }.

Lemma told_frame : forall w w' i d A, frame w w' -> told w i d A -> told w' i d A.
Proof.
  intros w w' i d A F T. apply (told_env w' w); auto; symmetry; [apply (f_cfg _ _ F)|apply (f_nbs _ _ F)|apply (f_rt _ _ F)|apply (f_xr _ _ F)|apply (f_seqno _ _ F)].
Qed.
(** Something is sent. *)
Lemma told_emit : forall e w0 w w' d, told_so e w0 w d -> frame w w' -> w_ifs w' = w_ifs w -> (exists l, w_out w' = w_out w ++ l) ->
  told_so e w0 w' d.
Proof.
  intros e w0 w w' d T F Ei (l & El). destruct T as [Hw St (l0 & E0) Vp An]. constructor.
  - eapply W_frame; eauto.
  - rewrite Ei. auto.
  - exists (l0 ++ l). rewrite El, E0, <- app_assoc. auto.
  - rewrite Ei. auto.
  - intros i Hi U. destruct (An i Hi U) as [P|(X & A & Y & TA & O)].
    + left. unfold pending in *. rewrite Ei. auto.
    + right. exists X, A, (Y ++ l). split; [eapply told_frame; eauto|]. rewrite El, O, <- !app_assoc. auto.
Qed.
(** Waiting updates are sent. *)
Lemma told_flush : forall e w0 w d j, W e w0 -> told_so e w0 w d -> In j (map if_id (w_ifs w)) -> told_so e w0 (flushupdates j w) d.
Proof.
  intros e w0 w d j Hw0 T Hj. destruct T as [Hw St (l0 & E0) Vp An].
  apply in_map_iff in Hj. destruct Hj as (ij & Ej & Hij). pose proof (get_if_In w ij (W_ifs _ _ Hw) Hij) as Gj. rewrite Ej in Gj.
  pose proof (flushupdates_frame j w (W_refs _ _ Hw) (get_if_has _ _ _ Gj)) as F. set (w' := flushupdates j w) in *.
  pose proof (W_frame _ _ _ F Hw) as Hw'.
  assert (Of : exists l, w_out w' = w_out w ++ l).
  { apply (outq_ext (fun _ => True)). apply flushupdates_outq. auto. }
  destruct Of as (l & El). constructor; auto.
  - rewrite (f_ifs _ _ F). auto.
  - exists (l0 ++ l). rewrite El, E0, <- app_assoc. auto.
  - intros i Hi. pose proof (get_if_In w' i (W_ifs _ _ Hw') Hi) as G. destruct (Z.eq_dec (if_id i) j) as [Ei|Ei].
    + destruct (flush_pend e w j ij Hw Gj (Vp ij Hij)) as (i' & G' & P'). fold w' in G'. rewrite Ei, G' in G. injection G as ->. rewrite P'. constructor.
    + unfold w' in G. rewrite flush_other in G; auto. unfold get_if in G. apply find_some in G. apply Vp. apply G.
  - intros i Hi U. destruct (An i Hi U) as [P|(X & A & Y & TA & O)].
    + destruct P as (ia & Hia & Ia & Pa). pose proof (get_if_In w ia (W_ifs _ _ Hw) Hia) as Ga.
      pose proof (get_if_In w0 i (W_ifs _ _ Hw0) Hi) as Gi. destruct (get_if_static _ w0 w i St Gi) as (ib & Gb & Eb).
      rewrite <- Ia, Ga in Gb. injection Gb as <-. destruct (static_flags _ _ Eb) as (Fb & _).
      assert (Ua : if_up ia = true) by (unfold if_up, flag in *; rewrite Fb; auto).
      destruct (Z.eq_dec (if_id i) j) as [En|En].
      * right. assert (ij = ia) as -> by congruence.
        destruct (flush_told e w j ia Hw Gj (Vp ia Hia) Ua) as (L & AA & TA & O & IL & _).
        assert (Hd : In d L) by (apply IL; auto).
        assert (Sp : exists A1 A A2, AA = A1 ++ A :: A2 /\ told w ia d A).
        { clear -TA Hd. induction TA as [|x y l l' Hxy T IH]; [destruct Hd|]. destruct Hd as [->|Hd]; [exists [], y, l'; auto|].
          destruct (IH Hd) as (A1 & A & A2 & E & H). exists (y :: A1), A, A2. rewrite E. auto. }
        destruct Sp as (A1 & A & A2 & EA & T1). exists (l0 ++ concat A1), A, (concat A2). split.
        -- apply (told_static w' ia i); auto. eapply told_frame; eauto.
        -- fold w' in O. rewrite O, E0, EA, concat_app. cbn [concat]. rewrite <- !app_assoc. auto.
      * left. exists ia. split; [|auto]. assert (G : get_if (if_id ia) w' = Some ia) by (unfold w'; rewrite flush_other; [auto|congruence]).
        unfold get_if in G. apply find_some in G. apply G.
    + right. exists X, A, (Y ++ l). split; [eapply told_frame; eauto|]. rewrite El, O, <- !app_assoc. auto.
Qed.
Lemma send_request_ext : forall b i d w, w_ifs (send_request b i d w) = w_ifs w /\ exists l, w_out (send_request b i d w) = w_out w ++ l.
Proof.
  intros. unfold send_request. destruct (_ && _); [split; [auto|exists []; rewrite app_nil_r; auto]|]. split; [auto|]. eexists. reflexivity.
Qed.
Lemma told_mcast : forall e w0 w d o, W e w0 -> told_so e w0 w d -> told_so e w0 (send_multicast_request_all o w) d.
Proof.
  intros e w0 w d o Hw0 T. unfold send_multicast_request_all.
  assert (Hl : forall j, In j (map if_id (w_ifs w)) -> In j (map if_id (w_ifs w0))) by (intros j; rewrite (stat_ids _ _ (ts_st _ _ _ _ T)); auto).
  revert Hl T. generalize (map if_id (w_ifs w)). intros l. revert w. induction l as [|j l IH]; intros w Hl T; auto. cbn [fold_left]. apply IH; [intros; apply Hl; simpl; auto|].
  assert (Hj : In j (map if_id (w_ifs w))) by (rewrite (stat_ids _ _ (ts_st _ _ _ _ T)); apply Hl; simpl; auto).
  pose proof (told_flush e w0 w d j Hw0 T Hj) as T1. unfold send_multicast_request_if.
  apply in_map_iff in Hj. destruct Hj as (ij & Ej & Hij). pose proof (get_if_In w ij (W_ifs _ _ (ts_W _ _ _ _ T)) Hij) as Gj. rewrite Ej in Gj. rewrite Gj.
  destruct (negb (if_up ij)); auto. generalize (buffers ij (flushupdates j w)). intros bs. revert T1. generalize (flushupdates j w). clear.
  induction bs as [|b bs IH]; intros w T; auto. cbn [fold_left]. apply IH. destruct (send_request_ext b ij o w) as (A & B).
  eapply told_emit; [exact T|apply send_request_frame|auto|auto].
Qed.
Lemma told_pend : forall e w0 w w1 d, W e w0 -> W e w -> map ifstat (w_ifs w) = map ifstat (w_ifs w0) -> (exists l, w_out w = w_out w0 ++ l) ->
  (forall i, In i (w_ifs w) -> Forall dvalid (if_pend i)) -> dvalid d ->
  frame w w1 -> pending_all w1 d -> pend_grow d w w1 -> (exists l, w_out w1 = w_out w ++ l) -> told_so e w0 w1 d.
Proof.
  intros e w0 w w1 d Hw0 Hw St (l0 & E0) Vp V F Pa Pg (l & El). pose proof (W_frame _ _ _ F Hw) as Hw1.
  assert (St1 : map ifstat (w_ifs w1) = map ifstat (w_ifs w0)) by (rewrite (f_ifs _ _ F); auto).
  constructor; auto.
  - exists (l0 ++ l). rewrite El, E0, <- app_assoc. auto.
  - intros i Hi. destruct (Pg (if_id i) i) as (i0 & G0 & In0). { apply get_if_In; auto. apply (W_ifs _ _ Hw1). }
    apply Forall_forall. intros d' Hd'. apply In0 in Hd'. destruct Hd' as [<-|Hd']; auto.
    unfold get_if in G0. apply find_some in G0. destruct G0 as (G0 & _). specialize (Vp i0 G0). rewrite Forall_forall in Vp. auto.
  - apply announced_pending; auto using stat_ids. apply (W_ifs _ _ Hw0).
Qed.
Lemma told_triggered : forall e w0 w p r k m u, W e w0 -> W e w -> map ifstat (w_ifs w) = map ifstat (w_ifs w0) -> (exists l, w_out w = w_out w0 ++ l) ->
  (forall i, In i (w_ifs w) -> Forall dvalid (if_pend i)) ->
  find_ptr p w = Some r -> r_installed r = true -> trig_urgency r k m w = Some u ->
  told_so e w0 (send_triggered_update p k m w) (dest_of r).
Proof.
  intros e w0 w p r k m u Hw0 Hw St Po Vp F Ir Tu. unfold send_triggered_update. rewrite F, Ir, Tu. cbn [negb].
  pose proof (route_dvalid w r (W_rt _ _ Hw) (find_In _ _ _ F)) as V. change (rdest r) with (dest_of r).
  match goal with |- told_so _ _ (if _ then _ else ?x) _ => assert (T : told_so e w0 x (dest_of r)) end.
  { destruct (u >=? 2).
    - destruct (send_resend_pend e (dest_of r) w Hw) as (A & B). eapply told_pend; eauto.
      + apply send_update_resend_frame. eapply W_refs; eauto.
      + apply (outq_ext (fun _ => True)). apply send_update_resend_outq. auto.
    - destruct (send_all_pend e (u =? 1) (dest_of r) w Hw) as (A & B). eapply told_pend; eauto.
      + apply send_update_all_frame. eapply W_refs; eauto.
      + apply (outq_ext (fun _ => True)). apply send_update_all_outq. auto. }
  destruct (_ && _); auto. apply told_mcast; auto.
Qed.

(** The selected route [r] has just been given an infinite metric. *)
Definition passed_over (w w' : world) (d : dest) : Prop :=
  forall r1 r1', In r1 (all_routes w) -> dest_of r1 = d -> acceptable r1 true None w = true -> route_metric r1 < INFINITY ->
    In r1' (all_routes w') -> r_ptr r1' = r_ptr r1 -> 65535 <= r_smoothed r1'.

Lemma switch_refused : forall e w o p ro rn, W e w -> find_ptr o w = Some ro -> find_ptr p w = Some rn -> o <> p ->
  r_installed ro = true -> r_installed rn = false -> dest_of ro = dest_of rn ->
  let w' := switch_routes (Some o) p w in w_ifs w' = w_ifs w /\ w_out w' = w_out w /\
  ((w_rt w' = w_rt w /\ krefused w w') \/
   (exists r, In r (all_routes w') /\ r_ptr r = p /\ r_installed r = true)).
Proof.
  intros e w o p ro rn Hw Fo Fn Nop Io In_ D. cbv zeta.
  destruct (switch_cases e w o p ro rn Hw Fo Fn Nop Io In_ D) as [K|K].
  - revert K. unfold switch_routes. rewrite Fo, Fn, Io. cbn [negb].
    destruct (W_nbif_ e w ro Hw (find_In _ _ _ Fo)) as (no & io & No). rewrite No.
    destruct (W_nbif_ e w rn Hw (find_In _ _ _ Fn)) as (nn & inw & Nn). rewrite Nn.
    destruct (change_route_modify _ _ _ _ _ _ _) as [rc w1] eqn:C. destruct (rc <? 0) eqn:R; intros K.
    + destruct (kframe_keep _ _ K) as (K1 & K2 & K3 & K4). split; auto. split; auto. left. split; auto.
      apply modify_log in C. apply C. lia.
    + exfalso. pose proof (kframe_sel _ _ K) as (K1 & _). rewrite move_sel in K1.
      pose proof (kframe_sel _ _ (change_route_modify_frame _ _ _ _ _ _ _ _ _ C)) as (K2 & _).
      cbn [w_sel map_ptr selected set_w_sel set_w_rt] in K1. rewrite K2 in K1.
      apply (f_equal (@length _)) in K1. rewrite app_length in K1. cbn in K1. lia.
  - split; [|split; [|right; exact K]].
    + unfold switch_routes. rewrite Fo, Fn, Io. cbn [negb]. destruct (nb_if (r_neigh ro) w) as [[no io]|]; [|reflexivity].
      destruct (nb_if (r_neigh rn) w) as [[nn inw]|]; [|reflexivity]. destruct (change_route_modify _ _ _ _ _ _ _) as [rc w1] eqn:C.
      apply change_route_modify_frame in C. destruct (kframe_keep _ _ C) as (K1 & K2 & K3 & K4). destruct (rc <? 0); auto.
      unfold move_installed. destruct (find_route_slot _ _); cbn; auto.
    + unfold switch_routes. rewrite Fo, Fn, Io. cbn [negb]. destruct (nb_if (r_neigh ro) w) as [[no io]|]; [|reflexivity].
      destruct (nb_if (r_neigh rn) w) as [[nn inw]|]; [|reflexivity]. destruct (change_route_modify _ _ _ _ _ _ _) as [rc w1] eqn:C.
      apply change_route_modify_frame in C. destruct (kframe_keep _ _ C) as (K1 & K2 & K3 & K4). destruct (rc <? 0); auto.
      unfold move_installed. destruct (find_route_slot _ _); cbn; auto.
Qed.

Lemma changed_lost : forall e w p r k m, W e w -> find_ptr p w = Some r -> r_installed r = true -> route_metric r >= INFINITY -> m < INFINITY ->
  (forall x, ~ ours w (dest_of r) x) -> (forall i, In i (w_ifs w) -> Forall dvalid (if_pend i)) ->
  let w' := route_changed p k m w in let d := dest_of r in
  told_so e w w' d /\
  exists r', is_selected w' d r' /\ (route_metric r' < INFINITY \/ (r_ptr r' = p /\ (krefused w w' \/ passed_over w w' d))).
Proof.
  intros e w p r k m Hw F Ir Mr Hm Nx Vp. cbv zeta. unfold route_changed. rewrite F, Ir.
  pose proof (route_dvalid w r (W_rt _ _ Hw) (find_In _ _ _ F)) as V. change (rdest r) with (dest_of r) in *. set (d := dest_of r) in *.
  pose proof (best_digest e w d true None Hw V) as B. pose proof (find_best_spec true None e w d Hw) as BS.
  destruct (find_best_route d true None w) as [[b|] w1].
  2:{ destruct B as (-> & Na). rewrite F, Ir. split.
      - assert (Tu : trig_urgency r k m w = Some 2).
        { unfold trig_urgency. replace ((m <? INFINITY) && (route_metric r >=? INFINITY)) with true by lia. rewrite orb_true_r. auto. }
        eapply told_triggered; eauto. exists []. rewrite app_nil_r. auto.
      - pose proof (triggered_frame p k m w (W_refs _ _ Hw) ltac:(congruence)) as Fr. exists r. split.
        + eapply is_sel_rt; [apply (f_rt _ _ Fr)|]. split; [eapply find_In; eauto|auto].
        + right. split; [eapply find_ptr_ptr; eauto|]. right. intros r1 r1' H1 D1 A1. rewrite (Na r1 H1 D1) in A1. discriminate A1. }
  destruct B as (Sm & Q & r0 & rb & Hr0 & D0 & A0 & F0 & Fb & Cb & Ib). rewrite Fb.
  pose proof (quiet_W _ _ _ Q Hw) as Hw1. destruct (smw_keep _ _ Sm) as (K1 & K2 & K3 & K4 & K5).
  destruct (smw_find e w w1 p r Hw Q Sm F) as (r1 & F1 & C1 & I1). rewrite Ir in I1. pose proof (core_metric _ _ C1) as M1.
  assert (D1 : dest_of r1 = d) by apply (core_dest _ _ C1).
  assert (Po1 : exists l, w_out w1 = w_out w ++ l) by (exists []; rewrite app_nil_r; auto).
  assert (Vp1 : forall i, In i (w_ifs w1) -> Forall dvalid (if_pend i)) by (rewrite K1; auto).
  assert (St1 : map ifstat (w_ifs w1) = map ifstat (w_ifs w)) by (rewrite K1; auto).
  (* the route stays selected *)
  assert (Stay : forall w2, W e w2 -> map ifstat (w_ifs w2) = map ifstat (w_ifs w) -> (exists l, w_out w2 = w_out w ++ l) ->
    (forall i, In i (w_ifs w2) -> Forall dvalid (if_pend i)) -> w_rt w2 = w_rt w1 -> (krefused w w2 \/ passed_over w w2 d) ->
    told_so e w (match find_ptr p w2 with
      | Some r1 => if r_installed r1 then send_triggered_update p k m w2 else consider_route p w2 | None => fault w2 end) d /\
    exists r', is_selected (match find_ptr p w2 with
      | Some r1 => if r_installed r1 then send_triggered_update p k m w2 else consider_route p w2 | None => fault w2 end) d r' /\
     (route_metric r' < INFINITY \/ (r_ptr r' = p /\ (krefused w (match find_ptr p w2 with
      | Some r1 => if r_installed r1 then send_triggered_update p k m w2 else consider_route p w2 | None => fault w2 end) \/ passed_over w (match find_ptr p w2 with
      | Some r1 => if r_installed r1 then send_triggered_update p k m w2 else consider_route p w2 | None => fault w2 end) d)))).
  { intros w2 Hw2 St2 Po2 Vp2 Rt2 Why. assert (F2 : find_ptr p w2 = Some r1) by (unfold find_ptr in *; rewrite Rt2; auto).
    rewrite F2, I1. pose proof (triggered_frame p k m w2 (W_refs _ _ Hw2) ltac:(congruence)) as Fr. split.
    - assert (Tu : trig_urgency r1 k m w2 = Some 2).
      { unfold trig_urgency. replace ((m <? INFINITY) && (route_metric r1 >=? INFINITY)) with true by lia. rewrite orb_true_r. auto. }
      rewrite <- D1. eapply told_triggered; eauto.
    - exists r1. split; [eapply is_sel_rt; [apply (f_rt _ _ Fr)|]; split; [eapply find_In; eauto|auto]|].
      right. split; [eapply find_ptr_ptr; eauto|]. destruct Why as [Why|Why].
      + left. eapply krefused_tr; [reflexivity|exact Why|apply (f_ktr _ _ Fr)].
      + right. intros x x' H1 H2 H3 H4 H5. apply (Why x x'); auto. unfold all_routes in *. rewrite (f_rt _ _ Fr) in H5. auto. }
  destruct (route_metric rb <? route_metric r) eqn:Lt.
  2:{ apply Stay; auto. right. intros x x' Hx Dx Ax Mx Hx' Px.
      destruct BS as (_ & _ & _ & _ & BS). destruct (BS (r_ptr x)) as (rx & rb2 & Fx & Fb2 & _ & _ & Cx).
      { unfold elig. apply in_map. apply filter_In. split; auto. apply slot_of_iff; auto. apply (W_rt _ _ Hw). }
      rewrite Fb in Fb2. injection Fb2 as <-.
      assert (Fx' : find_ptr (r_ptr x) w1 = Some x') by (apply find_ptr_iff; [apply (W_rt _ _ Hw1)|auto]).
      rewrite Fx in Fx'. injection Fx' as ->.
      assert (Fxw : find_ptr (r_ptr x) w = Some x) by (apply find_ptr_iff; [apply (W_rt _ _ Hw)|auto]).
      destruct (smw_find e w w1 (r_ptr x) x Hw Q Sm Fxw) as (x2 & Fx2 & Cx2 & _). rewrite Fx in Fx2. injection Fx2 as <-.
      apply core_metric in Cx2. destruct Cx as [Cx|(S1 & S2 & L)].
      - exfalso. rewrite Cx, Fb in Fx. injection Fx as <-. lia.
      - assert (Mb : route_metric rb = INFINITY).
        { assert (route_metric rb <= INFINITY) by (unfold route_metric; lia). lia. }
        specialize (S2 []). pose proof (smooth_exact (sec w1) (c_half_life (w_cfg w1)) (route_metric rb) (r_smoothed rb) (r_smoothed_time rb) [] (or_intror Mb)) as Ex.
        rewrite S2 in Ex. cbn [fst] in Ex. unfold INFINITY in *. lia. }
  assert (Ne : b <> p) by (intros ->; rewrite F1 in Fb; injection Fb as <-; lia).
  assert (Db : dest_of rb = d) by (rewrite <- D0; apply (core_dest _ _ Cb)).
  assert (Fi1 : find_installed d w1 = Some r1).
  { apply (find_installed_iff d); [apply (W_rt _ _ Hw1)|auto|]. split; [eapply find_In; eauto|auto]. }
  assert (Ir0 : r_installed rb = false).
  { destruct (r_installed rb) eqn:X; auto. exfalso. assert (find_installed d w1 = Some rb).
    { apply (find_installed_iff d); [apply (W_rt _ _ Hw1)|auto|]. split; [eapply find_In; eauto|auto]. }
    apply Ne. rewrite Fi1 in H. injection H as <-. rewrite <- (find_ptr_ptr _ _ _ Fb). apply (find_ptr_ptr _ _ _ F1). }
  assert (Ab : acceptable rb true None w1 = true) by (rewrite (acceptable_core r0 rb true None w w1); auto using smw_srcs, smw_now).
  assert (Fe : feasible rb w1 = true).
  { unfold acceptable in Ab. destruct (route_expired rb w1); [discriminate Ab|]. cbn [andb] in Ab. destruct (feasible rb w1); auto. }
  assert (Nx1 : find_xroute (rdest rb) w1 = None).
  { change (rdest rb) with (dest_of rb). rewrite Db. destruct (find_xroute d w1) as [x|] eqn:Ex; auto. exfalso.
    apply find_xroute_iff in Ex; [|apply (W_xr _ _ Hw1)]. apply (Nx x). unfold ours in *. rewrite K4 in Ex. auto. }
  assert (Mb : route_metric rb < INFINITY) by (assert (route_metric r <= INFINITY) by (unfold route_metric; lia); lia).
  assert (Cr : consider_route b w1 = consider_install b (Some r1) w1).
  { unfold consider_route. rewrite Fb, Ir0, Fe, Nx1. cbn [negb]. change (rdest rb) with (dest_of rb). rewrite Db, Fi1.
    replace (route_metric rb >=? INFINITY) with false by lia. replace (route_metric r1 >=? INFINITY) with true by lia. auto. }
  rewrite Cr. pose proof (find_ptr_ptr _ _ _ F1) as P1. pose proof (find_ptr_ptr _ _ _ Fb) as Pb.
  assert (Qs : quiet e w1 (switch_routes (Some (r_ptr r1)) b w1)).
  { eapply switch_chain with (ro := r1) (rn := rb); eauto; [rewrite P1; auto|congruence|]. split; [lia|]. left. lia. }
  destruct (switch_refused e w1 (r_ptr r1) b r1 rb Hw1) as (S1 & S2 & S3); auto; try congruence.
  unfold consider_install. cbn [option_map]. cbv zeta. set (ws := switch_routes (Some (r_ptr r1)) b w1) in *.
  pose proof (quiet_W _ _ _ Qs Hw1) as Hws.
  destruct (quiet_find e w1 ws b rb Hw1 Qs Fb) as (rs & Fs & Cs). rewrite Fs.
  assert (Ps : forall x, In x (all_routes ws) -> r_ptr x = b -> x = rs).
  { intros x Hx Px. assert (find_ptr b ws = Some x) by (apply find_ptr_iff; [apply (W_rt _ _ Hws)|auto]). congruence. }
  assert (Ds : dest_of rs = d) by (rewrite <- Db; apply (core_dest _ _ Cs)).
  destruct S3 as [(Rt & Kr)|(x & Hx & Px & Ix)].
  - assert (Is : r_installed rs = false).
    { assert (find_ptr b ws = Some rb) by (unfold find_ptr in *; rewrite Rt; auto). congruence. }
    rewrite Is. change (rdest rs) with (dest_of rs). rewrite Ds.
    pose proof (send_update_all_frame true d ws (W_refs _ _ Hws)) as Fr. set (w2 := send_update_all true d ws) in *.
    destruct (send_all_pend e true d ws Hws) as (Pa & Pg).
    assert (T : told_so e w w2 d).
    { eapply told_pend with (w := ws); eauto.
      - rewrite S1. auto.
      - rewrite S2. auto.
      - rewrite S1. auto.
      - apply (outq_ext (fun _ => True)). apply send_update_all_outq. auto. }
    destruct T as [T1 T2 T3 T4 T5].
    apply Stay; auto; [rewrite (f_rt _ _ Fr); auto|]. left. eapply krefused_tr; [exact K5|exact Kr|apply (f_ktr _ _ Fr)].
  - apply Ps in Hx; auto. subst x. rewrite Ix.
    destruct (quiet_find e w1 ws (r_ptr r1) r1 Hw1 Qs) as (r2 & F2 & C2); [rewrite P1; auto|]. rewrite F2.
    pose proof (core_metric _ _ C2) as M2. pose proof (core_metric _ _ Cs) as Ms.
    assert (Tu : exists u, trig_urgency rs (r_src r2) (route_metric r2) ws = Some u).
    { unfold trig_urgency. replace ((route_metric r2 >=? INFINITY) && (route_metric rs <? INFINITY)) with true by lia.
      destruct (_ || _); eauto. destruct (_ && _); eauto. destruct (unsatisfied_request _ _ _ _); eauto. }
    destruct Tu as (u & Tu).
    assert (T : told_so e w (send_triggered_update b (r_src r2) (route_metric r2) ws) d).
    { rewrite <- Ds. eapply told_triggered with (w := ws); eauto.
      - rewrite S1. auto.
      - rewrite S2. auto.
      - rewrite S1. auto. }
    pose proof (triggered_frame b (r_src r2) (route_metric r2) ws (W_refs _ _ Hws) ltac:(congruence)) as Fr.
    set (w2 := send_triggered_update b (r_src r2) (route_metric r2) ws) in *.
    assert (Sb : is_selected w2 d rs).
    { eapply is_sel_rt; [apply (f_rt _ _ Fr)|]. split; [eapply find_In; eauto|auto]. }
    pose proof (ts_W _ _ _ _ T) as Hw2.
    assert (Fp : exists r3, find_ptr p w2 = Some r3 /\ core r3 = core r1).
    { exists r2. split; [|auto]. rewrite P1 in F2. unfold find_ptr in *. rewrite (f_rt _ _ Fr). auto. }
    destruct Fp as (r3 & F3 & C3). rewrite F3. pose proof (core_metric _ _ C3) as M3.
    assert (D3 : dest_of r3 = d) by (rewrite <- D1; apply (core_dest _ _ C3)).
    assert (I3 : r_installed r3 = false).
    { destruct (r_installed r3) eqn:X; auto. exfalso.
      assert (S3 : is_selected w2 d r3) by (split; [eapply find_In; eauto|auto]).
      apply (find_installed_iff d) in S3; [|apply (W_rt _ _ Hw2)|auto]. apply (find_installed_iff d) in Sb; [|apply (W_rt _ _ Hw2)|auto].
      rewrite Sb in S3. injection S3 as <-. apply Ne. rewrite <- (find_ptr_ptr _ _ _ Fs). apply (find_ptr_ptr _ _ _ F3). }
    rewrite I3.
    assert (Cp : consider_route p w2 = w2).
    { unfold consider_route. rewrite F3, I3. destruct (negb _); auto. destruct (match find_xroute _ _ with Some _ => _ | None => _ end); auto.
      change (rdest r3) with (dest_of r3). rewrite D3. pose proof Sb as Sb'. apply (find_installed_iff d) in Sb'; [|apply (W_rt _ _ Hw2)|auto].
      rewrite Sb'. replace (route_metric r3 >=? INFINITY) with true by lia. auto. }
    rewrite Cp. split; auto. exists rs. split; auto. left. lia.
Qed.

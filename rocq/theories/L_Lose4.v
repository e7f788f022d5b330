(** L_Lose4.v: a retraction of the selected route, from a neighbour or because the neighbour is lost. *)
From Verif Require Import Base M_Util S_Util L_Util M_Slot L_Slot M_Source S_Source L_Source
  M_Filter M_Types M_Neigh M_State M_Table M_Msg M_Route M_Xroute S_World S_Send S_Pend L_Table L_Step L_Msg L_Smooth L_Quiet
  L_Trace L_Select L_Select2 L_Chain L_Chain2 L_Chain3 L_Flush L_Update L_Update2 L_Xroute M_Daemon L_Daemon L_Inv L_World L_World2 L_World4 L_Send L_Resend4 L_Out L_Request L_Pend
  L_Lose L_Lose2 L_Lose3.
From Coq Require Import Permutation.

(** What becomes of a destination whose selected route [r] of [w] is retracted: *)
Definition outcome (w w' : world) (r : route) : Prop :=
  let d := dest_of r in
  krefused w w' \/
  (announced w w' d /\
   exists r', is_selected w' d r' /\
     (route_metric r' < INFINITY \/
      (r_ptr r' = r_ptr r /\
       forall r1 r1', In r1 (all_routes w) -> dest_of r1 = d -> r_ptr r1 <> r_ptr r ->
         acceptable r1 true None w = true -> route_metric r1 < INFINITY ->
         In r1' (all_routes w') -> r_ptr r1' = r_ptr r1 -> 65535 <= r_smoothed r1'))).

(** Feasibility distances are the same. *)
Definition fdsame (w w' : world) : Prop :=
  forall k s, get_src k (w_srcs w) = Some s -> exists s', get_src k (w_srcs w') = Some s' /\
    s_seqno s' = s_seqno s /\ s_metric s' = s_metric s /\ s_time s' = s_time s.
Lemma fdsame_refl : forall w w', w_srcs w' = w_srcs w -> fdsame w w'.
Proof. intros w w' E k s G. exists s. rewrite E. auto. Qed.
Lemma fdsame_trans : forall a b c, fdsame a b -> fdsame b c -> fdsame a c.
Proof.
  intros a b c A B k s G. destruct (A k s G) as (s1 & G1 & E1 & E2 & E3). destruct (B k s1 G1) as (s2 & G2 & F1 & F2 & F3).
  exists s2. split; auto. split; [congruence|split; congruence].
Qed.
Lemma fdsame_accept : forall e w w' r, W e w -> fdsame w w' -> w_now w' = w_now w -> In r (all_routes w) ->
  acceptable r true None w' = acceptable r true None w.
Proof.
  intros e w w' r Hw Fd N Hr. unfold acceptable, route_expired, feasible, sec. rewrite N.
  assert (X : src_of r w <> None) by (apply (W_refs _ _ Hw); auto). unfold src_of in *.
  destruct (get_src (r_src r) (w_srcs w)) as [s|] eqn:G; [|contradiction].
  destruct (Fd _ _ G) as (s' & G' & E1 & E2 & E3). rewrite G'. unfold update_feasible. rewrite E1, E2, E3. auto.
Qed.
Lemma retain_fd : forall k w, fdsame w (retain_source k w).
Proof.
  intros k w. unfold retain_source. destruct (get_src k (w_srcs w)) as [s0|] eqn:G0; [|apply fdsame_refl; auto].
  destruct (retain_ok s0); [|apply fdsame_refl; auto]. intros k' s. cbn [w_srcs set_w_srcs]. unfold get_src, map_src.
  clear G0. induction (w_srcs w) as [|a l IH]; intros G; [discriminate G|]. cbn [map find] in *.
  destruct (skey_eqb k (s_key a)) eqn:E.
  - cbn [s_key retain1]. destruct (skey_eqb k' (s_key a)) eqn:E'; [|apply IH; auto]. injection G as <-. exists (retain1 a). auto.
  - destruct (skey_eqb k' (s_key a)) eqn:E'; [|apply IH; auto]. injection G as <-. exists a. auto.
Qed.
Lemma find_fd : forall e w k q s t, W e w -> find_source (sec w) k true q (w_srcs w) = (s, t) -> fdsame w (set_w_srcs t w).
Proof.
  intros e w k q s t Hw E. pose proof (find_source_spec (sec w) k true q (w_srcs w) (W_srcs _ _ Hw)) as S.
  destruct (get_src k (w_srcs w)) as [s0|] eqn:G.
  - rewrite S in E. injection E as <- <-. apply fdsame_refl; auto.
  - destruct S as (t1 & t2 & E1 & E2 & S2). rewrite E2 in E. injection E as <- <-. intros k' s' G'.
    exists s'. split; [|auto]. cbn [w_srcs set_w_srcs]. apply get_src_iff in G'; [|apply (W_srcs _ _ Hw)]. apply get_src_iff; auto.
    destruct G' as (G1 & G2). split; auto. rewrite E1 in G1. apply in_app_or in G1. apply in_or_app. simpl. tauto.
Qed.

Lemma changed_from : forall e w w4 p r r4 k m, W e w4 -> (exists e0, W e0 w) -> find_ptr p w = Some r -> find_ptr p w4 = Some r4 ->
  r_installed r4 = true -> route_metric r4 >= INFINITY -> m < INFINITY -> dest_of r4 = dest_of r ->
  w_ifs w4 = w_ifs w -> w_out w4 = w_out w -> kmono w w4 -> w_xr w4 = w_xr w -> w_now w4 = w_now w ->
  (forall q, q <> p -> find_ptr q w4 = find_ptr q w) -> fdsame w w4 ->
  (forall x, ~ ours w (dest_of r) x) -> (forall i, In i (w_ifs w) -> Forall dvalid (if_pend i)) ->
  let w' := route_changed p k m w4 in told_so e w4 w' (dest_of r) /\ (exists r', is_selected w' (dest_of r) r') /\ outcome w w' r.
Proof.
  intros e w w4 p r r4 k m Hw4 (e0 & Hw) F F4 I4 M4 Hm D4 Ei Eo Km Ex En Oth Fd Nx Vp. cbv zeta.
  destruct (changed_lost e w4 p r4 k m Hw4 F4 I4 M4 Hm) as (T & r' & Sr & Why).
  { intros x. rewrite D4. unfold ours. rewrite Ex. apply Nx. }
  { rewrite Ei. auto. }
  set (w' := route_changed p k m w4) in *. rewrite D4 in *. split; auto. split; [eauto|].
  assert (An : announced w w' (dest_of r)).
  { intros i Hi U. destruct (ts_ann _ _ _ _ T i) as [P|(X & A & Y & TA & O)]; auto; [rewrite Ei; auto|].
    right. exists X, A, Y. rewrite <- Eo. auto. }
  destruct Why as [Mf|(Pr & [Kr|Po])].
  - right. split; auto. exists r'. auto.
  - left. eapply refused_l; eauto.
  - right. split; auto. exists r'. split; auto. right. split; [rewrite Pr; symmetry; eapply find_ptr_ptr; eauto|].
    intros r1 r1' H1 D1 N1 A1 M1 H1' P1. apply (Po r1 r1'); auto.
    + rewrite (find_ptr_ptr _ _ _ F) in N1. pose proof (Oth _ N1) as O1.
      assert (F1 : find_ptr (r_ptr r1) w = Some r1) by (apply find_ptr_iff; [apply (W_rt _ _ Hw)|auto]).
      rewrite F1 in O1. eapply find_In; eauto.
    + rewrite (fdsame_accept e0 w w4 r1 Hw Fd En H1). auto.
Qed.

Lemma change_keep : forall e w p r a b c, W e w -> find_ptr p w = Some r -> let w' := change_route_metric p a b c w in
  w_ifs w' = w_ifs w /\ w_out w' = w_out w /\ w_xr w' = w_xr w /\ w_now w' = w_now w.
Proof.
  intros e w p r a b c Hw F. cbv zeta. unfold change_route_metric. rewrite F.
  destruct (W_nbif_ _ _ _ Hw (find_In _ _ _ F)) as (n & i & Nb). rewrite Nb. cbv zeta.
  match goal with |- context [match ?x with (rc, w1) => _ end] => destruct x as [rc w1] eqn:K end.
  assert (KF : kframe w w1).
  { destruct (_ && _); [eapply change_route_modify_frame; eauto|inversion K; apply kframe_refl]. }
  assert (En : w_ifs w1 = w_ifs w /\ w_out w1 = w_out w /\ w_xr w1 = w_xr w /\ w_now w1 = w_now w) by (destruct KF as (? & ? & ->); auto).
  destruct (rc <? 0) eqn:Rc; auto.
  pose proof (W_kframe _ _ _ KF Hw) as Hw1. assert (F1 : find_ptr p w1 = Some r) by (rewrite (kframe_find _ _ _ KF); auto).
  destruct (smoothed_spec e w1 p r Hw1 F1) as (m & rnd & E1 & Q & SW & F2 & Sm). rewrite E1. cbn [snd]. cbn. auto.
Qed.
Lemma effect_inf : forall r b c r', metric_effect r INFINITY b c r' -> route_metric r' >= INFINITY.
Proof.
  intros r b c r' (C & _). unfold route_metric.
  assert (E1 : r_refmetric r' = u16 INFINITY) by exact (f_equal r_refmetric C). assert (E2 : r_cost r' = u16 b) by exact (f_equal r_cost C).
  assert (E3 : r_add_metric r' = u16 c) by exact (f_equal r_add_metric C). rewrite E1, E2, E3.
  assert (0 <= u16 b /\ 0 <= u16 c) by (unfold u16; split; apply Z.mod_pos_bound; lia). change (u16 INFINITY) with 65535. unfold INFINITY. lia.
Qed.

(** The neighbour is lost. *)
Lemma retract1_lost : forall e w r, W e w -> In r (all_routes w) -> r_installed r = true -> route_metric r < INFINITY ->
  (forall x, ~ ours w (dest_of r) x) -> (forall i, In i (w_ifs w) -> Forall dvalid (if_pend i)) ->
  outcome w (retract1 (r_ptr r) w) r.
Proof.
  intros e w r Hw Hr Ir Fm Nx Vp. set (p := r_ptr r).
  assert (F : find_ptr p w = Some r) by (apply find_ptr_iff; [apply (W_rt _ _ Hw)|auto]).
  unfold retract1. rewrite F.
  pose proof (W_rng _ _ Hw r Hr) as Rg.
  assert (Nr : r_refmetric r <> INFINITY).
  { intros E. destruct Rg as (G1 & G2 & G3 & _). unfold route_metric, INFINITY, u16_ok in *. lia. }
  replace (r_refmetric r =? INFINITY) with false by lia. replace (route_metric r =? INFINITY) with false by lia. cbn [negb]. cbv zeta.
  unfold retract_route. destruct (change_spec e w p r INFINITY INFINITY 0 Hw F (retract_args w)) as (C & K & Oth & Sr & r1 & F1 & Ef).
  destruct (change_keep e w p r INFINITY INFINITY 0 Hw F) as (A1 & A2 & A3 & A4).
  set (w1 := change_route_metric p INFINITY INFINITY 0 w) in *. rewrite F1. pose proof (chain_W _ _ _ C Hw) as Hw1.
  destruct Ef as [Ef|(Rt & _ & Kr)].
  - assert (D1 : dest_of r1 = dest_of r). { destruct Ef as (E & _). assert (E1 : r_src r1 = r_src r) by exact (f_equal r_src E). unfold dest_of. rewrite E1. auto. }
    apply (changed_from e w w1 p r r1 (r_src r1) (route_metric r)); auto.
    + eauto.
    + destruct Ef as (_ & ->). auto.
    + eapply effect_inf; eauto.
    + apply (star_log _ _ _ C).
    + apply fdsame_refl; auto.
  - left. eapply refused_r; [exact Kr|]. apply (star_log _ _ _ (changed_chain e w1 p r1 (r_src r1) (route_metric r) Hw1 F1)).
Qed.

(** A retraction is received. *)
Lemma known_retracted : forall e w r k seqno metric cost add hold n,
  W e w -> (length e <= 7)%nat -> In r (all_routes w) -> dest_of_key k = dest_of r ->
  In k (map s_key (w_srcs w)) -> u16_ok seqno -> 15 <= hold -> In n (map n_id (w_nbs w)) -> metric_args w INFINITY cost add ->
  r_installed r = true -> route_metric r < INFINITY ->
  (forall x, ~ ours w (dest_of r) x) -> (forall i, In i (w_ifs w) -> Forall dvalid (if_pend i)) ->
  outcome w (update_known r k true seqno INFINITY metric cost add hold n w) r.
Proof.
  intros e w r k seqno metric cost add hold n Hw Le Hr Dk Hk Us Hh Hn Ma Ir Fm Nx Vp.
  unfold update_known. cbv zeta. set (p := r_ptr r). cbn [negb andb orb].
  assert (F : find_ptr p w = Some r) by (apply find_ptr_iff; [apply (W_rt _ _ Hw)|]; auto).
  pose proof (retain_chain e w k Hw ltac:(lia) Hk) as C2. pose proof (retain_env e w k Hw ltac:(lia) Hk) as Ev2. pose proof (retain_fd k w) as Fd2.
  assert (Ke2 : w_ifs (retain_source k w) = w_ifs w /\ w_out (retain_source k w) = w_out w /\ w_xr (retain_source k w) = w_xr w /\ w_now (retain_source k w) = w_now w /\ w_ktr (retain_source k w) = w_ktr w).
  { unfold retain_source. destruct (get_src k (w_srcs w)) as [s0|]; [destruct (retain_ok s0)|]; cbn; auto 10. }
  set (w2 := retain_source k w) in *. pose proof (star_W _ _ _ _ _ C2 Hw) as Hw2.
  assert (R2 : w_rt w2 = w_rt w) by apply retain_rt.
  assert (F2 : find_ptr p w2 = Some r) by (rewrite (rt_find w w2 p R2); auto).
  set (w3a := map_ptr p (set_r_src k) w2).
  assert (S3a : mstep false (k :: e, w2) (r_src r :: e, w3a)).
  { apply S_setsrc; auto. }
  pose proof (star_W _ _ _ _ _ (star_loud _ _ _ S3a) Hw2) as Hw3a.
  assert (F3a : find_ptr p w3a = Some (set_r_src k r)) by (apply map_ptr_find; auto).
  set (w3 := map_ptr p (fun r0 => set_r_seqno seqno (set_r_time (if INFINITY <? INFINITY then sec w else r_time r0) (set_r_src k r0))) w2).
  assert (E3 : w3 = map_ptr p (fun r0 => set_r_seqno seqno (set_r_time (r_time r) (set_r_hold_time (r_hold_time r) r0))) w3a).
  { unfold w3, w3a. rewrite map_ptr_comp by reflexivity. eapply map_ptr_ext; [apply (W_rt _ _ Hw2)|exact F2|]. reflexivity. }
  assert (S3 : mstep false (r_src r :: e, w3a) (r_src r :: e, w3)) by (rewrite E3; apply S_touch; auto; apply (W_rng _ _ Hw2 r (find_In _ _ _ F2))).
  pose proof (star_W _ _ _ _ _ (star_loud _ _ _ S3) Hw3a) as Hw3.
  assert (F3 : exists r3, find_ptr p w3 = Some r3 /\ r_installed r3 = r_installed r /\ r_src r3 = k).
  { eexists. split; [apply map_ptr_find; [reflexivity|exact F2]|split; reflexivity]. }
  destruct F3 as (r3 & F3 & I3 & X3).
  assert (Ma3 : metric_args w3 INFINITY cost add).
  { apply (args_env w2); [constructor; auto|]. apply (args_env w); auto. }
  destruct (change_spec (r_src r :: e) w3 p r3 INFINITY cost add Hw3 F3 Ma3) as (C4 & K4 & Oth & Sr4 & r4 & F4 & Ef).
  destruct (change_keep (r_src r :: e) w3 p r3 INFINITY cost add Hw3 F3) as (A1 & A2 & A3 & A4).
  set (w4a := change_route_metric p INFINITY cost add w3) in *.
  pose proof (chain_W _ _ _ C4 Hw3) as Hw4a.
  set (w4 := map_ptr p (set_r_hold_time hold) w4a).
  assert (S4 : mstep false (r_src r :: e, w4a) (r_src r :: e, w4)).
  { unfold w4. rewrite (map_ptr_ext w4a p r4 _ (fun r0 => set_r_seqno (r_seqno r4) (set_r_time (r_time r4) (set_r_hold_time hold r0)))).
    - apply S_touch; auto. pose proof (W_rng _ _ Hw4a r4 (find_In _ _ _ F4)) as G. apply G.
    - apply (W_rt _ _ Hw4a).
    - auto.
    - reflexivity. }
  pose proof (star_W _ _ _ _ _ (star_loud _ _ _ S4) Hw4a) as Hw4.
  assert (F4' : find_ptr p w4 = Some (set_r_hold_time hold r4)) by (apply map_ptr_find; auto).
  pose proof (changed_chain (r_src r :: e) w4 p _ (r_src r) (route_metric r) Hw4 F4') as Q5.
  destruct Ke2 as (B1 & B2 & B3 & B4 & B5).
  assert (Km : kmono w w4).
  { apply kmono_trans with w3; [apply kmono_same; exact B5|]. apply kmono_trans with w4a; [apply (star_log _ _ _ C4)|apply kmono_same; reflexivity]. }
  assert (Lw : forall x, release_source (r_src r) x = release_source (r_src r) x) by auto.
  destruct Ef as [Ef|(Rt & _ & Kr)].
  - destruct (changed_from (r_src r :: e) w w4 p r (set_r_hold_time hold r4) (r_src r) (route_metric r)) as (T & (r' & Sr') & Out); auto.
    + eauto.
    + destruct Ef as (_ & Ef). cbn [r_installed set_r_hold_time]. congruence.
    + change (route_metric (set_r_hold_time hold r4)) with (route_metric r4). eapply effect_inf; eauto.
    + change (dest_of (set_r_hold_time hold r4)) with (dest_of r4). destruct Ef as (E & _).
      assert (E1 : r_src r4 = r_src r3) by exact (f_equal r_src E). unfold dest_of at 1. rewrite E1, X3. exact Dk.
    + cbn. rewrite A1. exact B1.
    + cbn. rewrite A2. exact B2.
    + cbn. rewrite A3. exact B3.
    + cbn. rewrite A4. exact B4.
    + intros q Nq. unfold w4. rewrite find_other by auto. rewrite Oth by auto. unfold w3. rewrite find_other by auto. apply rt_find; auto.
    + eapply fdsame_trans; [exact Fd2|]. apply fdsame_refl. cbn. exact Sr4.
    + set (w5 := route_changed p (r_src r) (route_metric r) w4) in *.
      assert (Fi : find_installed (kdest k) w5 = Some r').
      { change (kdest k) with (dest_of_key k). rewrite Dk. apply (find_installed_iff (dest_of r)); auto.
        - apply (W_rt _ _ (ts_W _ _ _ _ T)).
        - apply (route_dvalid w r (W_rt _ _ Hw) Hr). }
      rewrite Fi, andb_false_r.
      destruct (released (r_src r) w5) as (L1 & L2 & L3 & L4 & L5 & L6 & L7 & L8 & L9). set (w' := release_source (r_src r) w5) in *.
      destruct Out as [Kr|(An & r2 & S2 & Why)].
      * left. eapply krefused_tr; [reflexivity|exact Kr|exact L8].
      * right. split.
        -- intros i Hi U. destruct (An i Hi U) as [P|(X & A & Y & TA & O)].
           ++ left. unfold pending in *. rewrite L2. auto.
           ++ right. exists X, A, Y. rewrite L3. split; auto. apply (told_env w' w5); auto.
        -- exists r2. split; [eapply is_sel_rt; eauto|]. destruct Why as [Why|(P2 & Why)]; [left; auto|right; split; auto].
           intros r1 r1' H1 H2 H3 H4 H5 H6. apply (Why r1 r1'); auto. unfold all_routes in *. rewrite L1 in H6. auto.
  - left. eapply refused_l with (b := w3); [apply kmono_same; exact B5|]. eapply refused_r; [exact Kr|].
    apply kmono_trans with w4; [apply kmono_same; reflexivity|]. set (w5 := route_changed p (r_src r) (route_metric r) w4) in *.
    apply kmono_trans with w5; [apply (star_log _ _ _ Q5)|].
    match goal with |- kmono w5 (release_source _ ?x) => set (w6 := x) end.
    apply kmono_trans with w6; [|apply kmono_same; apply released].
    unfold w6. destruct (_ && _); [|apply kmono_same; auto]. pose proof (quiet_W _ _ _ Q5 Hw4) as Hw5.
    assert (Q6 : quiet (r_src r :: e) w5 (route_lost (r_src r) (route_metric r) w5)).
    { apply lost_chain; auto. apply get_src_keys. apply (W_ref _ _ Hw5). simpl. auto. }
    apply (star_log _ _ _ Q6).
Qed.

(** The metric of the selected route is computed again, and it turns out infinite: it
    expired, or the link to the neighbour is down. *)
Lemma urm_lost : forall e w r r', W e w -> In r (all_routes w) -> r_installed r = true -> route_metric r < INFINITY ->
  (forall x, ~ ours w (dest_of r) x) -> (forall i, In i (w_ifs w) -> Forall dvalid (if_pend i)) ->
  let w' := update_route_metric (r_ptr r) w in
  In r' (all_routes w') -> r_ptr r' = r_ptr r -> route_metric r' >= INFINITY -> outcome w w' r.
Proof.
  intros e w r r' Hw Hr Ir Fm Nx Vp. cbv zeta. intros Hr' Pr' Mr'. set (p := r_ptr r) in *.
  assert (F : find_ptr p w = Some r) by (apply find_ptr_iff; [apply (W_rt _ _ Hw)|auto]).
  pose proof (chain_W _ _ _ (on_chain _ _ _ _ (proj1 (urm_spec e w p r Hw F))) Hw) as HwF.
  assert (Fr' : find_ptr p (update_route_metric p w) = Some r') by (apply find_ptr_iff; [apply (W_rt _ _ HwF)|auto]).
  clear Hr' Pr'. revert Fr'. unfold update_route_metric. rewrite F.
  destruct (smoothed_spec e w p r Hw F) as (m & rnd & E1 & Q & SW & F1 & _).
  assert (Oth1 : forall q, q <> p -> find_ptr q (map_ptr p (smooth_upd m (sec w)) (set_w_rnd rnd w)) = find_ptr q w)
    by (intros q Nq; rewrite find_other; auto).
  set (w1 := map_ptr p (smooth_upd m (sec w)) (set_w_rnd rnd w)) in *. rewrite E1.
  destruct (smw_keep _ _ SW) as (B1 & B2 & B3 & B4 & B5). pose proof (smw_now _ _ SW) as B6. pose proof (smw_srcs _ _ SW) as B7. clearbody w1.
  set (r1 := smooth_upd m (sec w) r) in *.
  pose proof (quiet_W _ _ _ Q Hw) as Hw1.
  assert (X1 : r_src r1 = r_src r) by reflexivity. assert (M1 : route_metric r1 = route_metric r) by reflexivity.
  destruct (route_expired r w) eqn:Ex.
  - assert (Rf : r_refmetric r <? INFINITY = true).
    { pose proof (W_rng _ _ Hw r Hr) as (G1 & G2 & G3 & _). unfold route_metric, INFINITY, u16_ok in *. lia. }
    rewrite Rf.
    assert (Src : exists s, src_of r w1 = Some s).
    { unfold src_of. destruct (get_src (r_src r) (w_srcs w1)) as [s|] eqn:G; [eauto|]. exfalso.
      revert G. apply get_src_keys. apply (W_ref _ _ Hw1). left. rewrite <- X1. apply in_map. apply (find_In _ _ _ F1). }
    destruct Src as (s & Hs). rewrite Hs. cbv zeta.
    set (w2 := map_ptr p (set_r_seqno (seqno_plus (s_seqno s) 1)) w1).
    assert (O2 : only p e w1 w2) by (eapply seqno_only; eauto; apply seqno_plus_ok).
    pose proof (only_W _ _ _ _ O2 Hw1) as Hw2.
    assert (F2 : find_ptr p w2 = Some (set_r_seqno (seqno_plus (s_seqno s) 1) r1)) by (apply map_ptr_find; auto).
    destruct (change_spec e w2 p _ INFINITY INFINITY 0 Hw2 F2 (retract_args w2)) as (C3 & K3 & O3 & S3 & r3 & F3 & E3).
    destruct (change_keep e w2 p _ INFINITY INFINITY 0 Hw2 F2) as (A1 & A2 & A3 & A4).
    change (change_route_metric p INFINITY INFINITY 0 w2) with (retract_route p w2) in *. set (w3 := retract_route p w2) in *.
    pose proof (chain_W _ _ _ C3 Hw2) as Hw3. replace (route_metric r <? INFINITY) with true by lia. intros _.
    destruct E3 as [E3|(E3 & I3 & R3)].
    + apply (changed_from e w w3 p r r3 (r_src r) (route_metric r)); auto.
      * eauto.
      * destruct E3 as (_ & ->). exact Ir.
      * eapply effect_inf; eauto.
      * destruct E3 as (E & _). assert (E4 : r_src r3 = r_src r) by exact (f_equal r_src E). unfold dest_of. rewrite E4. auto.
      * rewrite A1. exact B1.
      * rewrite A2. exact B2.
      * apply kmono_trans with w2; [apply kmono_same; exact B5|apply (star_log _ _ _ C3)].
      * rewrite A3. exact B4.
      * rewrite A4. exact B6.
      * intros q Nq. rewrite O3 by auto. unfold w2. rewrite find_other by auto. auto.
      * apply fdsame_refl. rewrite S3. exact B7.
    + left. apply (refused_l w w2); [apply kmono_same; exact B5|]. eapply refused_r; [exact R3|].
      apply (star_log _ _ _ (changed_chain e w3 p r3 (r_src r) (route_metric r) Hw3 F3)).
  - destruct (W_nbif_ _ _ _ Hw1 (find_In _ _ _ F1)) as (n & i & Nb). change (r_neigh r1) with (r_neigh r) in Nb.
    rewrite Nb. cbv zeta.
    match goal with |- context [change_route_metric p ?a ?b ?c w1] => set (A := a); set (B := b); set (D := c) end.
    assert (Ma : metric_args w1 A B D).
    { split; [pose proof (W_rng _ _ Hw1 r1 (find_In _ _ _ F1)) as G; apply G|].
      split; right; [|unfold D; eauto]. destruct (nb_if_In _ _ _ _ Nb) as (In1 & In2).
      exists n, i. split; [exact In1|]. split; [apply in_map; exact In2|reflexivity]. }
    destruct (change_spec e w1 p r1 A B D Hw1 F1 Ma) as (C2 & K2 & Oth & S2 & r2 & F2 & E2).
    destruct (change_keep e w1 p r1 A B D Hw1 F1) as (A1 & A2 & A3 & A4).
    set (w2 := change_route_metric p A B D w1) in *. rewrite F2. pose proof (chain_W _ _ _ C2 Hw1) as Hw2.
    match goal with |- find_ptr p ?x = _ -> _ => set (w4 := x) end. intros F4.
    assert (Q4 : quiet e w2 w4).
    { unfold w4. destruct (negb _); [eapply changed_chain; eauto|].
      destruct (smoothed_spec e w2 p r2 Hw2 F2) as (m3 & rnd3 & E3 & Q3 & _ & F3 & _). rewrite E3.
      destruct (negb _); [|exact Q3]. eapply quiet_trans; [exact Q3|].
      eapply changed_chain; eauto. eapply quiet_W; eauto. }
    destruct (quiet_find _ _ _ _ _ Hw2 Q4 F2) as (r4 & F4' & E4). rewrite F4 in F4'. injection F4' as <-. apply core_metric in E4.
    destruct E2 as [E2|(E2 & I2 & R2)].
    + unfold w4. replace (route_metric r2 =? route_metric r) with false by lia. cbn [negb].
      apply (changed_from e w w2 p r r2 (r_src r) (route_metric r)); auto.
      * eauto.
      * destruct E2 as (_ & ->). exact Ir.
      * lia.
      * destruct E2 as (E & _). assert (E5 : r_src r2 = r_src r) by exact (f_equal r_src E). unfold dest_of. rewrite E5. auto.
      * rewrite A1. exact B1.
      * rewrite A2. exact B2.
      * apply kmono_trans with w1; [apply kmono_same; exact B5|apply (star_log _ _ _ C2)].
      * rewrite A3. exact B4.
      * rewrite A4. exact B6.
      * intros q Nq. rewrite Oth by auto. auto.
      * apply fdsame_refl. rewrite S2. exact B7.
    + left. apply (refused_l w w1); [apply kmono_same; exact B5|]. eapply refused_r; [exact R2|]. apply (star_log _ _ _ Q4).
Qed.

(** A retraction is received from the neighbour. *)
Lemma update_retracted : forall e w id d seqno interval n nexthop r nb ifp, W e w -> (length e <= 7)%nat -> dvalid d -> u16_ok seqno ->
  nb_if n w = Some (nb, ifp) -> input_filter (c_infs (w_cfg w)) id d (Some (n_addr nb)) (if_ifindex ifp) < INFINITY ->
  id <> Some (c_myid (w_cfg w)) -> martian_prefix (d_prefix d) (d_plen d) = false -> martian_prefix (d_src d) (d_splen d) = false ->
  v4mapped (d_prefix d) = v4mapped (d_src d) ->
  is_selected w d r -> r_neigh r = n -> route_metric r < INFINITY ->
  (forall x, ~ ours w d x) -> (forall i, In i (w_ifs w) -> Forall dvalid (if_pend i)) ->
  outcome w (update_route id d seqno INFINITY interval n nexthop w) r.
Proof.
  intros e w id d seqno interval n nexthop r nb ifp Hw Le V Us Nb Inp Nid M1 M2 Vm (Hr & Ir & Dr) Nr Fm Nx Vp.
  unfold update_route. cbv zeta.
  replace (match id with None => INFINITY <? INFINITY | Some i => beq i (c_myid (w_cfg w)) end) with false.
  2:{ destruct id as [i|]; auto. symmetry. destruct (beq i (c_myid (w_cfg w))) eqn:B; auto. apply beq_true in B. congruence. }
  rewrite M1, M2, Vm, eqb_reflx, Nb. cbn [orb negb].
  set (add := input_filter _ _ _ _ _) in *. replace (add >=? INFINITY) with false by lia. set (cost := neighbour_cost _ _ _).
  assert (Ma : metric_args w INFINITY cost add).
  { split; [unfold u16_ok, INFINITY; lia|]. split; right; [|unfold add; eauto]. destruct (nb_if_In _ _ _ _ Nb) as (In1 & In2).
    exists nb, ifp. split; [exact In1|]. split; [apply in_map; exact In2|reflexivity]. }
  assert (Hn : In n (map n_id (w_nbs w))).
  { destruct (proj1 (nb_if_iff e w n nb ifp Hw) Nb) as (X1 & X2 & _). apply in_map_iff. exists nb. auto. }
  assert (Fr : find_route d n w = Some r).
  { pose proof (find_route_iff d n w (W_rt _ _ Hw) V) as Fi. destruct (find_route d n w) as [x|] eqn:Fx.
    - destruct (find_route_In _ _ _ _ (W_rt _ _ Hw) V Fx) as (H1 & H2 & H3). f_equal.
      apply (one_route w x r (W_rt _ _ Hw)); auto; congruence.
    - exfalso. assert (X : exists r0, In r0 (all_routes w) /\ dest_of r0 = d /\ r_neigh r0 = n) by eauto.
      apply Fi in X. apply X. reflexivity. }
  rewrite Fr. set (i := match id with Some i => i | None => k_id (r_src r) end).
  assert (Hk : In (r_src r) (map s_key (w_srcs w))) by (apply (W_ref _ _ Hw); left; apply in_map; auto).
  destruct (beq (k_id (r_src r)) i) eqn:B.
  - destruct (src_of r w) as [s|] eqn:Sr; [|exfalso; unfold src_of in Sr; apply get_src_keys in Hk; contradiction].
    assert (Fe : update_feasible (sec w) (Some s) seqno INFINITY = true).
    { unfold update_feasible. rewrite Z.geb_leb, Z.leb_refl. destruct (_ <? _); auto. }
    rewrite Fe. apply (known_retracted e); auto using hold_15. rewrite Dr. auto.
  - destruct (find_source (sec w) (mkey i d) true seqno (w_srcs w)) as [s t] eqn:Fs.
    destruct (found_key _ _ _ _ _ _ (W_srcs _ _ Hw) Fs) as (Hk1 & Sn).
    pose proof (find_fd e w _ _ _ _ Hw Fs) as Fd. set (w1 := set_w_srcs t w) in *.
    assert (C1 : chain e w w1).
    { eapply chain_step. pose proof (S_find e w (mkey i d) seqno Us) as H. rewrite Fs in H. exact H. }
    pose proof (chain_W _ _ _ C1 Hw) as Hw1.
    destruct s as [s|]; [|contradiction].
    assert (Fe : update_feasible (sec w) (Some s) seqno INFINITY = true).
    { unfold update_feasible. rewrite Z.geb_leb, Z.leb_refl. destruct (_ <? _); auto. }
    rewrite Fe.
    pose proof (known_retracted e w1 r (mkey i d) seqno (Z.min (INFINITY + cost + add) INFINITY) cost add (hold_time interval) n Hw1 Le Hr) as K.
    destruct K as [K|(An & r' & S' & Why)]; auto using hold_15.
    + rewrite mkey_dest; auto.
    + rewrite Dr. exact Nx.
    + left. exact K.
    + right. split; [exact An|]. exists r'. split; auto. destruct Why as [Why|(P' & Why)]; [left; auto|right; split; auto].
      intros r1 r1' H1 H2 H3 H4 H5 H6 H7. apply (Why r1 r1'); auto. rewrite (fdsame_accept e w w1 r1 Hw Fd eq_refl H1). auto.
Qed.

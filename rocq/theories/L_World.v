(** L_World.v: the invariants of the state restated in the vocabulary of S_World. *)
From Verif Require Import Base M_Util S_Util L_Util M_Slot L_Slot M_Source S_Source L_Source
  M_Filter S_Filter L_Filter M_Types M_Neigh S_Neigh L_Neigh M_State M_Table M_Msg M_Route M_Xroute S_World M_Daemon
  L_Table L_Step L_Msg L_Smooth L_Quiet L_Select L_Select2 L_Chain L_Chain2 L_Chain3 L_Flush L_Update L_Update2
  L_Xroute L_Daemon L_Inv.
From Coq Require Import Permutation Sorting.Sorted.

(** ** Order *)
Lemma memcmp_lt : forall a b, memcmp a b < 0 -> bytes_lt a b.
Proof.
  induction a as [|x a IH]; destruct b as [|y b]; cbn [memcmp]; intros H; try lia.
  - constructor.
  - destruct (x <? y) eqn:E; [constructor; lia|]. destruct (y <? x) eqn:E2; [lia|].
    replace y with x by lia. apply bl_same. auto.
Qed.
Lemma is_default_any : forall d, is_default (d_src d) (d_splen d) = true <-> any_source d.
Proof.
  intros. unfold is_default, any_source, v4mapped, memcmp_n.
  rewrite orb_true_iff, andb_true_iff, !Z.eqb_eq, memcmp_0. tauto.
Qed.
Lemma andthen_lt : forall a b, andthen a b < 0 -> a < 0 \/ (a = 0 /\ b < 0).
Proof. unfold andthen. intros a b. destruct (a =? 0) eqn:E; intros; [right|left]; lia. Qed.
Lemma zcmp_lt : forall a b, zcmp a b < 0 -> a < b.
Proof. unfold zcmp. intros a b. destruct (a <? b) eqn:E; [lia|]. destruct (a >? b); lia. Qed.
Lemma ccmp_before : forall a b, ccmp (ckey a) (ckey b) < 0 -> dest_before a b.
Proof.
  intros a b H. unfold ccmp, ckey in H. pose proof (is_default_any a) as A. pose proof (is_default_any b) as B.
  destruct (is_default (d_src a) (d_splen a)); destruct (is_default (d_src b) (d_splen b)); cbn [negb b2z] in H.
  - assert (E : any_source a <-> any_source b) by tauto.
    apply andthen_lt in H. destruct H as [H|[_ H]]; [apply zcmp_lt in H; cbv in H; discriminate|].
    apply andthen_lt in H. destruct H as [H|[E1 H]]; [apply db_prefix; auto; apply memcmp_lt; auto|].
    apply memcmp_0 in E1. apply andthen_lt in H. destruct H as [H|[E2 H]]; [apply db_plen; auto; apply zcmp_lt; auto|].
    cbv in H. discriminate.
  - apply andthen_lt in H. destruct H as [H|[H _]]; [apply zcmp_lt in H; cbv in H; discriminate|cbv in H; discriminate].
  - apply db_specific; intuition congruence.
  - assert (Na : ~ any_source a) by intuition congruence. assert (Nb : ~ any_source b) by intuition congruence.
    assert (E : any_source a <-> any_source b) by tauto.
    apply andthen_lt in H. destruct H as [H|[_ H]]; [apply zcmp_lt in H; cbv in H; discriminate|].
    apply andthen_lt in H. destruct H as [H|[E1 H]]; [apply db_prefix; auto; apply memcmp_lt; auto|].
    apply memcmp_0 in E1. apply andthen_lt in H. destruct H as [H|[E2 H]]; [apply db_plen; auto; apply zcmp_lt; auto|].
    apply (proj1 (zcmp_0 _ _)) in E2. apply andthen_lt in H. destruct H as [H|[E3 H]]; [apply db_src; auto; apply memcmp_lt; auto|].
    apply memcmp_0 in E3. apply zcmp_lt in H. apply db_splen; auto.
Qed.

Lemma table_wf : forall c w, c_half_life c <> 2 -> reach c w ->
  StronglySorted (fun l l' => forall r r', In r l -> In r' l' -> dest_before (dest_of r) (dest_of r')) (w_rt w) /\
  Forall slot_wf (w_rt w) /\
  (forall d r r', is_selected w d r -> is_selected w d r' -> r = r') /\
  (forall d r, dvalid d -> find_installed d w = Some r <-> is_selected w d r).
Proof.
  intros c w H R. destruct (reach_W c w H R) as (Hw & _). pose proof (W_rt _ _ Hw) as Wf.
  assert (F : forall d r, dvalid d -> find_installed d w = Some r <-> is_selected w d r)
    by (intros; apply find_installed_iff; auto).
  split; [|split; [apply (wf_slots _ Wf)|split; auto]].
  - pose proof (wf_slots _ Wf) as Sl. pose proof (wf_sorted _ Wf) as So. unfold rsorted, ksorted in So.
    revert Sl So. generalize (w_rt w). induction l as [|x l IH]; intros Sl So; constructor.
    + apply IH; [inversion Sl; auto|inversion So; auto].
    + inversion So; subst. inversion Sl; subst. rewrite Forall_forall in *. intros y Hy r r' Hr Hr'.
      apply ccmp_before. rewrite <- (slot_key x r), <- (slot_key y r'); auto. apply (H3 y Hy).
  - intros d r r' S S'. pose proof S as (Hr & _ & D). pose proof (route_dvalid _ _ Wf Hr) as V. rewrite D in V.
    apply F in S; auto. apply F in S'; auto. congruence.
Qed.

(** ** Feasibility *)
Lemma get_src_In : forall k t s, get_src k t = Some s -> In s t /\ s_key s = k.
Proof.
  intros k t s H. unfold get_src in H. apply find_some in H. destruct H as (H & E). split; auto.
  apply skey_eqb_true in E. auto.
Qed.
Lemma src_unique : forall t s s', ssorted t -> In s t -> In s' t -> s_key s = s_key s' -> s = s'.
Proof. intros. eapply (sorted_key_inj skey_compare); eauto. apply skey_compare_refl. Qed.
Lemma route_src : forall e w r, W e w -> In r (all_routes w) ->
  exists s, get_src (r_src r) (w_srcs w) = Some s /\ In s (w_srcs w) /\ s_key s = r_src r.
Proof.
  intros e w r Hw Hr. pose proof (W_ref _ _ Hw (r_src r) (or_introl (in_map r_src _ _ Hr))) as K.
  apply get_src_keys in K. destruct (get_src (r_src r) (w_srcs w)) as [s|] eqn:E; [|contradiction].
  exists s. split; auto. apply get_src_In; auto.
Qed.
Lemma feasible_in_iff : forall e w r, W e w -> rng w -> In r (all_routes w) ->
  (feasible r w = true <-> feasible_in w r).
Proof.
  intros e w r Hw G Hr. destruct (route_src _ _ _ Hw Hr) as (s & Es & Hs & Ks).
  pose proof (W_rng _ _ Hw r Hr) as Rg. unfold feasible, src_of, feasible_in, feas_cond. rewrite Es.
  rewrite feasible_iff; [|apply (rg_srcs _ G); auto|apply Rg]. split.
  - intros C. exists s. auto.
  - intros (s' & Hs' & Ks' & C). assert (s' = s) by (eapply src_unique; eauto; [apply (W_srcs _ _ Hw)|congruence]).
    subst. auto.
Qed.

(** ** The log of selections *)
Lemma mstep_sel : forall b s t, mstep b s t -> W (fst s) (snd s) -> rng (snd s) ->
  exists l, w_sel (snd t) = w_sel (snd s) ++ l /\ Forall sel_fine l.
Proof.
  assert (N : forall w w' : world, w_sel w' = w_sel w -> exists l, w_sel w' = w_sel w ++ l /\ Forall sel_fine l).
  { intros w w' E. exists []. rewrite app_nil_r. auto. }
  assert (Fe : forall e w r p, W e w -> rng w -> find_ptr p w = Some r -> feasible r w = true ->
    exists s, src_of r w = Some s /\ s_key s = r_src r /\ feas_cond (sec w) s (r_seqno r) (r_refmetric r)).
  { intros e w r p Hw G F Fe. apply find_In in F. destruct (route_src _ _ _ Hw F) as (s & Es & Hs & Ks).
    exists s. split; auto. split; auto. unfold feasible, src_of in Fe. rewrite Es in Fe.
    apply feasible_iff in Fe; auto; [apply (rg_srcs _ G); auto|apply (W_rng _ _ Hw r F)]. }
  intros b s t H. destruct H; cbn [fst snd]; intros Hw G; try (apply N; reflexivity).
  - apply N. apply H.
  - apply change_route_add_frame, kframe_sel in H4. destruct H4 as (K1 & K2).
    exists [mkSel r (src_of r w) (sec w) None]. rewrite move_sel. cbn. rewrite K1. split; auto.
    constructor; auto. split; cbn; [|discriminate]. destruct (Fe e w r p Hw G H H1) as (s & E). exists s. auto.
  - apply change_route_add_frame, kframe_sel in H2. apply N. apply H2.
  - destruct (change_route_flush _ _ _ _) as [rc w1] eqn:E. apply change_route_flush_frame, kframe_sel in E.
    apply N. cbn [snd]. rewrite (proj1 E). reflexivity.
  - apply change_route_modify_frame, kframe_sel in H8. destruct H8 as (K1 & K2).
    exists [mkSel rn (src_of rn w) (sec w) (Some ro)]. rewrite move_sel. cbn. rewrite K1. split; auto.
    constructor; auto. split; cbn.
    + destruct (Fe e w rn p Hw G H0 H4) as (s & E). exists s. auto.
    + intros o' E. injection E as <-. split; auto. destruct H5 as (B1 & B2). unfold finite, metric_of.
      unfold route_metric, INFINITY in *. split; [lia|]. intros Fo. destruct B2; [lia|]. lia.
  - apply change_route_modify_frame, kframe_sel in H2. apply N. apply H2.
  - apply N. cbn. destruct (_ && _); [apply change_route_modify_frame, kframe_sel in H1; apply H1|].
    inversion H1; subst. reflexivity.
  - apply N. unfold unlink_route. destruct (find_route_slot _ _); reflexivity.
Qed.
Lemma star_sel : forall q s t, star q s t -> W (fst s) (snd s) -> rng (snd s) ->
  exists l, w_sel (snd t) = w_sel (snd s) ++ l /\ Forall sel_fine l.
Proof.
  induction 1; intros Hw G.
  - exists []. rewrite app_nil_r. auto.
  - destruct (mstep_sel _ _ _ H0 Hw G) as (l & E & F). destruct IHstar as (m & E2 & F2).
    + eapply W_mstep; eauto.
    + eapply rng_mstep; eauto.
    + exists (l ++ m). rewrite E2, E, app_assoc. split; auto. apply Forall_app. auto.
Qed.
Lemma run1_sel : forall w ev, W [] w -> rng w -> allowed ev w ->
  exists l, w_sel (run1 ev w) = w_sel w ++ l /\ Forall sel_fine l.
Proof.
  intros w ev Hw G A. destruct (run1_cases w ev Hw A) as [O | [C | (id & d & q & m & iv & n & nh & _ & U)]].
  - exists []. rewrite app_nil_r. destruct O; auto.
  - apply (star_sel _ _ _ C); auto.
  - destruct U as [C | w1 r w2 S I E C _ _ _ _]; [apply (star_sel _ _ _ C); auto|].
    destruct (star_sel _ _ _ S Hw G) as (l & E1 & F1). cbn [snd] in E1.
    assert (W1 : W [r_src r] w1) by (apply (W_star _ _ _ S); auto).
    assert (G1 : rng w1) by (apply (rng_star _ _ _ S); auto).
    destruct (star_sel _ _ _ C) as (l' & E2 & F2); cbn [fst snd] in *.
    + apply (W_istep _ _ I). auto.
    + rewrite E. apply rng_insert. revert G1. apply rng_same; auto.
    + exists (l ++ l'). rewrite E2, E, app_assoc. split; [|apply Forall_app; auto]. f_equal. rewrite <- E1.
      unfold insert_route. destruct (find_route_slot _ _); reflexivity.
Qed.

Lemma selected_feasible : forall c w ev, c_half_life c <> 2 -> reach c w -> allowed ev w ->
  exists l, w_sel (run1 ev w) = w_sel w ++ l /\ Forall sel_fine l /\
    forall r, In r (all_routes (run1 ev w)) -> r_installed r = true ->
      (exists r0, In r0 (all_routes w) /\ r_ptr r0 = r_ptr r /\ r_installed r0 = true) \/
      (exists e, In e l /\ r_ptr (e_new e) = r_ptr r).
Proof.
  intros c w ev H R A. destruct (reach_W c w H R) as (Hw & _). pose proof (reach_rng c w H R) as G.
  destruct (run1_sel w ev Hw G A) as (l & E & F). destruct (run1_logged w ev Hw A) as (l' & L).
  assert (l' = l) by (pose proof (lg_sel _ _ _ L); rewrite E in *; eapply app_inv_head; eauto). subst l'.
  exists l. split; auto. split; auto. apply (lg_new _ _ _ L).
Qed.
Lemma log_fine : forall c w, c_half_life c <> 2 -> reach c w -> Forall sel_fine (w_sel w).
Proof.
  intros c w H R. induction R; [constructor|]. destruct (selected_feasible c w ev H R H0) as (l & E & F & _).
  rewrite E. apply Forall_app. auto.
Qed.

(** ** References *)
Lemma refs_ok : forall c w, c_half_life c <> 2 -> reach c w ->
  (forall s, In s (w_srcs w) -> s_count s = Z.of_nat (users (s_key s) w)) /\
  (forall r, In r (all_routes w) -> exists s, In s (w_srcs w) /\ s_key s = r_src r) /\
  (forall r, In r (all_routes w) -> exists n, In n (w_nbs w) /\ n_id n = r_neigh r) /\
  (forall n, In n (w_nbs w) -> exists i, In i (w_ifs w) /\ if_id i = n_if n) /\
  (forall r i, In r (w_rsd w) -> rs_ifp r = Some i -> exists x, In x (w_ifs w) /\ if_id x = i) /\
  w_bad w = false.
Proof.
  intros c w H R. destruct (reach_W c w H R) as (Hw & _). split; [|split; [|split; [|split; [|split]]]].
  - intros s Hs. rewrite (W_cnt _ _ Hw s Hs). cbn [count_occ]. f_equal. lia.
  - intros r Hr. destruct (route_src _ _ _ Hw Hr) as (s & _ & Hs). eauto.
  - intros r Hr. pose proof (W_nb _ _ Hw r Hr) as K. apply in_map_iff in K. destruct K as (n & E & Hn). eauto.
  - intros n Hn. pose proof (W_nbif _ _ Hw n Hn) as K. apply in_map_iff in K. destruct K as (i & E & Hi). eauto.
  - intros r i Hr E. pose proof (W_rsd _ _ Hw i) as K. rewrite <- E in K. specialize (K (in_map rs_ifp _ _ Hr)).
    apply in_map_iff in K. destruct K as (x & Ex & Hx). eauto.
  - apply (W_bad _ _ Hw).
Qed.

Lemma expire_unused : forall w s, In s (w_srcs w) -> ~ In (s_key s) (map s_key (w_srcs (run1 EvExpireSources w))) ->
  s_count s = 0 /\ Z.min (s_time s) (now_s w) < now_s w - 200.
Proof.
  intros w s Hs N. cbn [run1 w_srcs set_w_srcs] in N. rewrite expire_sources_alt in N.
  change (now_s w) with (sec w). destruct ((s_count s =? 0) && (Z.min (s_time s) (sec w) <? sec w - 200)) eqn:E.
  - apply andb_prop in E. lia.
  - exfalso. apply N. rewrite map_map. apply in_map_iff. exists s. split; [reflexivity|].
    apply filter_In. split; auto. unfold expired_src, SOURCE_GC_TIME.
    replace (if s_time s >? sec w then sec w else s_time s) with (Z.min (s_time s) (sec w)); [rewrite E; auto|].
    destruct (s_time s >? sec w) eqn:T; lia.
Qed.

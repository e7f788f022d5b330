(** L_Inv.v: further invariants: ranges of the fields of interfaces, neighbours
    and sources; destinations and next hops of routes. *)
From Verif Require Import Base M_Util S_Util L_Util M_Slot L_Slot M_Source S_Source L_Source
  M_Filter S_Filter L_Filter M_Types M_Neigh S_Neigh L_Neigh M_State M_Table M_Msg M_Route M_Xroute S_World M_Daemon
  L_Table L_Step L_Msg L_Smooth L_Quiet L_Select L_Select2 L_Chain L_Chain2 L_Chain3 L_Flush L_Update L_Update2
  L_Xroute L_Daemon.
From Coq Require Import Permutation.

(** ** Ranges *)
Record rng (w : world) : Prop := mkRng {
  rg_now : tv_ok (w_now w);
  rg_ifs : forall i, In i (w_ifs w) -> iface_in i;
  rg_nbs : forall n, In n (w_nbs w) -> neigh_ok n;
  rg_srcs : forall s, In s (w_srcs w) -> seqno_ok (s_seqno s) }.

Lemma iface_ok_stat : forall i, iface_in (ifstat i) <-> iface_in i.
Proof. intros. unfold iface_in, iface_ok, if_up, flag, ifstat. cbn. tauto. Qed.
Lemma ifs_stat : forall a b, map ifstat a = map ifstat b ->
  (forall i, In i b -> iface_in i) -> forall i, In i a -> iface_in i.
Proof.
  intros a b E H i Hi. apply (in_map ifstat) in Hi. rewrite E in Hi. apply in_map_iff in Hi.
  destruct Hi as (x & Ex & Hx). apply (proj1 (iface_ok_stat i)). rewrite <- Ex. apply (proj2 (iface_ok_stat x)). auto.
Qed.

Lemma update_source1_seqno : forall now q m s, seqno_ok q -> seqno_ok (s_seqno s) -> seqno_ok (s_seqno (update_source1 now q m s)).
Proof.
  intros. unfold update_source1. destruct (_ >=? _); auto. cbn. destruct (_ || _); auto.
Qed.
Lemma map_src_seqno : forall k f t, (forall s, seqno_ok (s_seqno s) -> seqno_ok (s_seqno (f s))) ->
  (forall s, In s t -> seqno_ok (s_seqno s)) -> forall s, In s (map_src k f t) -> seqno_ok (s_seqno s).
Proof.
  intros k f t F H s Hs. unfold map_src in Hs. apply in_map_iff in Hs. destruct Hs as (x & <- & Hx).
  destruct (skey_eqb _ _); auto.
Qed.
Lemma srcs_evo_seqno : forall rt now t t', srcs_evo rt now t t' ->
  (forall r, In r (concat rt) -> route_rng r) ->
  (forall s, In s t -> seqno_ok (s_seqno s)) -> forall s, In s t' -> seqno_ok (s_seqno s).
Proof.
  induction 1 as [|t' r H IH Hr Hi]; intros R S; auto. apply map_src_seqno; auto.
  intros s Hs. apply update_source1_seqno; auto. pose proof (R r Hr) as G. apply G.
Qed.

Lemma rng_same : forall w w', w_now w' = w_now w -> w_ifs w' = w_ifs w -> w_nbs w' = w_nbs w ->
  w_srcs w' = w_srcs w -> rng w -> rng w'.
Proof. intros w w' A B C D []. constructor; rewrite ?A, ?B, ?C, ?D; auto. Qed.
Lemma rng_kframe : forall w w', kframe w w' -> rng w -> rng w'.
Proof. intros w w' (a & b & ->). apply rng_same; auto. Qed.
Lemma rng_move : forall d p w, rng w -> rng (move_installed d p w).
Proof. intros d p w. unfold move_installed. destruct (find_route_slot d w); apply rng_same; auto. Qed.
Lemma rng_insert : forall r w, rng w -> rng (insert_route r w).
Proof. intros r w. unfold insert_route. destruct (find_route_slot _ w); apply rng_same; auto. Qed.

Lemma rng_mstep : forall b s t, mstep b s t -> W (fst s) (snd s) -> rng (snd s) -> rng (snd t).
Proof.
  intros b s t H. destruct H; cbn [fst snd]; intros Hw G.
  - destruct G, H. constructor.
    + congruence.
    + eapply ifs_stat; eauto.
    + rewrite f_nbs. auto.
    + eapply srcs_evo_seqno; eauto. apply (W_rng _ _ Hw).
  - revert G. apply rng_same; auto.
  - apply rng_move. apply change_route_add_frame in H4. apply (rng_kframe _ _ H4) in G. revert G. apply rng_same; auto.
  - apply change_route_add_frame in H2. eapply rng_kframe; eauto.
  - destruct (change_route_flush _ _ _ _) as [rc w1] eqn:E. apply change_route_flush_frame in E. cbn [snd].
    eapply rng_kframe; [exact E|]. revert G. apply rng_same; auto.
  - apply rng_move. apply change_route_modify_frame in H8. apply (rng_kframe _ _ H8) in G. revert G. apply rng_same; auto.
  - apply change_route_modify_frame in H2. eapply rng_kframe; eauto.
  - assert (K : kframe w w1).
    { destruct (_ && _); [eapply change_route_modify_frame; eauto|]. inversion H1; subst. apply kframe_refl. }
    apply (rng_kframe _ _ K) in G. revert G. apply rng_same; auto.
  - revert G. apply rng_same; auto.
  - destruct G. constructor; auto. cbn. intros s Hs. pose proof (find_source_spec (sec w) k true q (w_srcs w) (W_srcs _ _ Hw)) as F.
    destruct (get_src k (w_srcs w)) as [x|] eqn:Gs.
    + rewrite F in Hs. auto.
    + destruct F as (t1 & t2 & E & F & _). rewrite F in Hs. cbn [snd] in Hs. rewrite E in rg_srcs0.
      apply in_app_or in Hs. destruct Hs as [Hs | [<- | Hs]].
      * apply rg_srcs0. apply in_or_app; auto.
      * exact H.
      * apply rg_srcs0. apply in_or_app; auto.
  - destruct G. constructor; auto. cbn. apply map_src_seqno; auto.
  - destruct G. constructor; auto. cbn. apply map_src_seqno; auto.
  - revert G. apply rng_same; auto.
  - unfold unlink_route. destruct (find_route_slot _ w); revert G; apply rng_same; auto.
  - revert G. apply rng_same; auto.
  - revert G. apply rng_same; auto.
  - destruct G. constructor; auto. cbn. intros x Hx. apply in_map_iff in Hx. destruct Hx as (y & <- & Hy).
    destruct (n_id y =? n) eqn:E; auto. apply H0; auto. lia.
  - destruct G. constructor; auto. cbn. intros x Hx. apply filter_In in Hx. apply rg_nbs0. tauto.
  - revert G. apply rng_same; auto.
Qed.
Lemma rng_star : forall q s t, star q s t -> W (fst s) (snd s) -> rng (snd s) -> rng (snd t).
Proof.
  induction 1; auto. intros Hw G. apply IHstar; [eapply W_mstep; eauto|eapply rng_mstep; eauto].
Qed.
Lemma rng_outer : forall w w', outer w w' -> rng w -> rng w'.
Proof.
  intros w w' O G. destruct O; destruct G; constructor; auto; cbn.
  - intros n [<- | Hn]; auto.
  - intros x Hx. unfold map_if in Hx. cbn in Hx. apply in_map_iff in Hx. destruct Hx as (y & <- & Hy).
    destruct (if_id y =? if_id i); auto.
  - intros x Hx. apply in_app_or in Hx. destruct Hx as [Hx | [<- | []]]; auto.
  - intros x Hx. apply filter_In in Hx. apply rg_ifs0. tauto.
  - intros s Hs. rewrite expire_sources_alt in Hs. apply in_map_iff in Hs. destruct Hs as (x & <- & Hx).
    apply filter_In in Hx. cbn. apply rg_srcs0. tauto.
Qed.
Lemma rng_uchain : forall d nh e w w', uchain d nh e w w' -> W e w -> rng w -> rng w'.
Proof.
  intros d nh e w w' U Hw G. destruct U as [C | w1 r w2 S I E C _ _ _ _].
  - apply (rng_star _ _ _ C); auto.
  - assert (W1 : W (r_src r :: e) w1) by (apply (W_star _ _ _ S); auto).
    apply (rng_star _ _ _ C); cbn [fst snd].
    + apply (W_istep _ _ I). auto.
    + rewrite E. apply rng_insert. apply (rng_star _ _ _ S) in G; auto. revert G. apply rng_same; auto.
Qed.
Lemma rng_run1 : forall w ev, W [] w -> allowed ev w -> rng w -> rng (run1 ev w).
Proof.
  intros w ev Hw A G. destruct (run1_cases w ev Hw A) as [O | [C | (id & d & q & m & iv & n & nh & _ & U)]].
  - eapply rng_outer; eauto.
  - apply (rng_star _ _ _ C); auto.
  - eapply rng_uchain; eauto.
Qed.
Lemma reach_rng : forall c w, c_half_life c <> 2 -> reach c w -> rng w.
Proof.
  intros c w H R. induction R.
  - rewrite Forall_forall in H1. constructor; cbn; auto; try tauto.
  - apply rng_run1; auto. apply (reach_W c); auto.
Qed.

(** ** What a route keeps for its lifetime *)
Definition ident (r : route) : Z * dest * Z * list Z := (r_ptr r, dest_of r, r_neigh r, r_nexthop r).
Lemma ident_eq : forall r s, ident r = ident s ->
  r_ptr r = r_ptr s /\ dest_of r = dest_of s /\ r_neigh r = r_neigh s /\ r_nexthop r = r_nexthop s.
Proof.
  intros r s H. pose proof (f_equal (fun x => fst (fst (fst x))) H). pose proof (f_equal (fun x => snd (fst (fst x))) H).
  pose proof (f_equal (fun x => snd (fst x)) H). pose proof (f_equal snd H). auto.
Qed.
Definition descends (w w' : world) : Prop :=
  forall r', In r' (all_routes w') -> exists r, In r (all_routes w) /\ ident r' = ident r.
Lemma descends_refl : forall w w', w_rt w' = w_rt w -> descends w w'.
Proof. intros w w' E r' H. exists r'. unfold all_routes in *. rewrite E in H. auto. Qed.
Lemma descends_trans : forall a b c, descends a b -> descends b c -> descends a c.
Proof.
  intros a b c D E r H. destruct (E r H) as (x & Hx & Ex). destruct (D x Hx) as (y & Hy & Ey).
  exists y. split; auto. congruence.
Qed.
Lemma descends_map : forall p f w, (forall r, In r (all_routes w) -> r_ptr r = p -> ident (f r) = ident r) ->
  descends w (map_ptr p f w).
Proof.
  intros p f w F r' H. destruct (In_map_ptr _ _ _ _ H) as (r & Hr & ->). exists r. split; auto.
  destruct (is_ptr p r) eqn:P; auto. apply F; auto. unfold is_ptr in P. lia.
Qed.
Lemma descends_move : forall d p w, descends w (move_installed d p w).
Proof. intros d p w r H. exists r. split; auto. eapply In_move; eauto. Qed.
Lemma descends_kframe : forall w w', kframe w w' -> descends w w'.
Proof. intros w w' K. apply descends_refl. apply kframe_sel. auto. Qed.

Lemma metric_upd_ident : forall c now a b d r, ident (metric_upd c now a b d r) = ident r.
Proof. intros. unfold metric_upd. cbv zeta. destruct (_ =? 0); reflexivity. Qed.

Lemma descends_mstep : forall b s t, mstep b s t -> W (fst s) (snd s) -> descends (snd s) (snd t).
Proof.
  intros b s t H. destruct H; cbn [fst snd]; intros Hw; try (apply descends_refl; reflexivity).
  - apply descends_refl. apply H.
  - apply (descends_map p _ (set_w_rnd rnd w)). reflexivity.
  - apply change_route_add_frame, descends_kframe in H4.
    eapply descends_trans; [|apply descends_move]. eapply descends_trans; [|apply descends_map; reflexivity]. exact H4.
  - apply change_route_add_frame, descends_kframe in H2. auto.
  - destruct (change_route_flush _ _ _ _) as [rc w1] eqn:E. apply change_route_flush_frame, descends_kframe in E. cbn [snd].
    eapply descends_trans; [|exact E]. apply descends_map. reflexivity.
  - apply change_route_modify_frame, descends_kframe in H8.
    eapply descends_trans; [|apply descends_move]. eapply descends_trans; [|apply descends_map; reflexivity].
    eapply descends_trans; [|apply descends_map; reflexivity]. exact H8.
  - apply change_route_modify_frame, descends_kframe in H2. auto.
  - assert (K : kframe w w1).
    { destruct (_ && _); [eapply change_route_modify_frame; eauto|]. inversion H1; subst. apply kframe_refl. }
    apply descends_kframe in K. eapply descends_trans; [exact K|].
    eapply descends_trans; [|apply descends_map; intros; apply metric_upd_ident].
    apply (descends_map p _ (set_w_rnd rnd w1)). reflexivity.
  - apply descends_map. reflexivity.
  - apply descends_map. intros x Hx Ex. apply find_ptr_iff in H; [|apply (W_rt _ _ Hw)]. destruct H as (Hr & Er).
    assert (x = r) by (eapply NoDup_map_inj; [apply (wf_ptrs _ (W_rt _ _ Hw))| | |]; eauto; congruence). subst x.
    unfold ident, dest_of in *. cbn. rewrite H0. reflexivity.
  - intros x Hx. apply In_unlink in Hx. eauto.
Qed.
Lemma descends_star : forall q s t, star q s t -> W (fst s) (snd s) -> descends (snd s) (snd t).
Proof.
  induction 1; [intros; apply descends_refl; reflexivity|]. intros Hw.
  eapply descends_trans; [eapply descends_mstep; eauto|]. apply IHstar. eapply W_mstep; eauto.
Qed.
Lemma descends_outer : forall w w', outer w w' -> descends w w'.
Proof. intros w w' O. destruct O; apply descends_refl; reflexivity. Qed.

(** A route in the table after an event was there before, or is the new one. *)
Lemma descends_run1 : forall w ev r', W [] w -> allowed ev w -> In r' (all_routes (run1 ev w)) ->
  (exists r, In r (all_routes w) /\ ident r' = ident r) \/
  (exists id d q m iv n nh, ev = EvUpdate id d q m iv n (Some nh) /\ admissible d /\ dest_of r' = d /\
     r_nexthop r' = nh).
Proof.
  intros w ev r' Hw A H. destruct (run1_cases w ev Hw A) as [O | [C | (id & d & q & m & iv & n & nh & E & U)]].
  - left. apply (descends_outer _ _ O r' H).
  - left. apply (descends_star _ _ _ C Hw r' H).
  - destruct U as [C | w1 r w2 S I E2 C Ad D Nh Ir].
    + left. apply (descends_star _ _ _ C Hw r' H).
    + assert (W1 : W [r_src r] w1) by (apply (W_star _ _ _ S); auto).
      assert (W2 : W [] w2) by (apply (W_istep _ _ I); auto).
      destruct (descends_star _ _ _ C W2 r' H) as (x & Hx & Ex). cbn [snd] in Hx. rewrite E2 in Hx.
      apply In_insert in Hx. destruct Hx as [-> | Hx].
      * right. exists id, d, q, m, iv, n, (r_nexthop r). destruct (ident_eq _ _ Ex) as (E3 & E4 & E5 & E6).
        rewrite E, Nh. split; auto. split; auto. split; congruence.
      * left. destruct (descends_star _ _ _ S Hw x Hx) as (y & Hy & Ey). exists y. split; auto. congruence.
Qed.

Lemma reach_admissible : forall c w, c_half_life c <> 2 -> reach c w ->
  forall r, In r (all_routes w) -> admissible (dest_of r).
Proof.
  intros c w H R. induction R; [cbn; tauto|]. intros r Hr.
  destruct (reach_W c w H R) as (Hw & _).
  destruct (descends_run1 w ev r Hw H0 Hr) as [(x & Hx & Ex) | (id & d & q & m & iv & n & nh & _ & Ad & D & _)].
  - destruct (ident_eq _ _ Ex) as (E1 & E2 & E3 & E4). rewrite E2. auto.
  - rewrite D. auto.
Qed.

Lemma xr_mstep : forall b s t, mstep b s t ->
  forall x, In x (w_xr (snd t)) -> In (x_dest x) (map x_dest (w_xr (snd s))) \/
    martian_prefix (d_prefix (x_dest x)) (d_plen (x_dest x)) = false.
Proof.
  assert (Km : forall w w', kframe w w' -> w_xr w' = w_xr w) by (intros w w' (a & b & ->); reflexivity).
  assert (Mv : forall d p w, w_xr (move_installed d p w) = w_xr w).
  { intros. unfold move_installed. destruct (find_route_slot d w); reflexivity. }
  intros b s t H. destruct H; cbn [fst snd]; intros x Hx; try (left; apply in_map; exact Hx).
  - left. apply in_map. rewrite (f_xr _ _ H) in Hx. auto.
  - left. apply in_map. rewrite Mv in Hx. apply change_route_add_frame, Km in H4. cbn in Hx. congruence.
  - left. apply in_map. apply change_route_add_frame, Km in H2. congruence.
  - left. apply in_map. destruct (change_route_flush _ _ _ _) as [rc w1] eqn:E. apply change_route_flush_frame, Km in E.
    cbn in *. congruence.
  - left. apply in_map. rewrite Mv in Hx. apply change_route_modify_frame, Km in H8. cbn in Hx. congruence.
  - left. apply in_map. apply change_route_modify_frame, Km in H2. congruence.
  - left. apply in_map. assert (K : w_xr w1 = w_xr w).
    { apply Km. destruct (_ && _); [eapply change_route_modify_frame; eauto|]. inversion H1; subst. apply kframe_refl. }
    cbn in Hx. congruence.
  - left. apply in_map. unfold unlink_route in Hx. destruct (find_route_slot _ w); exact Hx.
  - cbn in Hx. auto.
Qed.
Definition xr_good (w : world) : Prop := forall x, In x (w_xr w) -> martian_prefix (d_prefix (x_dest x)) (d_plen (x_dest x)) = false.
Lemma xr_star : forall q s t, star q s t -> xr_good (snd s) -> xr_good (snd t).
Proof.
  induction 1; auto. intros G. apply IHstar. intros x Hx. destruct (xr_mstep _ _ _ H0 x Hx) as [M|M]; auto.
  apply in_map_iff in M. destruct M as (y & E & Hy). rewrite <- E. auto.
Qed.
Lemma reach_xr : forall c w, c_half_life c <> 2 -> reach c w -> xr_good w.
Proof.
  intros c w H R. induction R; [intros x []|]. destruct (reach_W c w H R) as (Hw & _).
  destruct (run1_cases w ev Hw H0) as [O | [C | (id & d & q & m & iv & n & nh & E & U)]].
  - destruct O; exact IHR.
  - apply (xr_star _ _ _ C IHR).
  - destruct U as [C | w1 r w2 S I E2 C _ _ _ _]; [apply (xr_star _ _ _ C IHR)|].
    apply (xr_star _ _ _ C). cbn [snd]. rewrite E2. pose proof (xr_star _ _ _ S IHR) as G. cbn [snd] in G.
    unfold insert_route. destruct (find_route_slot _ _); exact G.
Qed.

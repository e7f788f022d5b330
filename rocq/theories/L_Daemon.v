(** L_Daemon.v: the invariant holds in every execution. *)
From Verif Require Import Base M_Util S_Util L_Util M_Slot L_Slot M_Source S_Source L_Source
  M_Filter M_Types M_Neigh S_Neigh L_Neigh M_State M_Table M_Msg M_Route M_Xroute S_World M_Daemon L_Table L_Step L_Msg L_Smooth
  L_Quiet L_Select L_Select2 L_Chain L_Chain2 L_Chain3 L_Flush L_Update L_Update2 L_Xroute.
From Coq Require Import Permutation.

(** ** Changes from outside *)
Inductive outer (w : world) : world -> Prop :=
| O_clock : forall t, tv_ok t -> outer w (set_w_now t w)
| O_oracle : forall r k, outer w (set_w_rnd r (set_w_kresp k w))
| O_newnb : forall nb, In (n_if nb) (map if_id (w_ifs w)) -> ~ In (n_id nb) (map n_id (w_nbs w)) ->
    Z.of_nat (length (w_nbs w)) < 64999 -> (tv_ok (w_now w) -> neigh_ok nb) -> outer w (set_w_nbs (nb :: w_nbs w) w)
| O_if : forall i, In (if_id i) (map if_id (w_ifs w)) -> iface_in i -> outer w (map_if (if_id i) (fun _ => i) w)
| O_newif : forall i, ~ In (if_id i) (map if_id (w_ifs w)) -> iface_in i -> outer w (set_w_ifs (w_ifs w ++ [i]) w)
| O_delif : forall i, (forall n, In n (w_nbs w) -> n_if n <> i) ->
    (forall r, In r (w_rsd w) -> rs_ifp r <> Some i) ->
    outer w (set_w_ifs (filter (fun x => negb (if_id x =? i)) (w_ifs w)) w)
| O_srcs : outer w (set_w_srcs (expire_sources (sec w) (w_srcs w)) w).

Lemma map_if_ids : forall i f l, (forall x, if_id x = i -> if_id (f x) = i) ->
  map if_id (map (fun x => if if_id x =? i then f x else x) l) = map if_id l.
Proof.
  intros i f l H. rewrite map_map. apply map_ext. intros x. destruct (if_id x =? i) eqn:E; auto.
  rewrite H; lia.
Qed.

Lemma W_outer : forall w w', outer w w' -> W [] w -> W [] w'.
Proof.
  intros w w' O Hw. destruct O.
  - destruct Hw. constructor; auto.
  - destruct Hw. constructor; auto.
  - destruct Hw. constructor; auto; change (w_nbs (set_w_nbs (nb :: w_nbs w) w)) with (nb :: w_nbs w) in *.
    + cbn [map]. constructor; auto.
    + intros n [<- | Hn]; auto.
    + intros r Hr. right. apply W_nb. auto.
    + cbn [length]. lia.
  - assert (E : map if_id (w_ifs (map_if (if_id i) (fun _ => i) w)) = map if_id (w_ifs w)).
    { apply map_if_ids. auto. }
    destruct Hw. constructor; auto; rewrite E; auto.
  - assert (E : map if_id (w_ifs (set_w_ifs (w_ifs w ++ [i]) w)) = map if_id (w_ifs w) ++ [if_id i]).
    { change (w_ifs (set_w_ifs (w_ifs w ++ [i]) w)) with (w_ifs w ++ [i]). rewrite map_app. auto. }
    destruct Hw. constructor; auto; rewrite E.
    + eapply Permutation_NoDup; [apply Permutation_cons_append|]. constructor; auto.
    + intros n Hn. apply in_or_app. auto.
    + intros n Hn. apply in_or_app. auto.
  - destruct Hw. constructor; auto.
    + cbn [w_ifs set_w_ifs]. clear - W_ifs. induction (w_ifs w) as [|x l IH]; cbn [filter map]; [constructor|].
      inversion W_ifs; subst. destruct (negb (if_id x =? i)); auto. cbn [map]. constructor; auto.
      intro Hx. apply H1. apply in_map_iff in Hx. destruct Hx as (y & Ey & Hy). apply filter_In in Hy.
      rewrite <- Ey. apply in_map. tauto.
    + intros n Hn. pose proof (H n Hn) as Ne. specialize (W_nbif n Hn). apply in_map_iff in W_nbif.
      destruct W_nbif as (y & Ey & Hy). rewrite <- Ey. apply in_map. apply filter_In. split; auto.
      rewrite Ey. lia.
    + intros j Hj. pose proof (W_rsd j Hj) as Hy. apply in_map_iff in Hy. destruct Hy as (y & Ey & Hy).
      rewrite <- Ey. apply in_map. apply filter_In. split; auto. rewrite Ey.
      change (w_rsd (set_w_ifs (filter (fun x => negb (if_id x =? i)) (w_ifs w)) w)) with (w_rsd w) in Hj.
      apply in_map_iff in Hj. destruct Hj as (r & Er & Hr). specialize (H0 r Hr). rewrite Er in H0.
      assert (j <> i) by congruence. lia.
  - pose proof (W_srcs _ _ Hw) as Ss. set (t' := expire_sources _ _).
    assert (Ex : forall s, In s t' -> exists s0, In s0 (w_srcs w) /\ s_key s = s_key s0 /\ s_count s = s_count s0).
    { intros s Hs. unfold t' in Hs. rewrite expire_sources_alt in Hs. apply in_map_iff in Hs.
      destruct Hs as (x & <- & Hx). apply filter_In in Hx. exists x. cbn. tauto. }
    assert (Kp : forall k, In k (map r_src (all_routes w)) -> In k (map s_key t')).
    { intros k Hk. pose proof (W_ref _ _ Hw k (or_introl Hk)) as Hi. apply in_map_iff in Hi.
      destruct Hi as (s & Ek & Hs). unfold t'. rewrite expire_sources_alt. rewrite map_map.
      apply in_map_iff. exists s. split; auto. apply filter_In. split; auto. unfold expired_src.
      pose proof (W_cnt _ _ Hw s Hs) as C. cbn [count_occ] in C.
      assert (0 < users (s_key s) w)%nat by (unfold users; apply count_occ_In; rewrite Ek; auto).
      destruct (s_count s =? 0) eqn:Z0; [lia|reflexivity]. }
    destruct Hw. constructor; auto.
    + apply expire_sources_sorted. auto.
    + intros s Hs. destruct (Ex s Hs) as (s0 & H0 & E1 & E2). rewrite E1, E2. apply W_cnt. auto.
    + intros k [Hk | []]. apply Kp. auto.
Qed.

(** ** Every event is a change from outside or a chain of elementary steps *)
Lemma frame_chain : forall e w w', frame w w' -> chain e w w'.
Proof. intros. eapply chain_step. apply S_frame. auto. Qed.

Lemma known_has : forall e w n, W e w -> known_nb n w -> exists nb i, nb_if n w = Some (nb, i).
Proof.
  intros e w n Hw Hn. pose proof (W_get_nb _ _ _ Hw Hn) as H. unfold has_nb in H.
  destruct (nb_if n w) as [[nb i]|]; [eauto|contradiction].
Qed.

Lemma set_nb_chain : forall e w n nb nb', W e w -> get_nb n w = Some nb ->
  n_id nb' = n_id nb -> n_if nb' = n_if nb -> n_addr nb' = n_addr nb ->
  (tv_ok (w_now w) -> neigh_ok nb -> neigh_ok nb') ->
  chain e w (map_nb n (fun _ => nb') w).
Proof.
  intros e w n nb nb' Hw G K1 K2 K3 K4.
  assert (E : map_nb n (fun _ => nb') w =
        map_nb n (fun x => set_n_addr (n_addr x) (set_n_if (n_if x) (set_n_id (n_id x) nb'))) w).
  { unfold map_nb. f_equal. apply map_ext_in. intros x Hx. destruct (n_id x =? n) eqn:Ex; auto.
    assert (x = nb).
    { unfold get_nb in G. apply find_some in G. destruct G as (Gi & Ge).
      eapply NoDup_map_inj; [apply (W_nbs _ _ Hw)| | |]; auto. lia. }
    subst x. rewrite <- K1, <- K2, <- K3. destruct nb'; reflexivity. }
  rewrite E. eapply chain_step. apply S_nb; [intros x; auto|]. intros x Hx Ex T N.
  assert (x = nb).
  { unfold get_nb in G. apply find_some in G. destruct G as (Gi & Ge).
    eapply NoDup_map_inj; [apply (W_nbs _ _ Hw)| | |]; auto. lia. }
  subst x. apply (K4 T N).
Qed.

Lemma on_nb_chain : forall e w n f, W e w -> known_nb n w ->
  (forall nb, n_id (fst (f nb)) = n_id nb /\ n_if (fst (f nb)) = n_if nb /\ n_addr (fst (f nb)) = n_addr nb) ->
  (forall nb, tv_ok (w_now w) -> neigh_ok nb -> neigh_ok (fst (f nb))) ->
  chain e w (on_nb n f w).
Proof.
  intros e w n f Hw Hn Hf Hk. destruct (known_has _ _ _ Hw Hn) as (nb & i & N).
  destruct (nb_if_get _ _ _ _ N) as (G & _). unfold on_nb. rewrite G.
  destruct (Hf nb) as (K1 & K2 & K3). specialize (Hk nb). destruct (f nb) as [nb' c]. cbn [fst] in *.
  pose proof (set_nb_chain _ _ _ _ _ Hw G K1 K2 K3 Hk) as C.
  eapply chain_trans; [exact C|]. apply update_neighbour_metric_chain. eapply chain_W; eauto.
Qed.

Lemma fresh_nb_new : forall w, ~ In (fresh_nb w) (map n_id (w_nbs w)).
Proof.
  intros w H. unfold fresh_nb in H.
  assert (L : forall l x, In x l -> x <= fold_right Z.max 0 l).
  { induction l as [|a l IH]; cbn; [tauto|]. intros x [-> | Hx]; [lia|]. specialize (IH x Hx). lia. }
  apply L in H. lia.
Qed.

Lemma recv_request_frame : forall e w n d, W e w -> known_nb n w -> frame w (recv_request n d w).
Proof.
  intros e w n d Hw Hn. destruct (known_has _ _ _ Hw Hn) as (nb & i & N). unfold recv_request. rewrite N.
  pose proof (nb_if_has _ _ _ _ N) as Hi. pose proof (W_refs _ _ Hw) as R.
  destruct d as [d|].
  - apply send_update_if_frame; auto.
  - destruct (_ <? _); [|apply frame_refl]. apply send_update_full_frame; auto.
Qed.

(** ** What no elementary step changes *)
Definition menv (w w' : world) : Prop :=
  w_cfg w' = w_cfg w /\ w_now w' = w_now w /\ map ifstat (w_ifs w') = map ifstat (w_ifs w).
Lemma menv_trans : forall a b c, menv a b -> menv b c -> menv a c.
Proof. unfold menv. intros a b c (A & B & C) (D & E & F). repeat split; congruence. Qed.
Lemma menv_kframe : forall a b, kframe a b -> menv a b.
Proof. intros a b (x & y & ->). repeat split. Qed.
Lemma menv_move : forall d p w, menv w (move_installed d p w).
Proof. intros. unfold move_installed. destruct (find_route_slot d w); repeat split. Qed.

Lemma mstep_menv : forall b s t, mstep b s t -> menv (snd s) (snd t).
Proof.
  intros b s t H. destruct H; cbn [snd]; try (repeat split; fail).
  - destruct H. repeat split; auto.
  - match goal with H : change_route_add _ _ _ _ = _ |- _ => apply change_route_add_frame, menv_kframe in H end.
    eapply menv_trans; [|apply menv_move]. auto.
  - match goal with H : change_route_add _ _ _ _ = _ |- _ => apply change_route_add_frame, menv_kframe in H end. auto.
  - destruct (change_route_flush _ _ _ _) as [rc w1] eqn:E. apply change_route_flush_frame, menv_kframe in E. auto.
  - match goal with H : change_route_modify _ _ _ _ _ _ _ = _ |- _ => apply change_route_modify_frame, menv_kframe in H end.
    eapply menv_trans; [|apply menv_move]. auto.
  - match goal with H : change_route_modify _ _ _ _ _ _ _ = _ |- _ => apply change_route_modify_frame, menv_kframe in H end. auto.
  - match goal with H : (if ?c then _ else _) = (rc, w1) |- _ => destruct c;
      [apply change_route_modify_frame, menv_kframe in H|injection H as _ <-] end; auto. repeat split.
  - unfold unlink_route. destruct (find_route_slot _ _); repeat split.
Qed.
Lemma star_menv : forall q s t, star q s t -> menv (snd s) (snd t).
Proof. induction 1; [repeat split|]. eapply menv_trans; eauto. eapply mstep_menv; eauto. Qed.
Lemma chain_menv : forall e w w', chain e w w' -> menv w w'.
Proof. intros e w w' C. apply (star_menv _ _ _ C). Qed.

Lemma chain_now : forall e w w', chain e w w' -> w_now w' = w_now w.
Proof. intros e w w' C. apply (chain_menv _ _ _ C). Qed.

Lemma rtt_update_range : forall now i n rtt, 0 <= rtt_update now i n rtt < 4294967296.
Proof.
  intros. unfold rtt_update, u32. destruct (valid_rtt now n); [destruct (_ >=? _)|]; lia.
Qed.
Lemma recv_rtt_chain : forall e w n a b, W e w -> known_nb n w -> chain e w (recv_rtt n a b w).
Proof.
  intros e w n a b Hw Hn. destruct (known_has _ _ _ Hw Hn) as (nb & i & N).
  destruct (nb_if_get _ _ _ _ N) as (G & _). unfold recv_rtt. rewrite N.
  destruct (rtt_sample nb a b) as [rtt|]; [|apply chain_refl].
  set (nb1 := set_n_rtt _ nb).
  assert (C : chain e w (map_nb n (fun _ => nb1) w)).
  { eapply set_nb_chain; eauto. intros T (A1 & A2 & A3 & A4 & A5 & A6 & A7). unfold neigh_ok, nb1. cbn.
    repeat (split; [assumption|]). split; [apply rtt_update_range|assumption]. }
  pose proof (chain_W _ _ _ C Hw) as W1.
  pose proof (update_neighbour_metric_chain e _ n (negb (rttcost (w_now w) i nb1 =? rttcost (w_now w) i nb)) W1) as C2.
  eapply chain_trans; [exact C|]. eapply chain_trans; [exact C2|]. eapply chain_step.
  apply S_nb; [intros x; auto|]. intros x Hx Ex T (A1 & A2 & A3 & A4 & A5 & A6 & A7). unfold neigh_ok. cbn.
  repeat (split; [assumption|]).
  assert (En : w_now (update_neighbour_metric n (negb (rttcost (w_now w) i nb1 =? rttcost (w_now w) i nb))
                (map_nb n (fun _ => nb1) w)) = w_now w).
  { apply chain_now in C2. rewrite C2. reflexivity. }
  rewrite <- En. exact T.
Qed.

Definition is_outer (ev : event) : bool :=
  match ev with
  | EvClock _ | EvOracle _ _ | EvNeighbour _ _ | EvInterface _ | EvNewInterface _ | EvFlushInterface _
  | EvExpireSources => true
  | _ => false
  end.
Lemma run1_cases_ev : forall w ev, W [] w -> allowed ev w ->
  (is_outer ev = true /\ outer w (run1 ev w)) \/ chain [] w (run1 ev w) \/
  exists id d q m iv n nh, ev = EvUpdate id d q m iv n nh /\ uchain d nh [] w (run1 ev w).
Proof.
  intros w ev Hw A. pose proof (W_refs _ _ Hw) as R. pose proof (W_rsd_ok _ _ Hw) as Ro.
  destruct ev; cbn [run1]; cbn [allowed] in A.
  - left. split; [reflexivity|]. constructor. auto.
  - left. split; [reflexivity|]. constructor.
  - right. right. destruct A as (A1 & A2 & A3 & A4). exists id, d, seqno, refmetric, interval, n, nh.
    split; auto. eapply update_route_spec; eauto. cbn. lia.
  - right. left. apply retract_neighbour_routes_chain; auto.
  - right. left. apply frame_chain. eapply recv_request_frame; eauto.
  - right. left. apply handle_request_chain; auto.
  - right. left. destruct A as (A1 & A2 & A3). apply on_nb_chain; auto.
    + intros nb. destruct unicast; destruct (update_hist _ _ _ _); cbn; auto.
    + intros nb T (B1 & B2 & B3). destruct unicast;
        match goal with |- context [update_hist ?a ?b ?c ?d] =>
          pose proof (update_hist_ok a b c d ltac:(assumption) T A2 A3) as Hh; destruct (update_hist a b c d) end;
        cbn [fst] in *; (split; [assumption|split; assumption]).
  - right. left. eapply chain_step. apply S_nb; [intros x; auto|]. auto.
  - right. left. destruct A as (A1 & A2 & A3). apply on_nb_chain; auto.
    intros nb T (B1 & B2 & B3 & B4 & B5 & B6). unfold u16_ok in *. split; [assumption|]. split; [assumption|].
    split; [cbn; lia|]. split; [exact T|]. split; [exact A3|exact B6].
  - right. left. apply recv_rtt_chain; auto.
  - unfold find_neighbour. destruct (existsb _ _).
    + right. left. apply chain_refl.
    + left. split; [reflexivity|]. destruct A. constructor; auto; [apply fresh_nb_new|].
      intros T. unfold neigh_ok, new_neigh. cbn. pose proof new_hist_ok. unfold tv_ok in *. cbn. unfold INFINITY. intuition lia.
  - right. left. eapply chain_step. apply S_nb; [intros x; auto|]. auto.
  - right. left. apply check_neighbours_chain. auto.
  - left. split; [reflexivity|]. destruct A. constructor; auto.
  - left. split; [reflexivity|]. destruct A. constructor; auto.
  - left. split; [reflexivity|]. destruct A. constructor; auto.
  - right. left. apply update_interface_metric_chain. auto.
  - right. left. apply flush_sel_chain. auto.
  - right. left. apply expire_routes_chain. auto.
  - left. split; [reflexivity|]. constructor.
  - right. left. apply notify_chain. auto.
  - right. left. apply check_xroutes_chain. auto.
  - right. left. apply frame_chain. apply flushupdates_frame; auto.
  - right. left. apply frame_chain. destruct d; [apply send_update_if_frame|apply send_update_full_frame]; auto.
  - right. left. apply frame_chain. apply send_update_all_frame; auto.
  - right. left. apply frame_chain. apply self_update_frame; auto.
  - right. left. apply frame_chain. apply wild_retraction_frame; auto.
  - right. left. apply frame_chain. apply multicast_request_if_frame; auto.
  - right. left. apply frame_chain. apply do_resend_frame; auto.
  - right. left. apply frame_chain. apply expire_resend_frame.
  - right. left. eapply chain_step. apply S_myseqno.
  - right. left. apply flush_all_chain. auto.
Qed.

Lemma run1_cases : forall w ev, W [] w -> allowed ev w ->
  outer w (run1 ev w) \/ chain [] w (run1 ev w) \/
  exists id d q m iv n nh, ev = EvUpdate id d q m iv n nh /\ uchain d nh [] w (run1 ev w).
Proof.
  intros w ev Hw A. destruct (run1_cases_ev w ev Hw A) as [(_ & O) | [C | U]]; auto.
Qed.

Lemma W_run1 : forall w ev, W [] w -> allowed ev w -> W [] (run1 ev w).
Proof.
  intros w ev Hw A. destruct (run1_cases w ev Hw A) as [O | [C | (id & d & q & m & iv & n & nh & _ & U)]].
  - eapply W_outer; eauto.
  - eapply chain_W; eauto.
  - eapply uchain_W; eauto.
Qed.

Lemma W_boot : forall c now ifs seqno, NoDup (map if_id ifs) -> c_half_life c <> 2 -> W [] (boot c now ifs seqno).
Proof.
  intros c now ifs seqno N H. constructor; cbn; try tauto; try constructor; try (intros; tauto); auto; try lia.
  all: try constructor. 
Qed.

Lemma menv_insert : forall r w, menv w (insert_route r w).
Proof. intros. unfold insert_route. destruct (find_route_slot _ _); repeat split. Qed.
Lemma uchain_menv : forall d nh e w w', uchain d nh e w w' -> menv w w'.
Proof.
  intros d nh e w w' U. destruct U as [C | w1 r w2 S I E C _ _ _ _]; [eapply chain_menv; eauto|].
  apply star_menv in S. apply chain_menv in C. cbn [snd] in S. eapply menv_trans; [exact S|].
  eapply menv_trans; [|exact C]. rewrite E. eapply menv_trans; [|apply menv_insert]. repeat split.
Qed.

Lemma run1_cfg : forall w ev, W [] w -> allowed ev w -> w_cfg (run1 ev w) = w_cfg w.
Proof.
  intros w ev Hw A. destruct (run1_cases w ev Hw A) as [O | [C | (id & d & q & m & iv & n & nh & _ & U)]].
  - destruct O; reflexivity.
  - apply (chain_menv _ _ _ C).
  - apply uchain_menv in U. apply U.
Qed.

Lemma reach_W : forall c w, c_half_life c <> 2 -> reach c w -> W [] w /\ w_cfg w = c.
Proof.
  intros c w H R. induction R.
  - split; auto. apply W_boot; auto.
  - destruct IHR as (Hw & E). split; [apply W_run1; auto|]. rewrite run1_cfg; auto.
Qed.

(** ** The log of selections *)
Definition sel_ok (ev : selev) : Prop :=
  update_feasible (e_now ev) (e_src ev) (r_seqno (e_new ev)) (r_refmetric (e_new ev)) = true /\
  match e_old ev with
  | Some o => better_than (e_new ev) o /\ dest_of o = dest_of (e_new ev)
  | None => True
  end.
Record logged (w w' : world) (l : list selev) : Prop := mkLogged {
  lg_sel : w_sel w' = w_sel w ++ l;
  lg_ok : Forall sel_ok l;
  lg_new : forall r', In r' (all_routes w') -> r_installed r' = true ->
    (exists r, In r (all_routes w) /\ r_ptr r = r_ptr r' /\ r_installed r = true) \/
    (exists ev, In ev l /\ r_ptr (e_new ev) = r_ptr r') }.

Lemma logged_trans : forall a b c l m, logged a b l -> logged b c m -> logged a c (l ++ m).
Proof.
  intros a b c l m [S1 O1 N1] [S2 O2 N2]. constructor.
  - rewrite S2, S1, app_assoc. auto.
  - apply Forall_app. auto.
  - intros r' H I. destruct (N2 r' H I) as [(r & H1 & E1 & I1) | (ev & He & E)].
    + destruct (N1 r H1 I1) as [(r0 & H0 & E0 & I0) | (ev & He & E)].
      * left. exists r0. repeat split; auto. congruence.
      * right. exists ev. split; [apply in_or_app; auto|congruence].
    + right. exists ev. split; [apply in_or_app; auto|auto].
Qed.

Definition fewer (w w' : world) : Prop := forall r', In r' (all_routes w') -> r_installed r' = true ->
  exists r, In r (all_routes w) /\ r_ptr r = r_ptr r' /\ r_installed r = true.
Lemma logged_none : forall w w', w_sel w' = w_sel w -> fewer w w' -> logged w w' [].
Proof. intros w w' S F. constructor; [rewrite app_nil_r; auto|constructor|]. intros. left. auto. Qed.
Lemma fewer_same : forall w w', w_rt w' = w_rt w -> fewer w w'.
Proof. intros w w' E r' H I. exists r'. unfold all_routes in *. rewrite E in H. auto. Qed.

Lemma In_map_ptr : forall p f w r', In r' (all_routes (map_ptr p f w)) ->
  exists r, In r (all_routes w) /\ r' = if is_ptr p r then f r else r.
Proof.
  intros p f w r' H. unfold all_routes, map_ptr in H. cbn [w_rt set_w_rt] in H.
  rewrite <- concat_map in H. apply in_map_iff in H. destruct H as (r & <- & Hr). exists r. auto.
Qed.
Lemma fewer_map : forall p f w, (forall r, r_ptr (f r) = r_ptr r) ->
  (forall r, r_installed (f r) = true -> r_installed r = true) -> fewer w (map_ptr p f w).
Proof.
  intros p f w F1 F2 r' H I. destruct (In_map_ptr _ _ _ _ H) as (r & Hr & ->). exists r. split; auto.
  destruct (is_ptr p r); auto.
Qed.
Lemma In_upd_concat : forall A (x : A) i l (t : list (list A)), In x (concat (upd i l t)) -> In x l \/ In x (concat t).
Proof.
  intros A x i l t H. apply in_concat in H. destruct H as (m & Hm & Hx).
  apply nth_error_upd_In in Hm. destruct Hm as [-> | Hm]; auto. right. apply in_concat. eauto.
Qed.
Lemma In_nth_concat : forall A (x : A) i (t : list (list A)), In x (nth i t []) -> In x (concat t).
Proof.
  intros A x i t H. destruct (nth_in_or_default i t []) as [Hi | E]; [|rewrite E in H; destruct H].
  apply in_concat. eauto.
Qed.
Lemma In_move : forall d p w r, In r (all_routes (move_installed d p w)) -> In r (all_routes w).
Proof.
  intros d p w r. unfold move_installed. destruct (find_route_slot d w) as [i|]; auto.
  unfold all_routes. cbn [w_rt set_w_rt]. intros H. apply In_upd_concat in H. destruct H as [H|H]; auto.
  eapply In_nth_concat. unfold move_front in H. apply in_app_or in H.
  destruct H as [H|H]; apply filter_In in H; apply H.
Qed.
Lemma In_insert_at : forall A (x : A) n a l, In x (insert_at n a l) -> x = a \/ In x l.
Proof.
  intros A x n a l H. unfold insert_at in H. apply in_app_or in H. destruct H as [H|[H|H]]; auto.
  - right. rewrite <- (firstn_skipn (Z.to_nat n) l); apply in_or_app; auto.
  - right. rewrite <- (firstn_skipn (Z.to_nat n) l); apply in_or_app; auto.
Qed.
Lemma In_remove_at : forall A (x : A) n l, In x (remove_at n l) -> In x l.
Proof.
  intros A x n l H. unfold remove_at in H. apply in_app_or in H.
  destruct H as [H|H]; [rewrite <- (firstn_skipn (Z.to_nat n) l)|rewrite <- (firstn_skipn (S (Z.to_nat n)) l)];
    apply in_or_app; auto.
Qed.
Lemma In_insert : forall r w r', In r' (all_routes (insert_route r w)) -> r' = r \/ In r' (all_routes w).
Proof.
  intros r w r'. unfold insert_route, all_routes. destruct (find_route_slot (rdest r) w) as [i|n]; cbn [w_rt set_w_rt]; intros H.
  - apply In_upd_concat in H. destruct H as [H|H]; auto. apply in_app_or in H. destruct H as [H|[H|[]]]; auto.
    right. eapply In_nth_concat; eauto.
  - apply in_concat in H. destruct H as (m & Hm & Hx). apply In_insert_at in Hm. destruct Hm as [-> | Hm].
    + destruct Hx as [Hx|[]]; auto.
    + right. apply in_concat. eauto.
Qed.
Lemma In_unlink : forall d p w r, In r (all_routes (unlink_route d p w)) -> In r (all_routes w).
Proof.
  intros d p w r. unfold unlink_route, all_routes. destruct (find_route_slot d w) as [i|n]; cbn [w_rt set_w_rt]; auto.
  destruct (filter _ _) as [|a l] eqn:E; intros H.
  - apply in_concat in H. destruct H as (m & Hm & Hx). apply In_remove_at in Hm. apply in_concat. eauto.
  - apply In_upd_concat in H. destruct H as [H|H]; auto. rewrite <- E in H. apply filter_In in H.
    eapply In_nth_concat. apply H.
Qed.

Lemma kframe_sel : forall w w', kframe w w' -> w_sel w' = w_sel w /\ w_rt w' = w_rt w.
Proof. intros w w' (a & b & ->). auto. Qed.

Lemma move_sel : forall d p w, w_sel (move_installed d p w) = w_sel w.
Proof. intros. unfold move_installed. destruct (find_route_slot d w); auto. Qed.

Lemma mstep_logged : forall b s t, mstep b s t -> exists l, logged (snd s) (snd t) l.
Proof.
  intros b s t H. destruct H; cbn [snd].
  - destruct H. exists []. apply logged_none; auto. apply fewer_same; auto.
  - exists []. apply logged_none; auto. intros r' Hr I. destruct (fewer_map p (smooth_upd sm t) (set_w_rnd rnd w)) with (r' := r') as (x & Hx); eauto.
  - match goal with H : change_route_add _ _ _ _ = _ |- _ => apply change_route_add_frame, kframe_sel in H; destruct H as (K1 & K2) end.
    exists [mkSel r (src_of r w) (sec w) None]. constructor.
    + rewrite move_sel. cbn. rewrite K1. auto.
    + constructor; auto. split; [|exact I]. match goal with H : feasible _ _ = true |- _ => exact H end.
    + intros r' Hr I. apply In_move in Hr. apply In_map_ptr in Hr. destruct Hr as (x & Hx & ->).
      change (all_routes (selected r w None w1)) with (all_routes w1) in Hx. unfold all_routes in *. rewrite K2 in Hx.
      destruct (is_ptr p x) eqn:P.
      * right. eexists. split; [left; reflexivity|]. cbn. unfold is_ptr in P. apply find_ptr_ptr in H. lia.
      * left. exists x. auto.
  - match goal with H : change_route_add _ _ _ _ = _ |- _ => apply change_route_add_frame, kframe_sel in H; destruct H as (K1 & K2) end.
    exists []. apply logged_none; auto. apply fewer_same; auto.
  - destruct (change_route_flush _ _ _ _) as [rc w1] eqn:E. apply change_route_flush_frame, kframe_sel in E. destruct E as (K1 & K2).
    exists []. cbn [snd]. apply logged_none; [rewrite K1; auto|]. intros r' Hr I. unfold all_routes in Hr. rewrite K2 in Hr.
    apply (fewer_map p (set_r_installed false)) in Hr; auto. discriminate.
  - match goal with H : change_route_modify _ _ _ _ _ _ _ = _ |- _ => apply change_route_modify_frame, kframe_sel in H; destruct H as (K1 & K2) end.
    exists [mkSel rn (src_of rn w) (sec w) (Some ro)]. constructor.
    + rewrite move_sel. cbn. rewrite K1. auto.
    + constructor; auto. split; [match goal with H : feasible _ _ = true |- _ => exact H end|cbn; auto].
    + intros r' Hr I. apply In_move in Hr. apply In_map_ptr in Hr. destruct Hr as (x & Hx & ->).
      apply In_map_ptr in Hx. destruct Hx as (y & Hy & ->).
      change (all_routes (selected rn w (Some ro) w1)) with (all_routes w1) in Hy. unfold all_routes in *. rewrite K2 in Hy.
      destruct (is_ptr o y) eqn:Q.
      * destruct (is_ptr p (set_r_installed false y)) eqn:P; [|discriminate].
        right. eexists. split; [left; reflexivity|]. cbn. unfold is_ptr in P. cbn in P.
        match goal with H : find_ptr p w = _ |- _ => apply find_ptr_ptr in H end. lia.
      * destruct (is_ptr p y) eqn:P; [|left; exists y; auto].
        right. eexists. split; [left; reflexivity|]. cbn. unfold is_ptr in P. cbn in P.
        match goal with H : find_ptr p w = _ |- _ => apply find_ptr_ptr in H end. lia.
  - match goal with H : change_route_modify _ _ _ _ _ _ _ = _ |- _ => apply change_route_modify_frame, kframe_sel in H; destruct H as (K1 & K2) end.
    exists []. apply logged_none; auto. apply fewer_same; auto.
  - assert (K : w_sel w1 = w_sel w /\ w_rt w1 = w_rt w).
    { match goal with H : (if ?c then _ else _) = (rc, w1) |- _ => destruct c;
      [apply change_route_modify_frame, kframe_sel in H|injection H as _ <-] end; auto. }
    destruct K as (K1 & K2). exists []. apply logged_none; auto.
    assert (M1 : forall x, r_ptr (metric_upd (w_cfg w) (sec w) ref cost add x) = r_ptr x)
      by (intros x; unfold metric_upd; destruct (c_half_life (w_cfg w) =? 0); reflexivity).
    assert (M2 : forall x, r_installed (metric_upd (w_cfg w) (sec w) ref cost add x) = true -> r_installed x = true)
      by (intros x; unfold metric_upd; destruct (c_half_life (w_cfg w) =? 0); intros Hx; exact Hx).
    intros r' Hr I. destruct (fewer_map _ _ _ M1 M2 r' Hr I) as (x & Hx & E & Ix).
    destruct (fewer_map p (smooth_upd sm t) (set_w_rnd rnd w1) (fun _ => eq_refl) (fun _ H => H) x Hx Ix) as (y & Hy & E' & Iy).
    exists y. unfold all_routes in *. cbn [w_rt set_w_rnd] in Hy. rewrite K2 in Hy. repeat split; auto. congruence.
  - exists []. apply logged_none; auto. apply fewer_map; auto.
  - exists []. apply logged_none; auto. apply fewer_same; auto.
  - exists []. apply logged_none; auto. apply fewer_same; auto.
  - exists []. apply logged_none; auto. apply fewer_same; auto.
  - exists []. apply logged_none; auto. apply fewer_map; auto.
  - exists []. apply logged_none; [unfold unlink_route; destruct (find_route_slot _ _); auto|].
    intros r' Hr I. apply In_unlink in Hr. exists r'. auto.
  - exists []. apply logged_none; auto. apply fewer_same; auto.
  - exists []. apply logged_none; auto. apply fewer_same; auto.
  - exists []. apply logged_none; auto. apply fewer_same; auto.
  - exists []. apply logged_none; auto. apply fewer_same; auto.
  - exists []. apply logged_none; auto. apply fewer_same; auto.
Qed.
Lemma star_logged : forall q s t, star q s t -> exists l, logged (snd s) (snd t) l.
Proof.
  induction 1.
  - exists []. apply logged_none; auto. apply fewer_same; auto.
  - destruct IHstar as (m & L). apply mstep_logged in H0. destruct H0 as (l & L'). exists (l ++ m). eapply logged_trans; eauto.
Qed.

Lemma run1_logged : forall w ev, W [] w -> allowed ev w -> exists l, logged w (run1 ev w) l.
Proof.
  intros w ev Hw A. destruct (run1_cases w ev Hw A) as [O | [C | (id & d & q & m & iv & n & nh & _ & U)]].
  - exists []. destruct O; apply logged_none; auto; apply fewer_same; auto.
  - apply (star_logged _ _ _ C).
  - destruct U as [C | w1 r w2 S I E C _ _ _ Ir]; [apply (star_logged _ _ _ C)|].
    apply star_logged in S. destruct S as (l & L1). apply star_logged in C. destruct C as (l' & L2). cbn [snd] in *.
    exists (l ++ [] ++ l'). eapply logged_trans; [exact L1|]. eapply logged_trans; [|exact L2]. rewrite E.
    apply logged_none; [unfold insert_route; destruct (find_route_slot _ _); auto|].
    intros r' Hr Ii. apply In_insert in Hr. destruct Hr as [-> | Hr]; [congruence|]. exists r'. auto.
Qed.

(** L_World2.v: best-route search and selection in the vocabulary of S_World. *)
From Verif Require Import Base M_Util S_Util L_Util M_Slot L_Slot M_Source S_Source L_Source
  M_Filter S_Filter L_Filter M_Types M_Neigh S_Neigh L_Neigh M_State M_Table M_Msg M_Route M_Xroute S_World M_Daemon
  L_Table L_Step L_Msg L_Smooth L_Quiet L_Select L_Select2 L_Chain L_Chain2 L_Chain3 L_Flush L_Update L_Update2
  L_Xroute L_Daemon L_Inv L_World.
From Coq Require Import Permutation.

Lemma eligible_iff : forall e w r feas ex, W e w -> rng w -> In r (all_routes w) ->
  (acceptable r feas ex w = true <-> eligible w feas ex r).
Proof.
  intros e w r feas ex Hw G Hr. pose proof (feasible_in_iff e w r Hw G Hr) as F.
  unfold acceptable, eligible, route_expired. change (sec w) with (now_s w).
  destruct (r_time r <? now_s w - r_hold_time r) eqn:E; [split; [discriminate|lia]|].
  assert (X : negb (match ex with Some n => r_neigh r =? n | None => false end) = true <-> ex <> Some (r_neigh r)).
  { destruct ex as [n|]; [|split; [discriminate|auto]]. rewrite negb_true_iff, Z.eqb_neq. split; congruence. }
  destruct feas; cbn [andb]; [destruct (feasible r w); cbn [negb]|]; rewrite ?X.
  - split; [intros; split; [lia|tauto]|tauto].
  - split; [discriminate|]. intros (_ & H & _). exfalso. apply F in H; auto. discriminate.
  - split; [intros; split; [lia|split; [discriminate|auto]]|tauto].
Qed.

Lemma settled_value : forall e w p r, W e w -> find_ptr p w = Some r -> settled w r ->
  fst (smoothed_metric p w) = r_smoothed r.
Proof.
  intros e w p r Hw F S. unfold smoothed_metric. rewrite F, S. reflexivity.
Qed.

(** What does not change when smoothed metrics are brought up to date *)
Definition same_routes (w w' : world) : Prop :=
  Permutation (map (fun r => set_r_smoothed 0 (set_r_smoothed_time 0 r)) (all_routes w'))
              (map (fun r => set_r_smoothed 0 (set_r_smoothed_time 0 r)) (all_routes w)).
Lemma smw_routes : forall w w', smw w w' -> same_routes w w'.
Proof.
  intros w w' S. unfold same_routes, all_routes. destruct S as (_ & S).
  induction S as [|l l' rt rt' H S IH]; cbn [concat]; auto. rewrite !map_app. apply Permutation_app; auto.
  clear -H. induction H as [|r r' l l' (C & I) H IH]; cbn [map]; auto.
  replace (set_r_smoothed 0 (set_r_smoothed_time 0 r')) with (set_r_smoothed 0 (set_r_smoothed_time 0 r)); [auto|].
  unfold core in C. destruct r, r'. cbn in *. inversion C; subst. reflexivity.
Qed.

Lemma best_route : forall c w d feas ex, c_half_life c <> 2 -> reach c w -> dvalid d ->
  match find_best_route d feas ex w with
  | (None, w') => w' = w /\ forall r, In r (all_routes w) -> dest_of r = d -> ~ eligible w feas ex r
  | (Some b, w') =>
      (w_now w' = w_now w /\ w_srcs w' = w_srcs w /\ w_ktr w' = w_ktr w /\ w_out w' = w_out w /\ same_routes w w') /\
      exists rb, In rb (all_routes w') /\ r_ptr rb = b /\ dest_of rb = d /\ eligible w' feas ex rb /\
        forall r, In r (all_routes w') -> dest_of r = d -> eligible w' feas ex r -> r <> rb ->
          fst (smoothed_metric b w') = r_smoothed rb /\ fst (smoothed_metric (r_ptr r) w') = r_smoothed r /\
          r_smoothed rb <= r_smoothed r
  end.
Proof.
  intros c w d feas ex H R V. destruct (reach_W c w H R) as (Hw & _). pose proof (reach_rng c w H R) as G.
  pose proof (find_best_spec feas ex [] w d Hw) as S. destruct (find_best_route d feas ex w) as [[b|] w'].
  - destruct S as (Hw' & Q & Sm & Hb & S).
    assert (G' : rng w') by (apply (rng_star _ _ _ Q); auto).
    assert (El : forall r, In r (all_routes w') -> dest_of r = d -> eligible w' feas ex r -> In (r_ptr r) (elig feas ex w d)).
    { intros r Hr D E. apply eligible_iff with (e := []) in E; auto.
      destruct (qstar _ _ _ _ Q) as (_ & Sa). destruct (same_In' _ _ _ Sa Hr) as (r0 & Hr0 & C).
      unfold elig. apply in_map_iff. exists r0. split; [symmetry; apply core_ptr; auto|]. apply filter_In. split.
      - apply slot_of_iff; auto; [apply (W_rt _ _ Hw)|]. split; auto. rewrite <- D. symmetry. apply (core_dest _ _ C).
      - rewrite <- E. symmetry. apply acceptable_core; auto using smw_srcs, smw_now. }
    split.
    + split; [apply smw_now; auto|]. split; [apply smw_srcs; auto|]. rewrite (sm_eq _ _ Sm). cbn.
      split; auto. split; auto. rewrite <- (sm_eq _ _ Sm). apply smw_routes; auto.
    + destruct (S b Hb) as (_ & rb & _ & Fb & _ & Ab & _). pose proof Fb as Fb'. apply find_ptr_In in Fb'. destruct Fb' as (Hrb & Pb).
      assert (Db : dest_of rb = d).
      { unfold elig in Hb. apply in_map_iff in Hb. destruct Hb as (x & Ex & Hx). apply filter_In in Hx. destruct Hx as (Hx & _).
        apply slot_of_iff in Hx; auto; [|apply (W_rt _ _ Hw)]. destruct Hx as (Hx & Dx).
        assert (Fx : find_ptr b w = Some x) by (apply find_ptr_iff; [apply (W_rt _ _ Hw)|auto]).
        destruct (quiet_find _ _ _ _ _ Hw Q Fx) as (r' & F' & C). rewrite Fb in F'. injection F' as <-.
        rewrite <- Dx. apply (core_dest _ _ C). }
      exists rb. split; auto. split; auto. split; auto. split; [apply eligible_iff with (e := []); auto|].
      intros r Hr D E N. destruct (S (r_ptr r) (El r Hr D E)) as (rx & rb2 & Fx & Fb2 & _ & _ & C).
      rewrite Fb in Fb2. injection Fb2 as <-.
      assert (Fr : find_ptr (r_ptr r) w' = Some r) by (apply find_ptr_iff; [apply (W_rt _ _ Hw')|auto]).
      rewrite Fr in Fx. injection Fx as <-. destruct C as [C | (S1 & S2 & L)].
      * exfalso. apply N. rewrite C in Fr. congruence.
      * split; [apply (settled_value [] w' b rb); auto|]. split; [apply (settled_value [] w' _ r); auto|auto].
  - destruct S as (-> & S). split; auto. intros r Hr D E. apply eligible_iff with (e := []) in E; auto.
    assert (X : In (r_ptr r) (elig feas ex w d)).
    { unfold elig. apply in_map. apply filter_In. split; auto. apply slot_of_iff; auto. apply (W_rt _ _ Hw). }
    rewrite S in X. contradiction.
Qed.

(** ** consider_route *)
Lemma switch_cases : forall e w o p ro rn, W e w -> find_ptr o w = Some ro -> find_ptr p w = Some rn -> o <> p ->
  r_installed ro = true -> r_installed rn = false -> dest_of ro = dest_of rn ->
  let w' := switch_routes (Some o) p w in
  (kframe w w') \/ (exists r, In r (all_routes w') /\ r_ptr r = p /\ r_installed r = true).
Proof.
  intros e w o p ro rn Hw Fo Fn Nop Io In_ D w'. unfold w', switch_routes. rewrite Fo, Fn, Io. cbn [negb].
  destruct (W_nbif_ e w ro Hw (find_In _ _ _ Fo)) as (no & io & No). rewrite No.
  destruct (W_nbif_ e w rn Hw (find_In _ _ _ Fn)) as (nn & inw & Nn). rewrite Nn.
  destruct (change_route_modify ro io (metric_to_kernel (w_cfg w) (route_metric ro)) (r_nexthop rn)
              (if_ifindex inw) (metric_to_kernel (w_cfg w) (route_metric rn)) w) as [rc w1] eqn:C.
  destruct (rc <? 0) eqn:R; [left; eapply change_route_modify_frame; eauto|]. right.
  apply change_route_modify_frame, kframe_sel in C. destruct C as (_ & C).
  exists (set_r_installed true rn). cbn. split; [|split; auto; eapply find_ptr_ptr; eauto].
  destruct (same_In (map_ptr p (set_r_installed true) (map_ptr o (set_r_installed false) (selected rn w (Some ro) w1)))
              (move_installed (rdest rn) p (map_ptr p (set_r_installed true) (map_ptr o (set_r_installed false) (selected rn w (Some ro) w1))))
              (set_r_installed true rn)) as (x & Hx & Ex); [apply move_installed_same| |].
  - rewrite all_map_ptr. apply in_map_iff. exists rn. unfold upd_route. pose proof (find_ptr_ptr _ _ _ Fn) as P.
    replace (is_ptr p rn) with true by (unfold is_ptr; lia). split; auto.
    rewrite all_map_ptr. apply in_map_iff. exists rn. unfold upd_route.
    replace (is_ptr o rn) with false by (unfold is_ptr; symmetry; apply Z.eqb_neq; lia). split; auto.
    change (all_routes (selected rn w (Some ro) w1)) with (all_routes w1). unfold all_routes. rewrite C. apply (find_In _ _ _ Fn).
  - pose proof Hx as Hx'. apply In_move in Hx'. apply In_map_ptr in Hx'. destruct Hx' as (y & Hy & ->).
    assert (Py : r_ptr y = p).
    { apply core_ptr in Ex. destruct (is_ptr p y); cbn in Ex; rewrite Ex; eapply find_ptr_ptr; eauto. }
    replace (is_ptr p y) with true in * by (unfold is_ptr; lia).
    apply In_map_ptr in Hy. destruct Hy as (z & Hz & ->).
    change (all_routes (selected rn w (Some ro) w1)) with (all_routes w1) in Hz. unfold all_routes in Hz. rewrite C in Hz.
    replace (is_ptr o z) with false in *.
    2:{ unfold is_ptr. symmetry. apply Z.eqb_neq. destruct (is_ptr o z); cbn in Py; lia. }
    assert (z = rn).
    { assert (find_ptr p w = Some z) by (apply find_ptr_iff; [apply (W_rt _ _ Hw)|auto]). congruence. }
    subst z. auto.
Qed.

(** Steps that keep everything but the selection *)
Definition ksm (w w' : world) : Prop := forall x, In x (all_routes w) ->
  exists x', In x' (all_routes w') /\ core x' = core x /\ r_smoothed x' = r_smoothed x.
Lemma ksm_trans : forall a b c, ksm a b -> ksm b c -> ksm a c.
Proof.
  intros a b c A B x Hx. destruct (A x Hx) as (y & Hy & E & F). destruct (B y Hy) as (z & Hz & E' & F').
  exists z. split; auto. split; congruence.
Qed.
Lemma ksm_rt : forall w w', w_rt w' = w_rt w -> ksm w w'.
Proof. intros w w' E x Hx. exists x. unfold all_routes in *. rewrite E. auto. Qed.
Lemma ksm_frame : forall w w', frame w w' -> ksm w w'.
Proof. intros w w' F. apply ksm_rt. apply F. Qed.
Lemma ksm_set : forall p b w, ksm w (map_ptr p (set_r_installed b) w).
Proof.
  intros p b w x Hx. exists (upd_route p (set_r_installed b) x). split.
  - rewrite all_map_ptr. apply in_map. auto.
  - unfold upd_route. destruct (is_ptr p x); auto.
Qed.
Lemma concat_upd_perm : forall i l' (rt : list (list route)), Permutation l' (nth i rt []) ->
  Permutation (concat (upd i l' rt)) (concat rt).
Proof.
  induction i; destruct rt as [|a rt]; cbn [upd nth concat]; intros H; auto.
  - apply Permutation_app; auto.
  - apply Permutation_app; auto.
Qed.
Lemma ksm_move : forall d p w, ksm w (move_installed d p w).
Proof.
  intros d p w x Hx. exists x. split; auto. unfold move_installed. destruct (find_route_slot d w); auto.
  unfold all_routes. cbn [w_rt set_w_rt]. eapply Permutation_in; [|exact Hx]. symmetry. apply concat_upd_perm. apply move_front_perm.
Qed.
Lemma ksm_switch : forall o p w, ksm w (switch_routes (Some o) p w).
Proof.
  intros o p w. unfold switch_routes. destruct (find_ptr o w) as [ro|]; [|apply ksm_rt; auto]. destruct (find_ptr p w) as [rn|]; [|apply ksm_rt; auto].
  destruct (negb _); [apply ksm_rt; auto|]. destruct (nb_if (r_neigh ro) w) as [[no io]|]; [|apply ksm_rt; auto].
  destruct (nb_if (r_neigh rn) w) as [[nn inw]|]; [|apply ksm_rt; auto].
  destruct (change_route_modify _ _ _ _ _ _ _) as [rc w1] eqn:C. apply change_route_modify_frame, kframe_sel in C.
  destruct C as (_ & C). destruct (_ <? _); [apply ksm_rt; auto|].
  eapply ksm_trans; [|apply ksm_move]. eapply ksm_trans; [|apply ksm_set]. eapply ksm_trans; [|apply ksm_set].
  apply ksm_rt. auto.
Qed.

Lemma is_sel_kept : forall w w' d i, w_rt w' = w_rt w -> is_selected w d i -> is_selected w' d i.
Proof. intros w w' d i E (A & B). split; auto. unfold all_routes in *. rewrite E. auto. Qed.

(** The outcome of replacing [i] by [p] *)
Lemma consider_install_some : forall e w p r i, W e w -> find_ptr p w = Some r -> find_ptr (r_ptr i) w = Some i ->
  r_installed r = false -> r_installed i = true -> dest_of i = dest_of r ->
  quiet e w (switch_routes (Some (r_ptr i)) p w) ->
  let w' := consider_install p (Some i) w in
  ksm w w' /\
  (is_selected w' (dest_of r) i \/ exists r', In r' (all_routes w') /\ r_ptr r' = p /\ r_installed r' = true).
Proof.
  intros e w p r i Hw F Fi Ir Ii D Q w'. pose proof (quiet_W _ _ _ Q Hw) as Hw1.
  assert (Npi : r_ptr i <> p) by (intro E; rewrite E, F in Fi; inversion Fi; congruence).
  assert (Fr : frame (switch_routes (Some (r_ptr i)) p w) w').
  { unfold w', consider_install. cbn [option_map]. cbv zeta.
    destruct (quiet_find _ _ _ _ _ Hw Q F) as (r' & F' & C). rewrite F'.
    destruct (r_installed r'); [|apply send_update_all_frame; eapply W_refs; eauto].
    destruct (quiet_find _ _ _ _ _ Hw Q Fi) as (i' & Fi' & Ci). rewrite Fi'.
    apply triggered_frame; [eapply W_refs; eauto|congruence]. }
  split; [eapply ksm_trans; [apply ksm_switch|apply ksm_frame; exact Fr]|].
  destruct (switch_cases e w (r_ptr i) p i r Hw Fi F Npi Ii Ir D) as [K | (r' & Hr & E)].
  - left. apply is_sel_kept with (w := w).
    + rewrite (f_rt _ _ Fr). apply kframe_sel in K. apply K.
    + split; [eapply find_In; eauto|auto].
  - right. exists r'. unfold all_routes in *. rewrite (f_rt _ _ Fr). auto.
Qed.

Lemma smw_ptr_sel : forall w w' d i, smw w w' -> is_selected w d i ->
  exists i', is_selected w' d i' /\ r_ptr i' = r_ptr i.
Proof.
  intros w w' d i (_ & S) (Hi & Ii & Di). unfold is_selected, all_routes in *. revert Hi.
  induction S as [|l l' rt rt' H S IH]; cbn [concat]; [contradiction|]. intros Hi. apply in_app_or in Hi. destruct Hi as [Hi|Hi].
  - clear IH S. induction H as [|a a' l l' (C & I) H IH]; [contradiction|]. destruct Hi as [<-|Hi].
    + exists a'. split; [|apply core_ptr; auto]. split; [apply in_or_app; left; left; auto|]. split; [congruence|].
      rewrite <- Di. apply (core_dest _ _ C).
    + destruct (IH Hi) as (x & (Hx & X) & P). exists x. split; auto. split; auto. apply in_app_or in Hx. apply in_or_app. simpl. tauto.
  - destruct (IH Hi) as (x & (Hx & X) & P). exists x. split; auto. split; auto. apply in_or_app. auto.
Qed.
Lemma smw_not_sel : forall w w' p r, NoDup (map r_ptr (all_routes w)) -> smw w w' -> find_ptr p w = Some r -> r_installed r = false ->
  forall r', In r' (all_routes w') -> r_ptr r' = p -> r_installed r' = false.
Proof.
  intros w w' p r N (_ & S) F I r' Hr E. apply find_ptr_In in F. destruct F as (Hr0 & P0).
  assert (X : exists y, In y (all_routes w) /\ r_ptr y = r_ptr r' /\ r_installed y = r_installed r').
  { clear -S Hr. unfold all_routes in *. induction S as [|l l' rt rt' H S IH]; cbn [concat] in *; [contradiction|].
    apply in_app_or in Hr. destruct Hr as [Hr|Hr].
    - clear IH S. induction H as [|a a' l l' (C & I) H IH]; [contradiction|]. destruct Hr as [<-|Hr].
      + exists a. split; [apply in_or_app; left; left; auto|]. split; auto. symmetry. apply core_ptr. auto.
      + destruct (IH Hr) as (y & Hy & Y). exists y. split; auto. apply in_app_or in Hy. apply in_or_app. simpl. tauto.
    - destruct (IH Hr) as (y & Hy & Y). exists y. split; auto. apply in_or_app. auto. }
  destruct X as (y & Hy & Py & Iy). assert (y = r) by (eapply NoDup_map_inj; eauto; congruence). subst. congruence.
Qed.

Lemma considered : forall e w p r, W e w -> rng w -> find_ptr p w = Some r -> r_installed r = false ->
  let w' := consider_route p w in
  (forall r', In r' (all_routes w') -> r_ptr r' = p -> r_installed r' = true -> feasible_in w r) /\
  forall i, is_selected w (dest_of r) i ->
    (exists i', is_selected w' (dest_of r) i' /\ r_ptr i' = r_ptr i) \/
    (finite r /\ (finite i -> metric_of r <= metric_of i /\
       exists r' i', In r' (all_routes w') /\ In i' (all_routes w') /\ r_ptr r' = p /\ r_ptr i' = r_ptr i /\
         r_smoothed r' < r_smoothed i')).
Proof.
  intros e w p r Hw G F I. unfold consider_route. rewrite F, I. pose proof (W_rt _ _ Hw) as Wf.
  pose proof (find_In _ _ _ F) as Hr. pose proof (route_dvalid w r Wf Hr) as V.
  pose proof (find_ptr_ptr _ _ _ F) as Pr.
  assert (Same : forall r', In r' (all_routes w) -> r_ptr r' = p -> r_installed r' = true -> feasible_in w r).
  { intros r' Hr' P Ir'. assert (find_ptr p w = Some r') by (apply find_ptr_iff; auto). congruence. }
  assert (Keep : (forall r', In r' (all_routes w) -> r_ptr r' = p -> r_installed r' = true -> feasible_in w r) /\
    forall i, is_selected w (dest_of r) i ->
    (exists i', is_selected w (dest_of r) i' /\ r_ptr i' = r_ptr i) \/
    (finite r /\ (finite i -> metric_of r <= metric_of i /\
       exists r' i', In r' (all_routes w) /\ In i' (all_routes w) /\ r_ptr r' = p /\ r_ptr i' = r_ptr i /\
         r_smoothed r' < r_smoothed i'))).
  { split; auto. intros i Si. left. exists i. auto. }
  destruct (feasible r w) eqn:Fe; cbn [negb]; [|exact Keep].
  assert (Fin : feasible_in w r) by (eapply feasible_in_iff; eauto).
  destruct (match find_xroute (rdest r) w with Some x => _ | None => false end); [exact Keep|].
  destruct (find_installed (rdest r) w) as [i|] eqn:Fi.
  - pose proof Fi as Fi'. apply (find_installed_iff (dest_of r)) in Fi'; auto. destruct Fi' as (Hi & Ii & Di).
    assert (Fpi : find_ptr (r_ptr i) w = Some i) by (apply find_ptr_iff; auto).
    assert (Only : forall i0, is_selected w (dest_of r) i0 -> i0 = i).
    { intros i0 S0. apply (find_installed_iff (dest_of r)) in S0; auto. change (rdest r) with (dest_of r) in Fi. congruence. }
    destruct (route_metric r >=? INFINITY) eqn:Mr; [exact Keep|].
    assert (Fr : finite r) by (unfold finite, metric_of, route_metric, INFINITY in *; lia).
    destruct (route_metric i >=? INFINITY) eqn:Mi.
    + assert (Q : quiet e w (switch_routes (Some (r_ptr i)) p w)).
      { eapply switch_chain; eauto. split; [lia|]. left. lia. }
      destruct (consider_install_some e w p r i Hw F Fpi I Ii Di Q) as (Ks & C).
      split; [intros; exact Fin|]. intros i0 S0. apply Only in S0. subst i0.
      right. split; auto. intros Fi0. exfalso. unfold finite, metric_of, route_metric, INFINITY in *. lia.
    + destruct (route_metric i >=? route_metric r) eqn:Mir; [|exact Keep].
      destruct (smoothed_spec e w (r_ptr i) i Hw Fpi) as (mi & rnd1 & E1 & Q1 & S1 & F1 & _).
      rewrite E1. set (w1 := map_ptr (r_ptr i) (smooth_upd mi (sec w)) (set_w_rnd rnd1 w)) in *.
      pose proof (quiet_W _ _ _ Q1 Hw) as Hw1.
      assert (Npi : r_ptr i <> p).
      { intro E. rewrite E, F in Fpi. inversion Fpi; subst. congruence. }
      assert (Fp1 : find_ptr p w1 = Some r) by (unfold w1; rewrite find_other; auto).
      destruct (smoothed_spec e w1 p r Hw1 Fp1) as (mr & rnd2 & E2 & Q2 & S2 & F2 & _).
      rewrite E2. set (w2 := map_ptr p (smooth_upd mr (sec w1)) (set_w_rnd rnd2 w1)) in *.
      pose proof (quiet_W _ _ _ Q2 Hw1) as Hw2.
      assert (S12 : smw w w2) by (eapply smw_trans; eauto).
      destruct (mi >? mr) eqn:Mm.
      * assert (Fi2 : find_ptr (r_ptr i) w2 = Some (smooth_upd mi (sec w) i))
          by (unfold w2; rewrite find_other; auto).
        assert (Q : quiet e w2 (switch_routes (Some (r_ptr i)) p w2)).
        { apply switch_chain with (ro := smooth_upd mi (sec w) i) (rn := smooth_upd mr (sec w1) r);
          try assumption; try exact Ii; try exact I; try exact Di.
          split; [change (route_metric r < INFINITY); lia|]. right.
          change (route_metric r <= route_metric i /\ mr < mi). lia. }
        assert (Ci : consider_install p (Some i) w2 = consider_install p (Some (smooth_upd mi (sec w) i)) w2) by reflexivity.
        rewrite Ci.
        destruct (consider_install_some e w2 p (smooth_upd mr (sec w1) r) (smooth_upd mi (sec w) i) Hw2 F2 Fi2 I Ii Di Q) as (Ks & C).
        split; [intros; exact Fin|]. intros i0 S0. apply Only in S0. subst i0. right. split; auto. intros _.
        split; [unfold metric_of, route_metric, INFINITY in *; lia|].
        destruct (Ks _ (find_In _ _ _ F2)) as (r' & Hr' & Cr & Sr). destruct (Ks _ (find_In _ _ _ Fi2)) as (i' & Hi' & Cii & Sii).
        exists r', i'. split; auto. split; auto. apply core_ptr in Cr. apply core_ptr in Cii. cbn in Cr, Cii, Sr, Sii.
        split; [congruence|]. split; [congruence|]. lia.
      * split.
        -- intros r' Hr' P Ir'. pose proof (smw_not_sel w w2 p r (wf_ptrs _ Wf) S12 F I r' Hr' P). congruence.
        -- intros i0 S0. left. destruct (smw_ptr_sel _ _ _ _ S12 S0) as (i' & Si & Pi). eauto.
  - split; [intros; exact Fin|]. intros i S0. exfalso. apply (find_installed_iff (dest_of r)) in S0; auto.
    change (rdest r) with (dest_of r) in Fi. congruence.
Qed.

(** L_Resend2.v: pending retransmissions: unique, bounded, backed off. *)
From Verif Require Import Base M_Util S_Util L_Util M_Slot M_Source S_Source L_Source M_Filter M_Types M_Neigh M_State M_Table
  M_Msg M_Route M_Xroute S_World L_Table L_Resend L_Step L_Msg L_Chain L_Update2 M_Daemon L_Daemon L_Inv S_Resend.

(** ** The machine of L_Resend *)
Definition rkey (r : resend) : Z * dest := (rs_kind r, rs_dest r).
Definition ok1 (r : resend) : Prop :=
  rs_delay r <= 65535 /\ (satb r = true \/ 0 <= rs_max r <= 3) /\ tv_ok (rs_time r).
Definition rinv (l : list resend) : Prop := NoDup (map rkey l) /\ Forall ok1 l.

Lemma match_key : forall k d r, resend_match k d r = true <-> rkey r = (k, d).
Proof.
  intros. rewrite resend_match_iff. unfold rkey. split; [intros (-> & ->); auto|intros H; inversion H; auto].
Qed.
Lemma match_keyf : forall k d r, resend_match k d r = false <-> rkey r <> (k, d).
Proof.
  intros. rewrite <- match_key. destruct (resend_match k d r); split; intros; try discriminate; auto; contradiction.
Qed.
Lemma ent_Some : forall k d l r, ent k d l = Some r -> In r l /\ rkey r = (k, d).
Proof. unfold ent. intros k d l r H. apply find_some in H. rewrite match_key in H. auto. Qed.
Lemma ent_In : forall k d l r, NoDup (map rkey l) -> In r l -> rkey r = (k, d) -> ent k d l = Some r.
Proof.
  unfold ent. induction l as [|a l IH]; intros r N H E; [contradiction|]. cbn [map] in N. inversion N as [|? ? N1 N2]; subst.
  cbn [find]. destruct (resend_match k d a) eqn:M.
  - apply match_key in M. destruct H as [->|H]; auto. exfalso. apply N1. rewrite M, <- E. apply in_map. auto.
  - apply match_keyf in M. destruct H as [->|H]; [contradiction|]. apply IH; auto.
Qed.
Lemma ent_None : forall k d l, ent k d l = None -> forall r, In r l -> rkey r <> (k, d).
Proof. unfold ent. intros k d l H r Hr E. eapply find_none in H; eauto. apply match_keyf in H. auto. Qed.

Lemma keys_upd_first : forall f g l, (forall r, f r = true -> In r l -> rkey (g r) = rkey r) -> map rkey (upd_first f g l) = map rkey l.
Proof.
  induction l as [|a l IH]; intros H; auto. cbn [upd_first]. destruct (f a) eqn:E; cbn [map]; [rewrite H; simpl; auto|].
  rewrite IH; auto. intros. apply H; simpl; auto.
Qed.
Lemma ent_upd_first : forall k d k' d' g l, (forall r, In r l -> rkey r = (k', d') -> rkey (g r) = (k', d')) ->
  ent k d (upd_first (resend_match k' d') g l) =
  if (k =? k') && dest_eqb d d' then option_map g (ent k d l) else ent k d l.
Proof.
  intros k d k' d' g. unfold ent. induction l as [|a l IH]; intros H; [cbn; destruct (_ && _); reflexivity|].
  cbn [upd_first]. destruct (resend_match k' d' a) eqn:M; cbn [find].
  - pose proof M as M'. apply match_key in M'. pose proof (H a (or_introl eq_refl) M') as G.
    destruct ((k =? k') && dest_eqb d d') eqn:E.
    + apply andb_prop in E. destruct E as (E1 & E2). apply Z.eqb_eq in E1. unfold dest_eqb in E2. apply Z.eqb_eq in E2.
      apply dest_cmp_0 in E2. subst. rewrite M. replace (resend_match k' d' (g a)) with true; auto. symmetry. apply match_key. auto.
    + assert (N : (k, d) <> (k', d')).
      { intros X. inversion X; subst. rewrite Z.eqb_refl in E. unfold dest_eqb in E. rewrite dest_cmp_refl in E. discriminate. }
      replace (resend_match k d (g a)) with false by (symmetry; apply match_keyf; congruence).
      replace (resend_match k d a) with false by (symmetry; apply match_keyf; congruence). auto.
  - rewrite IH by (intros; apply H; simpl; auto). destruct (resend_match k d a) eqn:M2; auto.
    destruct ((k =? k') && dest_eqb d d') eqn:E; auto.
    apply andb_prop in E. destruct E as (E1 & E2). apply Z.eqb_eq in E1. unfold dest_eqb in E2. apply Z.eqb_eq in E2.
    apply dest_cmp_0 in E2. subst. congruence.
Qed.
Lemma keys_upd : forall i x l r, nth_error l i = Some r -> rkey x = rkey r -> map rkey (upd i x l) = map rkey l.
Proof.
  induction i; destruct l; intros r0 H E; cbn in *; try discriminate; auto.
  - inversion H; subst. rewrite E. auto.
  - f_equal. eapply IHi; eauto.
Qed.
Lemma upd_In : forall A i (x : A) l y, In y (upd i x l) -> y = x \/ In y l.
Proof. intros. eapply nth_error_upd_In; eauto. Qed.
Lemma upd_In_other : forall i (x : resend) l r y, nth_error l i = Some r -> In y l -> y <> r -> In y (upd i x l).
Proof.
  induction i; destruct l; intros r0 y H Hy N; cbn in *; try discriminate.
  - inversion H; subst. destruct Hy; [congruence|auto].
  - destruct Hy; auto. right. eapply IHi; eauto.
Qed.
Lemma upd_In_new : forall A i (x : A) l r, nth_error l i = Some r -> In x (upd i x l).
Proof. induction i; destruct l; intros; cbn in *; try discriminate; auto. right. eauto. Qed.
Lemma filter_NoDup : forall f l, NoDup (map rkey l) -> NoDup (map rkey (filter f l)).
Proof.
  induction l as [|a l IH]; cbn [map filter]; intros N; auto. inversion N; subst. destruct (f a); auto. cbn [map].
  constructor; auto. intros X. apply H1. apply in_map_iff in X. destruct X as (y & <- & Hy). apply filter_In in Hy. apply in_map. tauto.
Qed.

Lemma again_fields : forall now s id i dl r r' go, again_resend now s id i dl r = (r', go) ->
  rkey r' = rkey r /\ rs_time r' = now /\ rs_max r' = 3 /\
  rs_delay r' = (if negb (rs_delay r =? 0) && negb (dl =? 0) then Z.min (rs_delay r) dl else if negb (dl =? 0) then dl else rs_delay r).
Proof.
  unfold again_resend. intros now s id i dl r r' go.
  destruct id as [x|]; [destruct (_ && (_ >? 0))|]; intros H; inversion H; subst; repeat split.
Qed.

Lemma later_refl : forall r, 0 <= rs_max r -> rs_delay r <= 65535 -> later r r.
Proof.
  intros r A B. unfold later. do 6 (split; [reflexivity|]). split; [lia|]. rewrite Z.sub_diag, Z.pow_0_r. lia.
Qed.
Lemma later_trans : forall a b c, later a b -> later b c -> later a c.
Proof.
  intros a b c (A1 & A2 & A3 & A4 & A5 & A6 & A7 & A8) (B1 & B2 & B3 & B4 & B5 & B6 & B7 & B8).
  unfold later. do 6 (split; [congruence|]). split; [lia|]. rewrite B8, A8.
  replace (rs_max a - rs_max c) with ((rs_max a - rs_max b) + (rs_max b - rs_max c)) by lia.
  rewrite Z.pow_add_r by lia. set (p := 2 ^ (rs_max a - rs_max b)). set (q := 2 ^ (rs_max b - rs_max c)).
  assert (1 <= q) by (unfold q; pose proof (Z.pow_pos_nonneg 2 (rs_max b - rs_max c)); lia).
  rewrite Z.mul_assoc. set (x := rs_delay a * p). destruct (Z.le_gt_cases x 65535).
  - rewrite (Z.min_r 65535 x) by lia. auto.
  - rewrite (Z.min_l 65535 x) by lia. nia.
Qed.

(** How the entry of a key evolves *)
Definition kevo (now : timeval) (l l' : list resend) : Prop :=
  forall k d r', ent k d l' = Some r' ->
    satb r' = true \/ (exists r, ent k d l = Some r /\ later r r') \/ rs_time r' = now.
Lemma kevo_trans : forall now a b c, kevo now a b -> kevo now b c -> kevo now a c.
Proof.
  intros now a b c H1 H2 k d r' E. destruct (H2 k d r' E) as [S|[(r & E1 & L)|T]]; auto.
  destruct (H1 k d r E1) as [S|[(r0 & E0 & L0)|T]].
  - left. destruct L as (L1 & _ & _ & _ & _ & L6 & _). unfold satb in *. rewrite L1, L6. auto.
  - right. left. exists r0. split; auto. eapply later_trans; eauto.
  - right. right. destruct L as (_ & _ & _ & _ & _ & L6 & _). congruence.
Qed.
Lemma kevo_same : forall now l l', Forall ok1 l -> (forall k d r', ent k d l' = Some r' -> ent k d l = Some r') -> kevo now l l'.
Proof.
  intros now l l' O H k d r' E. apply H in E. pose proof E as E'. apply ent_Some in E'. destruct E' as (Hi & _).
  rewrite Forall_forall in O. destruct (O r' Hi) as (A & [B|B] & _); auto. right. left. exists r'. split; auto. apply later_refl; lia.
Qed.

Lemma rapp_inv : forall now l t o l' t', tv_ok now -> rinv l -> rapp now (l, t) o = (l', t') -> rinv l' /\ kevo now l l'.
Proof.
  intros now l t o l' t' Tn (N & O) E. destruct o; cbn [rapp] in E.
  - inversion E; subst. clear E. split; [split|].
    + rewrite keys_upd_first; auto.
    + apply Forall_forall. intros r Hr. apply upd_first_In in Hr. rewrite Forall_forall in O.
      destruct Hr as [Hr|(y & Hy & M & ->)]; auto. apply resend_match_iff in M. destruct (O y Hy) as (A & _ & T).
      split; auto. split; [|exact T]. left. unfold satb, sat. cbn. destruct M as (-> & _). reflexivity.
    + intros k d0 r' E. rewrite ent_upd_first in E by auto. destruct (_ && _) eqn:C.
      * destruct (ent k d0 l) as [r|] eqn:G; [|discriminate]. inversion E; subst. left. apply ent_Some in G. destruct G as (_ & G).
        apply andb_prop in C. destruct C as (C & _). unfold rkey in G. inversion G. unfold satb, sat. cbn. rewrite H0.
        replace k with RESEND_REQUEST by lia. reflexivity.
      * revert E. apply kevo_same; auto.
  - destruct (ent kind d l) as [r|] eqn:G.
    + destruct (again_resend _ _ _ _ _ _) as [r1 go] eqn:A. inversion E; subst. clear E.
      apply again_fields in A. destruct A as (A1 & A2 & A3 & A4). apply ent_Some in G. destruct G as (G1 & G2).
      rewrite Forall_forall in O. pose proof (O r G1) as (B & _). split; [split|].
      * rewrite keys_upd_first; auto. intros x Hx _. apply match_key in Hx. congruence.
      * apply Forall_forall. intros x Hx. apply upd_first_In in Hx. destruct Hx as [Hx|(y & Hy & M & ->)]; auto.
        split; [|split; [right; lia|rewrite A2; auto]]. rewrite A4. destruct (_ && _); [lia|]. destruct (negb _); lia.
      * intros k d0 r' E. rewrite ent_upd_first in E by (intros; congruence). destruct ((k =? kind) && dest_eqb d0 d) eqn:C.
        -- destruct (ent k d0 l); [|discriminate]. inversion E; subst. auto.
        -- revert E. apply kevo_same; auto. apply Forall_forall. auto.
    + inversion E; subst. clear E. split; [split|].
      * cbn [map]. constructor; auto. intros X. apply in_map_iff in X. destruct X as (y & E & Hy). apply (ent_None _ _ _ G y Hy). auto.
      * constructor; auto. split; [cbn; lia|]. split; [|exact Tn]. right. cbn. unfold RESEND_MAX. lia.
      * intros k d0 r' E. unfold ent in E. cbn [find] in E. destruct (resend_match k d0 _); [inversion E; subst; auto|].
        revert E. apply kevo_same; auto.
  - inversion E; subst. clear E. split; [split|].
    + apply filter_NoDup. auto.
    + apply Forall_forall. intros r Hr. apply filter_In in Hr. rewrite Forall_forall in O. apply O. tauto.
    + apply kevo_same; auto. intros k d r' E. apply ent_Some in E. destruct E as (E1 & E2). apply filter_In in E1. apply ent_In; tauto.
  - destruct (nth_error l k) as [r|] eqn:G; [|inversion E; subst; split; [split; auto|apply kevo_same; auto]].
    destruct (_ || _) eqn:C; [|inversion E; subst; split; [split; auto|apply kevo_same; auto]].
    inversion E; subst. clear E. pose proof (nth_error_In _ _ G) as Gi. assert (Ok : ok1 r) by (rewrite Forall_forall in O; auto).
    assert (Od : satb (dec r) = true \/ (later r (dec r) /\ 0 <= rs_max (dec r) <= 3)).
    { destruct Ok as (A & [B|B] & _); [left; exact B|]. destruct (satb r) eqn:S; [left; exact S|]. right.
      assert (M : u8 (rs_max r - 1) = rs_max r - 1) by (unfold u8; apply Z.mod_small; lia).
      split; [|cbn [rs_max dec set_rs_max]; lia]. unfold later, dec. cbn. rewrite M. do 6 (split; [reflexivity|]). split; [lia|].
      replace (rs_max r - (rs_max r - 1)) with 1 by lia. rewrite Z.pow_1_r. auto. }
    assert (Nd : NoDup (map rkey (upd k (dec r) l))) by (erewrite keys_upd; eauto).
    split; [split; auto|].
    + apply Forall_forall. intros x Hx. apply upd_In in Hx. destruct Hx as [->|Hx]; [|rewrite Forall_forall in O; auto].
      split; [cbn; lia|]. split; [|apply Ok]. destruct Od as [Od|(_ & Od)]; auto.
    + intros k0 d0 r' E. apply ent_Some in E. destruct E as (E1 & E2). apply upd_In in E1. destruct E1 as [->|E1].
      * destruct Od as [Od|(Od & _)]; auto. right. left. exists r. split; auto. apply ent_In; auto.
      * rewrite Forall_forall in O. destruct (O r' E1) as (A & [B|B] & _); auto. right. left. exists r'. split; [apply ent_In; auto|].
        apply later_refl; lia.
  - inversion E; subst. split; [split; auto|]. apply kevo_same; auto.
Qed.

Lemma rrun_inv : forall now os l t l' t', tv_ok now -> rinv l -> rrun now os (l, t) = (l', t') -> rinv l' /\ kevo now l l'.
Proof.
  intros now. unfold rrun. induction os as [|o os IH]; intros l t l' t' Tn H E; cbn [fold_left] in E.
  - inversion E; subst. split; auto. apply kevo_same; auto. apply H.
  - destruct (rapp now (l, t) o) as [l1 t1] eqn:A. apply rapp_inv in A; auto. destruct A as (A1 & A2).
    apply IH in E; auto. destruct E as (E1 & E2). split; auto. eapply kevo_trans; eauto.
Qed.
Lemma evo_inv : forall w w', rsd_evo w w' -> tv_ok (w_now w) -> rinv (w_rsd w) -> rinv (w_rsd w') /\ kevo (w_now w) (w_rsd w) (w_rsd w').
Proof. intros w w' (os & E) Tn H. unfold rstate in E. symmetry in E. eapply rrun_inv; eauto. Qed.

(** ** The daemon *)
Lemma evo_kframe : forall w w', kframe w w' -> rsd_evo w w'.
Proof. intros w w' (a & b & ->). apply evo_refl'; auto. Qed.
Lemma evo_move : forall d p w, rsd_evo w (move_installed d p w).
Proof. intros. unfold move_installed. destruct (find_route_slot d w); apply evo_refl'; auto. Qed.
Lemma kframe_now : forall w w', kframe w w' -> w_now w' = w_now w.
Proof. intros w w' (a & b & ->). auto. Qed.
Lemma kframe_rsd : forall w w', kframe w w' -> w_rsd w' = w_rsd w /\ w_rsd_time w' = w_rsd_time w.
Proof. intros w w' (a & b & ->). auto. Qed.

Lemma mstep_evo : forall b s t, mstep b s t -> rsd_evo (snd s) (snd t).
Proof.
  intros b s t H. destruct H; cbn [snd]; try (apply evo_refl'; reflexivity).
  - apply (f_evo _ _ H).
  - match goal with H : change_route_add _ _ _ _ = _ |- _ => apply change_route_add_frame, kframe_rsd in H; destruct H end.
    unfold move_installed. destruct (find_route_slot _ _); apply evo_refl'; cbn; auto.
  - match goal with H : change_route_add _ _ _ _ = _ |- _ => apply change_route_add_frame, evo_kframe in H end. auto.
  - destruct (change_route_flush _ _ _ _) as [rc w1] eqn:E. apply change_route_flush_frame, kframe_rsd in E.
    apply evo_refl'; cbn; tauto.
  - match goal with H : change_route_modify _ _ _ _ _ _ _ = _ |- _ => apply change_route_modify_frame, kframe_rsd in H; destruct H end.
    unfold move_installed. destruct (find_route_slot _ _); apply evo_refl'; cbn; auto.
  - match goal with H : change_route_modify _ _ _ _ _ _ _ = _ |- _ => apply change_route_modify_frame, evo_kframe in H end. auto.
  - match goal with H : (if ?c then _ else _) = (rc, w1) |- _ => destruct c;
      [apply change_route_modify_frame, kframe_rsd in H; destruct H|injection H as _ <-] end; apply evo_refl'; cbn; auto.
  - unfold unlink_route. destruct (find_route_slot _ _); apply evo_refl'; reflexivity.
Qed.
Lemma star_evo : forall q s t, star q s t -> rsd_evo (snd s) (snd t).
Proof.
  induction 1; [apply evo_refl'; auto|]. eapply evo_trans; [|eapply mstep_evo; eauto|eauto].
  apply mstep_menv in H0. apply H0.
Qed.
Lemma insert_rsd : forall r w, w_rsd (insert_route r w) = w_rsd w /\ w_rsd_time (insert_route r w) = w_rsd_time w /\ w_now (insert_route r w) = w_now w.
Proof. intros. unfold insert_route. match goal with |- context [match ?x with _ => _ end] => destruct x end; auto. Qed.
Lemma run1_evo : forall w ev, W [] w -> allowed ev w -> rsd_evo w (run1 ev w).
Proof.
  intros w ev Hw A. destruct (run1_cases_ev w ev Hw A) as [(_ & O)|[C|(id & d & q & m & iv & n & nh & -> & U)]].
  - destruct O; apply evo_refl'; reflexivity.
  - apply (star_evo _ _ _ C).
  - destruct U as [C|w1 r w2 S _ E C _ _ _ _].
    + apply (star_evo _ _ _ C).
    + pose proof (star_evo _ _ _ S) as E1. pose proof (star_evo _ _ _ C) as E2. cbn [snd] in *.
      apply star_menv in S. cbn [snd] in S. assert (Nw : w_now w1 = w_now w) by apply S. subst w2.
      destruct (insert_rsd r (set_w_next (w_next w1 + 1) w1)) as (I1 & I2 & I3).
      eapply evo_trans; [exact Nw|exact E1|]. eapply evo_trans; [|apply evo_refl'; [exact I1|exact I2]|exact E2]. exact I3.
Qed.
Lemma reach_rinv : forall c w, c_half_life c <> 2 -> reach c w -> rinv (w_rsd w).
Proof.
  intros c w Hc R. induction R.
  - split; [constructor|constructor].
  - destruct (reach_W c w Hc R) as (Hw & _). apply (evo_inv w); auto; [apply run1_evo; auto|]. apply (rg_now _ (reach_rng c w Hc R)).
Qed.

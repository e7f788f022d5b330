(** L_Trace.v: the log of kernel requests only grows. *)
From Verif Require Import Base M_Util M_Slot M_Source M_Filter M_Types M_Neigh M_State M_Table M_Msg M_Route
  S_Util S_World L_Table L_Step.

Definition kmono (w w' : world) : Prop := exists l, w_ktr w' = w_ktr w ++ l.
Lemma kmono_same : forall w w', w_ktr w' = w_ktr w -> kmono w w'.
Proof. intros w w' E. exists []. rewrite app_nil_r. auto. Qed.
Lemma kmono_trans : forall a b c, kmono a b -> kmono b c -> kmono a c.
Proof. intros a b c (l & E) (m & F). exists (l ++ m). rewrite F, E, app_assoc. auto. Qed.
Lemma refused_l : forall a b c, kmono a b -> krefused b c -> krefused a c.
Proof.
  intros a b c (l & E) (m & e & F & I & X). exists (l ++ m), e. rewrite F, E, app_assoc. split; auto. split; auto.
  apply in_or_app. auto.
Qed.
Lemma refused_r : forall a b c, krefused a b -> kmono b c -> krefused a c.
Proof.
  intros a b c (l & e & E & I & X) (m & F). exists (l ++ m), e. rewrite F, E, app_assoc. split; auto. split; auto.
  apply in_or_app. auto.
Qed.
Lemma refused_mono : forall a b, krefused a b -> kmono a b.
Proof. intros a b (l & _ & E & _). exists l. auto. Qed.

Lemma kernel_route1_log : forall add table d pref gate ifx m w rc w', kernel_route1 add table d pref gate ifx m w = (rc, w') ->
  kmono w w' /\ (rc < 0 -> krefused w w').
Proof.
  intros add table d pref gate ifx m w rc w' E. unfold kernel_route1 in E.
  assert (Tr : forall e v, w_ktr v = w_ktr w -> failed e -> kmono w (ktrace e v) /\ (rc < 0 -> krefused w (ktrace e v))).
  { intros e v Ev F. unfold ktrace. split; [exists [e]; cbn; rewrite Ev; auto|]. intros _. exists [e], e. cbn. rewrite Ev. auto. }
  destruct (negb (family_ok d gate)); [inversion E; subst; apply Tr; cbn; auto|].
  destruct (_ && _); [inversion E; subst; apply Tr; cbn; auto|].
  destruct (_ && _); [inversion E; subst; split; [apply kmono_same; auto|lia]|].
  destruct (kresp1 w) as [x w1] eqn:K. unfold kresp1 in K.
  assert (K1 : w_ktr w1 = w_ktr w) by (destruct (w_kresp w); inversion K; reflexivity).
  inversion E; subst. destruct (Z.eq_dec x 0) as [->|Nz].
  - cbn. split; [|lia]. eexists. cbn. rewrite K1. reflexivity.
  - apply Tr; auto. destruct add; cbn; lia.
Qed.
Lemma modify_log : forall r i m g ifx nm w rc w', change_route_modify r i m g ifx nm w = (rc, w') ->
  kmono w w' /\ (rc < 0 -> krefused w w').
Proof.
  intros r i m g ifx nm w rc w' E. unfold change_route_modify in E. destruct (inst_filter r i w) as [[deny table] pref].
  unfold kernel_route_modify in E. destruct (negb _).
  { inversion E; subst. split; [exists [KFail true EINVAL]; reflexivity|]. intros _. exists [KFail true EINVAL], (KFail true EINVAL).
    cbn. auto. }
  destruct (_ && _); [inversion E; subst; split; [apply kmono_same; auto|lia]|].
  destruct (kernel_route1 false _ _ _ _ _ _ w) as [rc1 w1] eqn:E1. destruct (kernel_route1 true _ _ _ _ _ _ w1) as [rc2 w2] eqn:E2.
  apply kernel_route1_log in E1. apply kernel_route1_log in E2. destruct E1 as (M1 & _), E2 as (M2 & R2).
  inversion E; subst. split; [eapply kmono_trans; eauto|]. intros H. eapply refused_l; [exact M1|]. apply R2.
  clear E. change (- EEXIST) with (-17) in H. destruct (rc2 =? -17) eqn:X in H; lia.
Qed.
Lemma add_log : forall r i m w rc w', change_route_add r i m w = (rc, w') -> kmono w w'.
Proof.
  intros r i m w rc w' E. unfold change_route_add in E. destruct (inst_filter r i w) as [[[] table] pref].
  - inversion E; subst. apply kmono_same; auto.
  - apply kernel_route1_log in E. apply E.
Qed.
Lemma flush_log : forall r i m w rc w', change_route_flush r i m w = (rc, w') -> kmono w w'.
Proof.
  intros r i m w rc w' E. unfold change_route_flush in E. destruct (inst_filter r i w) as [[deny table] pref].
  apply kernel_route1_log in E. apply E.
Qed.

Lemma move_ktr : forall d p w, w_ktr (move_installed d p w) = w_ktr w.
Proof. intros. unfold move_installed. destruct (find_route_slot d w); auto. Qed.
Lemma mstep_log : forall b s t, mstep b s t -> kmono (snd s) (snd t).
Proof.
  intros b s t H. destruct H; cbn [snd]; try (apply kmono_same; reflexivity).
  - apply kmono_same. apply H.
  - apply add_log in H4. destruct H4 as (l & E). exists l. rewrite move_ktr. cbn. auto.
  - apply add_log in H2. auto.
  - destruct (change_route_flush _ _ _ _) as [rc w1] eqn:E. apply flush_log in E. exact E.
  - apply modify_log in H8. destruct H8 as ((l & E) & _). exists l. rewrite move_ktr. cbn. auto.
  - apply modify_log in H2. apply H2.
  - assert (M : kmono w w1).
    { destruct (_ && _); [apply modify_log in H1; apply H1|inversion H1; apply kmono_same; auto]. }
    exact M.
  - apply kmono_same. unfold unlink_route. destruct (find_route_slot _ _); auto.
Qed.
Lemma star_log : forall q s t, star q s t -> kmono (snd s) (snd t).
Proof. induction 1; [apply kmono_same; auto|]. eapply kmono_trans; eauto. eapply mstep_log; eauto. Qed.
Lemma insert_log : forall r w, kmono w (insert_route r w).
Proof. intros. apply kmono_same. unfold insert_route. destruct (find_route_slot _ _); auto. Qed.

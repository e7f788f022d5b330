(** L_Out.v: which messages each sending function adds. *)
From Verif Require Import Base M_Util M_Filter M_Source M_Types M_Neigh M_State M_Table M_Msg.

Definition outq (P : obuf * tlv -> Prop) (w w' : world) : Prop := exists l, w_out w' = w_out w ++ l /\ Forall P l.
Definition isupd (e : obuf * tlv) : Prop := match snd e with TUpdate _ _ _ _ _ => True | _ => False end.

Section Out.
Variable P : obuf * tlv -> Prop.
Hypothesis HP : forall e, isupd e -> P e.

Lemma outq_same : forall w w', w_out w' = w_out w -> outq P w w'.
Proof. intros w w' E. exists []. rewrite app_nil_r. auto. Qed.
Lemma outq_refl : forall w, outq P w w. Proof. intros. apply outq_same. auto. Qed.
Lemma outq_trans : forall a b c, outq P a b -> outq P b c -> outq P a c.
Proof.
  intros a b c (l & A & F) (l' & B & G). exists (l ++ l'). rewrite B, A, app_assoc. split; auto. apply Forall_app. auto.
Qed.
Lemma outq_fold : forall A (f : world -> A -> world) l w, (forall w x, In x l -> outq P w (f w x)) -> outq P w (fold_left f l w).
Proof.
  intros A f l. induction l as [|x l IH]; intros w H; [apply outq_refl|]. cbn [fold_left].
  eapply outq_trans; [apply H; left; auto|apply IH]. intros. apply H. right. auto.
Qed.
Lemma emit_outq : forall b t w, P (b, t) -> outq P w (emit b t w).
Proof. intros. exists [(b, t)]. split; auto. Qed.

Lemma recompute_out : forall w, w_out (recompute_resend_time w) = w_out w. Proof. reflexivity. Qed.
Lemma satisfy_out' : forall d s id i w, w_out (satisfy_request d s id i w) = w_out w.
Proof.
  intros. unfold satisfy_request. destruct (find_request d w); auto. destruct (match i with Some _ => _ | None => _ end); auto.
  destruct (_ || _); auto.
Qed.
Lemma record_out : forall k d s id i dl w, w_out (record_resend k d s id i dl w) = w_out w.
Proof.
  intros. unfold record_resend. destruct (_ || _); auto. destruct (find_resend k d w) as [r|].
  - destruct (again_resend _ _ _ _ _ _) as [r' go]. destruct (go && _); auto.
  - destruct (negb _); auto.
Qed.
Lemma rbu_outq : forall b i id d s m w, outq P w (really_buffer_update b i id d s m w).
Proof.
  intros. unfold really_buffer_update. repeat match goal with |- outq _ _ (if ?x then _ else _) => destruct x end; try apply outq_refl.
  apply emit_outq. apply HP. exact I.
Qed.
Lemma rsu_outq : forall i id d s m w, outq P w (really_send_update i id d s m w).
Proof.
  intros. unfold really_send_update. destruct (negb _); [apply outq_refl|]. apply outq_fold. intros. apply rbu_outq.
Qed.
Lemma flush1_outq : forall i w last b, outq P w (fst (flush1 i (w, last) b)).
Proof.
  intros i w last b. unfold flush1. destruct (match last with Some _ => _ | None => _ end); [apply outq_refl|].
  destruct (find_xroute _ w) as [x|]; destruct (find_installed _ w) as [r|]; cbn [fst]; try apply rsu_outq.
  - destruct (x_metric x <=? _); [apply rsu_outq|].
    match goal with |- context [nb_if _ ?z] => set (w1 := z) end.
    assert (S1 : outq P w w1) by (unfold w1; destruct (_ <? _); [apply outq_same, satisfy_out'|apply outq_refl]).
    destruct (nb_if _ w1) as [[nb ri]|]; cbn [fst]; [|eapply outq_trans; [exact S1|apply outq_same; reflexivity]].
    destruct (_ && _); cbn [fst]; auto. eapply outq_trans; [exact S1|]. eapply outq_trans; [apply rsu_outq|apply outq_same; reflexivity].
  - match goal with |- context [nb_if _ ?z] => set (w1 := z) end.
    assert (S1 : outq P w w1) by (unfold w1; destruct (_ <? _); [apply outq_same, satisfy_out'|apply outq_refl]).
    destruct (nb_if _ w1) as [[nb ri]|]; cbn [fst]; [|eapply outq_trans; [exact S1|apply outq_same; reflexivity]].
    destruct (_ && _); cbn [fst]; auto. eapply outq_trans; [exact S1|]. eapply outq_trans; [apply rsu_outq|apply outq_same; reflexivity].
Qed.
Lemma flush_fold_outq : forall i l w last, outq P w (fst (fold_left (flush1 i) l (w, last))).
Proof.
  intros i. induction l as [|b l IH]; intros w last; [apply outq_refl|]. cbn [fold_left].
  destruct (flush1 i (w, last) b) as [w1 last1] eqn:E. eapply outq_trans; [|apply IH].
  pose proof (flush1_outq i w last b) as H. rewrite E in H. exact H.
Qed.
Lemma flushupdates_outq : forall ifp w, outq P w (flushupdates ifp w).
Proof.
  intros. unfold flushupdates. destruct (get_if ifp w) as [i|]; [|apply outq_same; reflexivity].
  match goal with |- outq _ _ (map_if _ _ ?z) => apply (outq_trans _ z); [|apply outq_same; reflexivity] end.
  destruct (match if_pend i with [] => true | _ => false end); [apply outq_refl|].
  destruct (negb _); [apply outq_same; reflexivity|].
  match goal with |- outq _ _ (fst (fold_left _ _ (?z, _))) => apply (outq_trans _ z); [apply outq_same; reflexivity|apply flush_fold_outq] end.
Qed.
Lemma rand_out : forall w r w1, rand w = (r, w1) -> w_out w1 = w_out w.
Proof. unfold rand. intros w r w1. destruct (w_rnd w); intros H; inversion H; subst; auto. Qed.
Lemma schedule_outq : forall ifp u w, outq P w (schedule_update_flush ifp u w).
Proof.
  intros. unfold schedule_update_flush. destruct (get_if ifp w); [|apply outq_same; reflexivity].
  unfold update_jitter, set_timeout. destruct (rand w) as [r1 w1] eqn:R1. apply rand_out in R1.
  destruct (_ && _); [apply outq_same; auto|]. destruct (rand w1) as [r2 w2] eqn:R2. apply rand_out in R2.
  apply outq_same; cbn; congruence.
Qed.
Lemma buffer_update_outq : forall ifp d w, outq P w (buffer_update ifp d w).
Proof.
  intros. unfold buffer_update. destruct (get_if ifp w) as [i|]; [|apply outq_same; reflexivity].
  match goal with |- outq _ _ (map_if _ _ ?z) => apply (outq_trans _ z); [|apply outq_same; reflexivity] end. destruct (_ && _); [apply flushupdates_outq|apply outq_refl].
Qed.
Lemma send_update_if_outq : forall ifp u d w, outq P w (send_update_if ifp u d w).
Proof.
  intros. unfold send_update_if. destruct (get_if ifp w) as [i|]; [|apply outq_same; reflexivity].
  destruct (negb _); [apply outq_refl|]. eapply outq_trans; [apply buffer_update_outq|apply schedule_outq].
Qed.
Lemma send_update_all_outq : forall u d w, outq P w (send_update_all u d w).
Proof.
  intros. unfold send_update_all. match goal with |- context [find_installed _ ?z] => set (w1 := z) end.
  assert (S1 : outq P w w1) by (apply outq_fold; intros; apply send_update_if_outq).
  destruct (find_installed d w1) as [r|]; auto. destruct (_ <? _); auto.
  destruct (src_of r w1); eapply outq_trans; try exact S1; [apply outq_same, satisfy_out'|apply outq_same; reflexivity].
Qed.
Lemma send_update_resend_outq : forall d w, outq P w (send_update_resend d w).
Proof.
  intros. unfold send_update_resend. eapply outq_trans; [apply send_update_all_outq|apply outq_same, record_out].
Qed.
End Out.

Lemma outq_imp : forall (P Q : obuf * tlv -> Prop) w w', (forall e, P e -> Q e) -> outq P w w' -> outq Q w w'.
Proof. intros P Q w w' H (l & E & F). exists l. split; auto. eapply Forall_impl; eauto. Qed.

Lemma outq_emit : forall P w w' e, outq P w w' -> In e (w_out w) -> In e (w_out w').
Proof. intros P w w' e (l & -> & _) H. apply in_app_iff. auto. Qed.

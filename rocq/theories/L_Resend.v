(** L_Resend.v: pending retransmissions (resend.c), as a machine of their own:
    everything the daemon does to them is a sequence of the operations below. *)
From Verif Require Import Base M_Util S_Util L_Util M_Slot M_Source S_Source L_Source M_Filter M_Types M_Neigh M_State M_Table M_Msg L_Table.

Lemma dest_cmp_0 : forall a b, dest_compare a b = 0 -> a = b.
Proof.
  intros [p l s m] [p' l' s' m']. unfold dest_compare. cbn [d_prefix d_plen d_src d_splen].
  rewrite !andthen_0, !memcmp_0, !zcmp_0. intuition congruence.
Qed.
Lemma dest_cmp_refl : forall a, dest_compare a a = 0.
Proof. intros. unfold dest_compare. rewrite !andthen_0, !memcmp_0, !zcmp_0. auto. Qed.

Definition rst : Type := (list resend * timeval)%type.
Definition rstate (w : world) : rst := (w_rsd w, w_rsd_time w).

Definition rexp (now : timeval) (r : resend) : bool :=
  if rs_kind r =? RESEND_REQUEST then timeval_minus_msec now (rs_time r) >=? REQUEST_TIMEOUT else rs_max r <=? 0.
Definition rlive (now : timeval) (r : resend) : bool := negb (rexp now r) && (rs_delay r >? 0) && (rs_max r >? 0).
Definition rtime (now : timeval) (l : list resend) : timeval :=
  fold_left (fun t r => if rlive now r then timeval_min t (resend_due r) else t) l tv0.
Definition sat (r : resend) : resend := set_rs_time (mkTv 0 (tv_usec (rs_time r))) (set_rs_max 0 r).
Definition dec (r : resend) : resend := set_rs_max (u8 (rs_max r - 1)) (set_rs_delay (Z.min 65535 (rs_delay r * 2)) r).
Definition satb (r : resend) : bool := (rs_kind r =? RESEND_REQUEST) && (tv_sec (rs_time r) =? 0).

Inductive rop :=
| OSat (d : dest)
| ORec (kind : Z) (d : dest) (seqno : Z) (id : option (list Z)) (ifp : option Z) (delay : Z)
| OExp
| ODec (k : nat)
| OTime.

Definition ent (k : Z) (d : dest) (l : list resend) : option resend := find (resend_match k d) l.

Definition rapp (now : timeval) (s : rst) (o : rop) : rst :=
  let '(l, t) := s in
  match o with
  | OSat d => let l' := upd_first (resend_match RESEND_REQUEST d) sat l in (l', rtime now l')
  | ORec kind d seqno id ifp delay =>
      let delay := Z.min delay 65535 in
      match ent kind d l with
      | Some r =>
          let '(r', go) := again_resend now seqno id ifp delay r in
          (upd_first (resend_match kind d) (fun _ => r') l,
           if go && negb (rs_delay r' =? 0) then timeval_min t (resend_due r') else t)
      | None =>
          let r' := mkRsd kind RESEND_MAX delay now d seqno (match id with Some i => i | None => zeroes 8 end) ifp in
          (r' :: l, if negb (rs_delay r' =? 0) then timeval_min t (resend_due r') else t)
      end
  | OExp => let l' := filter (fun r => negb (rexp now r)) l in (l', rtime now l')
  | ODec k => match nth_error l k with
              | Some r => if (rs_max r >? 0) || satb r then (upd k (dec r) l, t) else s
              | None => s
              end
  | OTime => (l, rtime now l)
  end.
Definition rrun (now : timeval) (os : list rop) (s : rst) : rst := fold_left (rapp now) os s.

(** The state of retransmissions of [w'] comes from that of [w] by such operations. *)
Definition rsd_evo (w w' : world) : Prop := exists os, rstate w' = rrun (w_now w) os (rstate w).

Lemma evo_refl' : forall w w', w_rsd w' = w_rsd w -> w_rsd_time w' = w_rsd_time w -> rsd_evo w w'.
Proof. intros w w' A B. exists []. unfold rstate. rewrite A, B. reflexivity. Qed.
Lemma evo_trans : forall a b c, w_now b = w_now a -> rsd_evo a b -> rsd_evo b c -> rsd_evo a c.
Proof.
  intros a b c N (o1 & H1) (o2 & H2). exists (o1 ++ o2). unfold rrun. rewrite fold_left_app.
  fold (rrun (w_now a) o1 (rstate a)). rewrite <- H1. rewrite N in H2. exact H2.
Qed.
Lemma evo_one : forall w w' o, rstate w' = rapp (w_now w) (rstate w) o -> rsd_evo w w'.
Proof. intros w w' o H. exists [o]. auto. Qed.

Lemma recompute_evo : forall w, rsd_evo w (recompute_resend_time w).
Proof. intros. apply (evo_one _ _ OTime). reflexivity. Qed.
Lemma record_evo : forall k d s id i dl w, rsd_evo w (record_resend k d s id i dl w).
Proof.
  intros. unfold record_resend. destruct (_ || _); [apply evo_refl'; auto|].
  apply (evo_one _ _ (ORec k d s id i dl)). unfold rstate, rapp, find_resend, ent.
  destruct (find _ _) as [r|].
  - destruct (again_resend _ _ _ _ _ _) as [r' go]. destruct (go && _); reflexivity.
  - destruct (negb _); reflexivity.
Qed.
Lemma satisfy_evo : forall d s id i w, rsd_evo w (satisfy_request d s id i w).
Proof.
  intros. unfold satisfy_request. destruct (find_request d w); [|apply evo_refl'; auto].
  destruct (match i with Some _ => _ | None => _ end); [apply evo_refl'; auto|].
  destruct (_ || _); [|apply evo_refl'; auto].
  apply (evo_one _ _ (OSat d)). reflexivity.
Qed.
Lemma expire_evo : forall w, rsd_evo w (expire_resend w).
Proof.
  intros. unfold expire_resend. destruct (_ =? _)%nat; [apply evo_refl'; auto|].
  apply (evo_one _ _ OExp). reflexivity.
Qed.

(** ** Sending only satisfies requests *)
Definition satq1 (r r' : resend) : Prop := r' = r \/ (rs_kind r = RESEND_REQUEST /\ r' = sat r).
Definition satq (w w' : world) : Prop := w_now w' = w_now w /\ Forall2 satq1 (w_rsd w) (w_rsd w').

Lemma sat_sat : forall r, sat (sat r) = sat r.
Proof. intros []. reflexivity. Qed.
Lemma satq1_trans : forall a b c, satq1 a b -> satq1 b c -> satq1 a c.
Proof.
  intros a b c [->|(K & ->)] [->|(K' & ->)]; unfold satq1; rewrite ?sat_sat; auto.
Qed.
Lemma F2_refl : forall A (R : A -> A -> Prop) l, (forall x, R x x) -> Forall2 R l l.
Proof. intros A R l H. induction l; auto. Qed.
Lemma F2_trans : forall A (R : A -> A -> Prop), (forall a b c, R a b -> R b c -> R a c) ->
  forall l1 l2 l3, Forall2 R l1 l2 -> Forall2 R l2 l3 -> Forall2 R l1 l3.
Proof.
  intros A R T l1 l2 l3 H. revert l3. induction H; intros l3 G; inversion G; subst; constructor; eauto.
Qed.
Lemma satq_same : forall w w', w_now w' = w_now w -> w_rsd w' = w_rsd w -> satq w w'.
Proof. intros w w' A B. split; auto. rewrite B. apply F2_refl. intros. left. auto. Qed.
Lemma satq_refl : forall w, satq w w. Proof. intros. apply satq_same; auto. Qed.
Lemma satq_trans : forall a b c, satq a b -> satq b c -> satq a c.
Proof. intros a b c (A & B) (C & D). split; [congruence|]. eapply F2_trans; eauto. apply satq1_trans. Qed.
Lemma satq_fold : forall A (f : world -> A -> world) l w, (forall w x, satq w (f w x)) -> satq w (fold_left f l w).
Proof.
  intros A f l. induction l as [|x l IH]; intros w H; [apply satq_refl|]. cbn [fold_left]. eapply satq_trans; [apply H|apply IH; auto].
Qed.
Lemma resend_match_iff : forall k d r, resend_match k d r = true <-> rs_kind r = k /\ rs_dest r = d.
Proof.
  intros. unfold resend_match, dest_eqb. rewrite andb_true_iff, !Z.eqb_eq. split; intros (A & B); split; auto.
  - apply dest_cmp_0. auto.
  - subst. apply dest_cmp_refl.
Qed.
Lemma upd_first_F2 : forall l d, Forall2 satq1 l (upd_first (resend_match RESEND_REQUEST d) sat l).
Proof.
  induction l as [|a l IH]; intros d; cbn [upd_first]; [constructor|].
  destruct (resend_match RESEND_REQUEST d a) eqn:E.
  - constructor; [|apply F2_refl; intros; left; auto]. apply resend_match_iff in E. right. tauto.
  - constructor; auto. left. auto.
Qed.
Lemma satisfy_satq : forall d s id i w, satq w (satisfy_request d s id i w).
Proof.
  intros. unfold satisfy_request. destruct (find_request d w); [|apply satq_refl].
  destruct (match i with Some _ => _ | None => _ end); [apply satq_refl|].
  destruct (_ || _); [|apply satq_refl]. split; [reflexivity|]. cbn. apply upd_first_F2.
Qed.
Lemma rbu_satq : forall b i id d s m w, satq w (really_buffer_update b i id d s m w).
Proof.
  intros. unfold really_buffer_update. repeat match goal with |- satq _ (if ?x then _ else _) => destruct x end; try apply satq_refl.
  apply satq_same; reflexivity.
Qed.
Lemma rsu_satq : forall i id d s m w, satq w (really_send_update i id d s m w).
Proof.
  intros. unfold really_send_update. destruct (negb _); [apply satq_refl|]. apply satq_fold. intros. apply rbu_satq.
Qed.
Lemma flush1_satq : forall i w last b, satq w (fst (flush1 i (w, last) b)).
Proof.
  intros i w last b. unfold flush1. destruct (match last with Some _ => _ | None => _ end); [apply satq_refl|].
  destruct (find_xroute _ w) as [x|]; destruct (find_installed _ w) as [r|]; cbn [fst]; try apply rsu_satq.
  - destruct (x_metric x <=? _); [apply rsu_satq|].
    match goal with |- context [nb_if _ ?z] => set (w1 := z) end.
    assert (S1 : satq w w1) by (unfold w1; destruct (_ <? _); [apply satisfy_satq|apply satq_refl]).
    destruct (nb_if _ w1) as [[nb ri]|]; cbn [fst]; [|eapply satq_trans; [exact S1|apply satq_same; reflexivity]].
    destruct (_ && _); cbn [fst]; auto. eapply satq_trans; [exact S1|]. eapply satq_trans; [apply rsu_satq|apply satq_same; reflexivity].
  - match goal with |- context [nb_if _ ?z] => set (w1 := z) end.
    assert (S1 : satq w w1) by (unfold w1; destruct (_ <? _); [apply satisfy_satq|apply satq_refl]).
    destruct (nb_if _ w1) as [[nb ri]|]; cbn [fst]; [|eapply satq_trans; [exact S1|apply satq_same; reflexivity]].
    destruct (_ && _); cbn [fst]; auto. eapply satq_trans; [exact S1|]. eapply satq_trans; [apply rsu_satq|apply satq_same; reflexivity].
Qed.
Lemma flush_fold_satq : forall i l w last, satq w (fst (fold_left (flush1 i) l (w, last))).
Proof.
  intros i. induction l as [|b l IH]; intros w last; [apply satq_refl|]. cbn [fold_left].
  destruct (flush1 i (w, last) b) as [w1 last1] eqn:E. eapply satq_trans; [|apply IH].
  pose proof (flush1_satq i w last b) as H. rewrite E in H. exact H.
Qed.
Lemma flushupdates_satq : forall ifp w, satq w (flushupdates ifp w).
Proof.
  intros. unfold flushupdates. destruct (get_if ifp w) as [i|]; [|apply satq_same; reflexivity].
  match goal with |- satq _ (map_if _ _ ?z) => apply (satq_trans _ z); [|apply satq_same; reflexivity] end.
  destruct (match if_pend i with [] => true | _ => false end); [apply satq_refl|].
  destruct (negb _); [apply satq_same; reflexivity|].
  match goal with |- satq _ (fst (fold_left _ _ (?z, _))) => apply (satq_trans _ z); [apply satq_same; reflexivity|apply flush_fold_satq] end.
Qed.
Lemma rand_same : forall w r w1, rand w = (r, w1) -> w_now w1 = w_now w /\ w_rsd w1 = w_rsd w.
Proof. unfold rand. intros w r w1. destruct (w_rnd w); intros H; inversion H; subst; auto. Qed.
Lemma schedule_satq : forall ifp u w, satq w (schedule_update_flush ifp u w).
Proof.
  intros. unfold schedule_update_flush. destruct (get_if ifp w); [|apply satq_same; reflexivity].
  unfold update_jitter, set_timeout. destruct (rand w) as [r1 w1] eqn:R1. apply rand_same in R1. destruct R1.
  destruct (_ && _); [apply satq_same; auto|]. destruct (rand w1) as [r2 w2] eqn:R2. apply rand_same in R2. destruct R2.
  apply satq_same; cbn; congruence.
Qed.
Lemma buffer_update_satq : forall ifp d w, satq w (buffer_update ifp d w).
Proof.
  intros. unfold buffer_update. destruct (get_if ifp w) as [i|]; [|apply satq_same; reflexivity].
  match goal with |- satq _ (map_if _ _ ?z) => apply (satq_trans _ z); [|apply satq_same; reflexivity] end. destruct (_ && _); [apply flushupdates_satq|apply satq_refl].
Qed.
Lemma send_update_if_satq : forall ifp u d w, satq w (send_update_if ifp u d w).
Proof.
  intros. unfold send_update_if. destruct (get_if ifp w) as [i|]; [|apply satq_same; reflexivity].
  destruct (negb _); [apply satq_refl|]. eapply satq_trans; [apply buffer_update_satq|apply schedule_satq].
Qed.
Lemma send_update_all_satq : forall u d w, satq w (send_update_all u d w).
Proof.
  intros. unfold send_update_all. match goal with |- context [find_installed _ ?z] => set (w1 := z) end.
  assert (S1 : satq w w1) by (apply satq_fold; intros; apply send_update_if_satq).
  destruct (find_installed d w1) as [r|]; auto. destruct (_ <? _); auto.
  destruct (src_of r w1); eapply satq_trans; try exact S1; [apply satisfy_satq|apply satq_same; reflexivity].
Qed.
Lemma multihop_satq : forall b i d s id h w, satq w (send_multihop_request b i d s id h w).
Proof. intros. unfold send_multihop_request. destruct (_ && _); apply satq_same; reflexivity. Qed.
Lemma mmh_if_satq : forall d s id h ifp w, satq w (send_multicast_multihop_request_if d s id h ifp w).
Proof.
  intros. unfold send_multicast_multihop_request_if. destruct (get_if ifp w) as [i|]; [|apply satq_same; reflexivity].
  destruct (negb _); [apply flushupdates_satq|]. eapply satq_trans; [apply flushupdates_satq|].
  apply satq_fold. intros. apply multihop_satq.
Qed.
Lemma mmh_satq : forall ifp d s id h w, satq w (send_multicast_multihop_request ifp d s id h w).
Proof.
  intros. unfold send_multicast_multihop_request. destruct ifp; [apply mmh_if_satq|]. apply satq_fold. intros w0 i.
  destruct (get_if i w0) as [x|]; [|apply satq_same; reflexivity]. destruct (if_up x); [apply mmh_if_satq|apply satq_refl].
Qed.

(** ** do_resend *)
Definition rdue (now : timeval) (r : resend) : bool := rlive now r && (timeval_compare now (resend_due r) >=? 0).
Definition resend_send (w : world) (r : resend) : world :=
  if rs_kind r =? RESEND_REQUEST then
    send_multicast_multihop_request (rs_ifp r) (rs_dest r) (rs_seqno r) (rs_id r) 127 w
  else match rs_ifp r with
       | Some i => send_update_if i true (rs_dest r) w
       | None => send_update_all true (rs_dest r) w
       end.
Lemma resend_send_satq : forall w r, satq w (resend_send w r).
Proof.
  intros. unfold resend_send. destruct (_ =? _); [apply mmh_satq|].
  destruct (rs_ifp r); [apply send_update_if_satq|apply send_update_all_satq].
Qed.
Lemma F2_nth : forall A B (R : A -> B -> Prop) l l' k x, Forall2 R l l' -> nth_error l k = Some x ->
  exists y, nth_error l' k = Some y /\ R x y.
Proof.
  intros A B R l l' k x H. revert k. induction H; intros [|k] E; cbn in *; try discriminate; eauto.
  inversion E; subst. eauto.
Qed.
Lemma do_resend1_eq : forall w k, do_resend1 w k =
  match nth_error (w_rsd w) k with
  | None => w
  | Some r => if rdue (w_now w) r then
                let w1 := resend_send w r in
                match nth_error (w_rsd w1) k with
                | None => w1
                | Some r1 => set_w_rsd (upd k (dec r1) (w_rsd w1)) w1
                end
              else w
  end.
Proof. reflexivity. Qed.
(** the operation that ends one iteration *)
Lemma do_resend1_dec : forall w k r r1, nth_error (w_rsd w) k = Some r -> rdue (w_now w) r = true ->
  nth_error (w_rsd (resend_send w r)) k = Some r1 ->
  rsd_evo (resend_send w r) (set_w_rsd (upd k (dec r1) (w_rsd (resend_send w r))) (resend_send w r)).
Proof.
  intros w k r r1 N D N1.
  destruct (resend_send_satq w r) as (Nw & F). destruct (F2_nth _ _ _ _ _ _ _ F N) as (r2 & N2 & Q).
  rewrite N1 in N2. inversion N2; subst r2. clear N2.
  apply (evo_one _ _ (ODec k)). unfold rstate, rapp. cbn [w_rsd w_rsd_time set_w_rsd].
  rewrite N1. replace ((rs_max r1 >? 0) || satb r1) with true; [reflexivity|]. symmetry.
  destruct Q as [->|(K & ->)].
  - unfold rdue, rlive in D. rewrite !andb_true_iff in D. apply orb_true_iff. left. tauto.
  - unfold satb, sat. cbn. rewrite K. reflexivity.
Qed.

(** L_Resend4.v: the messages of do_resend. *)
From Verif Require Import Base M_Util S_Util L_Util M_Slot M_Source S_Source L_Source M_Filter M_Types M_Neigh M_State M_Table
  M_Msg M_Route M_Xroute S_World L_Table L_Resend L_Step L_Msg L_Chain L_Update2 M_Daemon L_Daemon L_Inv S_Resend L_Resend2 L_Resend3
  S_Send L_Out.

Definition mh_of (r : resend) (e : obuf * tlv) : Prop := snd e = TMhRequest (rs_dest r) (rs_seqno r) 127 (rs_id r).

Lemma multihop_outq : forall (P : obuf * tlv -> Prop) b i d s id h w, P (b, TMhRequest d s (u8 h) id) ->
  outq P w (send_multihop_request b i d s id h w).
Proof. intros. unfold send_multihop_request. destruct (_ && _); [apply outq_refl|apply emit_outq; auto]. Qed.
Lemma mmh_if_outq : forall (P : obuf * tlv -> Prop) d s id h ifp w, (forall e, isupd e -> P e) -> (forall b, P (b, TMhRequest d s (u8 h) id)) ->
  outq P w (send_multicast_multihop_request_if d s id h ifp w).
Proof.
  intros P d s id h ifp w HP HQ. unfold send_multicast_multihop_request_if. destruct (get_if ifp w) as [i|]; [|apply outq_same; reflexivity].
  destruct (negb _); [apply flushupdates_outq; auto|]. eapply outq_trans; [apply flushupdates_outq; auto|].
  apply outq_fold. intros. apply multihop_outq. auto.
Qed.
Lemma mmh_outq : forall (P : obuf * tlv -> Prop) ifp d s id h w, (forall e, isupd e -> P e) -> (forall b, P (b, TMhRequest d s (u8 h) id)) ->
  outq P w (send_multicast_multihop_request ifp d s id h w).
Proof.
  intros P ifp d s id h w HP HQ. unfold send_multicast_multihop_request. destruct ifp; [apply mmh_if_outq; auto|]. apply outq_fold. intros w0 i _.
  destruct (get_if i w0) as [x|]; [|apply outq_same; reflexivity]. destruct (if_up x); [apply mmh_if_outq; auto|apply outq_refl].
Qed.
Lemma resend_send_outq : forall (P : obuf * tlv -> Prop) w r, (forall e, isupd e -> P e) ->
  (rs_kind r = RESEND_REQUEST -> forall b, P (b, TMhRequest (rs_dest r) (rs_seqno r) 127 (rs_id r))) -> outq P w (resend_send w r).
Proof.
  intros P w r HP HQ. unfold resend_send. destruct (_ =? _) eqn:K; [apply mmh_outq; auto; intros; apply HQ; lia|].
  destruct (rs_ifp r); [apply send_update_if_outq; auto|apply send_update_all_outq; auto].
Qed.
Lemma do_resend1_outq : forall (P : obuf * tlv -> Prop) w k, (forall e, isupd e -> P e) ->
  (forall r, nth_error (w_rsd w) k = Some r -> rdue (w_now w) r = true -> rs_kind r = RESEND_REQUEST ->
     forall b, P (b, TMhRequest (rs_dest r) (rs_seqno r) 127 (rs_id r))) -> outq P w (do_resend1 w k).
Proof.
  intros P w k HP HQ. rewrite do_resend1_eq. destruct (nth_error (w_rsd w) k) as [r|] eqn:N; [|apply outq_refl].
  destruct (rdue (w_now w) r) eqn:D; [|apply outq_refl]. cbv zeta.
  assert (O : outq P w (resend_send w r)) by (apply resend_send_outq; auto).
  destruct (nth_error (w_rsd (resend_send w r)) k); exact O.
Qed.

(** Only what was ripe is sent. *)
Lemma fold_outq : forall (P : obuf * tlv -> Prop) w0, lateb (w_now w0) -> (forall e, isupd e -> P e) ->
  (forall r, In r (w_rsd w0) -> tv_ok (rs_time r)) ->
  (forall r, In r (w_rsd w0) -> rdue (w_now w0) r = true -> rs_kind r = RESEND_REQUEST ->
     forall b, P (b, TMhRequest (rs_dest r) (rs_seqno r) 127 (rs_id r))) ->
  forall js w, NoDup js -> w_now w = w_now w0 ->
  (forall i r, In i js -> nth_error (w_rsd w) i = Some r -> exists r0, nth_error (w_rsd w0) i = Some r0 /\ satq1 r0 r) ->
  outq P w (fold_left do_resend1 js w).
Proof.
  intros P w0 L HP T HQ. induction js as [|j js IH]; intros w Nd Nw Inv; [apply outq_refl|]. cbn [fold_left].
  inversion Nd as [|? ? Nj Nd']; subst. eapply outq_trans.
  - apply do_resend1_outq; auto. intros r N D K b. destruct (Inv j r (or_introl eq_refl) N) as (r0 & N0 & [->|(K0 & ->)]).
    + apply HQ; auto; [eapply nth_error_In; eauto|congruence].
    + rewrite Nw in D. rewrite satb_not_due in D; auto; [discriminate| |apply satb_sat; auto].
      apply nth_error_In in N0. specialize (T _ N0). exact T.
  - apply IH; auto.
    + rewrite do_resend1_eq. destruct (nth_error (w_rsd w) j) as [r|] eqn:N; auto. destruct (rdue (w_now w) r); auto. cbv zeta.
      destruct (resend_send_satq w r) as (N1 & _). destruct (nth_error (w_rsd (resend_send w r)) j); cbn; congruence.
    + intros i r Hi N. assert (i <> j) by (intros ->; contradiction).
      assert (Len : nth_error (w_rsd w) i <> None).
      { destruct (nth_error (w_rsd w) i) eqn:X; try discriminate. exfalso. revert N. rewrite do_resend1_eq.
        destruct (nth_error (w_rsd w) j) as [rk|] eqn:Nk; [|congruence]. destruct (rdue (w_now w) rk); [|congruence]. cbv zeta.
        destruct (resend_send_satq w rk) as (_ & F). assert (Ex : nth_error (w_rsd (resend_send w rk)) i = None).
        { apply nth_error_None. apply nth_error_None in X. apply Forall2_length in F. lia. }
        destruct (nth_error (w_rsd (resend_send w rk)) j); [|congruence]. cbn [w_rsd set_w_rsd]. rewrite upd_nth_error_ne; auto. congruence. }
      destruct (nth_error (w_rsd w) i) as [r1|] eqn:N1; [|contradiction].
      destruct (do_resend1_after w j i r1 N1) as (_ & r' & N' & A). rewrite N in N'. inversion N'; subst r'.
      unfold after in A. replace (i =? j)%nat with false in A by (symmetry; apply Nat.eqb_neq; auto). cbn [andb] in A.
      destruct (Inv i r1 (or_intror Hi) N1) as (r0 & N0 & Q). exists r0. split; auto. eapply satq1_trans; eauto.
Qed.
Lemma do_resend_outq : forall (P : obuf * tlv -> Prop) w, lateb (w_now w) -> (forall e, isupd e -> P e) ->
  (forall r, In r (w_rsd w) -> tv_ok (rs_time r)) ->
  (forall r, In r (w_rsd w) -> rdue (w_now w) r = true -> rs_kind r = RESEND_REQUEST ->
     forall b, P (b, TMhRequest (rs_dest r) (rs_seqno r) 127 (rs_id r))) ->
  outq P w (do_resend w).
Proof.
  intros P w L HP T HQ. unfold do_resend. eapply outq_trans; [|apply outq_same, recompute_out].
  apply (fold_outq P w L HP T HQ); auto; [apply seq_NoDup|]. intros i r _ N. exists r. split; auto. left. auto.
Qed.

(** What was ripe is sent, unless it is satisfied meanwhile. *)
Definition carries (i : iface) (d : dest) : Prop := is_default (d_src d) (d_splen d) = true \/ flag i IF_RFC6126 = false.
Lemma multihop_In : forall b i d s id h w, carries i d -> In (b, TMhRequest d s (u8 h) id) (w_out (send_multihop_request b i d s id h w)).
Proof.
  intros b i d s id h w C. unfold send_multihop_request.
  replace (negb (is_default (d_src d) (d_splen d)) && flag i IF_RFC6126) with false.
  - cbn. apply in_app_iff. right. left. auto.
  - symmetry. destruct C as [->| ->]; [reflexivity|apply andb_false_r].
Qed.
Lemma mmh_if_In : forall d s id h ifp w i b, get_if ifp w = Some i -> refs w -> if_up i = true -> carries i d -> In b (buffers i w) ->
  In (b, TMhRequest d s (u8 h) id) (w_out (send_multicast_multihop_request_if d s id h ifp w)).
Proof.
  intros d s id h ifp w i b G R U C Hb. unfold send_multicast_multihop_request_if. rewrite G, U. cbn [negb].
  assert (F : frame w (flushupdates ifp w)) by (apply flushupdates_frame; auto; apply get_if_iff; congruence).
  assert (Eb : buffers i (flushupdates ifp w) = buffers i w) by (unfold buffers; rewrite (f_nbs _ _ F); auto).
  rewrite Eb. revert Hb. generalize (flushupdates ifp w), (buffers i w). intros w1 l. revert w1.
  induction l as [|x l IH]; intros w1 []; cbn [fold_left].
  - subst x. eapply (outq_emit (fun _ => True)); [|apply multihop_In; exact C]. apply outq_fold. intros. apply multihop_outq. exact I.
  - apply IH. auto.
Qed.
Lemma get_if_In : forall w i, NoDup (map if_id (w_ifs w)) -> In i (w_ifs w) -> get_if (if_id i) w = Some i.
Proof.
  intros w i. unfold get_if. induction (w_ifs w) as [|a l IH]; cbn; intros Nd Hi; [destruct Hi|]. inversion Nd as [|? ? Na Nd']; subst.
  destruct Hi as [->|Hi]; [rewrite Z.eqb_refl; auto|]. destruct (if_id a =? if_id i) eqn:E; [|apply IH; auto].
  exfalso. apply Na. apply in_map_iff. exists i. split; auto. lia.
Qed.
Lemma get_if_static : forall ifp w w' i, map ifstat (w_ifs w') = map ifstat (w_ifs w) -> get_if ifp w = Some i ->
  exists i', get_if ifp w' = Some i' /\ ifstat i' = ifstat i.
Proof.
  intros ifp w w' i. unfold get_if. generalize (w_ifs w), (w_ifs w'). induction l as [|a l IH]; intros [|a' l'] E; cbn [map find] in *; try discriminate.
  pose proof (f_equal (hd (ifstat a)) E) as E1. pose proof (f_equal (@tl _) E) as E2. cbn [hd tl] in E1, E2. assert (Ei : if_id a' = if_id a) by (apply (f_equal if_id) in E1; exact E1). rewrite Ei.
  destruct (if_id a =? ifp); [|apply IH; auto]. intros H. inversion H; subst. eauto.
Qed.
Lemma static_flags : forall i i', ifstat i' = ifstat i -> if_flags i' = if_flags i /\ if_id i' = if_id i.
Proof. intros i i' E. split; [apply (f_equal if_flags) in E|apply (f_equal if_id) in E]; exact E. Qed.
Lemma static_use : forall i i' w w', ifstat i' = ifstat i -> w_nbs w' = w_nbs w ->
  if_up i' = if_up i /\ (forall d, carries i d -> carries i' d) /\ buffers i' w' = buffers i w.
Proof.
  intros i i' w w' E N. destruct (static_flags i i' E) as (A & B). unfold if_up, carries, buffers, flag. rewrite A, B, N. auto.
Qed.
Definition towards (w : world) (r : resend) (b : obuf) : Prop :=
  exists i, get_if (if_id i) w = Some i /\ if_up i = true /\ (rs_ifp r = None \/ rs_ifp r = Some (if_id i)) /\
            carries i (rs_dest r) /\ In b (buffers i w).
Lemma towards_frame : forall w w' r b, map ifstat (w_ifs w') = map ifstat (w_ifs w) -> w_nbs w' = w_nbs w -> towards w r b -> towards w' r b.
Proof.
  intros w w' r b E N (i & G & U & F & C & Hb). destruct (get_if_static _ _ _ _ E G) as (i' & G' & Es).
  destruct (static_use i i' w w' Es N) as (A1 & A2 & A3). destruct (static_flags _ _ Es) as (_ & Ei). exists i'. rewrite Ei. repeat split; auto; try congruence.
Qed.
Lemma mmh_In : forall r h w b, refs w -> (forall i, rs_ifp r = Some i -> has_if i w) -> towards w r b ->
  In (b, TMhRequest (rs_dest r) (rs_seqno r) (u8 h) (rs_id r))
     (w_out (send_multicast_multihop_request (rs_ifp r) (rs_dest r) (rs_seqno r) (rs_id r) h w)).
Proof.
  intros r h w b R Hi T. unfold send_multicast_multihop_request. destruct (rs_ifp r) as [j|] eqn:Ej.
  - destruct T as (i & G & U & F & C & Hb). destruct F as [F|F]; [congruence|]. rewrite Ej in F. inversion F; subst j.
    eapply mmh_if_In; eauto.
  - destruct T as (i & G & U & F & C & Hb).
    assert (Hin : In (if_id i) (map if_id (w_ifs w))) by (apply get_if_iff; congruence).
    clear F. set (P := fun _ : obuf * tlv => True).
    assert (X : forall l w1, refs w1 -> map ifstat (w_ifs w1) = map ifstat (w_ifs w) -> w_nbs w1 = w_nbs w -> In (if_id i) l ->
       (forall j, In j l -> has_if j w) ->
       In (b, TMhRequest (rs_dest r) (rs_seqno r) (u8 h) (rs_id r))
         (w_out (fold_left (fun w i => match get_if i w with
            | Some x => if if_up x then send_multicast_multihop_request_if (rs_dest r) (rs_seqno r) (rs_id r) h i w else w
            | None => fault w end) l w1))).
    { induction l as [|a l IH]; intros w1 R1 E1 N1 Hl Ha; [destruct Hl|]. cbn [fold_left].
      match goal with |- In _ (w_out (fold_left ?f l ?z)) => set (g := f); set (w2 := z) end.
      destruct (Z.eq_dec a (if_id i)) as [->|Na].
      - eapply (outq_emit P w2).
        + apply outq_fold. intros w3 x _. unfold g. destruct (get_if x w3) as [y|]; [|apply outq_same; reflexivity].
          destruct (if_up y); [apply mmh_if_outq; intros; exact I|apply outq_refl].
        + unfold w2, g. destruct (get_if_static _ _ _ _ E1 G) as (i' & G' & Es). rewrite G'.
          destruct (static_use i i' w w1 Es N1) as (A1 & A2 & A3). rewrite A1, U. eapply mmh_if_In; eauto; try congruence.
      - assert (F2 : frame w1 w2).
        { unfold w2, g. destruct (get_if a w1) as [y|] eqn:Gy.
          - destruct (if_up y); [apply multicast_multihop_if_frame; auto; apply get_if_iff; congruence|apply frame_refl].
          - exfalso. assert (Hh : has_if a w1).
            { unfold has_if. rewrite (ifstat_ids _ _ E1). apply Ha. left. auto. }
            apply get_if_iff in Hh. congruence. }
        apply IH.
        + eapply frame_refs; eauto.
        + rewrite (f_ifs _ _ F2). auto.
        + rewrite (f_nbs _ _ F2). auto.
        + destruct Hl; [congruence|auto].
        + intros; apply Ha; right; auto. }
    apply X; auto.
Qed.

Lemma fold_sent : forall js w i r b, NoDup js -> lateb (w_now w) -> refs w -> rsd_ok w -> tv_ok (rs_time r) ->
  nth_error (w_rsd w) i = Some r -> In i js -> rdue (w_now w) r = true -> rs_kind r = RESEND_REQUEST -> towards w r b ->
  In (b, TMhRequest (rs_dest r) (rs_seqno r) 127 (rs_id r)) (w_out (fold_left do_resend1 js w)) \/
  exists r', nth_error (w_rsd (fold_left do_resend1 js w)) i = Some r' /\ satb r' = true.
Proof.
  induction js as [|j js IH]; intros w i r b Nd L R O T N Hi D K Tw; [destruct Hi|]. cbn [fold_left].
  inversion Nd as [|? ? Nj Nd']; subst.
  assert (F : frame w (do_resend1 w j)) by (apply do_resend1_frame; auto).
  destruct (Nat.eq_dec j i) as [->|Nji].
  - left. eapply (outq_emit (fun _ => True)).
    { apply outq_fold. intros. apply do_resend1_outq; intros; exact I. }
    rewrite do_resend1_eq, N, D. cbv zeta.
    assert (X : In (b, TMhRequest (rs_dest r) (rs_seqno r) 127 (rs_id r)) (w_out (resend_send w r))).
    { unfold resend_send. replace (rs_kind r =? RESEND_REQUEST) with true by lia. apply (mmh_In r 127 w b); auto.
      intros k Ek. apply O. apply in_map_iff. exists r. split; auto. eapply nth_error_In; eauto. }
    destruct (nth_error (w_rsd (resend_send w r)) i); exact X.
  - destruct Hi as [Hi|Hi]; [contradiction|].
    destruct (do_resend1_after w j i r N) as (Nw & r1 & N1 & A). unfold after in A.
    replace (i =? j)%nat with false in A by (symmetry; apply Nat.eqb_neq; auto). cbn [andb] in A.
    destruct A as [->|(_ & ->)].
    + apply IH; auto; try congruence.
      * eapply frame_refs; eauto.
      * eapply frame_rsd_ok; eauto.
      * apply (towards_frame w); auto; [apply (f_ifs _ _ F)|apply (f_nbs _ _ F)].
    + right. assert (L' : lateb (w_now (do_resend1 w j))) by congruence.
      destruct (fold_after js (do_resend1 w j) i (sat r) Nd' L' T N1) as (_ & r' & N' & A).
      exists r'. split; auto. unfold after in A. rewrite (satb_not_due _ (sat r)), andb_false_r in A; auto; [|apply satb_sat; auto].
      eapply satq1_satb; eauto. apply satb_sat; auto.
Qed.

(** L_Send.v: the order of pending updates and what flushing them sends. *)
From Verif Require Import Base M_Util S_Util L_Util M_Slot L_Slot M_Source S_Source L_Source
  M_Filter M_Types M_Neigh M_State M_Table M_Msg M_Route S_World L_Table L_Step L_Msg L_World L_World4 L_Xroute L_Wire S_Send.
From Coq Require Import Permutation.

(** ** compare_buffered *)
Lemma cb_0 : forall a b, compare_buffered a b = 0 <-> a = b.
Proof.
  intros [ida [pa la qa ma]] [idb [pb lb qb mb]]. unfold compare_buffered. cbn [d_prefix d_plen d_src d_splen].
  rewrite !andthen_0, !memcmp_0, !zcmp_0. split.
  - intros (E1 & _ & _ & E4 & E5 & E6 & E7). subst. reflexivity.
  - intros H. inversion H; subst. repeat split; auto.
Qed.
Lemma cb_anti : forall a b, compare_buffered b a = - compare_buffered a b.
Proof.
  intros [ida da] [idb db]. unfold compare_buffered.
  repeat apply andthen_anti; auto using memcmp_antisym, zcmp_anti.
Qed.
Lemma cb_trans : forall a b c, compare_buffered a b < 0 -> compare_buffered b c < 0 -> compare_buffered a c < 0.
Proof.
  set (f4 := fun a : bupd => b2z ((d_plen (snd a) >=? 96) && v4mapped (d_prefix (snd a)))).
  set (fm := fun a : bupd => b2z (negb ((d_plen (snd a) >=? 96) && v4mapped (d_prefix (snd a))) &&
                 (d_plen (snd a) =? 128) && beq (firstn 8 (skipn 8 (d_prefix (snd a)))) (fst a))).
  assert (E : forall a b, compare_buffered a b =
    andthen (memcmp (fst a) (fst b)) (andthen (zcmp (f4 a) (f4 b)) (andthen (zcmp (fm b) (fm a))
    (andthen (zcmp (d_plen (snd b)) (d_plen (snd a))) (andthen (memcmp (d_prefix (snd a)) (d_prefix (snd b)))
    (andthen (zcmp (d_splen (snd a)) (d_splen (snd b))) (memcmp (d_src (snd a)) (d_src (snd b))))))))).
  { intros [ida da] [idb db]. reflexivity. }
  intros a b c. rewrite !E. clearbody f4 fm. clear E. revert a b c.
  apply (andthen_trans (fun a b : bupd => memcmp (fst a) (fst b)) (fun a b => andthen (zcmp (f4 a) (f4 b)) _));
    [intros *; apply memcmp_trans_lt|intros *; apply memcmp_eq_l|intros *; apply memcmp_eq_r|].
  apply (andthen_trans (fun a b : bupd => zcmp (f4 a) (f4 b)) (fun a b => andthen (zcmp (fm b) (fm a)) _));
    [intros *; apply zcmp_trans|intros *; apply zcmp_eq_l|intros *; apply zcmp_eq_r|].
  apply (andthen_trans (fun a b : bupd => zcmp (fm b) (fm a)) (fun a b => andthen (zcmp (d_plen (snd b)) (d_plen (snd a))) _));
    [intros * H1 H2; eapply zcmp_trans; eauto
    |intros * H; cbv beta in *; rewrite zcmp_0 in H; rewrite H; reflexivity|intros * H; cbv beta in *; rewrite zcmp_0 in H; rewrite H; reflexivity|].
  apply (andthen_trans (fun a b : bupd => zcmp (d_plen (snd b)) (d_plen (snd a)))
     (fun a b => andthen (memcmp (d_prefix (snd a)) (d_prefix (snd b))) _));
    [intros * H1 H2; eapply zcmp_trans; eauto
    |intros * H; cbv beta in *; rewrite zcmp_0 in H; rewrite H; reflexivity|intros * H; cbv beta in *; rewrite zcmp_0 in H; rewrite H; reflexivity|].
  apply (andthen_trans (fun a b : bupd => memcmp (d_prefix (snd a)) (d_prefix (snd b)))
     (fun a b => andthen (zcmp (d_splen (snd a)) (d_splen (snd b))) _));
    [intros *; apply memcmp_trans_lt|intros *; apply memcmp_eq_l|intros *; apply memcmp_eq_r|].
  apply (andthen_trans (fun a b : bupd => zcmp (d_splen (snd a)) (d_splen (snd b)))
     (fun a b => memcmp (d_src (snd a)) (d_src (snd b))));
    [intros *; apply zcmp_trans|intros *; apply zcmp_eq_l|intros *; apply zcmp_eq_r|].
  intros *. apply memcmp_trans_lt.
Qed.
Lemma cb_le_trans : forall a b c, compare_buffered a b <= 0 -> compare_buffered b c <= 0 -> compare_buffered a c <= 0.
Proof.
  intros a b c H1 H2. destruct (Z.eq_dec (compare_buffered a b) 0) as [E|E]; [apply cb_0 in E; subst; auto|].
  destruct (Z.eq_dec (compare_buffered b c) 0) as [E'|E']; [apply cb_0 in E'; subst; auto|].
  pose proof (cb_trans a b c). lia.
Qed.

(** ** Sorting *)
Section sorting.
  Variable A : Type.
  Variable cmp : A -> A -> Z.
  Hypothesis anti : forall a b, cmp b a = - cmp a b.
  Hypothesis trans : forall a b c, cmp a b <= 0 -> cmp b c <= 0 -> cmp a c <= 0.
  Let le := fun a b => cmp a b <=? 0.
  Lemma insert_perm : forall x l, Permutation (sort_insert le x l) (x :: l).
  Proof.
    induction l as [|y l IH]; cbn [sort_insert]; auto. destruct (le x y); auto.
    rewrite IH. constructor.
  Qed.
  Lemma insert_sorted : forall x l, sorted_by cmp l -> sorted_by cmp (sort_insert le x l).
  Proof.
    induction 1 as [|y l Hy Sl IH]; cbn [sort_insert]; [constructor; [intros y []|constructor]|].
    unfold le at 1. destruct (cmp x y <=? 0) eqn:E.
    - constructor; [|constructor; auto]. intros z [<-|Hz]; [lia|]. apply trans with y; [lia|auto].
    - constructor; auto. intros z Hz. apply (Permutation_in _ (insert_perm x l)) in Hz.
      destruct Hz as [<-|Hz]; auto. rewrite anti. lia.
  Qed.
  Lemma sort_perm : forall l, Permutation (sort le l) l.
  Proof. induction l as [|x l IH]; cbn; auto. etransitivity; [apply insert_perm|constructor; exact IH]. Qed.
  Lemma sort_sorted : forall l, sorted_by cmp (sort le l).
  Proof. induction l as [|x l IH]; cbn; [constructor|apply insert_sorted; exact IH]. Qed.
End sorting.

(** Whatever sorted order, equal elements are adjacent. *)
Lemma sorted_adjacent : forall l x l1 l2 l3, sorted_by compare_buffered l ->
  l = l1 ++ x :: l2 ++ x :: l3 -> forall y, In y l2 -> y = x.
Proof.
  intros l x l1 l2 l3 H. revert l1. induction H as [|z l Hz Sl IH]; intros l1 E y Hy; [destruct l1; discriminate|].
  destruct l1 as [|z' l1]; cbn in E; inversion E; subst.
  - assert (A : compare_buffered x y <= 0) by (apply Hz; apply in_or_app; auto).
    clear - Sl Hy A. induction l2 as [|u l2 IH]; [destruct Hy|]. cbn in Sl. inversion Sl; subst.
    destruct Hy as [->|Hy]; [|apply IH; auto].
    assert (B : compare_buffered y x <= 0) by (apply H1; apply in_or_app; right; left; auto).
    rewrite cb_anti in B. apply cb_0. rewrite cb_anti. lia.
  - eapply IH; eauto.
Qed.

(** ** Flushing *)
Lemma find_xroute_iff : forall d w x, xsorted (w_xr w) -> (find_xroute d w = Some x <-> ours w d x).
Proof.
  intros d w x Sx. unfold find_xroute. destruct (find_xroute_slot d w) as [i|n] eqn:F.
  - apply xslot_found in F; auto. destruct F as (A & y & B & E & -> & D).
    rewrite Nat2Z.id, E, nth_error_app2, Nat.sub_diag by lia. cbn [nth_error]. split.
    + intros H. inversion H; subst. split; auto. rewrite E. apply in_or_app. simpl; auto.
    + intros (Hx & Dx). f_equal. apply (xsorted_inj (w_xr w)); auto; [|congruence].
      rewrite E. apply in_or_app. simpl; auto.
  - apply xslot_notfound in F; auto. destruct F as (_ & N & _). split; [discriminate|].
    intros (Hx & Dx). exfalso. eapply N; eauto.
Qed.
Lemma find_xroute_none : forall d w, xsorted (w_xr w) -> find_xroute d w = None -> forall x, ~ ours w d x.
Proof. intros d w Sx F x H. apply find_xroute_iff in H; auto. congruence. Qed.
Lemma find_xroute_frame : forall d w w', frame w w' -> find_xroute d w' = find_xroute d w.
Proof. intros d w w' F. unfold find_xroute, find_xroute_slot. rewrite (f_xr _ _ F). auto. Qed.
Lemma find_installed_frame : forall d w w', frame w w' -> find_installed d w' = find_installed d w.
Proof. intros d w w' F. unfold find_installed, slot_of, find_route_slot. rewrite (f_rt _ _ F). auto. Qed.

Lemma goes_buffers : forall w i, goes_to w i (buffers i w).
Proof.
  intros. unfold goes_to, buffers. destruct (flag i IF_UNICAST) eqn:E; [right|left]; split; auto.
  eexists. split; reflexivity.
Qed.

Definition carry_b (i : iface) (d : dest) : bool :=
  (negb (is_default (d_src d) (d_splen d)) && flag i IF_RFC6126) ||
  ((d_plen d >=? 96) && v4mapped (d_prefix d) &&
    match if_ipv4 i with None => negb (flag i IF_V4VIAV6) | Some _ => false end).
Lemma carry_iff : forall i d, carry_b i d = true <-> cannot_carry i d.
Proof.
  intros i d. unfold carry_b, cannot_carry. pose proof (is_default_any d) as D. pose proof (v4mapped_firstn (d_prefix d)) as V.
  rewrite orb_true_iff, !andb_true_iff, negb_true_iff. rewrite <- V. split.
  - intros [(H1 & H2)|((H1 & H2) & H3)]; [left|right]; split; auto.
    + intros H. apply D in H. congruence.
    + lia.
    + destruct (if_ipv4 i); [discriminate|]. rewrite negb_true_iff in H3. auto.
  - intros [(H1 & H2)|(H1 & H2 & H3 & H4)]; [left|right]; repeat split; auto.
    + destruct (is_default _ _) eqn:E; auto. exfalso. apply H1. apply D. auto.
    + lia.
    + rewrite H3, H4. auto.
Qed.

Definition upds (bs : list obuf) (i : iface) (id : list Z) (d : dest) (q m add : Z) : list (obuf * tlv) :=
  map (fun b => (b, TUpdate id d q (Z.min (m + add) 65535) (u16 ((if_update_interval i + 5) / 10)))) bs.

Lemma rbu_out : forall b i id d q m w, if_up i = true ->
  let add := output_filter (c_outfs (w_cfg w)) (Some id) d (if_ifindex i) in
  w_out (really_buffer_update b i id d q m w) =
  w_out w ++ (if (add >=? INFINITY) || carry_b i d then [] else upds [b] i id d q m add).
Proof.
  intros b i id d q m w U add. unfold really_buffer_update, carry_b. rewrite U. cbn [negb]. fold add.
  destruct (negb (is_default _ _) && _).
  { rewrite orb_true_r. rewrite app_nil_r. auto. }
  destruct (add >=? INFINITY); [rewrite app_nil_r; auto|]. rewrite !orb_false_l.
  destruct ((d_plen d >=? 96) && _ && _); [rewrite app_nil_r|]; reflexivity.
Qed.
Lemma rsu_out : forall i id d q m w, if_up i = true ->
  let add := output_filter (c_outfs (w_cfg w)) (Some id) d (if_ifindex i) in
  w_out (really_send_update i id d q m w) =
  w_out w ++ (if (add >=? INFINITY) || carry_b i d then [] else upds (buffers i w) i id d q m add).
Proof.
  intros i id d q m w U add. unfold really_send_update. rewrite U. cbn [negb].
  generalize (buffers i w) as bs. intros bs. revert w add. induction bs as [|b bs IH]; intros w add; cbn [fold_left].
  - destruct (_ || _); rewrite app_nil_r; auto.
  - rewrite IH. pose proof (rbu_frame b i id d q m w) as F. rewrite (f_cfg _ _ F). rewrite rbu_out by auto.
    fold add. destruct (_ || _); rewrite ?app_nil_r; auto. rewrite <- app_assoc. reflexivity.
Qed.

Lemma told_send : forall w0 w i id d q m, frame w0 w -> if_up i = true -> says w0 i d (Some (id, q, m)) ->
  exists A, told w0 i d A /\ w_out (really_send_update i id d q m w) = w_out w ++ A.
Proof.
  intros w0 w i id d q m F U Sy. rewrite rsu_out by auto. rewrite (f_cfg _ _ F).
  set (add := output_filter _ _ _ _).
  destruct ((add >=? INFINITY) || carry_b i d) eqn:E.
  - exists []. split; auto. eapply told_filtered; eauto. fold add. apply orb_true_iff in E.
    unfold INFINITY in E. destruct E as [E|E]; [left; lia|right; apply carry_iff; auto].
  - apply orb_false_iff in E. destruct E as (E1 & E2). unfold INFINITY in E1.
    exists (upds (buffers i w) i id d q m add). split; auto. unfold upds. eapply told_update; eauto.
    + lia.
    + intros C. apply carry_iff in C. congruence.
    + replace (buffers i w) with (buffers i w0); [apply goes_buffers|]. unfold buffers. rewrite (f_nbs _ _ F). auto.
Qed.

(** Nothing is lost by saying it twice: nothing was said, or it was a retraction. *)
Definition repeatable (w : world) (i : iface) (d : dest) : Prop :=
  says w i d None \/ ((forall x, ~ ours w d x) /\ (forall r, ~ is_selected w d r)).

Lemma nbs_get : forall w n nb, NoDup (map n_id (w_nbs w)) -> In nb (w_nbs w) -> n_id nb = n -> get_nb n w = Some nb.
Proof.
  intros w n nb N H E. unfold get_nb. destruct (find (fun x => n_id x =? n) (w_nbs w)) as [y|] eqn:F.
  - apply find_some in F. destruct F as (F & E'). f_equal. eapply NoDup_map_inj; eauto. lia.
  - eapply find_none in F; eauto. cbn in F. lia.
Qed.

Lemma dest_eqb_iff : forall a b, dest_eqb a b = true <-> a = b.
Proof.
  intros. unfold dest_eqb. rewrite Z.eqb_eq. split; [apply dest_compare_0|intros ->; apply dest_compare_refl].
Qed.

Lemma flush1_spec : forall e w0 w i last b d, W e w0 -> frame w0 w -> if_up i = true -> dvalid d -> snd b = d ->
  last <> Some d ->
  exists A, told w0 i d A /\ w_out (fst (flush1 i (w, last) b)) = w_out w ++ A /\
    (snd (flush1 i (w, last) b) = Some d \/ (snd (flush1 i (w, last) b) = last /\ repeatable w0 i d)).
Proof.
  intros e w0 w i last b d Hw F U V Eb Nl. unfold flush1. rewrite Eb.
  assert (L : match last with Some l => dest_eqb d l | None => false end = false).
  { destruct last as [l|]; auto. destruct (dest_eqb d l) eqn:E; auto. apply dest_eqb_iff in E. congruence. }
  rewrite L. rewrite (find_xroute_frame _ _ _ F), (find_installed_frame _ _ _ F), (f_cfg _ _ F), (f_seqno _ _ F).
  pose proof (find_installed_iff d w0) as FI.
  destruct (find_installed d w0) as [r|] eqn:Fi.
  - assert (Sr : is_selected w0 d r) by (apply FI; auto using (W_rt _ _ Hw)).
    assert (Ur : forall r', is_selected w0 d r' -> r' = r).
    { intros r' H. apply FI in H; auto using (W_rt _ _ Hw). congruence. }
    assert (G : (forall x, ours w0 d x -> c_kernel_metric (w_cfg w0) < x_metric x) ->
      let w1 := if route_metric r <? INFINITY then satisfy_request (rdest r) (r_seqno r) (k_id (r_src r)) (Some (if_id i)) w else w in
      let res := match nb_if (r_neigh r) w1 with
          | None => (fault w1, last)
          | Some (_, ri) =>
              if flag i IF_SPLIT_HORIZON && (if_id ri =? if_id i) then (w1, last)
              else
                let w2 := really_send_update i (k_id (r_src r)) (rdest r) (r_seqno r) (route_metric r) w1 in
                (set_w_srcs (update_source (sec w2) (r_src r) (r_seqno r) (route_metric r) (w_srcs w2)) w2, Some (rdest r))
          end in
      exists A, told w0 i d A /\ w_out (fst res) = w_out w ++ A /\ (snd res = Some d \/ (snd res = last /\ repeatable w0 i d))).
    { intros K w1 res.
      assert (F1 : frame w w1) by (unfold w1; destruct (_ <? _); [apply satisfy_frame|apply frame_refl]).
      assert (O1 : w_out w1 = w_out w).
      { unfold w1. destruct (_ <? _); auto. unfold satisfy_request. destruct (find_request _ _); auto.
        destruct (negb _); auto. destruct (_ || _); auto. }
      pose proof (frame_trans _ _ _ F F1) as F01.
      destruct Sr as (Hr & Ir & Dr). destruct (W_refs _ _ Hw r Hr) as (Hn & _).
      pose proof (frame_has_nb _ _ _ F01 Hn) as Hn1. unfold has_nb in Hn1.
      destruct (nb_if (r_neigh r) w1) as [[nb ri]|] eqn:Nb; [|contradiction].
      assert (Via : if_id ri = if_id i <-> via_if w0 (if_id i) r).
      { pose proof (nb_if_In _ _ _ _ Nb) as (Hnb & _). pose proof (nb_if_get _ _ _ _ Nb) as (G1 & G2).
        apply get_nb_id in G1. apply get_if_id in G2. rewrite (f_nbs _ _ F01) in Hnb. split.
        - intros E. exists nb. split; auto. split; auto. congruence.
        - intros (n & H1 & H2 & H3). replace n with nb in H3; [congruence|].
          eapply NoDup_map_inj; [apply (W_nbs _ _ Hw)|auto|auto|congruence]. }
      unfold res. clear res.
      destruct (flag i IF_SPLIT_HORIZON) eqn:Sp.
      - cbn [andb]. destruct (if_id ri =? if_id i) eqn:Eri.
        + assert (Sy : says w0 i d None).
          { eapply says_split; eauto; [repeat split; eauto|]. split; auto. apply Via. lia. }
          exists []. cbn [fst snd]. rewrite app_nil_r. split; [constructor; auto|]. split; auto. right.
          split; auto. left. auto.
        + cbv zeta. cbn [fst snd w_out set_w_srcs].
          destruct (told_send w0 w1 i (k_id (r_src r)) d (r_seqno r) (metric_of r) F01 U) as (A & T & O).
          { eapply says_route; eauto; [repeat split; eauto|]. intros (_ & Sv). apply Via in Sv. lia. }
          exists A. split; auto. replace (rdest r) with d by auto.
          change (route_metric r) with (metric_of r). rewrite <- O1. split; auto.
      - cbn [andb]. cbv zeta. cbn [fst snd w_out set_w_srcs].
        destruct (told_send w0 w1 i (k_id (r_src r)) d (r_seqno r) (metric_of r) F01 U) as (A & T & O).
        { eapply says_route; eauto; [repeat split; eauto|]. intros (Sf & _). congruence. }
        exists A. split; auto. replace (rdest r) with d by auto.
        change (route_metric r) with (metric_of r). rewrite <- O1. split; auto. }
    destruct (find_xroute d w0) as [x|] eqn:Fx.
    + assert (Ox : ours w0 d x) by (apply find_xroute_iff; auto using (W_xr _ _ Hw)).
      destruct (x_metric x <=? c_kernel_metric (w_cfg w0)) eqn:Ex.
      * destruct Ox as (Hx & Dx). rewrite Dx. cbn [fst snd].
        destruct (told_send w0 w i (c_myid (w_cfg w0)) d (w_seqno w0) (x_metric x) F U) as (A & T & O).
        { eapply says_ours; [split; eauto|]. intros; lia. }
        exists A. auto.
      * apply G. intros x' Hx'. apply find_xroute_iff in Hx'; [|apply (W_xr _ _ Hw)]. rewrite Fx in Hx'.
        inversion Hx'; subst. lia.
    + apply G. intros x' Hx'. exfalso. eapply find_xroute_none; eauto using (W_xr _ _ Hw).
  - assert (Nr : forall r, ~ is_selected w0 d r).
    { intros r H. apply FI in H; auto using (W_rt _ _ Hw). discriminate. }
    destruct (find_xroute d w0) as [x|] eqn:Fx.
    + assert (Ox : ours w0 d x) by (apply find_xroute_iff; auto using (W_xr _ _ Hw)).
      destruct Ox as (Hx & Dx). rewrite Dx. cbn [fst snd].
      destruct (told_send w0 w i (c_myid (w_cfg w0)) d (w_seqno w0) (x_metric x) F U) as (A & T & O).
      { eapply says_ours; [split; eauto|]. intros r H; exfalso; eapply Nr; eauto. }
      exists A. auto.
    + pose proof (find_xroute_none _ _ (W_xr _ _ Hw) Fx) as Nx. cbn [fst snd].
      destruct (told_send w0 w i (c_myid (w_cfg w0)) d (w_seqno w0) INFINITY F U) as (A & T & O).
      { apply says_lost; auto. }
      exists A. split; auto. split; auto. right. split; auto. right. auto.
Qed.

Definition last_dec : forall (last : option dest) d, {last = Some d} + {last <> Some d}.
Proof. intros [x|] d; [|right; discriminate]. destruct (dest_dec x d); [left; congruence|right; congruence]. Defined.

Lemma flush_fold : forall e w0 i f, W e w0 -> if_up i = true -> forall l w last, frame w0 w ->
  (forall b, In b l -> dvalid (snd b) /\ b = (f (snd b), snd b)) -> sorted_by compare_buffered l ->
  exists L AA, Forall2 (told w0 i) L AA /\
    w_out (fst (fold_left (flush1 i) l (w, last))) = w_out w ++ concat AA /\
    (forall d, In d L -> In d (map snd l)) /\
    (forall d, In d (map snd l) -> last = Some d \/ In d L) /\
    (forall d, ~ repeatable w0 i d -> (count_occ dest_dec L d <= 1)%nat) /\
    (forall d, last = Some d -> (forall b, In b l -> compare_buffered (f d, d) b <= 0) -> count_occ dest_dec L d = 0%nat) /\
    (forall d, (count_occ dest_dec L d <= count_occ dest_dec (map snd l) d)%nat).
Proof.
  intros e w0 i f Hw U. induction l as [|b l IH]; intros w last F Hl Sl.
  { exists [], []. cbn. rewrite app_nil_r. repeat split; auto. }
  cbn [fold_left]. inversion Sl as [|? ? Hle Sl' E]; subst. clear Sl.
  destruct (Hl b (or_introl eq_refl)) as (V & Eb). set (d := snd b) in *.
  assert (Hl' : forall b', In b' l -> dvalid (snd b') /\ b' = (f (snd b'), snd b')) by (intros; apply Hl; simpl; auto).
  pose proof (frame_refs _ _ F (W_refs _ _ Hw)) as R.
  destruct (last_dec last d) as [El|Nl].
  - assert (E1 : flush1 i (w, last) b = (w, last)).
    { unfold flush1. rewrite El. fold d. replace (dest_eqb d d) with true; auto. symmetry. apply dest_eqb_iff. auto. }
    rewrite E1. destruct (IH w last F Hl' Sl') as (L & AA & I1 & I2 & I3 & I4 & I5 & I6 & I7).
    exists L, AA. split; [auto|]. split; [auto|]. cbn [map In]. fold d.
    split; [intros; right; auto|]. split; [intros d' [<-|H]; auto|]. split; [auto|]. split.
    + intros d' H1 H2. apply I6; [exact H1|]. intros b' Hb'. apply H2. right. exact Hb'.
    + intros d'. specialize (I7 d'). cbn [count_occ]. destruct (dest_dec d d'); lia.
  - destruct (flush1_spec e w0 w i last b d Hw F U V eq_refl Nl) as (A & T & O & La).
    pose proof (frame_trans _ _ _ F (flush1_frame i w last b R)) as F'.
    destruct (flush1 i (w, last) b) as [w' last'] eqn:E1. cbn [fst snd] in *.
    destruct (IH w' last' F' Hl' Sl') as (L & AA & I1 & I2 & I3 & I4 & I5 & I6 & I7).
    exists (d :: L), (A :: AA). split; [constructor; auto|]. split; [rewrite I2, O; cbn [concat]; rewrite app_assoc; auto|].
    cbn [map In count_occ]. fold d. split; [intros d' [<-|H]; auto|]. split.
    { intros d' [<-|H]; auto. destruct (I4 d' H) as [H'|H']; auto. destruct La as [La|(La & _)]; [|left; congruence].
      right. left. congruence. }
    split.
    { intros d' Nr. destruct (dest_dec d d') as [<-|]; [|auto]. destruct La as [La|(_ & La)]; [|contradiction].
      rewrite I6; auto. intros b' Hb'. rewrite <- Eb. auto. }
    split.
    { intros d' El Hd'. destruct (dest_dec d d') as [<-|N]; [contradiction|].
      apply count_occ_not_In. intros H. apply I3 in H. apply in_map_iff in H. destruct H as (b' & Ed' & Hb').
      destruct (Hl' b' Hb') as (_ & Eb'). rewrite Ed' in Eb'. apply N.
      pose proof (Hd' b (or_introl eq_refl)) as C1. pose proof (Hle b' Hb') as C2. rewrite Eb' in C2.
      rewrite cb_anti in C2. assert (C : compare_buffered (f d', d') b = 0) by lia. apply cb_0 in C.
      unfold d. rewrite <- C. auto. }
    intros d'. specialize (I7 d'). destruct (dest_dec d d'); lia.
Qed.

(** ** Feasibility distances of what is announced *)
Definition cov (w0 : world) (r : route) (w : world) : Prop :=
  forall s, In s (w_srcs w) -> s_key s = r_src r -> covers (sec w0) s (r_seqno r) (metric_of r).
Lemma update_covers : forall now q m s, m < 65535 -> covers now (update_source1 now q m s) q m.
Proof.
  intros now q m s H. unfold update_source1, covers. destruct (m >=? INFINITY) eqn:E; [unfold INFINITY in E; lia|].
  cbn [s_time s_seqno s_metric]. split; auto.
  destruct ((s_time s <? now - SOURCE_GC_TIME) || (seqno_compare (s_seqno s) q <? 0) || ((s_seqno s =? q) && (s_metric s >? m))) eqn:B.
  - left. split; auto. lia.
  - apply orb_false_iff in B. destruct B as (B & B3). apply orb_false_iff in B. destruct B as (_ & B2).
    rewrite seqno_compare_alt in B2. unfold ahead. destruct (s_seqno s =? q) eqn:E1; [left; split; lia|].
    destruct (_ <? 32768) eqn:E2; [discriminate|]. right. lia.
Qed.
Lemma covers_src : forall w0 w r r' m', cov w0 r w -> metric_of r < 65535 -> m' = metric_of r' ->
  (r_src r = r_src r' -> r = r') ->
  cov w0 r (set_w_srcs (update_source (sec w0) (r_src r') (r_seqno r') m' (w_srcs w)) w).
Proof.
  intros w0 w r r' m' C Fm -> Inj s Hs Ks. cbn [w_srcs set_w_srcs] in Hs. unfold update_source, map_src in Hs.
  apply in_map_iff in Hs. destruct Hs as (t & Et & Ht). destruct (skey_eqb (r_src r') (s_key t)) eqn:Ek.
  - apply skey_eqb_true in Ek. subst s.
    assert (Kt : s_key (update_source1 (sec w0) (r_seqno r') (metric_of r') t) = s_key t).
    { unfold update_source1. destruct (_ >=? _); auto. }
    rewrite Kt in Ks. rewrite <- (Inj (eq_sym (eq_trans Ek Ks))) in *.
    apply update_covers. auto.
  - subst s. apply C; auto.
Qed.

Lemma satisfy_rest : forall d q id i w, w_srcs (satisfy_request d q id i w) = w_srcs w /\ w_ifs (satisfy_request d q id i w) = w_ifs w /\
  w_out (satisfy_request d q id i w) = w_out w.
Proof.
  intros. unfold satisfy_request. destruct (find_request _ _); auto. destruct (match i with Some _ => _ | None => _ end); auto.
  destruct (_ || _); auto.
Qed.
Lemma rsu_rest : forall i id d q m w, w_srcs (really_send_update i id d q m w) = w_srcs w /\ w_ifs (really_send_update i id d q m w) = w_ifs w.
Proof.
  intros. unfold really_send_update. destruct (negb _); auto. generalize (buffers i w) as bs. intros bs. revert w.
  induction bs as [|b bs IH]; intros w; cbn [fold_left]; auto.
  assert (E : w_srcs (really_buffer_update b i id d q m w) = w_srcs w /\ w_ifs (really_buffer_update b i id d q m w) = w_ifs w).
  { unfold really_buffer_update. destruct (negb _); auto. destruct (_ && flag i IF_RFC6126); auto. destruct (_ >=? _); auto.
    destruct (_ && _); auto. }
  destruct (IH (really_buffer_update b i id d q m w)) as (A & B). rewrite A, B. auto.
Qed.

(** What one step does to the source table: nothing, or the update for the selected route *)
Lemma flush1_rest : forall e w0 w i last b d, W e w0 -> frame w0 w -> dvalid d -> snd b = d ->
  let w' := fst (flush1 i (w, last) b) in
  w_ifs w' = w_ifs w /\
  ((w_srcs w' = w_srcs w /\ (forall r, is_selected w0 d r -> (forall x, ours w0 d x -> c_kernel_metric (w_cfg w0) < x_metric x) ->
                               ~ split_horizon w0 i r -> last = Some d)) \/
   (exists r, is_selected w0 d r /\ w_srcs w' = update_source (sec w0) (r_src r) (r_seqno r) (metric_of r) (w_srcs w))).
Proof.
  intros e w0 w i last b d Hw F V Eb. cbv zeta. unfold flush1. rewrite Eb.
  destruct (match last with Some l => dest_eqb d l | None => false end) eqn:L.
  { split; auto. left. split; auto. intros. destruct last as [l|]; [|discriminate]. apply dest_eqb_iff in L. congruence. }
  clear L. rewrite (find_xroute_frame _ _ _ F), (find_installed_frame _ _ _ F), (f_cfg _ _ F), (f_seqno _ _ F).
  pose proof (find_installed_iff d w0) as FI.
  destruct (find_installed d w0) as [r|] eqn:Fi.
  - assert (Sr : is_selected w0 d r) by (apply FI; auto using (W_rt _ _ Hw)).
    assert (G : let w1 := if route_metric r <? INFINITY then satisfy_request (rdest r) (r_seqno r) (k_id (r_src r)) (Some (if_id i)) w else w in
      let res := match nb_if (r_neigh r) w1 with
          | None => (fault w1, last)
          | Some (_, ri) =>
              if flag i IF_SPLIT_HORIZON && (if_id ri =? if_id i) then (w1, last)
              else
                let w2 := really_send_update i (k_id (r_src r)) (rdest r) (r_seqno r) (route_metric r) w1 in
                (set_w_srcs (update_source (sec w2) (r_src r) (r_seqno r) (route_metric r) (w_srcs w2)) w2, Some (rdest r))
          end in
      w_ifs (fst res) = w_ifs w /\
      ((w_srcs (fst res) = w_srcs w /\ (forall r, is_selected w0 d r -> (forall x, ours w0 d x -> c_kernel_metric (w_cfg w0) < x_metric x) ->
                               ~ split_horizon w0 i r -> last = Some d)) \/
      (exists r, is_selected w0 d r /\ w_srcs (fst res) = update_source (sec w0) (r_src r) (r_seqno r) (metric_of r) (w_srcs w)))).
    { intros w1 res.
      assert (F1 : frame w w1) by (unfold w1; destruct (_ <? _); [apply satisfy_frame|apply frame_refl]).
      assert (O1 : w_srcs w1 = w_srcs w /\ w_ifs w1 = w_ifs w).
      { unfold w1. destruct (_ <? _); auto.
        destruct (satisfy_rest (rdest r) (r_seqno r) (k_id (r_src r)) (Some (if_id i)) w) as (A & B & _). auto. }
      destruct O1 as (O1 & O2). pose proof (frame_trans _ _ _ F F1) as F01.
      pose proof Sr as (Hr & Ir & Dr). destruct (W_refs _ _ Hw r Hr) as (Hn & _).
      pose proof (frame_has_nb _ _ _ F01 Hn) as Hn1. unfold has_nb in Hn1. unfold res. clear res.
      destruct (nb_if (r_neigh r) w1) as [[nb ri]|] eqn:Nb; [|contradiction].
      destruct (flag i IF_SPLIT_HORIZON && (if_id ri =? if_id i)) eqn:Sp; cbv zeta; cbn [fst snd].
      - split; auto. left. split; auto. intros r' Sr' _ Ns. exfalso. apply Ns.
        assert (r' = r) as -> by (apply FI in Sr'; auto using (W_rt _ _ Hw); congruence).
        apply andb_true_iff in Sp. destruct Sp as (S1 & S2). split; auto.
        pose proof (nb_if_In _ _ _ _ Nb) as (Hnb & _). pose proof (nb_if_get _ _ _ _ Nb) as (G1 & G2).
        apply get_nb_id in G1. apply get_if_id in G2. rewrite (f_nbs _ _ F01) in Hnb.
        exists nb. split; auto. split; auto. lia.
      - destruct (rsu_rest i (k_id (r_src r)) (rdest r) (r_seqno r) (route_metric r) w1) as (R1 & R2).
        split; [cbn [w_ifs set_w_srcs]; congruence|]. right. exists r. split; auto. cbn [w_srcs set_w_srcs]. rewrite R1, O1.
        change (route_metric r) with (metric_of r). f_equal. unfold sec.
        rewrite (f_now _ _ (rsu_frame _ _ _ _ _ _)), (f_now _ _ F01). auto. }
    destruct (find_xroute d w0) as [x|] eqn:Fx; [|exact G].
    assert (Ox : ours w0 d x) by (apply find_xroute_iff; auto using (W_xr _ _ Hw)).
    destruct (x_metric x <=? c_kernel_metric (w_cfg w0)) eqn:Ex; [|exact G]. cbn [fst].
    destruct (rsu_rest i (c_myid (w_cfg w0)) (x_dest x) (w_seqno w0) (x_metric x) w) as (R1 & R2).
    split; auto. left. split; auto. intros r' _ K _. apply K in Ox. lia.
  - assert (Nr : forall r, ~ is_selected w0 d r).
    { intros r H. apply FI in H; auto using (W_rt _ _ Hw). discriminate. }
    destruct (find_xroute d w0) as [x|] eqn:Fx; cbn [fst].
    + destruct (rsu_rest i (c_myid (w_cfg w0)) (x_dest x) (w_seqno w0) (x_metric x) w) as (R1 & R2).
      split; auto. left. split; auto. intros r' H. exfalso. eapply Nr; eauto.
    + destruct (rsu_rest i (c_myid (w_cfg w0)) d (w_seqno w0) INFINITY w) as (R1 & R2).
      split; auto. left. split; auto. intros r' H. exfalso. eapply Nr; eauto.
Qed.

Lemma selected_unique : forall w d r r', rt_wf (w_rt w) -> is_selected w d r -> is_selected w d r' -> r = r'.
Proof.
  intros w d r r' Wf H H'. pose proof H as (Hr & Ir & Dr).
  assert (V : dvalid d) by (rewrite <- Dr; eapply route_dvalid; eauto).
  apply (find_installed_iff d w) in H; auto. apply (find_installed_iff d w) in H'; auto. congruence.
Qed.

Lemma flush_cov : forall e w0 i r, W e w0 -> is_selected w0 (dest_of r) r ->
  (forall x, ours w0 (dest_of r) x -> c_kernel_metric (w_cfg w0) < x_metric x) -> ~ split_horizon w0 i r -> metric_of r < 65535 ->
  forall l w last, frame w0 w -> (forall b, In b l -> dvalid (snd b)) ->
  (cov w0 r w \/ (In (dest_of r) (map snd l) /\ last <> Some (dest_of r))) ->
  (last = Some (dest_of r) -> cov w0 r w) ->
  (if_up i = true) ->
  cov w0 r (fst (fold_left (flush1 i) l (w, last))).
Proof.
  intros e w0 i r Hw Sr K Ns Fm. induction l as [|b l IH]; intros w last F Hl C La U.
  { cbn. destruct C as [C|(C & _)]; [auto|destruct C]. }
  cbn [fold_left]. set (d := snd b).
  assert (Vd : dvalid d) by (apply Hl; simpl; auto).
  assert (Hl' : forall b', In b' l -> dvalid (snd b')) by (intros; apply Hl; simpl; auto).
  pose proof (frame_refs _ _ F (W_refs _ _ Hw)) as R.
  pose proof (frame_trans _ _ _ F (flush1_frame i w last b R)) as F'.
  pose proof (flush1_rest e w0 w i last b d Hw F Vd eq_refl) as (_ & D).
  assert (Cov : cov w0 r w -> cov w0 r (fst (flush1 i (w, last) b))).
  { intros C1. destruct D as [(D & _)|(r' & Sr' & D)].
    - unfold cov. rewrite D. auto.
    - unfold cov. rewrite D. apply (covers_src w0 w r r'); auto. intros E.
      destruct Sr' as (A1 & A2 & A3).
      assert (dest_of r = d) as E' by (rewrite <- A3; unfold dest_of; rewrite E; auto).
      eapply selected_unique; [apply (W_rt _ _ Hw)|exact Sr|]. repeat split; auto. congruence. }
  assert (Est : d = dest_of r -> last <> Some d -> cov w0 r (fst (flush1 i (w, last) b))).
  { intros Ed Nl. destruct D as [(D & D')|(r' & Sr' & D)].
    - exfalso. rewrite Ed in *. apply Nl. eapply D'; eauto.
    - assert (r' = r) as -> by (eapply selected_unique; [apply (W_rt _ _ Hw)|exact Sr'|rewrite Ed; exact Sr]).
      intros s Hs Ks. rewrite D in Hs. unfold update_source, map_src in Hs. apply in_map_iff in Hs.
      destruct Hs as (t & Et & Ht). destruct (skey_eqb (r_src r) (s_key t)) eqn:Ek.
      + subst s. apply update_covers. auto.
      + subst t. apply skey_eqb_false in Ek. congruence. }
  assert (Lst : snd (flush1 i (w, last) b) = last \/ snd (flush1 i (w, last) b) = Some d).
  { destruct (last_dec last d) as [El|Nl].
    - left. unfold flush1. rewrite El. fold d. replace (dest_eqb d d) with true; auto. symmetry. apply dest_eqb_iff. auto.
    - destruct (flush1_spec e w0 w i last b d Hw F U Vd eq_refl Nl) as (A & _ & _ & [La'|(La' & _)]); auto. }
  destruct (flush1 i (w, last) b) as [w' last'] eqn:E1. cbn [fst snd] in *.
  assert (La2 : last' = Some (dest_of r) -> cov w0 r w').
  { intros H. destruct Lst as [L1|L1]; [apply Cov, La; congruence|].
    destruct (last_dec last d) as [El|Nl].
    - apply Cov, La. congruence.
    - apply Est; auto. congruence. }
  apply IH; auto.
  destruct C as [C|(C & Nl)]; auto.
  cbn [map In] in C. destruct C as [C|C].
  - left. apply Est; [exact C|]. unfold d. rewrite C. auto.
  - destruct (last_dec last' (dest_of r)) as [El'|Nl']; [left; auto|right; auto].
Qed.

Lemma told_env : forall w w' i d A, w_cfg w' = w_cfg w -> w_nbs w' = w_nbs w -> w_rt w' = w_rt w -> w_xr w' = w_xr w ->
  w_seqno w' = w_seqno w -> told w' i d A -> told w i d A.
Proof.
  intros w w' i d A E1 E2 E3 E4 E5 T.
  assert (Sel : forall r, is_selected w' d r <-> is_selected w d r)
    by (intros; unfold is_selected, all_routes; rewrite E3; tauto).
  assert (Our : forall x, ours w' d x <-> ours w d x) by (intros; unfold ours; rewrite E4; tauto).
  assert (Via : forall r, split_horizon w' i r <-> split_horizon w i r).
  { intros. unfold split_horizon, via_if. rewrite E2. tauto. }
  assert (Sy : forall s, says w' i d s -> says w i d s).
  { intros s [x H1 H2|r H1 H2 H3|r H1 H2 H3|H1 H2]; rewrite ?E1, ?E5.
    - eapply says_ours; [apply Our; auto|]. rewrite <- E1. intros r Hr. apply (H2 r). apply Sel. auto.
    - eapply says_route; [apply Sel; auto| |]. { rewrite <- E1. intros x Hx. apply H2. apply Our. auto. }
      intros Hs. apply H3. apply Via. auto.
    - eapply says_split; [apply Sel; eauto| |]. { rewrite <- E1. intros x Hx. apply H2. apply Our. auto. }
      apply Via. auto.
    - apply says_lost; [intros x Hx; apply (H1 x); apply Our; auto|intros r Hr; apply (H2 r); apply Sel; auto]. }
  destruct T as [H|id q m H1 H2|id q m add bs H1 H2 H3 H4 H5]; rewrite ?E1 in *.
  - apply told_nothing. auto.
  - eapply told_filtered; eauto.
  - eapply told_update; eauto. unfold goes_to in *. rewrite E2 in H5. auto.
Qed.

Lemma get_if_map : forall ifp f w i, (forall x, if_id (f x) = if_id x) -> get_if ifp w = Some i ->
  get_if ifp (map_if ifp f w) = Some (f i).
Proof.
  intros ifp f w i Hf. unfold get_if, map_if. cbn [w_ifs set_w_ifs].
  induction (w_ifs w) as [|x l IH]; cbn [find map]; [discriminate|].
  destruct (if_id x =? ifp) eqn:E.
  - rewrite Hf, E. intros H. inversion H; subst. auto.
  - rewrite E. auto.
Qed.

Lemma fold_ifs : forall e w0 i, W e w0 -> forall l w last, frame w0 w -> (forall b, In b l -> dvalid (snd b)) ->
  w_ifs (fst (fold_left (flush1 i) l (w, last))) = w_ifs w.
Proof.
  intros e w0 i Hw. induction l as [|b l IH]; intros w last F Hl; cbn [fold_left]; auto.
  pose proof (frame_refs _ _ F (W_refs _ _ Hw)) as R.
  pose proof (frame_trans _ _ _ F (flush1_frame i w last b R)) as F'.
  pose proof (flush1_rest e w0 w i last b (snd b) Hw F (Hl b (or_introl eq_refl)) eq_refl) as (I1 & _).
  destruct (flush1 i (w, last) b) as [w' last']. cbn [fst] in *. rewrite IH; auto. intros; apply Hl; simpl; auto.
Qed.

Section flush.
  Variables (e : list skey) (w : world) (ifp : Z) (i : iface).
  Hypothesis Hw : W e w.
  Hypothesis Gi : get_if ifp w = Some i.
  Hypothesis Vp : Forall dvalid (if_pend i).
  Let w1 := map_if ifp (fun x => set_if_pend [] (set_if_bufsize 0 x)) w.
  Lemma flush_W1 : frame w w1.
  Proof. apply frame_map_if. auto. Qed.

  Let l := sort (fun a b => compare_buffered a b <=? 0) (map (bupd_of w1) (if_pend i)).
  Lemma flush_l_in : forall b, In b l -> In (snd b) (if_pend i) /\ b = bupd_of w (snd b).
  Proof.
    intros b Hb. unfold l in Hb. apply (Permutation_in _ (sort_perm _ _ _)) in Hb.
    apply in_map_iff in Hb. destruct Hb as (d & <- & Hd). split; auto.
  Qed.
  Lemma flush_l_map : Permutation (map snd l) (if_pend i).
  Proof.
    unfold l. rewrite (Permutation_map snd (sort_perm _ _ _)). rewrite map_map. cbn [snd bupd_of].
    rewrite map_id. auto.
  Qed.

  Lemma flush_pend : exists i', get_if ifp (flushupdates ifp w) = Some i' /\ if_pend i' = [].
  Proof.
    unfold flushupdates. rewrite Gi. fold w1. fold l.
    assert (G1 : get_if ifp w1 = Some (set_if_pend [] (set_if_bufsize 0 i))).
    { unfold w1. apply (get_if_map ifp (fun x => set_if_pend [] (set_if_bufsize 0 x)) w i); auto. }
    destruct (match if_pend i with [] => true | _ => false end) eqn:Pe.
    - eexists. split; [apply get_if_map; eauto|]. cbn [if_pend set_if_flush_timeout].
      clear - Pe. destruct (if_pend i); [auto|discriminate].
    - destruct (negb (if_up i)).
      + eexists. split; [apply get_if_map; eauto|]. auto.
      + exists (set_if_flush_timeout tv0 (set_if_pend [] (set_if_bufsize 0 i))). split; auto.
        apply get_if_map; auto. unfold get_if in *. rewrite (fold_ifs e w i Hw); auto; [apply flush_W1|].
        intros b Hb. apply flush_l_in in Hb. destruct Hb as (Hb & _). rewrite Forall_forall in Vp. auto.
  Qed.

  Lemma flush_told : if_up i = true -> exists L AA, Forall2 (told w i) L AA /\
    w_out (flushupdates ifp w) = w_out w ++ concat AA /\
    (forall d, In d L <-> In d (if_pend i)) /\
    (forall d, ~ repeatable w i d -> (count_occ dest_dec L d <= 1)%nat) /\
    (forall d, (count_occ dest_dec L d <= count_occ dest_dec (if_pend i) d)%nat).
  Proof.
    intros U. unfold flushupdates. rewrite Gi. fold w1. fold l. rewrite U. cbn [negb].
    destruct (match if_pend i with [] => true | _ => false end) eqn:Pe.
    { clear - Pe. destruct (if_pend i); [|discriminate]. exists [], []. cbn. rewrite app_nil_r. repeat split; auto. }
    destruct (flush_fold e w i (fun d => fst (bupd_of w d)) Hw U l w1 None flush_W1) as (L & AA & I1 & I2 & I3 & I4 & I5 & _ & I7).
    - intros b Hb. destruct (flush_l_in b Hb) as (H1 & H2). rewrite Forall_forall in Vp. split; auto.
    - apply sort_sorted; [apply cb_anti|apply cb_le_trans].
    - exists L, AA. split; auto. split; [exact I2|]. split; [|split; auto].
      + intros d. split.
        * intros H. apply I3 in H. apply (Permutation_in _ flush_l_map). auto.
        * intros H. destruct (I4 d) as [H'|H']; auto; [|discriminate]. apply (Permutation_in _ (Permutation_sym flush_l_map)). auto.
      + intros d. rewrite <- (proj1 (Permutation_count_occ dest_dec _ _) flush_l_map). auto.
  Qed.

  Lemma flush_covers : if_up i = true -> forall r, is_selected w (dest_of r) r -> In (dest_of r) (if_pend i) ->
    (forall x, ours w (dest_of r) x -> c_kernel_metric (w_cfg w) < x_metric x) -> ~ split_horizon w i r -> metric_of r < 65535 ->
    exists s, In s (w_srcs (flushupdates ifp w)) /\ s_key s = r_src r /\ covers (sec w) s (r_seqno r) (metric_of r).
  Proof.
    intros U r Sr Hp K Ns Fm.
    assert (C : cov w r (flushupdates ifp w)).
    { unfold flushupdates. rewrite Gi. fold w1. fold l. rewrite U. cbn [negb].
      destruct (match if_pend i with [] => true | _ => false end) eqn:Pe; [exfalso; clear - Pe Hp; destruct (if_pend i); [destruct Hp|discriminate]|].
      apply (flush_cov e w i r Hw Sr K Ns Fm l w1 None flush_W1); auto; [| |discriminate].
      - intros b Hb. apply flush_l_in in Hb. destruct Hb as (Hb & _). rewrite Forall_forall in Vp. auto.
      - right. split; [|discriminate]. apply (Permutation_in _ (Permutation_sym flush_l_map)). auto. }
    pose proof (flushupdates_frame ifp w (W_refs _ _ Hw) (get_if_has _ _ _ Gi)) as F.
    pose proof (frame_refs _ _ F (W_refs _ _ Hw)) as R. destruct Sr as (Hr & Ir & _).
    destruct (R r) as (_ & G). { unfold all_routes. rewrite (f_rt _ _ F). auto. }
    unfold src_of in G. apply get_src_keys in G. apply in_map_iff in G. destruct G as (s & Ks & Hs).
    exists s. split; auto.
  Qed.
End flush.

(** There is only one thing to say. *)
Lemma says_fun : forall e w i d a b, W e w -> says w i d a -> says w i d b -> a = b.
Proof.
  intros e w i d a b Hw A B.
  assert (Ux : forall x x', ours w d x -> ours w d x' -> x = x').
  { intros x x' (H1 & H2) (H3 & H4). eapply xsorted_inj; eauto using (W_xr _ _ Hw). congruence. }
  assert (Ur : forall r r', is_selected w d r -> is_selected w d r' -> r = r')
    by (intros; eapply selected_unique; eauto using (W_rt _ _ Hw)).
  destruct A as [x A1 A2|r A1 A2 A3|r A1 A2 A3|A1 A2], B as [x' B1 B2|r' B1 B2 B3|r' B1 B2 B3|B1 B2]; auto;
    try (exfalso; solve [eapply B1; eauto|eapply A1; eauto|eapply A2; eauto|eapply B2; eauto]).
  - rewrite (Ux x x'); auto.
  - specialize (A2 _ B1). specialize (B2 _ A1). lia.
  - specialize (A2 _ B1). specialize (B2 _ A1). lia.
  - specialize (A2 _ B1). specialize (B2 _ A1). lia.
  - rewrite (Ur r r'); auto.
  - exfalso. rewrite (Ur r r') in *; auto.
  - specialize (A2 _ B1). specialize (B2 _ A1). lia.
  - exfalso. rewrite (Ur r r') in *; auto.
Qed.
Lemma split_dec : forall w i r, split_horizon w i r \/ ~ split_horizon w i r.
Proof.
  intros w i r. unfold split_horizon, via_if. destruct (flag i IF_SPLIT_HORIZON); [|right; intros (H & _); discriminate].
  destruct (existsb (fun n => (n_id n =? r_neigh r) && (n_if n =? if_id i)) (w_nbs w)) eqn:B.
  - left. split; auto. apply existsb_exists in B. destruct B as (n & Hn & B). apply andb_true_iff in B. destruct B as (B1 & B2).
    exists n. repeat split; auto; lia.
  - right. intros (_ & n & N1 & N2 & N3).
    assert (B' : existsb (fun n => (n_id n =? r_neigh r) && (n_if n =? if_id i)) (w_nbs w) = true).
    { apply existsb_exists. exists n. split; auto. apply andb_true_iff. split; lia. }
    congruence.
Qed.
Lemma says_total : forall e w i d, W e w -> dvalid d -> exists s, says w i d s.
Proof.
  intros e w i d Hw V. pose proof (find_installed_iff d w) as FI.
  destruct (find_xroute d w) as [x|] eqn:Fx; destruct (find_installed d w) as [r|] eqn:Fi.
  - apply find_xroute_iff in Fx; [|apply (W_xr _ _ Hw)].
    assert (Sr : is_selected w d r) by (apply FI; auto using (W_rt _ _ Hw)).
    destruct (Z_le_gt_dec (x_metric x) (c_kernel_metric (w_cfg w))) as [L|L]; [eexists; eapply says_ours; eauto|].
    assert (K : forall x', ours w d x' -> c_kernel_metric (w_cfg w) < x_metric x').
    { intros x' Hx'. replace x' with x; [lia|]. destruct Fx, Hx'. eapply xsorted_inj; eauto using (W_xr _ _ Hw). congruence. }
    assert (D : split_horizon w i r \/ ~ split_horizon w i r) by (apply split_dec).
    destruct D; eexists; [eapply says_split|eapply says_route]; eauto.
  - apply find_xroute_iff in Fx; [|apply (W_xr _ _ Hw)]. eexists; eapply says_ours; eauto.
    intros r Hr. apply FI in Hr; auto using (W_rt _ _ Hw). discriminate.
  - pose proof (find_xroute_none _ _ (W_xr _ _ Hw) Fx) as Nx.
    assert (Sr : is_selected w d r) by (apply FI; auto using (W_rt _ _ Hw)).
    assert (K : forall x', ours w d x' -> c_kernel_metric (w_cfg w) < x_metric x') by (intros x' Hx'; exfalso; eapply Nx; eauto).
    assert (D : split_horizon w i r \/ ~ split_horizon w i r) by (apply split_dec).
    destruct D; eexists; [eapply says_split|eapply says_route]; eauto.
  - pose proof (find_xroute_none _ _ (W_xr _ _ Hw) Fx) as Nx. eexists. apply says_lost; auto.
    intros r Hr. apply FI in Hr; auto using (W_rt _ _ Hw). discriminate.
Qed.

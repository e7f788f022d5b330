(** L_Pend.v: which updates are pending. *)
From Verif Require Import Base M_Util S_Util L_Util M_Slot L_Slot M_Source S_Source L_Source
  M_Filter M_Types M_Neigh M_State M_Table M_Msg M_Route M_Xroute S_World S_Send S_Pend L_Table L_Step L_Msg L_Smooth L_Quiet
  L_Select L_Select2 L_Chain L_Chain2 L_Chain3 L_Flush L_Update L_Update2 L_Xroute L_World L_Send L_Resend4 L_Request.

Lemma get_if_other : forall ifp j f w, ifp <> j -> (forall x, if_id (f x) = if_id x) ->
  get_if ifp (map_if j f w) = get_if ifp w.
Proof.
  intros ifp j f w N F. unfold get_if, map_if. cbn [w_ifs set_w_ifs]. induction (w_ifs w) as [|a l IH]; cbn [map find]; auto.
  destruct (if_id a =? j) eqn:E; [|destruct (if_id a =? ifp); auto].
  rewrite F. destruct (if_id a =? ifp) eqn:E2; [lia|auto].
Qed.
Lemma get_if_ifs : forall w w' ifp, w_ifs w' = w_ifs w -> get_if ifp w' = get_if ifp w.
Proof. intros w w' ifp E. unfold get_if. rewrite E. auto. Qed.
Lemma flush_other : forall ifp j w, ifp <> j -> get_if ifp (flushupdates j w) = get_if ifp w.
Proof.
  intros ifp j w N. unfold flushupdates. destruct (get_if j w) as [i|] eqn:G; [|reflexivity].
  rewrite get_if_other by auto. destruct (match if_pend i with [] => true | _ => false end); auto.
  destruct (negb (if_up i)); [apply get_if_other; auto|].
  rewrite (get_if_ifs (map_if j (fun x => set_if_pend [] (set_if_bufsize 0 x)) w)).
  - apply get_if_other; auto.
  - apply flush_fold_ifs.
Qed.
Lemma rand_ifs : forall w, w_ifs (snd (rand w)) = w_ifs w.
Proof. intros w. unfold rand. destruct (w_rnd w); reflexivity. Qed.
Lemma jitter_ifs : forall i u w, w_ifs (snd (update_jitter i u w)) = w_ifs w.
Proof. intros i u w. unfold update_jitter. pose proof (rand_ifs w) as H. destruct (rand w). exact H. Qed.
Lemma timeout_ifs : forall ms w, w_ifs (snd (set_timeout ms w)) = w_ifs w.
Proof. intros ms w. unfold set_timeout. pose proof (rand_ifs w) as H. destruct (rand w). exact H. Qed.
Lemma schedule_other : forall ifp j u w, ifp <> j -> get_if ifp (schedule_update_flush j u w) = get_if ifp w.
Proof.
  intros ifp j u w N. unfold schedule_update_flush. destruct (get_if j w) as [i|]; [|reflexivity].
  pose proof (jitter_ifs i u w) as H. destruct (update_jitter i u w) as [ms w1]. cbn [snd] in H.
  destruct (_ && _); [apply get_if_ifs; auto|]. pose proof (timeout_ifs ms w1) as H2. destruct (set_timeout ms w1) as [t w2]. cbn [snd] in H2.
  rewrite get_if_other by auto. apply get_if_ifs. congruence.
Qed.
Lemma schedule_pend : forall ifp u w i, get_if ifp w = Some i ->
  exists i', get_if ifp (schedule_update_flush ifp u w) = Some i' /\ if_pend i' = if_pend i.
Proof.
  intros ifp u w i G. unfold schedule_update_flush. rewrite G.
  pose proof (jitter_ifs i u w) as H. destruct (update_jitter i u w) as [ms w1]. cbn [snd] in H.
  assert (G1 : get_if ifp w1 = Some i) by (rewrite (get_if_ifs w w1); auto).
  destruct (_ && _); [exists i; auto|]. pose proof (timeout_ifs ms w1) as H2. destruct (set_timeout ms w1) as [t w2]. cbn [snd] in H2.
  assert (G2 : get_if ifp w2 = Some i) by (rewrite (get_if_ifs w1 w2); auto).
  eexists. split; [apply get_if_map; eauto|reflexivity].
Qed.
Lemma buffer_other : forall ifp j d w, ifp <> j -> get_if ifp (buffer_update j d w) = get_if ifp w.
Proof.
  intros ifp j d w N. unfold buffer_update. destruct (get_if j w) as [i|] eqn:G; [|reflexivity].
  rewrite get_if_other; [|auto|intros x; cbv zeta; destruct (if_bufsize x =? 0); reflexivity].
  destruct (_ && _); auto. apply flush_other. auto.
Qed.
Lemma buffer_pend : forall ifp d w i, get_if ifp w = Some i ->
  exists i', get_if ifp (buffer_update ifp d w) = Some i' /\ In d (if_pend i') /\ incl (if_pend i') (d :: if_pend i).
Proof.
  intros ifp d w i G. unfold buffer_update. rewrite G. set (w1 := if _ && _ then _ else w).
  assert (G1 : exists i1, get_if ifp w1 = Some i1 /\ incl (if_pend i1) (if_pend i)).
  { unfold w1. destruct (_ && _); [|exists i; split; auto; apply incl_refl].
    unfold flushupdates. rewrite G. destruct (match if_pend i with [] => true | _ => false end).
    - eexists. split; [apply get_if_map; eauto|apply incl_refl].
    - pose proof (get_if_map ifp (fun x => set_if_pend [] (set_if_bufsize 0 x)) w i (fun x => eq_refl) G) as G1.
      destruct (negb (if_up i)).
      + eexists. split; [apply get_if_map; eauto|]. intros x [].
      + eexists. split; [apply get_if_map; auto; unfold get_if in *; rewrite flush_fold_ifs; exact G1|]. intros x []. }
  destruct G1 as (i1 & G1 & In1).
  match goal with |- context [map_if ifp ?f w1] => pose proof (get_if_map ifp f w1 i1) as M end.
  eexists. split; [apply M; auto; intros x; cbv zeta; destruct (if_bufsize x =? 0); reflexivity|].
  cbv zeta. destruct (if_bufsize i1 =? 0); cbn [if_pend set_if_pend set_if_bufsize].
  - split; [apply in_or_app; simpl; auto|]. intros x [<-|[]]. simpl. auto.
  - split; [apply in_or_app; simpl; auto|]. intros x Hx. apply in_app_or in Hx. destruct Hx as [Hx|[<-|[]]]; simpl; auto.
Qed.
Lemma send_if_other : forall ifp j u d w, ifp <> j -> get_if ifp (send_update_if j u d w) = get_if ifp w.
Proof.
  intros ifp j u d w N. unfold send_update_if. destruct (get_if j w) as [i|]; [|reflexivity]. destruct (negb (if_up i)); auto.
  rewrite schedule_other, buffer_other; auto.
Qed.
Lemma send_if_pend : forall ifp u d w i, get_if ifp w = Some i ->
  exists i', get_if ifp (send_update_if ifp u d w) = Some i' /\ (if_up i = true -> In d (if_pend i')) /\
    incl (if_pend i') (d :: if_pend i).
Proof.
  intros ifp u d w i G. unfold send_update_if. rewrite G. destruct (if_up i) eqn:U; cbn [negb].
  - destruct (buffer_pend ifp d w i G) as (i1 & G1 & I1 & I2). destruct (schedule_pend ifp u _ i1 G1) as (i2 & G2 & E2).
    exists i2. rewrite E2. auto.
  - exists i. split; auto. split; [discriminate|]. intros x Hx. simpl. auto.
Qed.

Lemma send_fold : forall u d l w ifp i, NoDup l -> get_if ifp w = Some i ->
  exists i', get_if ifp (fold_left (fun w j => send_update_if j u d w) l w) = Some i' /\
    (In ifp l -> if_up i = true -> In d (if_pend i')) /\ (~ In ifp l -> i' = i) /\ incl (if_pend i') (d :: if_pend i).
Proof.
  intros u d. induction l as [|j l IH]; intros w ifp i Nd G; cbn [fold_left].
  - exists i. split; auto. split; [intros []|]. split; auto. intros x Hx. simpl. auto.
  - inversion Nd as [|? ? Nj Nd']; subst. destruct (Z.eq_dec ifp j) as [->|N].
    + destruct (send_if_pend j u d w i G) as (i1 & G1 & A & B).
      destruct (IH _ j i1 Nd' G1) as (i' & G' & _ & C & D). rewrite (C Nj) in *.
      exists i1. split; auto. split; auto. split; [intros X; exfalso; apply X; simpl; auto|auto].
    + pose proof (send_if_other ifp j u d w N) as E. rewrite <- E in G.
      destruct (IH _ ifp i Nd' G) as (i' & G' & A & B & C). exists i'. split; auto.
      split; [intros [?|?]; [congruence|auto]|]. split; auto. intros X. apply B. intros Y. apply X. simpl. auto.
Qed.
Lemma send_all_ifs : forall u d w, w_ifs (send_update_all u d w) =
  w_ifs (fold_left (fun w i => send_update_if i u d w) (map if_id (w_ifs w)) w).
Proof.
  intros u d w. unfold send_update_all. set (w1 := fold_left _ _ _). destruct (find_installed d w1) as [r|]; auto.
  destruct (_ <? _); auto. destruct (src_of r w1); auto. apply satisfy_ifs.
Qed.

(** ** After send_update(NULL, ...) *)
Definition pend_grow (d : dest) (w w' : world) : Prop :=
  forall ifp i', get_if ifp w' = Some i' -> exists i, get_if ifp w = Some i /\ incl (if_pend i') (d :: if_pend i).
Lemma pend_grow_ifs : forall d w w', w_ifs w' = w_ifs w -> pend_grow d w w'.
Proof. intros d w w' E ifp i' G. rewrite (get_if_ifs w w') in G; auto. exists i'. split; auto. intros x Hx. simpl. auto. Qed.
Lemma pend_grow_trans : forall d a b c, pend_grow d a b -> pend_grow d b c -> pend_grow d a c.
Proof.
  intros d a b c H1 H2 ifp i' G. destruct (H2 ifp i' G) as (i1 & G1 & I1). destruct (H1 ifp i1 G1) as (i & G0 & I0).
  exists i. split; auto. intros x Hx. apply I1 in Hx. destruct Hx as [<-|Hx]; [simpl; auto|auto].
Qed.
Lemma get_if_back : forall w w' ifp i', map if_id (w_ifs w') = map if_id (w_ifs w) -> get_if ifp w' = Some i' ->
  exists i, get_if ifp w = Some i.
Proof.
  intros w w' ifp i' E G. destruct (get_if ifp w) as [i|] eqn:G0; [eauto|exfalso].
  unfold get_if in G, G0. apply find_some in G. destruct G as (G1 & G2). apply (in_map if_id) in G1. rewrite E in G1.
  apply in_map_iff in G1. destruct G1 as (x & Ex & Hx). apply (find_none _ _ G0 x) in Hx. lia.
Qed.
Lemma stat_ids : forall l l', map ifstat l' = map ifstat l -> map if_id l' = map if_id l.
Proof.
  intros l l' E. apply (f_equal (map if_id)) in E. rewrite !map_map in E.
  etransitivity; [|etransitivity; [exact E|]]; apply map_ext; reflexivity.
Qed.

Lemma send_all_pend : forall e u d w, W e w ->
  pending_all (send_update_all u d w) d /\ pend_grow d w (send_update_all u d w).
Proof.
  intros e u d w Hw. pose proof (send_update_all_frame u d w (W_refs _ _ Hw)) as Fr.
  pose proof (stat_ids _ _ (f_ifs _ _ Fr)) as Ids. pose proof (W_ifs _ _ Hw) as Nd.
  assert (St : forall ifp i i', get_if ifp w = Some i -> get_if ifp (send_update_all u d w) = Some i' -> if_up i' = if_up i).
  { intros ifp i i' G G'. destruct (get_if_static ifp w _ i (f_ifs _ _ Fr) G) as (i2 & G2 & E2). rewrite G' in G2. inversion G2; subst.
    destruct (static_flags _ _ E2) as (E3 & _). unfold if_up, flag. rewrite E3. auto. }
  assert (A : forall ifp i', get_if ifp (send_update_all u d w) = Some i' ->
    exists i, get_if ifp w = Some i /\ (if_up i = true -> In d (if_pend i')) /\ incl (if_pend i') (d :: if_pend i)).
  { intros ifp i' G'. destruct (get_if_back w _ ifp i' Ids G') as (i & G). exists i. split; auto.
    destruct (send_fold u d (map if_id (w_ifs w)) w ifp i Nd G) as (i2 & G2 & B & _ & C).
    unfold get_if in G'. rewrite send_all_ifs in G'. unfold get_if in G2. rewrite G' in G2. inversion G2; subst.
    split; auto. apply B. unfold get_if in G. apply find_some in G. destruct G as (G & Ge). apply in_map_iff. exists i. split; auto. lia. }
  split.
  - intros i' Hi U. assert (Nd' : NoDup (map if_id (w_ifs (send_update_all u d w)))) by (rewrite Ids; auto).
    pose proof (get_if_In _ i' Nd' Hi) as G'. destruct (A _ _ G') as (i & G & B & _). apply B. rewrite <- (St _ _ _ G G'). auto.
  - intros ifp i' G'. destruct (A _ _ G') as (i & G & _ & C). eauto.
Qed.
Lemma record_ifs : forall k d s id ifp delay w, w_ifs (record_resend k d s id ifp delay w) = w_ifs w.
Proof.
  intros. unfold record_resend. destruct (_ || _); auto.
  repeat match goal with |- context [match ?x with _ => _ end] => destruct x; auto end.
Qed.
Lemma send_resend_pend : forall e d w, W e w ->
  pending_all (send_update_resend d w) d /\ pend_grow d w (send_update_resend d w).
Proof.
  intros e d w Hw. unfold send_update_resend. destruct (send_all_pend e true d w Hw) as (A & B).
  split.
  - unfold pending_all. rewrite record_ifs. exact A.
  - eapply pend_grow_trans; [exact B|]. apply pend_grow_ifs. apply record_ifs.
Qed.

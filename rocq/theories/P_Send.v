(** P_Send.v: property theorems about pending updates: C44 (output), C45, C46, C54, C63. *)
From Verif Require Import Base M_Util S_Util L_Util M_Slot M_Source S_Source M_Filter S_Filter L_Filter M_Types M_Neigh M_State
  M_Table M_Msg M_Route M_Xroute M_Daemon S_World L_Table L_Step L_Msg L_World4 L_Daemon L_Inv S_Send L_Send X_Run X_Run2 X_Run3.
From Coq Require Import Permutation.

(** ** C54: the order of pending updates.  [bupd_of w d] is the entry of destination
    [d] when pending updates are flushed in state [w]. *)
Theorem C54_total_order : forall w,
  (forall d, compare_buffered (bupd_of w d) (bupd_of w d) = 0) /\
  (forall d d', compare_buffered (bupd_of w d') (bupd_of w d) = - compare_buffered (bupd_of w d) (bupd_of w d')) /\
  (forall a b c, compare_buffered (bupd_of w a) (bupd_of w b) <= 0 -> compare_buffered (bupd_of w b) (bupd_of w c) <= 0 ->
     compare_buffered (bupd_of w a) (bupd_of w c) <= 0) /\
  (forall d d', compare_buffered (bupd_of w d) (bupd_of w d') = 0 <-> d = d').
Proof.
  intros w. split; [|split; [|split]].
  - intros d. apply cb_0. auto.
  - intros. apply cb_anti.
  - intros a b c. apply cb_le_trans.
  - intros d d'. rewrite cb_0. split; [intros H; inversion H; auto|intros ->; auto].
Qed.
Print Assumptions C54_total_order.
(** Not a trivial order: host routes that carry our identifier come first within a
    router-id, then longer prefixes. *)
Example C54_ex : exists w a b c, map (compare_buffered (bupd_of w a)) [bupd_of w b; bupd_of w c; bupd_of w a] = [-1; 1; 0] /\
  compare_buffered (bupd_of w c) (bupd_of w b) < 0.
Proof. exists x_w2, (xd 1), (xd 2), (xd 3). split; vm_compute; reflexivity. Qed.

(** Whatever sorting algorithm is used, duplicates end up adjacent. *)
Theorem C54_adjacent : forall w pend l, Permutation l (map (bupd_of w) pend) -> sorted_by compare_buffered l ->
  forall x y l1 l2 l3, l = l1 ++ x :: l2 ++ y :: l3 -> snd x = snd y -> forall z, In z l2 -> snd z = snd x.
Proof.
  intros w pend l P Sl x y l1 l2 l3 E D z Hz.
  assert (B : forall b, In b l -> b = bupd_of w (snd b)).
  { intros b Hb. apply (Permutation_in _ P) in Hb. apply in_map_iff in Hb. destruct Hb as (d & <- & _). reflexivity. }
  assert (x = y) as <-.
  { rewrite (B x), (B y), D; auto; rewrite E; apply in_or_app; right; [right; apply in_or_app; right|]; left; auto. }
  rewrite (sorted_adjacent l x l1 l2 l3 Sl E z Hz). auto.
Qed.
Print Assumptions C54_adjacent.
Example C54_ex2 : exists l, Permutation l (map (bupd_of x_w2) [xd 1; xd 2; xd 1]) /\ sorted_by compare_buffered l /\
  map snd l = [xd 1; xd 1; xd 2].
Proof.
  exists (sort (fun a b => compare_buffered a b <=? 0) (map (bupd_of x_w2) [xd 1; xd 2; xd 1])).
  split; [apply sort_perm|]. split; [apply sort_sorted; [apply cb_anti|apply cb_le_trans]|]. vm_compute. reflexivity.
Qed.

(** ** C46: flushing the pending updates of an interface that is up.  [L] lists the
    destinations in the order in which they are handled; each gives the messages
    [told] (S_Send.v), and each that has something to announce is in it once. *)
Theorem C46_flush : forall c w ifp i, c_half_life c <> 2 -> reach c w -> get_if ifp w = Some i -> Forall dvalid (if_pend i) ->
  if_up i = true ->
  let w' := run1 (EvFlushUpdates ifp) w in
  exists L AA, Forall2 (told w i) L AA /\ w_out w' = w_out w ++ concat AA /\
    (forall d, In d L <-> In d (if_pend i)) /\
    (forall d s, says w i d (Some s) -> (exists x, ours w d x) \/ (exists r, is_selected w d r) -> In d (if_pend i) ->
       count_occ dest_dec L d = 1%nat) /\
    (forall d, (count_occ dest_dec L d <= count_occ dest_dec (if_pend i) d)%nat).
Proof.
  intros c w ifp i H R G V U. destruct (reach_W c w H R) as (Hw & _). cbv zeta. cbn [run1].
  destruct (flush_told [] w ifp i Hw G V U) as (L & AA & I1 & I2 & I3 & I4 & I5).
  exists L, AA. split; [auto|]. split; [auto|]. split; [auto|]. split; [|auto].
  intros d s Sy Hd Hp. apply I3 in Hp. apply (count_occ_In dest_dec) in Hp.
  assert (N : ~ repeatable w i d).
  { intros [Q|(Q1 & Q2)]; [pose proof (says_fun _ _ _ _ _ _ Hw Sy Q); discriminate|].
    destruct Hd as [(x & Hx)|(r & Hr)]; [eapply Q1|eapply Q2]; eauto. }
  specialize (I4 d N). lia.
Qed.
Print Assumptions C46_flush.

(** Nothing is pending afterwards, whether the interface is up or not. *)
Theorem C46_nothing_pending : forall c w ifp i, c_half_life c <> 2 -> reach c w -> get_if ifp w = Some i -> Forall dvalid (if_pend i) ->
  exists i', get_if ifp (run1 (EvFlushUpdates ifp) w) = Some i' /\ if_pend i' = [].
Proof. intros c w ifp i H R G V. destruct (reach_W c w H R) as (Hw & _). apply (flush_pend [] w ifp i Hw G V). Qed.
Print Assumptions C46_nothing_pending.

(** There is always exactly one thing to say. *)
Theorem C46_says : forall c w i d, c_half_life c <> 2 -> reach c w -> dvalid d ->
  exists s, says w i d s /\ forall s', says w i d s' -> s' = s.
Proof.
  intros c w i d H R V. destruct (reach_W c w H R) as (Hw & _).
  destruct (says_total [] w i d Hw V) as (s & Sy). exists s. split; auto. intros s' Sy'. eapply says_fun; eauto.
Qed.
Print Assumptions C46_says.

Lemma dvalid_list : forall l, forallb dvalidb l = true -> Forall dvalid l.
Proof. intros l H. apply Forall_forall. intros d Hd. apply dvalidb_ok. eapply forallb_forall in H; eauto. Qed.

(** In this state 7 updates are pending on interface 1, four of them for different
    known destinations or lost ones; the flush sends five messages. *)
Example C46_ex : exists i, reach x_conf f_w /\ get_if 1 f_w = Some i /\ Forall dvalid (if_pend i) /\ if_up i = true /\
  length (if_pend i) = 7%nat /\ length (w_out (run1 (EvFlushUpdates 1) f_w)) = (length (w_out f_w) + 5)%nat.
Proof.
  destruct (get_if 1 f_w) as [i|] eqn:E; [|vm_compute in E; discriminate]. exists i.
  assert (B : match get_if 1 f_w with Some i => forallb dvalidb (if_pend i) && if_up i && (length (if_pend i) =? 7)%nat | None => false end = true)
    by (vm_compute; reflexivity).
  rewrite E in B. apply andb_prop in B. destruct B as (B & B3). apply andb_prop in B. destruct B as (B1 & B2).
  split; [apply f_reach|]. split; auto. split; [apply dvalid_list; auto|]. split; auto. split; [apply Nat.eqb_eq; auto|].
  clear. vm_compute. reflexivity.
Qed.

(** The full statement, each destination handled once, is false: a destination that is
    pending twice and known no more is retracted twice. *)
Theorem C46_once_refuted : exists c w ifp i d b t, c_half_life c <> 2 /\ reach c w /\ get_if ifp w = Some i /\ Forall dvalid (if_pend i) /\
  if_up i = true /\ exists A B C, w_out (run1 (EvFlushUpdates ifp) w) = w_out w ++ A ++ (b, TUpdate (c_myid c) d 17 65535 t) :: B ++ (b, TUpdate (c_myid c) d 17 65535 t) :: C.
Proof.
  destruct (get_if 1 f_w) as [i|] eqn:E; [|vm_compute in E; discriminate].
  assert (B : match get_if 1 f_w with Some i => forallb dvalidb (if_pend i) && if_up i && (length (if_pend i) =? 7)%nat | None => false end = true)
    by (vm_compute; reflexivity).
  rewrite E in B. apply andb_prop in B. destruct B as (B & B3). apply andb_prop in B. destruct B as (B1 & B2).
  exists x_conf, f_w, 1, i, (xd 77), (BIf 1), 160. split; [apply x_hl|]. split; [apply f_reach|]. split; auto.
  split; [apply dvalid_list; auto|]. split; auto. clear.
  exists [nth 4 (w_out (run1 (EvFlushUpdates 1) f_w)) (BIf 0, TWildRetract 0)], [], (skipn 7 (w_out (run1 (EvFlushUpdates 1) f_w))).
  vm_compute. reflexivity.
Qed.
Print Assumptions C46_once_refuted.

(** ** What a flush adds to the messages *)
Definition added (ifp : Z) (w : world) (m : obuf * tlv) : Prop :=
  exists A, w_out (run1 (EvFlushUpdates ifp) w) = w_out w ++ A /\ In m A.

Lemma added_told : forall c w ifp i m, c_half_life c <> 2 -> reach c w -> get_if ifp w = Some i -> Forall dvalid (if_pend i) ->
  if_up i = true -> added ifp w m -> exists d A, In d (if_pend i) /\ told w i d A /\ In m A.
Proof.
  intros c w ifp i m H R G V U (A & O & Hm). destruct (C46_flush c w ifp i H R G V U) as (L & AA & I1 & I2 & I3 & _).
  rewrite O in I2. apply app_inv_head in I2. subst A. apply in_concat in Hm. destruct Hm as (A & HA & Hm).
  clear - I1 I3 HA Hm. assert (X : exists d, In d L /\ told w i d A).
  { clear I3. induction I1 as [|d A' L AA T I1 IH]; [destruct HA|]. destruct HA as [<-|HA]; [exists d; simpl; auto|].
    destruct (IH HA) as (d' & H1 & H2). exists d'. simpl; auto. }
  destruct X as (d & Hd & T). exists d, A. split; auto. apply I3. auto.
Qed.

(** ** C44: output filters only raise the metric, or suppress the update. *)
Theorem C44_announced : forall c w ifp i b id d q m t, c_half_life c <> 2 -> reach c w -> get_if ifp w = Some i ->
  Forall dvalid (if_pend i) -> if_up i = true -> Forall filt_ok (c_outfs c) -> dest_ok d ->
  added ifp w (b, TUpdate id d q m t) ->
  exists m0 add r, says w i d (Some (id, q, m0)) /\ m = Z.min (m0 + add) 65535 /\ 0 <= add < 65535 /\
    chain_spec 0 (c_outfs c) (Some id) d None (if_ifindex i) 0 add r.
Proof.
  intros c w ifp i b id d q m t H R G V U Fo Do Ad. destruct (reach_W c w H R) as (_ & Ec).
  destruct (added_told c w ifp i _ H R G V U Ad) as (d' & A & Hd & T & Hm).
  destruct T as [Sy|id' q' m' Sy X|id' q' m' add bs Sy Ea La Nc Go]; [destruct Hm|destruct Hm|].
  apply in_map_iff in Hm. destruct Hm as (b' & E & _). injection E as <- -> -> -> <- <-.
  destruct (output_chain (c_outfs c) (Some id) d (if_ifindex i) Fo Do) as (r & Ch).
  pose proof (output_filter_range (c_outfs c) (Some id) d (if_ifindex i) Fo Do) as Rg.
  rewrite Ec in Ea. exists m', add, r. split; auto. split; auto. rewrite Ea in *. split; [unfold INFINITY in Rg; lia|auto].
Qed.
Print Assumptions C44_announced.
Example C44_ex : Forall filt_ok (c_outfs x_conf) /\ dest_ok (xd 1) /\ added 1 f_w (BIf 1, TUpdate (x_id 7) (xd 1) 40 228 160).
Proof.
  split; [constructor|]. split.
  { repeat split; simpl; try lia; repeat constructor; unfold byte_ok; lia. }
  exists (skipn (length (w_out f_w)) (w_out (run1 (EvFlushUpdates 1) f_w))). split; [vm_compute; reflexivity|].
  vm_compute. tauto.
Qed.

(** ** C45: split horizon *)
Theorem C45_split_horizon : forall c w ifp i b id d q m t r, c_half_life c <> 2 -> reach c w -> get_if ifp w = Some i ->
  Forall dvalid (if_pend i) -> if_up i = true -> flag i IF_SPLIT_HORIZON = true ->
  added ifp w (b, TUpdate id d q m t) -> is_selected w d r -> via_if w ifp r ->
  (exists x, ours w d x /\ x_metric x <= c_kernel_metric c) /\ id = c_myid c /\ q = w_seqno w.
Proof.
  intros c w ifp i b id d q m t r H R G V U Sp Ad Sr Vi. destruct (reach_W c w H R) as (Hw & Ec).
  destruct (added_told c w ifp i _ H R G V U Ad) as (d' & A & Hd & T & Hm).
  destruct T as [Sy|id' q' m' Sy X|id' q' m' add bs Sy Ea La Nc Go]; [destruct Hm|destruct Hm|].
  apply in_map_iff in Hm. destruct Hm as (b' & E & _). injection E as <- -> -> -> <- <-.
  assert (Sh : split_horizon w i r) by (split; auto; rewrite (get_if_id _ _ _ G); auto).
  rewrite <- Ec. inversion Sy as [x Ox Kx|r0 Sr0 Kx Ns|r0 Sr0 Kx Ns|Nx Nr]; subst.
  - split; [exists x; split; auto; eapply Kx; eauto|]. auto.
  - exfalso. apply Ns. replace r0 with r; auto. eapply selected_unique; eauto using (W_rt _ _ Hw).
  - exfalso. eapply Nr; eauto.
Qed.
Print Assumptions C45_split_horizon.
(** 10.2.0.0/16 is selected through interface 1 and pending there: it is not announced
    with split horizon, although it is without. *)
Definition is_upd (d : dest) (m : obuf * tlv) : bool :=
  match snd m with TUpdate _ d' _ _ _ => dest_eqb d d' | _ => false end.
Example C45_ex : exists i r, reach x_conf s_w /\ get_if 1 s_w = Some i /\ Forall dvalid (if_pend i) /\ if_up i = true /\
  flag i IF_SPLIT_HORIZON = true /\ is_selected s_w (xd 2) r /\ via_if s_w 1 r /\ In (xd 2) (if_pend i) /\
  existsb (is_upd (xd 2)) (skipn (length (w_out s_w)) (w_out (run1 (EvFlushUpdates 1) s_w))) = false /\
  existsb (is_upd (xd 1)) (skipn (length (w_out s_w)) (w_out (run1 (EvFlushUpdates 1) s_w))) = true /\
  existsb (is_upd (xd 2)) (skipn (length (w_out f_w)) (w_out (run1 (EvFlushUpdates 1) f_w))) = true.
Proof.
  destruct (get_if 1 s_w) as [i|] eqn:E; [|vm_compute in E; discriminate].
  destruct (find_installed (xd 2) s_w) as [r|] eqn:F; [|vm_compute in F; discriminate].
  exists i, r. pose proof s_reach as R. destruct (reach_W _ _ x_hl R) as (Hw & _).
  assert (B : match get_if 1 s_w with Some i => forallb dvalidb (if_pend i) && if_up i && flag i IF_SPLIT_HORIZON && existsb (dest_eqb (xd 2)) (if_pend i) | None => false end = true)
    by (vm_compute; reflexivity).
  assert (B' : match find_installed (xd 2) s_w with Some r => existsb (fun n => (n_id n =? r_neigh r) && (n_if n =? 1)) (w_nbs s_w) | None => false end = true)
    by (vm_compute; reflexivity).
  assert (V : dvalid (xd 2)) by (apply dvalidb_ok; reflexivity).
  assert (O1 : existsb (is_upd (xd 2)) (skipn (length (w_out s_w)) (w_out (run1 (EvFlushUpdates 1) s_w))) = false) by (vm_compute; reflexivity).
  assert (O2 : existsb (is_upd (xd 1)) (skipn (length (w_out s_w)) (w_out (run1 (EvFlushUpdates 1) s_w))) = true) by (vm_compute; reflexivity).
  assert (O3 : existsb (is_upd (xd 2)) (skipn (length (w_out f_w)) (w_out (run1 (EvFlushUpdates 1) f_w))) = true) by (vm_compute; reflexivity).
  revert E F B B' R Hw V O1 O2 O3. generalize s_w, f_w, (xd 1), (xd 2). intros w w0 d1 d E F B B' R Hw V O1 O2 O3.
  rewrite E in B. rewrite F in B'. apply andb_prop in B. destruct B as (B & B4). apply andb_prop in B. destruct B as (B & B3).
  apply andb_prop in B. destruct B as (B1 & B2).
  split; [exact R|]. split; [first [exact E|reflexivity]|]. split; [apply dvalid_list; exact B1|]. split; [exact B2|]. split; [exact B3|].
  split; [apply (find_installed_iff d w r (W_rt _ _ Hw)); [exact V|exact F]|].
  split. { apply existsb_exists in B'. destruct B' as (n & Hn & B'). apply andb_prop in B'. exists n. split; [exact Hn|]. lia. }
  split. { apply existsb_exists in B4. destruct B4 as (d' & Hd & B4). apply dest_eqb_iff in B4. rewrite B4. exact Hd. }
  auto.
Qed.

(** ** C63: after a route is announced, our feasibility distance for it is at least as
    good as what was announced. *)
Theorem C63_distance_covers : forall c w ifp i r, c_half_life c <> 2 -> reach c w -> get_if ifp w = Some i ->
  Forall dvalid (if_pend i) -> if_up i = true -> is_selected w (dest_of r) r -> In (dest_of r) (if_pend i) ->
  says w i (dest_of r) (Some (k_id (r_src r), r_seqno r, metric_of r)) ->
  (forall x, ours w (dest_of r) x -> c_kernel_metric c < x_metric x) -> metric_of r < 65535 ->
  exists s, In s (w_srcs (run1 (EvFlushUpdates ifp) w)) /\ s_key s = r_src r /\ covers (now_s w) s (r_seqno r) (metric_of r).
Proof.
  intros c w ifp i r H R G V U Sr Hp Sy K Fm. destruct (reach_W c w H R) as (Hw & Ec). rewrite <- Ec in K.
  apply (flush_covers [] w ifp i Hw G V U r Sr Hp K); auto.
  intros Ns. pose proof (says_fun _ _ _ _ _ _ Hw Sy (says_split w i (dest_of r) r Sr K Ns)). discriminate.
Qed.
Print Assumptions C63_distance_covers.
Example C63_ex : exists i r, reach x_conf f_w /\ get_if 1 f_w = Some i /\ is_selected f_w (xd 1) r /\ In (xd 1) (if_pend i) /\
  says f_w i (xd 1) (Some (k_id (r_src r), r_seqno r, metric_of r)) /\ metric_of r < 65535.
Proof.
  destruct (get_if 1 f_w) as [i|] eqn:E; [|vm_compute in E; discriminate].
  destruct (find_installed (xd 1) f_w) as [r|] eqn:F; [|vm_compute in F; discriminate].
  exists i, r. pose proof f_reach as R. destruct (reach_W _ _ x_hl R) as (Hw & _).
  assert (B : match get_if 1 f_w with Some i => negb (flag i IF_SPLIT_HORIZON) && existsb (dest_eqb (xd 1)) (if_pend i) | None => false end = true)
    by (vm_compute; reflexivity).
  assert (B' : match find_installed (xd 1) f_w with Some r => route_metric r <? 65535 | None => false end = true)
    by (vm_compute; reflexivity).
  assert (X : find_xroute (xd 1) f_w = None) by (vm_compute; reflexivity).
  assert (V : dvalid (xd 1)) by (apply dvalidb_ok; reflexivity).
  revert E F B B' R Hw V X. generalize f_w, (xd 1). intros w d E F B B' R Hw V X.
  rewrite E in B. rewrite F in B'. apply andb_prop in B. destruct B as (B1 & B2).
  assert (Sr : is_selected w d r) by (apply (find_installed_iff d w r (W_rt _ _ Hw)); [exact V|exact F]).
  split; [exact R|]. split; [first [exact E|reflexivity]|]. split; [exact Sr|].
  split. { apply existsb_exists in B2. destruct B2 as (d' & Hd & B2). apply dest_eqb_iff in B2. rewrite B2. exact Hd. }
  split; [|apply Z.ltb_lt; exact B'].
  eapply says_route; [exact Sr| |].
  - intros x Hx. exfalso. eapply find_xroute_none; [apply (W_xr _ _ Hw)|exact X|exact Hx].
  - intros (S1 & _). rewrite S1 in B1. discriminate.
Qed.

(** L_Ifup2.v: the interfaces after check_interfaces. *)
From Verif Require Import Base M_Util S_Util L_Util M_Slot L_Slot M_Source S_Source L_Source
  M_Filter M_Types M_Neigh M_State M_Table M_Msg M_Route M_Xroute S_World L_Table L_Step L_Msg L_Smooth L_Quiet
  L_Select L_Select2 L_Chain L_Chain2 L_Chain3 L_Flush S_Neigh L_Neigh M_Daemon L_Inv L_Daemon L_World L_World3 L_Pend
  L_Resend4 L_Arm M_Config M_Ifup S_Ifup.
From Coq Require Import Permutation.

Definition ifpar (i : iface) : iface := set_if_hello_timeout tv0 (ifstat i).
Definition put (id : Z) (i y : iface) : iface := if if_id y =? id then ifpar i else y.
Definition rsub (w w' : world) : Prop :=
  w_nbs w' = w_nbs w /\ forall r', In r' (all_routes w') -> exists r, In r (all_routes w) /\ r_neigh r' = r_neigh r.
Lemma rsub_refl : forall w, rsub w w. Proof. intros w. split; auto. intros r H. eauto. Qed.
Lemma rsub_trans : forall a b c, rsub a b -> rsub b c -> rsub a c.
Proof.
  intros a b c (A1 & A2) (B1 & B2). split; [congruence|]. intros r H. destruct (B2 r H) as (r1 & H1 & E1).
  destruct (A2 r1 H1) as (r2 & H2 & E2). exists r2. split; auto. congruence.
Qed.
Lemma rsub_via : forall w w' id, rsub w w' -> (forall r, In r (all_routes w) -> ~ via_if w id r) -> forall r, In r (all_routes w') -> ~ via_if w' id r.
Proof.
  intros w w' id (N & S) H r Hr (n & A & B & C). destruct (S r Hr) as (r0 & H0 & E0). apply (H r0 H0).
  exists n. rewrite <- N. split; auto. split; auto. congruence.
Qed.
Lemma rsub_rt : forall w w', w_nbs w' = w_nbs w -> w_rt w' = w_rt w -> rsub w w'.
Proof. intros w w' N R. split; auto. unfold all_routes. rewrite R. eauto. Qed.
Lemma frame_rsub : forall w w', frame w w' -> rsub w w'.
Proof. intros w w' F. apply rsub_rt; apply F. Qed.
Lemma keeps_rsub : forall w w', keeps w w' -> rsub w w'.
Proof.
  intros w w' K. split; [apply K|]. pose proof (kp_rt _ _ K) as F. unfold all_routes. intros r' H. apply in_concat in H.
  destruct H as (l' & Hl & Hr). revert l' Hl Hr. induction F as [|l l1 a b S F IH]; intros l' Hl Hr; [destruct Hl|].
  destruct Hl as [<-|Hl].
  - unfold slot_kept in S. assert (X : In (stay r') (map stay l)) by (eapply Permutation_in; [exact S|]; now apply in_map).
    apply in_map_iff in X. destruct X as (r & E & X). exists r. split; [cbn; apply in_or_app; auto|].
    apply (f_equal r_neigh) in E. cbn in E. congruence.
  - destruct (IH l' Hl Hr) as (r & A & B). exists r. split; auto. cbn. apply in_or_app. auto.
Qed.
Lemma ifpar_ids : forall l l', map ifpar l' = map ifpar l -> map if_id l' = map if_id l.
Proof.
  intros l l' E. apply (f_equal (map if_id)) in E. rewrite !map_map in E.
  etransitivity; [|etransitivity; [exact E|]]; apply map_ext; reflexivity.
Qed.
Lemma ifstat_par : forall l l', map ifstat l' = map ifstat l -> map ifpar l' = map ifpar l.
Proof. intros l l' E. apply (f_equal (map (set_if_hello_timeout tv0))) in E. rewrite !map_map in E. exact E. Qed.
Lemma ifpar_id : forall a b, ifpar a = ifpar b -> if_id a = if_id b.
Proof. intros a b E. apply (f_equal if_id) in E. exact E. Qed.
Lemma ifpar_up : forall a b, ifpar a = ifpar b -> if_up a = if_up b.
Proof. intros a b E. apply (f_equal if_up) in E. exact E. Qed.
Lemma ifpar_index : forall a b, ifpar a = ifpar b -> if_ifindex a = if_ifindex b.
Proof. intros a b E. apply (f_equal if_ifindex) in E. exact E. Qed.
Lemma ifpar_in : forall a b, ifpar a = ifpar b -> iface_in a -> iface_in b.
Proof. intros a b E H. apply (f_equal iface_in) in E. change (iface_in (ifpar b)). rewrite <- E. exact H. Qed.

Lemma get_known : forall id w, known_if id w -> exists i, get_if id w = Some i /\ In i (w_ifs w) /\ if_id i = id.
Proof.
  intros id w H. unfold known_if in H. apply in_map_iff in H. destruct H as (x & E & Hx). unfold get_if.
  destruct (find (fun y => if_id y =? id) (w_ifs w)) as [i|] eqn:F.
  - apply find_some in F. destruct F as (F & Q). apply Z.eqb_eq in Q. eauto.
  - exfalso. pose proof (find_none _ _ F x Hx) as Q. cbn in Q. apply Z.eqb_neq in Q. auto.
Qed.
Lemma get_some : forall id w i, get_if id w = Some i -> In i (w_ifs w) /\ if_id i = id /\ known_if id w.
Proof.
  intros id w i F. unfold get_if in F. apply find_some in F. destruct F as (F & Q). apply Z.eqb_eq in Q.
  split; auto. split; auto. unfold known_if. rewrite <- Q. now apply in_map.
Qed.
Lemma known_ids : forall id w w', map if_id (w_ifs w') = map if_id (w_ifs w) -> known_if id w -> known_if id w'.
Proof. unfold known_if. intros id w w' ->. auto. Qed.
Lemma map_if_get : forall id f w i, NoDup (map if_id (w_ifs w)) -> get_if id w = Some i -> if_id (f i) = id ->
  map_if id f w = map_if (if_id (f i)) (fun _ => f i) w.
Proof.
  intros id f w i N G E. rewrite E. unfold map_if. f_equal. apply map_ext_in. intros x Hx.
  destruct (Z.eqb_spec (if_id x) id) as [Q|Q]; auto. f_equal. eapply get_if_uniq; eauto.
Qed.

Section Step.
Variable c : conf.
Hypothesis Hc : c_half_life c <> 2.

Definition good (id : Z) (i : iface) (w w' : world) : Prop :=
  reach c w' /\ map ifpar (w_ifs w') = map (put id i) (map ifpar (w_ifs w)) /\ rsub w w'.
Lemma cons_inj : forall A (a b : A) l l', a :: l = b :: l' -> a = b /\ l = l'.
Proof. intros A a b l l' E. injection E. auto. Qed.
Lemma put_par : forall id i x, put id i (ifpar x) = if if_id x =? id then ifpar i else ifpar x.
Proof. reflexivity. Qed.
Definition at_if (id : Z) (i : iface) (w : world) : Prop := exists j, get_if id w = Some j /\ ifpar j = ifpar i.

Lemma put_ids : forall id i l, if_id i = id -> map if_id (map (put id i) (map ifpar l)) = map if_id l.
Proof.
  intros id i l E. rewrite !map_map. apply map_ext. intros x. unfold put.
  destruct (Z.eqb_spec (if_id (ifpar x)) id) as [Q|Q]; [|reflexivity]. change (if_id i = if_id x). rewrite E. symmetry. exact Q.
Qed.
Lemma good_ids : forall id i w w', if_id i = id -> good id i w w' -> map if_id (w_ifs w') = map if_id (w_ifs w).
Proof.
  intros id i w w' E (_ & P & _). apply (f_equal (map if_id)) in P. rewrite put_ids in P by auto.
  rewrite map_map in P. etransitivity; [|exact P]. apply map_ext. reflexivity.
Qed.
Lemma good_trans : forall id a b w w1 w2, if_id a = id -> good id a w w1 -> good id b w1 w2 -> good id b w w2.
Proof.
  intros id a b w w1 w2 E (A1 & A2 & A3) (B1 & B2 & B3). split; auto. split; [|eapply rsub_trans; eauto].
  rewrite B2, A2, map_map. apply map_ext. intros y. unfold put.
  destruct (Z.eqb_spec (if_id y) id) as [Q|Q].
  - change (if_id (ifpar a)) with (if_id a). rewrite E, Z.eqb_refl. reflexivity.
  - destruct (Z.eqb_spec (if_id y) id); [contradiction|reflexivity].
Qed.
Lemma good_eq : forall id a b w w', ifpar a = ifpar b -> good id a w w' -> good id b w w'.
Proof. intros id a b w w' E (A & B & C). split; auto. split; auto. rewrite B. apply map_ext. intros y. unfold put. rewrite E. reflexivity. Qed.
Lemma find_par : forall (l : list iface) l' id i j, map ifpar l' = map (put id i) (map ifpar l) -> if_id i = id ->
  find (fun x => if_id x =? id) l = Some j -> exists j', find (fun x => if_id x =? id) l' = Some j' /\ ifpar j' = ifpar i.
Proof.
  induction l as [|a l IH]; intros [|a' l'] id i j E Ei F; cbn [map find] in *; try discriminate.
  apply cons_inj in E. destruct E as (E1 & E2). rewrite put_par in E1.
  destruct (Z.eqb_spec (if_id a) id) as [Q|Q].
  - pose proof (ifpar_id _ _ E1) as X. destruct (Z.eqb_spec (if_id a') id) as [Q'|Q']; [|congruence]. eauto.
  - pose proof (ifpar_id _ _ E1) as X. destruct (Z.eqb_spec (if_id a') id) as [Q'|Q']; [congruence|]. eapply IH; eauto.
Qed.
Lemma good_at : forall id i w w', known_if id w -> if_id i = id -> good id i w w' -> at_if id i w'.
Proof.
  intros id i w w' K E (_ & P & _). destruct (get_known _ _ K) as (j & G & _). unfold at_if, get_if in *. eapply find_par; eauto.
Qed.
Lemma find_other : forall (l : list iface) l' id x i j, map ifpar l' = map (put id i) (map ifpar l) -> if_id i = id -> x <> id ->
  find (fun y => if_id y =? x) l = Some j -> exists j', find (fun y => if_id y =? x) l' = Some j' /\ ifpar j' = ifpar j.
Proof.
  induction l as [|a l IH]; intros [|a' l'] id x i j E Ei N F; cbn [map find] in *; try discriminate.
  apply cons_inj in E. destruct E as (E1 & E2). rewrite put_par in E1.
  destruct (Z.eqb_spec (if_id a) id) as [Q|Q].
  - pose proof (ifpar_id _ _ E1) as X. destruct (Z.eqb_spec (if_id a) x); [congruence|]. destruct (Z.eqb_spec (if_id a') x) as [Q'|Q']; [congruence|]. eapply IH; eauto.
  - pose proof (ifpar_id _ _ E1) as X. rewrite X. change (if_id (ifpar a)) with (if_id a). destruct (Z.eqb_spec (if_id a) x) as [Q'|Q'].
    + exists a'. split; auto. congruence.
    + eapply IH; eauto.
Qed.
Lemma good_other : forall id x i w w' j, if_id i = id -> x <> id -> good id i w w' -> get_if x w = Some j -> at_if x j w'.
Proof. intros id x i w w' j E N (_ & P & _) G. unfold at_if, get_if in *. eapply find_other; eauto. Qed.

Lemma reach_ids : forall w, reach c w -> NoDup (map if_id (w_ifs w)).
Proof. intros w R. destruct (reach_W c w Hc R) as (Hw & _). apply (W_ifs _ _ Hw). Qed.
Lemma reach_in : forall w i, reach c w -> In i (w_ifs w) -> iface_in i.
Proof. intros w i R H. exact (rg_ifs _ (reach_rng c w Hc R) i H). Qed.

Lemma g_keep : forall id i w w', reach c w' -> map ifpar (w_ifs w') = map ifpar (w_ifs w) -> rsub w w' -> reach c w ->
  at_if id i w -> good id i w w'.
Proof.
  intros id i w w' R' E S R (j & G & Ej). split; auto. split; auto. rewrite E, map_map. apply map_ext_in. intros x Hx. unfold put.
  change (if_id (ifpar x)) with (if_id x). destruct (Z.eqb_spec (if_id x) id) as [Q|Q]; auto.
  rewrite <- Ej. f_equal. eapply get_if_uniq; eauto. now apply reach_ids.
Qed.
Lemma g_refl : forall id i w, reach c w -> at_if id i w -> good id i w w.
Proof. intros. apply g_keep; auto using rsub_refl. Qed.
Lemma g_set : forall id f w j, reach c w -> get_if id w = Some j -> if_id (f j) = id -> iface_in (f j) -> good id (f j) w (map_if id f w).
Proof.
  intros id f w j R G E I. destruct (get_some _ _ _ G) as (Hj & Ej & K). pose proof (reach_ids w R) as N.
  rewrite (map_if_get id f w j N G E). split; [|split].
  - apply (reach_run c w (EvInterface (f j))); auto. split; auto. rewrite E. exact K.
  - unfold map_if. cbn [w_ifs set_w_ifs]. rewrite !map_map. apply map_ext. intros x. unfold put. change (if_id (ifpar x)) with (if_id x).
    rewrite E. destruct (if_id x =? id); auto.
  - apply rsub_rt; reflexivity.
Qed.
Lemma g_flush : forall id i w, reach c w -> at_if id i w -> good id i w (flush_interface_routes id false w) /\
  forall r, In r (all_routes (flush_interface_routes id false w)) -> ~ via_if (flush_interface_routes id false w) id r.
Proof.
  intros id i w R A. destruct (reach_W c w Hc R) as (Hw & _).
  destruct (flush_interface_routes_spec [] w id false Hw) as (C & Ev & P).
  split; [|apply (interface_gone c w id Hc R)]. apply g_keep; auto.
  - apply (reach_run c w (EvFlushInterfaceRoutes id false)); auto. exact Logic.I.
  - apply ifstat_par. apply Ev.
  - split; [apply Ev|]. destruct (kept_by_core _ _ _ P) as (B & _). intros r' Hr. destruct (B r' Hr) as (r & Hr0 & _ & Cr).
    exists r. split; auto. apply core_same_route in Cr. destruct Cr as (_ & _ & Cr & _). exact Cr.
Qed.
Lemma walk_slot_rsub : forall fuel sel p w r, W [] w -> find_ptr p w = Some r -> rsub w (walk_slot fuel sel update_route_metric p w).
Proof.
  induction fuel as [|k IH]; intros sel p w r Hw F; cbn [walk_slot]; [apply rsub_rt; reflexivity|].
  rewrite F. set (w1 := if sel w r then update_route_metric p w else w).
  assert (O : only p [] w w1) by (unfold w1; destruct (sel w r); [eapply urm_only; eauto|apply only_refl]).
  pose proof (only_W _ _ _ _ O Hw) as Hw1. pose proof (keeps_rsub _ _ (on_keeps _ _ _ _ O)) as S.
  destruct (next_ptr p w1) as [q|] eqn:N; [|exact S].
  destruct (next_ptr_find _ _ _ (W_rt _ _ Hw1) N) as (r1 & F1). eapply rsub_trans; [exact S|]. eapply IH; eauto.
Qed.
Lemma walk_slots_rsub : forall n fuel sel i w, W [] w -> rsub w (walk_slots n fuel sel update_route_metric i w).
Proof.
  induction n as [|n IH]; intros fuel sel i w Hw; cbn [walk_slots]; [apply rsub_refl|].
  destruct (nth_error (w_rt w) i) as [l|] eqn:E; [|apply rsub_refl].
  apply nth_error_In in E. destruct l as [|r l].
  { destruct (wf_slot _ _ (W_rt _ _ Hw) E) as (N & _). contradiction. }
  assert (F : find_ptr (r_ptr r) w = Some r).
  { apply find_ptr_iff; [apply (W_rt _ _ Hw)|]. split; auto. apply in_concat. exists (r :: l). simpl. auto. }
  pose proof (walk_slot_rsub fuel sel _ _ _ Hw F) as S.
  pose proof (walk_slot_chain [] sel update_route_metric (fun w p r Hw F => urm_only [] w p r Hw F) fuel _ _ _ Hw F) as C.
  eapply rsub_trans; [exact S|]. apply IH. eapply chain_W; eauto.
Qed.
Lemma g_metric : forall id i w, reach c w -> at_if id i w -> good id i w (update_interface_metric id w).
Proof.
  intros id i w R A. destruct (reach_W c w Hc R) as (Hw & _). apply g_keep; auto.
  - apply (reach_run c w (EvInterfaceMetric id)); auto. exact Logic.I.
  - apply ifstat_par. apply (chain_menv [] _ _ (update_interface_metric_chain [] w id Hw)).
  - apply walk_slots_rsub; auto.
Qed.
Lemma at_known : forall id i w, at_if id i w -> known_if id w.
Proof. intros id i w (j & G & _). apply (get_some _ _ _ G). Qed.
Lemma g_full : forall id i u w, reach c w -> at_if id i w -> good id i w (send_update_full id u w).
Proof.
  intros id i u w R A. destruct (reach_W c w Hc R) as (Hw & _). pose proof (at_known _ _ _ A) as K.
  pose proof (send_update_full_frame id u w (W_refs _ _ Hw) K) as F. apply g_keep; auto.
  - apply (reach_run c w (EvSendUpdate id u None)); auto.
  - apply ifstat_par. apply F.
  - apply frame_rsub; auto.
Qed.
Lemma g_request : forall id i w, reach c w -> at_if id i w -> good id i w (send_multicast_request_if None id w).
Proof.
  intros id i w R A. destruct (reach_W c w Hc R) as (Hw & _). pose proof (at_known _ _ _ A) as K.
  pose proof (multicast_request_if_frame None id w (W_refs _ _ Hw) K) as F. apply g_keep; auto.
  - apply (reach_run c w (EvSendRequest id None)); auto.
  - apply ifstat_par. apply F.
  - apply frame_rsub; auto.
Qed.
Lemma g_timeout : forall id i w m t w1, reach c w -> at_if id i w -> set_timeout m w = (t, w1) -> good id i w w1.
Proof.
  intros id i w m t w1 R A E. unfold set_timeout, rand in E. destruct (w_rnd w) as [|x l] eqn:Q; injection E as _ <-; [now apply g_refl|].
  apply g_keep; auto; try reflexivity; [|apply rsub_rt; reflexivity].
  apply (reach_run c w (EvOracle l (w_kresp w))) in R; [|exact Logic.I]. destruct w; exact R.
Qed.
Lemma at_self : forall id w i, get_if id w = Some i -> at_if id i w.
Proof. intros id w i G. exists i. auto. Qed.
Lemma good_reach : forall id i w w', good id i w w' -> reach c w'. Proof. intros id i w w' H. apply H. Qed.

(** ** Going down *)
Definition p_off (x : iface) : iface := set_if_flags (put_flag false IF_UP (if_flags x)) x.
Definition p_down (x : iface) : iface := set_if_ll [] (set_if_cap 0 (p_off x)).
Lemma off_down : forall x, if_up (p_off x) = false.
Proof.
  intros x. unfold if_up, flag, p_off, put_flag. cbn [if_flags set_if_flags]. apply negb_false_iff, Z.eqb_eq.
  rewrite <- Z.land_assoc. change (Z.land (Z.lnot IF_UP) IF_UP) with 0. apply Z.land_0_r.
Qed.
Lemma down_in : forall x, if_up x = false -> iface_in x. Proof. intros x H Q. congruence. Qed.
Definition gone (id : Z) (w : world) : Prop := forall r, In r (all_routes w) -> ~ via_if w id r.
(** The rest of take_down once the flag is off *)
Lemma g_drop : forall id x w, reach c w -> at_if id (p_off x) w -> if_id x = id ->
  let w' := map_if id (fun x => set_if_ll [] (set_if_cap 0 (set_if_pend [] (set_if_bufsize 0 x)))) (flush_interface_routes id false w) in
  good id (p_down x) w w' /\ gone id w'.
Proof.
  intros id x w R A E. cbv zeta. destruct (g_flush id _ w R A) as (G1 & Gn).
  assert (A1 : at_if id (p_off x) (flush_interface_routes id false w)) by (eapply good_at; [eapply at_known; exact A|exact E|exact G1]).
  destruct A1 as (j & Gj & Ej). set (f := fun x => set_if_ll [] (set_if_cap 0 (set_if_pend [] (set_if_bufsize 0 x)))).
  destruct (get_some _ _ _ Gj) as (_ & Ij & _).
  assert (U : if_up j = false) by (rewrite (ifpar_up _ _ Ej); apply off_down).
  pose proof (g_set id f _ j (good_reach _ _ _ _ G1) Gj Ij (down_in _ U)) as G2. split.
  - eapply good_trans with (a := p_off x); [exact E|exact G1|]. eapply good_eq; [|exact G2].
    transitivity (set_if_ll [] (set_if_cap 0 (ifpar j))); [reflexivity|]. rewrite Ej. reflexivity.
  - exact Gn.
Qed.
Lemma g_down : forall id i w, reach c w -> get_if id w = Some i -> if_up i = true -> good id (p_down i) w (take_down id w) /\ gone id (take_down id w).
Proof.
  intros id i w R G U. unfold take_down. rewrite G, U. cbn [negb].
  destruct (get_some _ _ _ G) as (_ & Ii & K).
  pose proof (g_set id p_off w i R G Ii (down_in _ (off_down i))) as G1.
  assert (A1 : at_if id (p_off i) (map_if id p_off w)) by (eapply good_at; [exact K|exact Ii|exact G1]).
  destruct (g_drop id i _ (good_reach _ _ _ _ G1) A1 Ii) as (G2 & Gn).
  split; [|exact Gn]. eapply good_trans with (a := p_off i); [exact Ii|exact G1|exact G2].
Qed.
Lemma map_if_twice : forall id f g w, (forall x, if_id x = id -> if_id (f x) = id) -> map_if id g (map_if id f w) = map_if id (fun x => g (f x)) w.
Proof.
  intros id f g w H. unfold map_if. cbn [w_ifs set_w_ifs]. rewrite map_map.
  rewrite (map_ext _ (fun x => if if_id x =? id then g (f x) else x)).
  - destruct w; reflexivity.
  - intros x. destruct (Z.eqb_spec (if_id x) id) as [Q|Q].
    + rewrite (H x Q), Z.eqb_refl. reflexivity.
    + destruct (Z.eqb_spec (if_id x) id); [contradiction|reflexivity].
Qed.
Lemma find_map_const : forall (l : list iface) id x j, find (fun y => if_id y =? id) l = Some j -> if_id x = id ->
  find (fun y => if_id y =? id) (map (fun y => if if_id y =? id then x else y) l) = Some x.
Proof.
  induction l as [|a l IH]; intros id x j F E; cbn [find map] in *; [discriminate|].
  destruct (if_id a =? id) eqn:Q; [rewrite E, Z.eqb_refl; reflexivity|]. rewrite Q. eapply IH; eauto.
Qed.
Lemma g_fail : forall id x i w, reach c w -> get_if id w = Some i -> if_id x = id -> if_up x = true ->
  let w' := take_down id (map_if id (fun _ => x) w) in good id (p_down x) w w' /\ gone id w'.
Proof.
  intros id x i w R G E U. cbv zeta. unfold take_down.
  assert (Gx : get_if id (map_if id (fun _ => x) w) = Some x) by (unfold get_if, map_if in *; cbn [w_ifs set_w_ifs]; eapply find_map_const; eauto).
  rewrite Gx, U. cbn [negb].
  change (fun x0 : iface => set_if_flags (put_flag false IF_UP (if_flags x0)) x0) with p_off.
  rewrite (map_if_twice id (fun _ => x) p_off w) by auto. destruct (get_some _ _ _ G) as (_ & Ii & K).
  pose proof (g_set id (fun _ => p_off x) w i R G E (down_in _ (off_down x))) as G1.
  assert (A1 : at_if id (p_off x) (map_if id (fun _ => p_off x) w)) by (eapply good_at; [exact K|exact E|exact G1]).
  destruct (g_drop id x _ (good_reach _ _ _ _ G1) A1 E) as (G2 & Gn).
  split; [|exact Gn]. eapply good_trans with (a := p_off x); [exact E|exact G1|exact G2].
Qed.

(** ** The IPv4 address *)
Lemma g_ipv4 : forall id i a w, reach c w -> at_if id i w -> if_id i = id -> 0 < if_ifindex i -> iface_in i ->
  let '(ch, w') := check_ipv4 id a w in
  good id (set_if_ipv4 a i) w w' /\ (if_ipv4 i <> a -> ch = true /\ gone id w').
Proof.
  intros id i a w R A E Ix I. pose proof A as A0. destruct A as (j & G & Ej). unfold check_ipv4. rewrite G.
  rewrite (ifpar_index _ _ Ej). replace (if_ifindex i >? 0) with true by lia.
  assert (E4 : if_ipv4 j = if_ipv4 i) by (apply (f_equal if_ipv4) in Ej; exact Ej). rewrite E4.
  assert (Ch : good id (set_if_ipv4 a i) w (map_if id (set_if_ipv4 a) (flush_interface_routes id false w)) /\
    (if_ipv4 i <> a -> true = true /\ gone id (map_if id (set_if_ipv4 a) (flush_interface_routes id false w)))).
  { destruct (g_flush id i w R A0) as (G1 & Gn).
    assert (A1 : at_if id i (flush_interface_routes id false w)) by (eapply good_at; [eapply at_known; exact A0|exact E|exact G1]).
    destruct A1 as (k & Gk & Ek). destruct (get_some _ _ _ Gk) as (_ & Ik & _).
    pose proof (g_set id (set_if_ipv4 a) _ k (good_reach _ _ _ _ G1) Gk Ik (ifpar_in i k (eq_sym Ek) I)) as G2.
    split.
    - eapply good_trans with (a := i); [exact E|exact G1|]. eapply good_eq; [|exact G2].
      transitivity (set_if_ipv4 a (ifpar k)); [reflexivity|]. rewrite Ek. reflexivity.
    - intros _. split; [reflexivity|exact Gn]. }
  assert (Sa : if_ipv4 i = a -> good id (set_if_ipv4 a i) w w).
  { intros Q. eapply good_eq with (a := i); [|now apply g_refl]. rewrite <- Q. destruct i; reflexivity. }
  destruct a as [x|], (if_ipv4 i) as [y|]; auto.
  - destruct (beq x y) eqn:B; auto. apply beq_true in B. subst y. split; auto. intros N. contradiction.
  - split; auto. intros N. contradiction.
Qed.

(** ** Coming up *)
Definition p_on (x : iface) : iface := set_if_flags (put_flag true IF_UP (if_flags x)) x.
Definition p_start ic df ka (i : iface) : iface := snd (check_ll (ka_ll ka) (if_params ic df ka (set_if_cap (if_bufcap ka) (p_on i)))).
Lemma cv_range : forall ic n, conf_valid ic -> 0 <= cv ic n <= nth n val_bounds 0.
Proof.
  intros [ic|] n H; cbn [cv conf_valid] in *.
  - unfold vals_ok in H. revert n. induction H as [|x y l b P F IH]; intros [|n]; cbn [nth]; auto; lia.
  - revert n. unfold val_bounds. intros n. do 17 (destruct n as [|n]; [cbn; lia|]). cbn. destruct n; lia.
Qed.
Lemma params_ok : forall ic df ka i, conf_valid ic -> iface_ok (if_params ic df ka i).
Proof.
  intros ic df ka i H. unfold iface_ok, if_params. cbv zeta. cbn -[Z.lor Z.land cv].
  pose proof (cv_range ic 2 H) as B2. pose proof (cv_range ic 11 H) as B11. pose proof (cv_range ic 12 H) as B12.
  pose proof (cv_range ic 13 H) as B13. pose proof (cv_range ic 14 H) as B14. cbn -[cv] in B2, B11, B12, B13, B14.
  generalize dependent (cv ic 2). generalize dependent (cv ic 11). generalize dependent (cv ic 12). generalize dependent (cv ic 13). generalize dependent (cv ic 14).
  intros pen H14 mx H13 mn H12 dc H11 co H2. unfold u32.
  split; [destruct (Z.leb_spec co 0); [destruct (_ =? 2)|]; lia|].
  split; [destruct (dc >? 0) eqn:?; lia|].
  assert (Rm : 1 <= (if mn >? 0 then mn else 10000) <= 2147483647) by (destruct (mn >? 0) eqn:?; lia).
  assert (Rx : 1 <= (if mx >? 0 then mx else 120000) <= 2147483647) by (destruct (mx >? 0) eqn:?; lia).
  generalize dependent (if mn >? 0 then mn else 10000). generalize dependent (if mx >? 0 then mx else 120000). intros x Rx m Rm.
  rewrite Z.mod_small by lia.
  split; [destruct (x <=? m) eqn:?; lia|]. split; [destruct (x <=? m) eqn:?; lia|].
  destruct ((pen =? 0) && _); lia.
Qed.

(** ** Flags *)
Lemma flag_bit : forall i k, 0 <= k -> flag i (2 ^ k) = Z.testbit (if_flags i) k.
Proof.
  intros i k K. unfold flag. destruct (Z.testbit (if_flags i) k) eqn:B.
  - apply negb_true_iff, Z.eqb_neq. intros E. apply (f_equal (fun z => Z.testbit z k)) in E. rewrite Z.land_spec, B, Z.pow2_bits_true, Z.bits_0 in E by lia. discriminate E.
  - apply negb_false_iff, Z.eqb_eq. apply Z.bits_inj'. intros n Hn. rewrite Z.land_spec, Z.bits_0, Z.pow2_bits_eqb by lia.
    destruct (Z.eqb_spec k n) as [<-|]; [rewrite B; reflexivity|apply andb_false_r].
Qed.
Lemma put_bit : forall b f fl k, 0 <= k -> Z.testbit (put_flag b f fl) k = if Z.testbit f k then b else Z.testbit fl k.
Proof.
  intros b f fl k K. unfold put_flag. destruct b.
  - rewrite Z.lor_spec. destruct (Z.testbit f k); [apply orb_true_r|apply orb_false_r].
  - rewrite Z.land_spec, Z.lnot_spec by lia. destruct (Z.testbit f k); [apply andb_false_r|apply andb_true_r].
Qed.
Lemma raise_bit : forall b f fl k, 0 <= k -> Z.testbit (raise_flag b f fl) k = if Z.testbit f k then Z.testbit fl k || b else Z.testbit fl k.
Proof.
  intros b f fl k K. unfold raise_flag. destruct b; [rewrite Z.lor_spec|]; destruct (Z.testbit f k); auto; rewrite ?orb_false_r, ?orb_true_r; auto.
Qed.
Lemma par_flag : forall ic df ka i k, 0 <= k -> flag (if_params ic df ka i) (2 ^ k) =
  (let t := if_type ic df ka in
   if k =? 1 then t =? 2 else if k =? 2 then tri (cv ic 4) (t =? 1) else if k =? 3 then tri (cv ic 5) (t =? 2)
   else if k =? 4 then flag i IF_FARAWAY || (cv ic 6 =? 2) else if k =? 5 then flag i IF_UNICAST || (cv ic 7 =? 2)
   else if k =? 6 then tri (cv ic 9) (t =? 3) else if k =? 7 then cv ic 10 =? 2 else if k =? 8 then cv ic 8 =? 2
   else if k =? 10 then tri (cv ic 15) (ka_safe ka) else if k =? 11 then flag i IF_PROBE_MTU || (cv ic 16 =? 2) else flag i (2 ^ k)).
Proof.
  intros ic df ka i k K. rewrite (flag_bit _ k K).
  change IF_FARAWAY with (2 ^ 4). change IF_UNICAST with (2 ^ 5). change IF_PROBE_MTU with (2 ^ 11). rewrite !flag_bit by lia.
  unfold if_params. cbv zeta. cbn [if_flags set_if_flags].
  rewrite ?raise_bit, ?put_bit, ?raise_bit, ?put_bit by lia.
  change IF_PROBE_MTU with (2 ^ 11). change IF_V4VIAV6 with (2 ^ 10). change IF_RFC6126 with (2 ^ 7). change IF_TIMESTAMPS with (2 ^ 6).
  change IF_ACCEPT_BAD_SIGNATURES with (2 ^ 8). change IF_UNICAST with (2 ^ 5). change IF_FARAWAY with (2 ^ 4). change IF_LQ with (2 ^ 3).
  change IF_SPLIT_HORIZON with (2 ^ 2). change IF_WIRELESS with (2 ^ 1). rewrite !Z.pow2_bits_eqb by lia.
  repeat match goal with |- context [?a =? k] => rewrite (Z.eqb_sym a k) end.
  destruct (Z.eqb_spec k 1); [subst k; reflexivity|]. destruct (Z.eqb_spec k 2); [subst k; reflexivity|].
  destruct (Z.eqb_spec k 3); [subst k; reflexivity|]. destruct (Z.eqb_spec k 4); [subst k; reflexivity|].
  destruct (Z.eqb_spec k 5); [subst k; reflexivity|]. destruct (Z.eqb_spec k 6); [subst k; reflexivity|].
  destruct (Z.eqb_spec k 7); [subst k; reflexivity|]. destruct (Z.eqb_spec k 8); [subst k; reflexivity|].
  destruct (Z.eqb_spec k 10); [subst k; reflexivity|]. destruct (Z.eqb_spec k 11); [subst k; reflexivity|]. reflexivity.
Qed.
Lemma params_up : forall ic df ka i, if_up i = true -> if_up (if_params ic df ka i) = true.
Proof. intros ic df ka i U. unfold if_up in *. change IF_UP with (2 ^ 0) in *. rewrite par_flag by lia. exact U. Qed.
Lemma on_up : forall i, if_up (p_on i) = true.
Proof. intros i. unfold if_up, p_on. change IF_UP with (2 ^ 0). rewrite flag_bit by lia. cbn [if_flags set_if_flags]. rewrite put_bit by lia. reflexivity. Qed.
Lemma on_flag : forall i k, 0 < k -> flag (p_on i) (2 ^ k) = flag i (2 ^ k).
Proof. intros i k K. rewrite !flag_bit by lia. unfold p_on. cbn [if_flags set_if_flags]. rewrite put_bit by lia. change IF_UP with (2 ^ 0). rewrite Z.pow2_bits_eqb by lia. destruct (Z.eqb_spec 0 k); [lia|reflexivity]. Qed.

Lemma ll_static : forall a i, if_up (snd (check_ll a i)) = if_up i /\ if_id (snd (check_ll a i)) = if_id i /\ if_ifindex (snd (check_ll a i)) = if_ifindex i.
Proof. intros [[|x l]|] i; repeat split. Qed.
Lemma ll_in : forall a i, iface_in i -> iface_in (snd (check_ll a i)).
Proof. intros [[|x l]|] i H; exact H. Qed.
Lemma ll_rc : forall a i, (fst (check_ll a i) <? 0) = false <-> exists x l, a = Some (x :: l).
Proof.
  intros [[|x l]|] i; cbn; split; try discriminate; eauto; intros (x0 & l0 & E); discriminate E.
Qed.
Lemma start_static : forall ic df ka i, if_id (p_start ic df ka i) = if_id i /\ if_ifindex (p_start ic df ka i) = if_ifindex i /\ if_up (p_start ic df ka i) = true.
Proof.
  intros ic df ka i. unfold p_start. destruct (ll_static (ka_ll ka) (if_params ic df ka (set_if_cap (if_bufcap ka) (p_on i)))) as (A & B & C).
  rewrite A, B, C. split; [reflexivity|]. split; [reflexivity|]. apply params_up. exact (on_up i).
Qed.
Lemma start_in : forall ic df ka i, conf_valid ic -> iface_in (p_start ic df ka i).
Proof. intros ic df ka i H. apply ll_in. intros _. now apply params_ok. Qed.

(** What bring_up makes of an interface that is down. *)
Definition startable (ka : kans) (i : iface) : bool :=
  (0 <? if_ifindex i) && (0 <=? ka_setup ka) && (0 <=? ka_join ka) && negb (fst (check_ll (ka_ll ka) i) <? 0).
Lemma ll_rc_any : forall a i j, fst (check_ll a i) = fst (check_ll a j).
Proof. intros [[|x l]|] i j; reflexivity. Qed.
Lemma g_up : forall id ic df ka i w, reach c w -> get_if id w = Some i -> if_up i = false -> conf_valid ic ->
  let w' := snd (bring_up id ic df ka w) in
  if startable ka i then good id (set_if_ipv4 (ka_ipv4 ka) (p_start ic df ka i)) w w'
  else exists x, if_id x = id /\ if_ifindex x = if_ifindex i /\ if_up x = true /\ good id (p_down x) w w'.
Proof.
  intros id ic df ka i w R G U V. cbv zeta. destruct (get_some _ _ _ G) as (Hi & Ii & K). unfold bring_up. rewrite G, U.
  fold (p_on i). unfold startable.
  destruct (Z.leb_spec (if_ifindex i) 0) as [L|L].
  { replace (0 <? if_ifindex i) with false by lia. cbn [andb]. exists (p_on i). split; [exact Ii|]. split; [reflexivity|]. split; [apply on_up|].
    exact (proj1 (g_fail id (p_on i) i w R G Ii (on_up i))). }
  replace (0 <? if_ifindex i) with true by lia. cbn [andb].
  destruct (Z.ltb_spec (ka_setup ka) 0) as [S|S].
  { replace (0 <=? ka_setup ka) with false by lia. cbn [andb]. exists (p_on i). split; [exact Ii|]. split; [reflexivity|]. split; [apply on_up|].
    exact (proj1 (g_fail id (p_on i) i w R G Ii (on_up i))). }
  replace (0 <=? ka_setup ka) with true by lia. cbn [andb].
  destruct (start_static ic df ka i) as (Si & Sx & Su).
  assert (Fl : good id (p_down (p_start ic df ka i)) w (take_down id (map_if id (fun _ => p_start ic df ka i) w))).
  { apply (proj1 (g_fail id (p_start ic df ka i) i w R G (eq_trans Si Ii) Su)). }
  assert (Ex : exists x, if_id x = id /\ if_ifindex x = if_ifindex i /\ if_up x = true /\ good id (p_down x) w (take_down id (map_if id (fun _ => p_start ic df ka i) w))).
  { exists (p_start ic df ka i). rewrite Si. auto. }
  rewrite (ll_rc_any (ka_ll ka) i (if_params ic df ka (set_if_cap (if_bufcap ka) (p_on i)))).
  pose proof (start_in ic df ka i V) as Sin.
  unfold p_start in *. destruct (check_ll (ka_ll ka) (if_params ic df ka (set_if_cap (if_bufcap ka) (p_on i)))) as (rc, i3). cbn [fst snd] in *.
  destruct (rc <? 0). { rewrite andb_comm. exact Ex. }
  cbn [negb]. rewrite andb_true_r.
  destruct (Z.ltb_spec (ka_join ka) 0) as [J|J]. { replace (0 <=? ka_join ka) with false by lia. exact Ex. }
  replace (0 <=? ka_join ka) with true by lia.
  assert (I3 : if_id i3 = id) by congruence.
  pose proof (g_set id (fun _ => i3) w i R G I3 Sin) as G1. pose proof (good_at _ _ _ _ K I3 G1) as A1. pose proof (good_reach _ _ _ _ G1) as R1.
  pose proof (g_metric id i3 _ R1 A1) as G2. pose proof (good_at _ _ _ _ (at_known _ _ _ A1) I3 G2) as A2. pose proof (good_reach _ _ _ _ G2) as R2.
  pose proof (g_ipv4 id i3 (ka_ipv4 ka) _ R2 A2 I3 ltac:(lia) Sin) as G3.
  destruct (check_ipv4 id (ka_ipv4 ka) (update_interface_metric id (map_if id (fun _ => i3) w))) as (ch, w2). destruct G3 as (G3 & _).
  pose proof (good_trans _ _ _ _ _ _ I3 G1 (good_trans _ _ _ _ _ _ I3 G2 G3)) as G03. clear G1 G2 A1 A2 R1 R2.
  set (i4 := set_if_ipv4 (ka_ipv4 ka) i3) in *. assert (I4 : if_id i4 = id) by exact I3.
  pose proof (good_at _ _ _ _ K I4 G03) as A3. pose proof (good_reach _ _ _ _ G03) as R3. clear G3.
  destruct (set_timeout (if_hello_interval i3) w2) as (t1, w3) eqn:T1.
  pose proof (g_timeout id i4 _ _ _ _ R3 A3 T1) as G4. pose proof (good_trans _ _ _ _ _ _ I4 G03 G4) as G04. pose proof (good_at _ _ _ _ K I4 G04) as A4. pose proof (good_reach _ _ _ _ G04) as R4.
  destruct (set_timeout (if_update_interval i3) w3) as (t2, w4) eqn:T2.
  pose proof (g_timeout id i4 _ _ _ _ R4 A4 T2) as G5. pose proof (good_trans _ _ _ _ _ _ I4 G04 G5) as G05. pose proof (good_at _ _ _ _ K I4 G05) as A5. pose proof (good_reach _ _ _ _ G05) as R5.
  destruct (set_timeout (if_hello_interval i3) w4) as (t3, w5) eqn:T3.
  pose proof (g_timeout id i4 _ _ _ _ R5 A5 T3) as G6. pose proof (good_trans _ _ _ _ _ _ I4 G05 G6) as G06. pose proof (good_at _ _ _ _ K I4 G06) as A6. pose proof (good_reach _ _ _ _ G06) as R6.
  set (f := fun x => set_if_hello_timeout t3 (set_if_update_timeout t2 x)).
  assert (G07 : good id i4 w (map_if id f w5)).
  { destruct A6 as (j & Gj & Ej). destruct (get_some _ _ _ Gj) as (Hj & Ij & _).
    eapply good_trans with (a := i4); [exact I4|exact G06|]. eapply good_eq; [|apply (g_set id f w5 j R6 Gj Ij)].
    - transitivity (ifpar j); [reflexivity|exact Ej].
    - exact (reach_in _ _ R6 Hj). }
  pose proof (good_at _ _ _ _ K I4 G07) as A7. pose proof (good_reach _ _ _ _ G07) as R7.
  set (w7 := if ch then send_update_full id false (map_if id f w5) else map_if id f w5).
  assert (G08 : good id i4 w w7).
  { unfold w7. destruct ch; [|exact G07]. eapply good_trans with (a := i4); [exact I4|exact G07|]. now apply g_full. }
  cbn [snd]. eapply good_trans with (a := i4); [exact I4|exact G08|]. apply g_request; [apply G08|]. exact (good_at _ _ _ _ K I4 G08).
Qed.

(** The end of a round *)
Lemma g_tail : forall id ka i w, reach c w -> at_if id i w -> if_id i = id -> if_up i = true -> 0 < if_ifindex i -> iface_in i ->
  let w3 := map_if id (fun x => snd (check_ll (ka_ll2 ka) x)) w in
  let '(ch, w4) := check_ipv4 id (ka_ipv42 ka) w3 in
  let w' := if ch then send_update_full id false (send_multicast_request_if None id w4) else w4 in
  good id (set_if_ipv4 (ka_ipv42 ka) (snd (check_ll (ka_ll2 ka) i))) w w' /\ (if_ipv4 i <> ka_ipv42 ka -> gone id w').
Proof.
  intros id ka i w R A E U X I. cbv zeta. destruct A as (j & Gj & Ej). destruct (get_some _ _ _ Gj) as (Hj & Ij & K).
  set (f := fun x => snd (check_ll (ka_ll2 ka) x)).
  assert (Pf : forall x y, ifpar x = ifpar y -> ifpar (f x) = ifpar (f y)).
  { intros x y Q. unfold f, check_ll. destruct (ka_ll2 ka) as [[|a l]|]; cbn [snd].
    - transitivity (set_if_ll [] (ifpar x)); [reflexivity|]. rewrite Q. reflexivity.
    - transitivity (set_if_ll (firstn 32 (a :: l)) (ifpar x)); [reflexivity|]. rewrite Q. reflexivity.
    - transitivity (set_if_ll [] (ifpar x)); [reflexivity|]. rewrite Q. reflexivity. }
  destruct (ll_static (ka_ll2 ka) j) as (L1 & L2 & L3). fold (f j) in L1, L2, L3.
  pose proof (g_set id f w j R Gj (eq_trans L2 Ij) (ll_in _ _ (reach_in _ _ R Hj))) as G1.
  apply (good_eq id (f j) (f i)) in G1; [|now apply Pf].
  destruct (ll_static (ka_ll2 ka) i) as (M1 & M2 & M3). fold (f i) in M1, M2, M3.
  assert (Ifi : if_id (f i) = id) by congruence.
  pose proof (good_at _ _ _ _ K Ifi G1) as A1. pose proof (good_reach _ _ _ _ G1) as R1.
  pose proof (g_ipv4 id (f i) (ka_ipv42 ka) _ R1 A1 Ifi ltac:(lia) (ll_in _ _ I)) as G2.
  destruct (check_ipv4 id (ka_ipv42 ka) (map_if id f w)) as (ch, w4). destruct G2 as (G2 & Gn).
  pose proof (good_trans _ _ _ _ _ _ Ifi G1 G2) as G02.
  assert (I4 : if_ipv4 (f i) = if_ipv4 i) by (unfold f, check_ll; destruct (ka_ll2 ka) as [[|a l]|]; reflexivity).
  rewrite I4 in Gn. set (i5 := set_if_ipv4 (ka_ipv42 ka) (f i)) in *. assert (I5 : if_id i5 = id) by exact Ifi.
  destruct ch.
  - pose proof (good_at _ _ _ _ K I5 G02) as A2. pose proof (g_request id i5 w4 (good_reach _ _ _ _ G02) A2) as G3.
    pose proof (good_trans _ _ _ _ _ _ I5 G02 G3) as G03. pose proof (good_at _ _ _ _ K I5 G03) as A3.
    pose proof (g_full id i5 false _ (good_reach _ _ _ _ G03) A3) as G4. split; [exact (good_trans _ _ _ _ _ _ I5 G03 G4)|].
    intros N. destruct (Gn N) as (_ & Gn'). unfold gone in *. eapply rsub_via; [|exact Gn']. eapply rsub_trans; [apply G3|apply G4].
  - split; [exact G02|]. intros N. destruct (Gn N) as (Q & _). discriminate Q.
Qed.
End Step.

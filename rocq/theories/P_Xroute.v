(** P_Xroute.v: C41 and C42, redistributed routes. *)
From Verif Require Import Base M_Util S_Util M_Filter M_Source M_Types M_Neigh M_State M_Table M_Msg M_Route M_Xroute M_Daemon S_World S_Xroute S_Send S_Pend
  L_Slot L_Step L_Trace L_Xroute L_Inv L_Daemon L_World L_World2 L_Xroute2 L_Pend L_Lose X_Run.
From Coq Require Import Sorting.Sorted.

(** ** C41: after a dump of the kernel's addresses and routes, in whatever order and
    with whatever repetitions, the table holds exactly the destinations of the
    accepted ones that are not martian, each once, sorted, with the metric and
    protocol of one of them. *)
Theorem C41_dump : forall c w addrs routes send, c_half_life c <> 2 -> reach c w ->
  let w' := run1 (EvScan addrs routes send) w in
  w_fuel w' = w_fuel w /\
  StronglySorted (fun x y => xr_before (x_dest x) (x_dest y)) (w_xr w') /\
  (forall x, In x (w_xr w') -> ~ martian (x_dest x) /\
     exists k, offered addrs routes k /\ accepted c k (x_dest x) (x_metric x) /\ x_proto x = kr_proto k) /\
  (forall k d m, offered addrs routes k -> accepted c k d m -> ~ martian d -> exists x, ours w' d x).
Proof.
  intros c w addrs routes send H R. destruct (reach_W c w H R) as (Hw & Ec). cbv zeta.
  assert (R' : reach c (run1 (EvScan addrs routes send) w)) by (apply reach_run; [exact R|exact I]).
  destruct (reach_W _ _ H R') as (Hw' & _). pose proof (reach_xr _ _ H R') as G.
  cbn [run1] in *. destruct (check_xroutes_spec addrs routes send w Hw) as (A1 & A2 & A3). rewrite Ec in A2, A3.
  split; [exact A1|]. split; [|split].
  - pose proof (W_xr _ _ Hw') as So. unfold xsorted, ksorted in So. clear -So.
    induction So as [|x l Sl IH F]; constructor; auto. eapply Forall_impl; [|exact F]. intros y Hy. apply dest_compare_before. exact Hy.
  - intros x Hx. split; [unfold martian; rewrite (G x Hx); discriminate|]. apply A2. exact Hx.
  - exact A3.
Qed.
Print Assumptions C41_dump.

(** The order is strict, so no destination is there twice. *)
Lemma bytes_lt_irrefl : forall a, ~ bytes_lt a a.
Proof. induction a as [|x a IH]; intros H; inversion H; subst; [lia|auto]. Qed.
Theorem C41_strict : forall d, ~ xr_before d d.
Proof.
  unfold xr_before. intros d [H|(_ & [H|(_ & [H|(_ & H)])])]; [lia| |lia|]; eapply bytes_lt_irrefl; eauto.
Qed.
Print Assumptions C41_strict.

(** A notification concerns the named prefix only; routes the rules do not accept and
    martian ones are ignored. *)
Theorem C41_notify : forall c w add k, c_half_life c <> 2 -> reach c w ->
  let w' := run1 (EvKernel add k) w in
  w_fuel w' = w_fuel w /\
  ((forall d m, ~ accepted c k d m) -> w' = w) /\
  (forall d m, accepted c k d m ->
     (forall x, x_dest x <> d -> (In x (w_xr w') <-> In x (w_xr w))) /\
     (add = true -> ~ martian d -> exists x, ours w' d x /\ x_metric x = m /\ x_proto x = kr_proto k) /\
     (add = true -> martian d -> w' = w) /\
     (add = false -> forall x, ~ ours w' d x)).
Proof.
  intros c w add k H R. destruct (reach_W c w H R) as (Hw & Ec). cbv zeta. cbn [run1].
  destruct (notify_spec add k w Hw (reach_xr _ _ H R)) as (A1 & A2 & A3). rewrite Ec in A2, A3.
  split; [exact A1|]. split; [exact A2|]. intros d m Ac. destruct (A3 d m Ac) as (B1 & B2 & B3 & B4).
  split; [exact B1|]. split; [|split; [exact B3|]].
  - intros Ea Nm. destruct (B2 Ea Nm) as (x & X1 & X2 & X3 & X4). exists x. unfold ours. auto.
  - intros Ea x (Hx & Dx). apply (B4 Ea x Hx Dx).
Qed.
Print Assumptions C41_notify.

(** Two routes below 10.9.0.0/16, one of them twice, a route the rules do not accept,
    a martian one, a global and a link-local address; the table held 10.9.0.0/16. *)
Definition d9 (x : Z) : dest := mkDest (mapped 10 9 x 0) 120 (mapped 0 0 0 0) 96.
Definition g_addr : list Z := [32;1;13;184;0;0;0;0;0;0;0;0;0;0;0;5].
Definition g_scan : event :=
  EvScan [(g_addr, 1); (x_addr 3, 1)]
    [mkKr (d9 7) 0 3 4; mkKr (d9 2) 0 3 4; mkKr (xd 77) 0 3 4; mkKr (d9 7) 5 2 9;
     mkKr (mkDest (mapped 127 0 0 0) 104 (mapped 0 0 0 0) 96) 0 1 4] true.
Example C41_ex :
  map (fun x => (d_prefix (x_dest x), x_metric x)) (w_xr x_w2) = [(mapped 10 9 0 0, 128)] /\
  map (fun x => (d_prefix (x_dest x), x_metric x)) (w_xr (run1 g_scan x_w2)) =
    [(mapped 10 9 2 0, 128); (mapped 10 9 7 0, 128); (g_addr, 0)] /\
  map (fun x => d_prefix (x_dest x)) (w_xr (run1 (EvKernel true (mkKr (d9 2) 0 3 4)) x_w2)) = [mapped 10 9 0 0; mapped 10 9 2 0] /\
  w_xr (run1 (EvKernel false (mkKr (xd 9) 0 3 4)) x_w2) = [].
Proof. split; [|split; [|split]]; vm_compute; reflexivity. Qed.

(** ** C42: when a redistributed route disappears, and it has the prefix length and
    source prefix of the first entry of the table (for instance because it is the first
    one), then an update for its destination waits on every interface that is up, no
    other destination starts to wait, the routes to other destinations and their
    selection are as before, and if there are routes to take its place, all finite, one
    is selected, unless the kernel or the install rules refuse. *)
Theorem C42_own : forall c w k d m x, c_half_life c <> 2 -> reach c w ->
  accepted c k d m -> dvalid d -> ours w d x ->
  (forall x0 l, w_xr w = x0 :: l -> d_plen (x_dest x0) = d_plen d /\ d_src (x_dest x0) = d_src d) ->
  let w' := run1 (EvKernel false k) w in
  (forall y, ~ ours w' d y) /\ pending_all w' d /\ only_pending w w' d /\ untouched w w' d /\
  ((exists r, In r (all_routes w) /\ dest_of r = d /\ eligible w true None r) ->
   (forall r, In r (all_routes w) -> dest_of r = d -> eligible w true None r -> finite r) ->
   (exists r', is_selected w' d r') \/ krefused w w' \/
   exists r, In r (all_routes w) /\ dest_of r = d /\ install_denied w r).
Proof.
  intros c w k d m x H R Ac V (Hx & Dx) Hd. destruct (reach_W c w H R) as (Hw & Ec). pose proof (reach_rng c w H R) as G.
  cbv zeta.
  assert (R' : reach c (run1 (EvKernel false k) w)) by (apply reach_run; [exact R|exact I]).
  destruct (reach_W _ _ H R') as (Hw' & _). pose proof (C41_notify c w false k H R) as (_ & _ & N).
  destruct (N d m Ac) as (_ & _ & _ & N4). split; [intros y; apply N4; reflexivity|]. clear N N4.
  assert (E : exists A B x1, w_xr w = A ++ x1 :: B /\ x_dest x1 = d /\ run1 (EvKernel false k) w = flush_xroute (length A) true w).
  { destruct (filter_kroute_spec w k) as (_ & F2 & _). rewrite Ec in F2. destruct (F2 d m Ac) as (F3 & F4).
    cbn [run1]. unfold kernel_route_notify. cbv zeta.
    assert (kr_metric (filter_kroute w k) >=? INFINITY = false) as ->.
    { destruct Ac as (? & ? & ? & _). unfold INFINITY. lia. }
    destruct (find_xroute_slot (kr_dest (filter_kroute w k)) w) as [i|n] eqn:F.
    - destruct (xslot_found _ _ _ (W_xr _ _ Hw) F) as (A & x1 & B & E & -> & D). rewrite Nat2Z.id. exists A, B, x1.
      split; auto. split; [congruence|auto].
    - exfalso. destruct (xslot_notfound _ _ _ (W_xr _ _ Hw) F) as (_ & Nf & _). apply (Nf x Hx). congruence. }
  destruct E as (A & B & x1 & E & Dx1 & Er). rewrite Er in *. rewrite <- Dx1 in *.
  destruct (flush_xroute_own [] w A x1 B Hw E V Hd) as (P1 & P2 & P3 & P4).
  split; [exact P1|]. split; [exact (pend_grow_only _ _ _ _ Hw Hw' P2)|]. split; [exact (others_untouched _ _ _ P3)|].
  intros (r & Hr & Dr & El) Fin. apply P4.
  - exists r. split; auto. split; auto. apply (eligible_iff [] w r true None Hw G Hr). exact El.
  - intros r1 Hr1 D1 A1. apply (eligible_iff [] w r1 true None Hw G Hr1) in A1. specialize (Fin r1 Hr1 D1 A1).
    exact Fin.
Qed.
Print Assumptions C42_own.

(** 10.9.0.0/16 is also learned from the second neighbour; the kernel's route goes. *)
Definition g_w1 : world := run1 (EvUpdate (Some (x_id 9)) (xd 9) 40 100 1600 2 (x_nh 52)) x_w2.
Definition g_w2 : world := run1 (EvKernel false (mkKr (xd 9) 0 3 4)) g_w1.
Lemma g_reach1 : reach x_conf g_w1.
Proof. unfold g_w1. apply reach_run; [apply x_reach2|]. apply allowedb_ok. vm_compute. reflexivity. Qed.
Definition picture (w : world) : list (list Z * Z * bool) :=
  map (fun r => (k_prefix (r_src r), r_neigh r, r_installed r)) (all_routes w).
Definition queues (w : world) : list (Z * list dest) := map (fun i => (if_id i, if_pend i)) (w_ifs w).
Example C42_ex :
  map x_dest (w_xr g_w1) = [xd 9] /\ map x_dest (w_xr g_w2) = [] /\
  picture g_w1 = [(mapped 10 1 0 0, 2, true); (mapped 10 1 0 0, 1, false); (mapped 10 2 0 0, 1, true); (mapped 10 9 0 0, 2, false)] /\
  picture g_w2 = [(mapped 10 1 0 0, 2, true); (mapped 10 1 0 0, 1, false); (mapped 10 2 0 0, 1, true); (mapped 10 9 0 0, 2, true)] /\
  queues g_w2 = [(1, [xd 9; xd 9]); (2, [xd 9; xd 9])] /\
  accepted x_conf (mkKr (xd 9) 0 3 4) (xd 9) 128 /\ dvalid (xd 9).
Proof.
  split; [vm_compute; reflexivity|]. split; [vm_compute; reflexivity|]. split; [vm_compute; reflexivity|].
  split; [vm_compute; reflexivity|]. split; [vm_compute; reflexivity|]. split.
  - eexists. split; [vm_compute; reflexivity|]. cbn. auto with zarith.
  - apply dvalidb_ok. vm_compute. reflexivity.
Qed.

(** Otherwise the wrong prefix is looked up and announced.  With 10.9.0.0/16 and
    10.9.2.0/24 redistributed and 10.9.2.0/24 also learned from the second neighbour,
    withdrawing 10.9.2.0/24 leaves an update for "10.9.2.0/16" waiting and none for
    10.9.2.0/24, and the learned route, which is feasible and finite, is not selected. *)
Definition g_w3 : world :=
  run [EvKernel true (mkKr (d9 2) 0 3 4); EvUpdate (Some (x_id 9)) (d9 2) 40 100 1600 2 (x_nh 52);
       EvFlushUpdates 1; EvFlushUpdates 2] x_w2.
Lemma g_reach3 : reach x_conf g_w3.
Proof. unfold g_w3. apply reach_list; [apply x_reach2|]. vm_compute. reflexivity. Qed.
Definition g_k : kroute := mkKr (d9 2) 0 3 4.
Definition g_w4 : world := run1 (EvKernel false g_k) g_w3.
Definition d9bad : dest := mkDest (mapped 10 9 2 0) 112 (mapped 0 0 0 0) 96.
Lemma g_Q3 : queues g_w3 = [(1, []); (2, [])]. Proof. vm_compute. reflexivity. Qed.
Lemma g_Q4 : queues g_w4 = [(1, [d9bad]); (2, [d9bad])]. Proof. vm_compute. reflexivity. Qed.
Lemma g_P4 : forallb if_up (w_ifs g_w4) = true. Proof. vm_compute. reflexivity. Qed.
Lemma g_X3 : map x_dest (w_xr g_w3) = [xd 9; d9 2]. Proof. vm_compute. reflexivity. Qed.
Lemma g_D3 : map dest_of (all_routes g_w3) = [xd 1; xd 1; xd 2; d9 2]. Proof. vm_compute. reflexivity. Qed.
Lemma g_I4 : map (fun r => (dest_of r, r_installed r)) (all_routes g_w4) = [(xd 1, true); (xd 1, false); (xd 2, true); (d9 2, false)].
Proof. vm_compute. reflexivity. Qed.
Lemma g_K4 : (length (w_ktr g_w4) =? length (w_ktr g_w3))%nat = true. Proof. vm_compute. reflexivity. Qed.
Lemma g_A3 : map (fun r => (acceptable r true None g_w3, route_metric r <? 65535)) (all_routes g_w3) =
  [(true, true); (true, true); (true, true); (true, true)].
Proof. vm_compute. reflexivity. Qed.
Lemma g_Ac : accepted x_conf g_k (d9 2) 128.
Proof. eexists. split; [vm_compute; reflexivity|]. cbn. auto with zarith. Qed.
Lemma g_V : dvalid (d9 2). Proof. apply dvalidb_ok. vm_compute. reflexivity. Qed.
Lemma g_general : forall c w3 w4 k, c_half_life c <> 2 -> reach c w3 -> accepted c k (d9 2) 128 -> run1 (EvKernel false k) w3 = w4 ->
  queues w3 = [(1, []); (2, [])] -> queues w4 = [(1, [d9bad]); (2, [d9bad])] -> forallb if_up (w_ifs w4) = true ->
  map x_dest (w_xr w3) = [xd 9; d9 2] -> map dest_of (all_routes w3) = [xd 1; xd 1; xd 2; d9 2] ->
  map (fun r => (dest_of r, r_installed r)) (all_routes w4) = [(xd 1, true); (xd 1, false); (xd 2, true); (d9 2, false)] ->
  (length (w_ktr w4) =? length (w_ktr w3))%nat = true ->
  map (fun r => (acceptable r true None w3, route_metric r <? 65535)) (all_routes w3) =
    [(true, true); (true, true); (true, true); (true, true)] ->
  exists c w k d m x, c_half_life c <> 2 /\ reach c w /\ accepted c k d m /\ dvalid d /\ ours w d x /\
  let w' := run1 (EvKernel false k) w in
  (forall i, In i (w_ifs w') -> if_up i = true) /\ w_ifs w' <> [] /\
  (forall ifp, ~ pending w' ifp d) /\
  (exists ifp d', d' <> d /\ pending w' ifp d' /\ ~ pending w ifp d' /\
     (forall r, In r (all_routes w) -> dest_of r <> d') /\ forall y, ~ ours w d' y) /\
  (exists r, In r (all_routes w) /\ dest_of r = d /\ eligible w true None r /\ finite r) /\
  (forall r, ~ is_selected w' d r) /\ ~ krefused w w'.
Proof.
  intros c w3 w4 k Hl R3 Ac E4 Q3 Q4 P4 X3 D3 I4 K4 A3. pose proof g_V as Vd.
  destruct (reach_W _ _ Hl R3) as (Hw & _). pose proof (reach_rng _ _ Hl R3) as G.
  exists c, w3, k, (d9 2), 128.
  destruct (w_xr w3) as [|x1 [|x2 [|x3 l]]] eqn:E3; try discriminate X3. exists x2.
  split; [exact Hl|]. split; [exact R3|]. split; [exact Ac|]. split; [exact Vd|]. split; [|rewrite E4; cbv zeta].
  - split; [rewrite E3; simpl; auto|]. exact (f_equal (fun l => hd (xd 0) (tl l)) X3).
  - split; [|split; [|split; [|split; [|split; [|split]]]]].
    + intros i Hi. rewrite forallb_forall in P4. auto.
    + intros E. unfold queues in Q4. rewrite E in Q4. discriminate Q4.
    + intros ifp (i & Hi & _ & Hd). assert (H : In (if_id i, if_pend i) (queues w4)) by (apply (in_map (fun i => (if_id i, if_pend i))); auto).
      rewrite Q4 in H. assert (Ep : if_pend i = [d9bad]) by (destruct H as [H|[H|[]]]; exact (eq_sym (f_equal snd H))).
      rewrite Ep in Hd. destruct Hd as [Hd|[]]. apply (f_equal d_plen) in Hd. discriminate Hd.
    + exists 1, (d9bad). split; [intros E; apply (f_equal d_plen) in E; discriminate E|].
      split; [|split; [|split]].
      * unfold queues in Q4. destruct (w_ifs w4) as [|i l'] eqn:Ei; [discriminate Q4|]. exists i. rewrite Ei. split; [simpl; auto|].
        split; [exact (f_equal (fun l => fst (hd (0, []) l)) Q4)|].
        assert (Ep : if_pend i = [d9bad]) by exact (f_equal (fun l => snd (hd (0, []) l)) Q4).
        rewrite Ep. simpl. auto.
      * intros (i & Hi & _ & Hd). assert (H : In (if_id i, if_pend i) (queues w3)) by (apply (in_map (fun i => (if_id i, if_pend i))); auto).
        rewrite Q3 in H. assert (Ep : if_pend i = []) by (destruct H as [H|[H|[]]]; exact (eq_sym (f_equal snd H))). rewrite Ep in Hd. destruct Hd.
      * intros r Hr E. apply (in_map dest_of) in Hr. rewrite D3, E in Hr.
        destruct Hr as [Hr|[Hr|[Hr|[Hr|[]]]]]; (apply (f_equal (fun d => (d_prefix d, d_plen d))) in Hr; vm_compute in Hr; discriminate Hr).
      * intros y (Hy & Dy). apply (in_map x_dest) in Hy. rewrite E3, X3, Dy in Hy.
        destruct Hy as [Hy|[Hy|[]]]; (apply (f_equal (fun d => (d_prefix d, d_plen d))) in Hy; vm_compute in Hy; discriminate Hy).
    + assert (H : exists r, In r (all_routes w3) /\ dest_of r = d9 2).
      { assert (H : In (d9 2) (map dest_of (all_routes w3))) by (rewrite D3; simpl; auto). apply in_map_iff in H.
        destruct H as (r & H1 & H2). eauto. }
      destruct H as (r & Hr & Dr). exists r. split; auto. split; auto.
      assert (H : (acceptable r true None w3, route_metric r <? 65535) = (true, true)).
      { apply (in_map (fun r => (acceptable r true None w3, route_metric r <? 65535))) in Hr. rewrite A3 in Hr.
        destruct Hr as [Hr|[Hr|[Hr|[Hr|[]]]]]; auto. }
      split; [apply (eligible_iff [] w3 r true None Hw G Hr); exact (f_equal fst H)|].
      apply (f_equal snd) in H. apply Z.ltb_lt. exact H.
    + intros r (Hr & Ir & Dr). apply (in_map (fun r => (dest_of r, r_installed r))) in Hr. rewrite I4, Dr, Ir in Hr.
      destruct Hr as [Hr|[Hr|[Hr|[Hr|[]]]]]; try discriminate (f_equal snd Hr); apply (f_equal (fun p => d_plen (fst p))) in Hr; discriminate Hr.
    + intros (l' & ev & E & H & _). apply Nat.eqb_eq in K4. rewrite E, app_length in K4. destruct l'; [destruct H|simpl in K4; lia].
Qed.
Theorem C42_refuted : exists c w k d m x, c_half_life c <> 2 /\ reach c w /\ accepted c k d m /\ dvalid d /\ ours w d x /\
  let w' := run1 (EvKernel false k) w in
  (forall i, In i (w_ifs w') -> if_up i = true) /\ w_ifs w' <> [] /\
  (forall ifp, ~ pending w' ifp d) /\
  (exists ifp d', d' <> d /\ pending w' ifp d' /\ ~ pending w ifp d' /\
     (forall r, In r (all_routes w) -> dest_of r <> d') /\ forall y, ~ ours w d' y) /\
  (exists r, In r (all_routes w) /\ dest_of r = d /\ eligible w true None r /\ finite r) /\
  (forall r, ~ is_selected w' d r) /\ ~ krefused w w'.
Proof.
  exact (g_general x_conf g_w3 g_w4 g_k x_hl g_reach3 g_Ac eq_refl g_Q3 g_Q4 g_P4 g_X3 g_D3 g_I4 g_K4 g_A3).
Qed.
Print Assumptions C42_refuted.

(** P_Ifup.v: interfaces come up with the documented parameters; announced intervals. *)
From Coq Require Import String.
From Verif Require Import Base M_Util S_Util L_Util M_Slot L_Slot M_Source S_Source L_Source
  M_Filter S_Filter M_Types M_Neigh M_State M_Table M_Msg M_Route M_Xroute S_World L_Table L_Step L_Msg
  S_Neigh L_Neigh L_Request S_Send L_Send M_Daemon L_Inv L_Daemon L_World L_World3 L_Resend4 L_Kern M_Config S_Config L_Config
  P_Config P_Send P_Expire P_Kern M_Ifup S_Ifup L_Ifup L_Ifup2 L_Ifup3 X_Run X_Run3.
Close Scope string_scope.
Open Scope Z_scope.
Import M_Daemon.

(** ** C70: interfaces *)
(** Whatever the configuration says, and in however many files and lines it says it, the
    parameters of the interfaces are in the documented ranges. *)
Theorem C70_config : forall e l p, ifs_valid (p_cfg p) ->
  ifs_valid (p_cfg (snd (from_file e l p))) /\ ifs_valid (p_cfg (snd (from_string e l p))).
Proof. intros e l p H. split; [now apply from_file_iv|now apply from_string_iv]. Qed.
Print Assumptions C70_config.
(** ... and so are those that interfaces get at the start and later. *)
Theorem C70_config_used : forall g, ifs_valid g ->
  Forall (fun ic => vals_ok (ic_vals ic)) (finalise_ifs (g_default g) (g_ifs g)) /\
  (forall ic, In ic (finalise_ifs (g_default g) (g_ifs g)) -> conf_valid (conf_for (g_default g) (Some ic))) /\
  conf_valid (conf_for (g_default g) None).
Proof.
  intros g (F & D).
  assert (A : Forall (fun ic => vals_ok (ic_vals ic)) (finalise_ifs (g_default g) (g_ifs g))).
  { unfold finalise_ifs. destruct (g_default g) as [d|]; auto. apply Forall_map. eapply Forall_impl; [|exact F].
    intros ic V. cbn. now apply merge_vals_ok. }
  split; auto. rewrite Forall_forall in A. split; [exact A|]. exact D.
Qed.
Print Assumptions C70_config_used.
Example C70_config_ex :
  let t := str "default type wired rtt-min 20" ++ nl ++ str "interface eth0 hello-interval 164 unicast true" ++ nl
           ++ str "interface wlan0 type wireless rxcost 200" ++ nl in
  let g := p_cfg (snd (from_file g_env t (g_p false false))) in
  ifs_valid (g_cfg false false) /\ fst (from_file g_env t (g_p false false)) = true /\
  map (fun ic => firstn 13 (ic_vals ic)) (finalise_ifs (g_default g) (g_ifs g)) =
    [[164000; 0; 0; 1; 0; 0; 0; 2; 0; 0; 0; 0; 20000]; [0; 0; 200; 2; 0; 0; 0; 0; 0; 0; 0; 0; 20000]].
Proof. split; [repeat constructor|]. vm_compute. auto. Qed.

(** With such a configuration, an interface that comes up has valid parameters: finite
    intervals, a cost between 1 and 65535, room for a message in its buffer. *)
Theorem C70_valid : forall ic df ka i i', conf_valid ic -> opts_ok df -> started ic df ka i i' ->
  iface_ok i' /\ 1 <= if_hello_interval i' <= 655350 /\ 1 <= if_update_interval i' <= 4 * 655350 /\
  460 <= if_cap i' /\ (512 <= ka_mtu ka -> if_cap i' = ka_mtu ka - 52).
Proof.
  intros ic df ka i i' V D [(t & K & C0 & C1 & C2 & _) U De Mi (m & Mx & Ex) _ _ _ _ _ _ Cap].
  assert (Rg : forall n d v b, value ic n d v -> nth n val_bounds 0 = b -> 1 <= d <= b -> 1 <= v <= b).
  { intros n d v b [(x & -> & Q & N)|(_ & ->)] B Hd; auto. pose proof (cv_range (Some x) n V) as R. cbn [cv] in R. lia. }
  assert (Hh : 1 <= if_hello_interval i' <= 655350).
  { apply (Rg 0%nat _ _ 655350 C1 eq_refl). destruct D as (D1 & D2). destruct (t =? 2); now apply hello_range. }
  assert (Hc : 1 <= if_cost i' <= 65535) by (apply (Rg 2%nat _ _ 65535 C0 eq_refl); destruct (t =? 2); lia).
  assert (Hd : 1 <= if_rtt_decay i' <= 256) by (apply (Rg 11%nat _ _ 256 De eq_refl); lia).
  assert (Hm : 1 <= if_rtt_min i' <= 2147483647) by (apply (Rg 12%nat _ _ 2147483647 Mi eq_refl); lia).
  assert (Hx : 1 <= m <= 2147483647) by (apply (Rg 13%nat _ _ 2147483647 Mx eq_refl); lia).
  assert (Hu : 1 <= if_update_interval i' <= 4 * 655350).
  { destruct U as [(x & -> & Q & N)|(_ & ->)]; [|lia]. pose proof (cv_range (Some x) 1%nat V) as R. cbn [cv] in R. change (nth 1 val_bounds 0) with 655350 in R. lia. }
  assert (Hp : 0 <= if_max_rtt_penalty i' <= 65535).
  { destruct C2 as [(x & -> & Q & N)|(_ & ->)]; [|destruct (t =? 3); lia]. pose proof (cv_range (Some x) 14%nat V) as R. cbn [cv] in R. change (nth 14 val_bounds 0) with 65535 in R. lia. }
  split; [|split; [auto|split; [auto|]]].
  - unfold iface_ok. destruct (Z.leb_spec m (if_rtt_min i')); lia.
  - rewrite Cap. destruct (Z.ltb_spec (ka_mtu ka) 0); lia.
Qed.
Print Assumptions C70_valid.

(** check_interfaces: every interface is up exactly if it exists, is operational and (unless
    it was up as that same interface) could be set up; it then has the parameters of the
    manual page, or those it had; and no route stays through an interface that went down,
    came up again or changed its IPv4 address. *)
Theorem C70_check : forall c w cf df ans, c_half_life c <> 2 -> reach c w -> (forall id, conf_valid (cf id)) -> opts_ok df ->
  let w' := check_interfaces cf df ans w in
  reach c w' /\ map if_id (w_ifs w') = map if_id (w_ifs w) /\ w_nbs w' = w_nbs w /\
  (forall r', In r' (all_routes w') -> exists r, In r (all_routes w) /\ r_neigh r = r_neigh r') /\
  (forall id i, get_if id w = Some i -> exists i', get_if id w' = Some i' /\ checked (cf id) df (ans id) i i' /\
     (lost (ans id) i i' -> forall r, In r (all_routes w') -> ~ via_if w' id r)).
Proof.
  intros c w cf df ans H R V D. destruct (checks c H cf df ans w R V D) as (A & B & (S1 & S2) & Q). cbv zeta.
  split; auto. split; auto. split; auto. split; auto. intros r' Hr. destruct (S2 r' Hr) as (r & Hr0 & E). exists r. auto.
Qed.
Print Assumptions C70_check.

(** Two interfaces are configured; neither is up.  The first is a wired Ethernet with the
    default MTU, the second has no link-local address. *)
Definition u_ll : list Z := x_addr 1.
Definition u_ans (id : Z) : kans :=
  if id =? 1 then mkAns 4 1 1 1500 0 true 1 (Some [u_ll]) (Some [u_ll]) (Some [10;0;0;1]) (Some [10;0;0;1])
  else mkAns 5 1 1 1500 0 true 1 (Some []) (Some []) None None.
Definition u_conf (h uni : Z) : option ifconf := Some (mkIc [1] [h; 0; 0; 1; 0; 0; 0; uni; 0; 0; 0; 0; 0; 0; 0; 0; 0] None).
Lemma u_valid : forall h uni, 0 <= h <= 655350 -> 0 <= uni <= 2 -> conf_valid (u_conf h uni).
Proof. intros. repeat constructor; lia. Qed.
Definition u_defs : ifdefs := mkDefs false (-1) (-1) true.
Lemma u_opts : forall a s, opts_ok (mkDefs a (-1) (-1) s).
Proof. intros. split; cbn; lia. Qed.
Definition u_boot : world := boot x_conf (mkTv 1000 0) [fresh_iface 1; fresh_iface 2] 17.
Lemma u_boot_reach : reach x_conf u_boot.
Proof.
  apply reach_boot; [repeat constructor; simpl; lia| |unfold tv_ok; simpl; lia|unfold u16_ok; simpl; lia].
  constructor; [intros Q; discriminate Q|]. constructor; [intros Q; discriminate Q|constructor].
Qed.
Definition u_up : world := check_interfaces (fun _ => u_conf 4000 2) u_defs u_ans u_boot.
Lemma u_up_reach : reach x_conf u_up.
Proof.
  apply (C70_check x_conf u_boot (fun _ => u_conf 4000 2) u_defs u_ans x_hl u_boot_reach).
  - intros _. apply u_valid; lia.
  - split; cbn; lia.
Qed.
(** A neighbour on interface 1 and its route; then the interface has another address. *)
Definition u_route : world := run [EvNeighbour (x_addr 51) 1; EvHello 1 false 1 400; EvHello 1 false 2 400; EvIhu 1 96 400;
  EvUpdate (Some (x_id 7)) (xd 1) 40 300 1600 1 (x_nh 51)] u_up.
Lemma u_route_reach : reach x_conf u_route.
Proof. apply reach_list; [apply u_up_reach|]. vm_compute. reflexivity. Qed.
Definition u_ans2 (id : Z) : kans :=
  if id =? 1 then mkAns 4 1 1 1500 0 true 1 (Some [u_ll]) (Some [u_ll]) (Some [10;0;0;1]) (Some [10;0;0;2]) else u_ans id.
Definition u_move : world := check_interfaces (fun _ => u_conf 4000 2) u_defs u_ans2 u_route.
Definition u_look (w : world) := map (fun i => (if_up i, if_ifindex i, if_cost i, if_hello_interval i, if_update_interval i, if_cap i, if_ipv4 i)) (w_ifs w).
Example C70_ex : reach x_conf u_route /\
  u_look u_up = [(true, 4, 96, 4000, 16000, 1448, Some [10;0;0;1]); (false, 5, 96, 4000, 16000, 0, None)] /\
  map (fun r => r_neigh r) (all_routes u_route) = [1] /\
  u_look u_move = [(true, 4, 96, 4000, 16000, 1448, Some [10;0;0;2]); (false, 5, 96, 4000, 16000, 0, None)] /\
  all_routes u_move = [].
Proof. split; [apply u_route_reach|]. vm_compute. auto. Qed.

(** *** What the manual page says and the code does not do *)
(** The option -s has no effect: a wired interface has split horizon. *)
Theorem C70_option_s_refuted : ~ forall c w cf df ans id i', c_half_life c <> 2 -> reach c w -> (forall id, conf_valid (cf id)) -> opts_ok df ->
  df_no_split df = true -> given (cf id) 3 1 -> open (cf id) 4 ->
  get_if id (check_interfaces cf df ans w) = Some i' -> if_up i' = true -> flag i' IF_SPLIT_HORIZON = false.
Proof.
  intros H.
  assert (B : match get_if 1 (check_interfaces (fun _ => u_conf 4000 2) u_defs u_ans u_boot) with
              | Some i => if_up i && flag i IF_SPLIT_HORIZON | None => false end = true) by (vm_compute; reflexivity).
  destruct (get_if 1 (check_interfaces (fun _ => u_conf 4000 2) u_defs u_ans u_boot)) as [i|] eqn:E; [|discriminate B].
  apply andb_prop in B. destruct B as (U & B).
  assert (G : given (u_conf 4000 2) 3 1).
  { exists (mkIc [1] [4000; 0; 0; 1; 0; 0; 0; 2; 0; 0; 0; 0; 0; 0; 0; 0; 0] None). cbn. split; auto. split; [auto|lia]. }
  pose proof (H x_conf u_boot (fun _ => u_conf 4000 2) u_defs u_ans 1 i x_hl u_boot_reach
    (fun _ => u_valid 4000 2 ltac:(lia) ltac:(lia)) (u_opts _ _) eq_refl G eq_refl E U) as X.
  rewrite X in B. discriminate B.
Qed.
Print Assumptions C70_option_s_refuted.
(** "auto" never finds that an interface is wired: without "type wired" split horizon is
    off on an Ethernet. *)
Theorem C70_auto_wired_refuted : ~ forall c w cf df ans id i', c_half_life c <> 2 -> reach c w -> (forall id, conf_valid (cf id)) -> opts_ok df ->
  df_no_split df = false -> df_all_wireless df = false -> ka_wireless (ans id) = 0 -> open (cf id) 3 -> open (cf id) 4 ->
  get_if id (check_interfaces cf df ans w) = Some i' -> if_up i' = true -> flag i' IF_SPLIT_HORIZON = true.
Proof.
  intros H.
  assert (B : match get_if 1 (check_interfaces (fun _ => None) (mkDefs false (-1) (-1) false) u_ans u_boot) with
              | Some i => if_up i && negb (flag i IF_SPLIT_HORIZON) | None => false end = true) by (vm_compute; reflexivity).
  destruct (get_if 1 (check_interfaces (fun _ => None) (mkDefs false (-1) (-1) false) u_ans u_boot)) as [i|] eqn:E; [|discriminate B].
  apply andb_prop in B. destruct B as (U & B).
  pose proof (H x_conf u_boot (fun _ => None) (mkDefs false (-1) (-1) false) u_ans 1 i x_hl u_boot_reach
    (fun _ => Logic.I) (u_opts _ _) eq_refl eq_refl eq_refl Logic.I Logic.I E U) as X.
  rewrite X in B. discriminate B.
Qed.
Print Assumptions C70_auto_wired_refuted.
(** Interface 1 loses its carrier. *)
Definition u_nocarrier (_ : Z) : kans := mkAns 4 0 1 1500 0 true 1 (Some [u_ll]) (Some [u_ll]) None None.
Definition u_off : world := check_interfaces (fun _ => u_conf 4000 2) u_defs u_nocarrier u_up.
Lemma u_off_reach : reach x_conf u_off.
Proof.
  pose proof (C70_check x_conf u_up (fun _ => u_conf 4000 2) u_defs u_nocarrier x_hl u_up_reach
    (fun _ => u_valid 4000 2 ltac:(lia) ltac:(lia)) (u_opts _ _)) as H. cbv zeta in H. destruct H as (H & _). exact H.
Qed.
(** "unicast false" given while the interface exists does not take effect even when it
    comes up again. *)
Theorem C70_unicast_off_refuted : ~ forall c w cf df ans id i', c_half_life c <> 2 -> reach c w -> (forall id, conf_valid (cf id)) -> opts_ok df ->
  given (cf id) 7 1 -> (exists i, get_if id w = Some i /\ if_up i = false) ->
  get_if id (check_interfaces cf df ans w) = Some i' -> if_up i' = true -> flag i' IF_UNICAST = false.
Proof.
  intros H. pose proof u_off_reach as R0.
  assert (B0 : match get_if 1 u_off with Some i => negb (if_up i) | None => false end = true) by (vm_compute; reflexivity).
  assert (B : match get_if 1 (check_interfaces (fun _ => u_conf 4000 1) u_defs u_ans u_off) with
              | Some i => if_up i && flag i IF_UNICAST | None => false end = true) by (vm_compute; reflexivity).
  destruct (get_if 1 (check_interfaces (fun _ => u_conf 4000 1) u_defs u_ans u_off)) as [i|] eqn:E; [|discriminate B].
  apply andb_prop in B. destruct B as (U & B).
  assert (G : given (u_conf 4000 1) 7 1).
  { exists (mkIc [1] [4000; 0; 0; 1; 0; 0; 0; 1; 0; 0; 0; 0; 0; 0; 0; 0; 0] None). cbn. split; auto. split; [auto|lia]. }
  assert (D : exists i, get_if 1 u_off = Some i /\ if_up i = false).
  { destruct (get_if 1 u_off) as [j|]; [|discriminate B0]. exists j. split; auto. now apply negb_true_iff in B0. }
  pose proof (H x_conf u_off (fun _ => u_conf 4000 1) u_defs u_ans 1 i x_hl R0
    (fun _ => u_valid 4000 1 ltac:(lia) ltac:(lia)) (u_opts _ _) G D E U) as X.
  rewrite X in B. discriminate B.
Qed.
Print Assumptions C70_unicast_off_refuted.
(** The two lines that lead there. *)
Example C70_unicast_lines :
  let p1 := snd (from_string g_env (str "interface eth1 unicast true" ++ nl) (g_p true true)) in
  let p2 := snd (from_string g_env (str "interface eth1 unicast false" ++ nl) p1) in
  (map (fun ic => nth 7 (ic_vals ic) 0) (g_ifs (p_cfg p1)), map (fun ic => nth 7 (ic_vals ic) 0) (g_ifs (p_cfg p2))) = ([2], [1]).
Proof. vm_compute. reflexivity. Qed.

(** ** C71: announced intervals *)
(** A full update arms the timer of the next one, at most 5/4 of the interval ahead. *)
Lemma sched_update_timeout : forall ifp u w i, get_if ifp w = Some i ->
  exists i', get_if ifp (schedule_update_flush ifp u w) = Some i' /\ if_update_timeout i' = if_update_timeout i.
Proof.
  intros ifp u w i G. unfold schedule_update_flush. rewrite G. unfold update_jitter, set_timeout.
  destruct (rand w) as [r1 w1] eqn:R1. apply rand_rest in R1. destruct R1 as (_ & _ & I1).
  assert (G1 : get_if ifp w1 = Some i) by (unfold get_if in *; rewrite I1; exact G).
  destruct (_ && _); [eauto|]. destruct (rand w1) as [r2 w2] eqn:R2. apply rand_rest in R2. destruct R2 as (_ & _ & I2).
  assert (G2 : get_if ifp w2 = Some i) by (unfold get_if in *; rewrite I2; exact G1).
  eexists. split; [apply get_if_map; [reflexivity|exact G2]|]. reflexivity.
Qed.
Lemma wild_timeout : forall ifp u s w i, W [] w -> get_if ifp w = Some i -> if_up i = true -> tv_ok (w_now w) -> 0 <= if_update_interval i ->
  exists i', get_if ifp (send_update_wild ifp u s w) = Some i' /\ us (w_now w) <= us (if_update_timeout i') /\
    us (if_update_timeout i') <= us (w_now w) + 1250 * if_update_interval i.
Proof.
  intros ifp u s w i Hw G U T I. destruct (get_some _ _ _ G) as (_ & _ & K).
  pose proof (send_update_wild_frame ifp u s w (W_refs _ _ Hw) K) as F0.
  unfold send_update_wild. rewrite G, U. cbn [negb].
  pose proof (self_update_frame ifp w (W_refs _ _ Hw) K) as F1. set (w1 := send_self_update_if ifp w) in *.
  match goal with |- context[fold_left ?f ?l w1] => assert (F2 : frame w1 (fold_left f l w1)) end.
  { apply frame_fold. intros r w' _ F'. destruct (eqb _ s); [|apply frame_refl].
    apply buffer_update_frame.
    - eapply frame_refs; [exact F'|]. eapply frame_refs; [exact F1|apply (W_refs _ _ Hw)].
    - eapply frame_has_if; [exact F'|]. eapply frame_has_if; eauto. }
  set (w2 := fold_left _ _ w1) in *. pose proof (frame_trans _ _ _ F1 F2) as F.
  destruct (get_if_static ifp w w2 i (f_ifs _ _ F) G) as (i2 & G2 & _).
  unfold set_timeout. destruct (rand w2) as [r w3] eqn:R. apply rand_rest in R. destruct R as (R0 & _ & I3).
  assert (G3 : get_if ifp w3 = Some i2) by (unfold get_if in *; rewrite I3; exact G2).
  set (t := timeval_add_msec (w_now w2) (roughly (if_update_interval i) r)).
  pose proof (get_if_map ifp (fun x => set_if_last_update (sec w3) (set_if_update_timeout t x)) w3 i2 (fun x => eq_refl) G3) as G4.
  destruct (sched_update_timeout ifp u _ _ G4) as (i' & G' & E'). exists i'. split; [exact G'|].
  rewrite E'. cbn [if_update_timeout set_if_last_update set_if_update_timeout]. unfold t. rewrite (f_now _ _ F).
  pose proof (roughly_nonneg (if_update_interval i) r R0 I) as (Q1 & Q2).
  destruct (timeval_add_msec_us (w_now w) (roughly (if_update_interval i) r) T Q1) as (_ & ->). lia.
Qed.
Theorem C71_timer : forall c w ifp u i, c_half_life c <> 2 -> reach c w -> get_if ifp w = Some i -> if_up i = true ->
  tv_ok (w_now w) -> 0 <= if_update_interval i ->
  let w' := run1 (EvSendUpdate ifp u None) w in
  exists i', get_if ifp w' = Some i' /\ w_now w' = w_now w /\
    us (w_now w) <= us (if_update_timeout i') <= us (w_now w) + 1250 * if_update_interval i.
Proof.
  intros c w ifp u i H R G U T I. cbv zeta. cbn [run1]. destruct (reach_W c w H R) as (Hw & _). destruct (get_some _ _ _ G) as (_ & _ & K).
  pose proof (send_update_full_frame ifp u w (W_refs _ _ Hw) K) as F. unfold send_update_full in *. rewrite G, U in *. cbn [negb] in *.
  pose proof (send_update_wild_frame ifp u false w (W_refs _ _ Hw) K) as F1.
  destruct (get_if_static ifp w _ i (f_ifs _ _ F1) G) as (i1 & G1 & E1).
  assert (U1 : if_up i1 = true) by (apply (f_equal if_up) in E1; change (if_up i1 = if_up i) in E1; congruence).
  assert (I1 : if_update_interval i1 = if_update_interval i) by (apply (f_equal if_update_interval) in E1; exact E1).
  destruct (wild_timeout ifp u true (send_update_wild ifp u false w) i1 (W_frame [] w _ F1 Hw) G1 U1) as (i2 & G2 & A & B).
  { rewrite (f_now _ _ F1). exact T. }
  { lia. }
  destruct (sched_update_timeout ifp u _ _ G2) as (i3 & G3 & E3). exists i3. split; [exact G3|]. split; [apply F|].
  rewrite E3, <- I1. rewrite (f_now _ _ F1) in A, B. auto.
Qed.
Print Assumptions C71_timer.

Lemma hold_two : forall u D, 1 <= u <= 655344 -> 4000 * (D - 1) <= 3 * (5 * u) ->
  8 * D <= 7 * Z.max (4 * u16 ((u + 5) / 10) / 100 + u16 ((u + 5) / 10) / 50) 15.
Proof. intros u D H HD. unfold u16. rewrite (Z.mod_small ((u + 5) / 10)) by lia. lia. Qed.
Lemma hold_three : forall u D, 11000 <= u <= 655344 -> 4000 * (D - 1) <= 4 * (5 * u) ->
  8 * D <= 7 * Z.max (4 * u16 ((u + 5) / 10) / 100 + u16 ((u + 5) / 10) / 50) 15.
Proof. intros u D H HD. unfold u16. rewrite (Z.mod_small ((u + 5) / 10)) by lia. lia. Qed.

(** A router announces a route on an interface with an update interval of at most 655.344 s;
    the router that records it keeps it through its expiration passes for as long as three
    times the longest time to the next update (four times from 11 s on) plus the second
    that the clock may lose: two (three) lost updates in a row do no harm. *)
Theorem C71_survives : forall cs ws ifp i b id d q m iv, c_half_life cs <> 2 -> reach cs ws -> get_if ifp ws = Some i ->
  Forall dvalid (if_pend i) -> if_up i = true -> 1 <= if_update_interval i <= 655344 ->
  added ifp ws (b, TUpdate id d q m iv) -> m < 65535 ->
  forall c w n nh nb nif add a, c_half_life c <> 2 -> reach c w -> allowed (EvUpdate (Some id) d q m iv n nh) w ->
  Forall filt_ok (c_infs c) -> dest_ok d -> In nb (w_nbs w) -> n_id nb = n -> In nif (w_ifs w) -> if_id nif = n_if nb ->
  id <> c_myid c -> martian_prefix (d_prefix d) (d_plen d) = false -> martian_prefix (d_src d) (d_splen d) = false ->
  v4mapped (d_prefix d) = v4mapped (d_src d) ->
  chain_spec 0 (c_infs c) (Some id) d (Some (n_addr nb)) (if_ifindex nif) 0 add a -> add < 65535 ->
  forall r, In r (all_routes (run1 (EvUpdate (Some id) d q m iv n nh) w)) -> dest_of r = d -> r_neigh r = n ->
  forall w2 r2 k, reach c w2 -> In r2 (all_routes w2) -> r_time r2 = r_time r -> r_hold_time r2 = r_hold_time r -> now_s w <= now_s w2 ->
  (k = 3 \/ (k = 4 /\ 11000 <= if_update_interval i)) -> 4000 * (now_s w2 - now_s w - 1) <= k * (5 * if_update_interval i) ->
  exists r', In r' (all_routes (run1 EvExpireRoutes w2)) /\ dest_of r' = dest_of r2 /\ r_src r' = r_src r2 /\
    r_neigh r' = r_neigh r2 /\ r_nexthop r' = r_nexthop r2 /\ r_time r' = r_time r2 /\ r_hold_time r' = r_hold_time r2.
Proof.
  intros cs ws ifp i b id d q m iv Hs Rs Gs V U Iu Ad Hm c w n nh nb nif add a H R Al Fi Dk Nb En Nif Ei Nid M1 M2 V4 Ch La
    r Hr Ed Er w2 r2 k R2 Hr2 Et Eh Nw Hk HD.
  destruct (added_told cs ws ifp i _ Hs Rs Gs V U Ad) as (d' & A & _ & T & HA).
  assert (Eiv : iv = u16 ((if_update_interval i + 5) / 10)).
  { destruct T as [|id' q' m' S X|id' q' m' ad bs S X1 X2 X3 X4]; [destruct HA|destruct HA|].
    apply in_map_iff in HA. destruct HA as (x & Ex & _). injection Ex as _ _ _ _ _ ->. reflexivity. }
  pose proof (C59_update_recorded c w (Some id) d q m iv n nh nb nif add a H R Al Fi Dk Nb En Nif Ei) as Rec.
  assert (Nid' : Some id <> Some (c_myid c)) by congruence. specialize (Rec Nid' ltac:(discriminate) M1 M2 V4 Ch La).
  destruct Rec as (_ & _ & _ & Rec). destruct (Rec r Hr (conj Ed Er)) as (_ & _ & Tm & Ho & _).
  apply C33_kept with (c := c); auto.
  - rewrite Et, Tm by auto. exact Nw.
  - rewrite Et, Eh, Tm, Ho, Eiv by auto. destruct Hk as [->|(-> & L)]; [apply hold_two; lia|apply hold_three; lia].
Qed.
Print Assumptions C71_survives.

(** Not for longer intervals: with "hello-interval 164" and no update-interval, updates are
    sent every 492 to 820 seconds and announced for every 0.64 s, so that a route is
    dropped 15 seconds after each of them. *)
Theorem C71_long_interval_refuted : exists c w i w1 i1, c_half_life c <> 2 /\ reach c w /\
  w = check_interfaces (fun _ => u_conf 164000 0) u_defs u_ans u_boot /\ get_if 1 w = Some i /\ if_up i = true /\
  w1 = run1 (EvSendUpdate 1 false None) w /\ get_if 1 w1 = Some i1 /\ us (w_now w) + 492 * 1000000 <= us (if_update_timeout i1) /\
  (forall d b id q m iv, told w i d [(b, TUpdate id d q m iv)] -> iv = 64 /\ Z.max (4 * iv / 100 + iv / 50) 15 = 15).
Proof.
  set (wx := check_interfaces (fun _ => u_conf 164000 0) u_defs u_ans u_boot).
  assert (B : match get_if 1 wx with Some i => if_up i && (if_update_interval i =? 656000) | None => false end = true) by (vm_compute; reflexivity).
  assert (B1 : match get_if 1 (run1 (EvSendUpdate 1 false None) wx) with
               | Some i => us (w_now wx) + 492 * 1000000 <=? us (if_update_timeout i) | None => false end = true) by (vm_compute; reflexivity).
  destruct (get_if 1 wx) as [i|] eqn:E; [|discriminate B]. apply andb_prop in B. destruct B as (U & B). apply Z.eqb_eq in B.
  destruct (get_if 1 (run1 (EvSendUpdate 1 false None) wx)) as [i1|] eqn:E1; [|discriminate B1]. apply Z.leb_le in B1.
  exists x_conf, wx, i, (run1 (EvSendUpdate 1 false None) wx), i1. split; [apply x_hl|]. split.
  { pose proof (C70_check x_conf u_boot (fun _ => u_conf 164000 0) u_defs u_ans x_hl u_boot_reach
      (fun _ => u_valid 164000 0 ltac:(lia) ltac:(lia)) (u_opts _ _)) as H. cbv zeta in H. destruct H as (H & _). exact H. }
  split; [reflexivity|]. split; [exact E|]. split; [exact U|]. split; [reflexivity|]. split; [exact E1|]. split; [exact B1|].
  intros d b id q m iv T. inversion T as [|? ? ? S X|id' q' m' ad bs S X1 X2 X3 X4 Q].
  destruct bs as [|b0 [|? ?]]; try discriminate Q. injection Q as _ _ _ _ Q. rewrite B in Q. subst iv. split; reflexivity.
Qed.
Print Assumptions C71_long_interval_refuted.
(** The update that C44_ex announces (every 1.6 s, 160 centiseconds) is recorded with hold
    time 15 and survives seven seconds. *)
Example C71_ex : (exists i, get_if 1 f_w = Some i /\ if_update_interval i = 1600) /\
  added 1 f_w (BIf 1, TUpdate (x_id 7) (xd 1) 40 228 160) /\
  let ev := EvUpdate (Some (x_id 7)) (xd 1) 40 228 160 2 (x_nh 52) in
  let w1 := run1 ev x_w2 in
  let w2 := run1 (EvClock (mkTv (now_s x_w2 + 7) 0)) w1 in
  allowed ev x_w2 /\ x_id 7 <> c_myid x_conf /\ 4000 * (now_s w2 - now_s x_w2 - 1) <= 3 * (5 * 1600) /\
  map (fun r => (r_neigh r, r_hold_time r)) (filter (fun r => dest_eqb (dest_of r) (xd 1) && (r_neigh r =? 2)) (all_routes w1)) = [(2, 15)] /\
  map (fun r => (r_neigh r, r_hold_time r)) (filter (fun r => dest_eqb (dest_of r) (xd 1) && (r_neigh r =? 2)) (all_routes (run1 EvExpireRoutes w2))) = [(2, 15)].
Proof.
  split.
  { assert (B : match get_if 1 f_w with Some i => if_update_interval i =? 1600 | None => false end = true) by (vm_compute; reflexivity).
    destruct (get_if 1 f_w) as [i|]; [|discriminate B]. exists i. split; auto. now apply Z.eqb_eq. }
  split; [apply C44_ex|]. cbv zeta. split; [apply allowedb_ok; vm_compute; reflexivity|]. split; [discriminate|].
  split; [vm_compute; discriminate|]. split; vm_compute; reflexivity.
Qed.

(** P_Packet.v: datagrams and the whole state (C16, C32, C66). *)
From Verif Require Import Base M_Util M_Source M_Filter M_Types M_Neigh M_State M_Table M_Msg M_Route M_Xroute M_Daemon M_Wire M_Auth M_Packet M_Buf.
From Verif Require Import S_Util S_Source S_Neigh S_World S_Wire S_Auth S_Packet S_Buf L_Table L_Step L_Daemon L_Inv L_World L_Wire2 L_Packet L_Packet2 L_Packet3 L_Packet4 X_Run.
From Verif Require P_Buf P_Auth.
From Coq Require Import Bool.
Import M_Daemon.

(** ** C66: whatever datagrams arrive, of whatever contents and from whatever addresses,
    between whatever other events: each is processed to the end, without reading outside
    of it, and the state stays one of those that the theorems about executions speak of. *)
Theorem C66_datagrams : forall key mac port v46 keys c w, c_half_life c <> 2 -> preach key mac port v46 keys c w ->
  reach c w /\ w_bad w = false /\
  forall g clk rnd, Z.of_nat (length (w_nbs w)) < 64999 ->
    addr_ok (g_from g) -> bytes_ok (g_data g) -> 4 <= zlen (g_data g) -> Forall tv_ok clk ->
    exists w', receive key mac port v46 keys g clk rnd w = Ret w' /\ preach key mac port v46 keys c w'.
Proof.
  intros key mac port v46 keys c w Hc P. pose proof (preach_reach c Hc key mac port v46 keys w P) as R.
  split; [exact R|]. split; [apply (W_bad _ _ (proj1 (reach_W c w Hc R)))|].
  intros g clk rnd L A B Lp T. destruct (receive_reach c Hc key mac port v46 keys g clk rnd w R L A B Lp T) as (w' & E & _).
  exists w'. split; [exact E|]. eapply preach_recv; eauto.
Qed.
Print Assumptions C66_datagrams.

(** A neighbour comes up by its datagrams alone: two Hellos and an IHU, then an update;
    a truncated datagram and one from another address change nothing. *)
Definition y_keys : Z -> option unit := fun _ => None.
Definition y_mac (k : unit) (m : list Z) : option (list Z) := None.
Definition y_lls : list (list Z) := if_ll (x_if 1).
Definition y_g (pkt : list Z) : datagram := mkDg P_Buf.x_ll 101 P_Auth.x_dst pkt.
Definition y_recv (pkt : list Z) (w : world) : world :=
  match receive unit y_mac [26;41] true y_keys (y_g pkt) [] [] w with Ret w' => w' | _ => w end.
Definition y_head (b : list Z) : list Z := [42; 2] ++ be16 (zlen b) ++ b.
Definition y_hello (q : Z) : list Z := [4; 6; 0; 0] ++ be16 q ++ [1; 144].
Definition y_p1 : list Z := y_head (y_hello 7).
Definition y_p2 : list Z := y_head (y_hello 8 ++ [5; 14; 3; 0; 0; 96; 4; 176] ++ [0;0;0;0;0;0;0;1]).
(** Router-id, next hop and an update for 10.3.0.0/16 *)
Definition y_p3 : list Z := y_head ([6; 10; 0; 0; 9; 9; 9; 9; 9; 9; 9; 9] ++ [7; 6; 1; 0; 192; 168; 0; 9] ++
  [8; 12; 1; 0; 16; 0; 6; 64; 0; 5; 0; 100; 10; 3]).
Definition y_w1 : world := y_recv y_p3 (y_recv y_p2 (y_recv y_p1 x_boot)).
Lemma y_step : forall pkt w, preach unit y_mac [26;41] true y_keys x_conf w -> Z.of_nat (length (w_nbs w)) < 64999 ->
  bytes_ok pkt -> 4 <= zlen pkt -> preach unit y_mac [26;41] true y_keys x_conf (y_recv pkt w).
Proof.
  intros pkt w P L B Lp. destruct (C66_datagrams unit y_mac [26;41] true y_keys x_conf w x_hl P) as (_ & _ & H).
  destruct (H (y_g pkt) [] [] L P_Buf.x_from B Lp (Forall_nil _)) as (w' & E & P'). unfold y_recv. rewrite E. exact P'.
Qed.
Lemma y_boot : preach unit y_mac [26;41] true y_keys x_conf x_boot.
Proof. apply preach_boot; [repeat constructor; simpl; lia| |unfold tv_ok; simpl; lia|lia]. repeat constructor; simpl; lia. Qed.
Example C66_ex : preach unit y_mac [26;41] true y_keys x_conf y_w1 /\
  map (fun r => (d_prefix (dest_of r), r_refmetric r, r_cost r, r_installed r, r_nexthop r)) (all_routes y_w1) =
    [(mapped 10 3 0 0, 100, 96, true, mapped 192 168 0 9)].
Proof.
  split; [|vm_compute; reflexivity]. unfold y_w1.
  repeat (apply y_step; [|vm_compute; reflexivity|apply P_Buf.x_bytes; reflexivity|vm_compute; discriminate]). exact y_boot.
Qed.

(** ** C16 *)
Theorem C16_datagram : forall key mac port v46 keys c i g clk rnd w k, c_half_life c <> 2 -> reach c w ->
  receiver g w = Some i -> keys (if_id i) = Some k -> flag i IF_ACCEPT_BAD_SIGNATURES = false ->
  addr_ok (g_from g) -> bytes_ok (g_data g) -> 4 <= zlen (g_data g) ->
  exists w', receive key mac port v46 keys g clk rnd w = Ret w' /\
  (~ signed mac k port (g_from g) (g_to g) (g_data g) -> only_clock w w') /\
  (~ (signed mac k port (g_from g) (g_to g) (g_data g) /\
      counter_ok (at_ (g_to g) 0 =? 255) (match nb_at (g_from g) (if_id i) w with Some nb => n_pc nb | None => new_pc end)
       (w_now w :: clk) (body (g_data g))) -> quiet (g_from g) (if_id i) w w').
Proof. intros. eapply receive_authentic; eauto. Qed.
Print Assumptions C16_datagram.

(** A datagram signed with the key, of an unknown counter, makes the sender a neighbour to
    whom a challenge is sent; with another key it does not even do that. *)
Definition z_keys (i : Z) : option (list Z) := if i =? 1 then Some [1;2;3] else None.
Definition z_g (pkt : list Z) : datagram := mkDg P_Auth.x_src 101 P_Auth.x_dst pkt.
Definition z_recv (pkt : list Z) : world :=
  match receive (list Z) P_Auth.x_mac P_Auth.x_port true z_keys (z_g pkt) [] [Some [7;7;7;7;7;7;7;7]] x_w2 with Ret w' => w' | _ => x_boot end.
Definition z_sum (w : world) := (map (fun n => (n_addr n, n_if n, pc_index (n_pc n))) (w_nbs w), length (all_routes w), length (w_srcs w)).
Example C16_ex : reach x_conf x_w2 /\ option_map if_id (receiver (z_g (P_Auth.x_sign P_Auth.x_p7)) x_w2) = Some 1 /\
  z_sum x_w2 = ([(x_addr 52, 2, None); (x_addr 51, 1, None)], 3%nat, 2%nat) /\
  z_sum (z_recv (P_Auth.x_sign P_Auth.x_p7)) = ([(P_Auth.x_src, 1, None); (x_addr 52, 2, None); (x_addr 51, 1, None)], 3%nat, 2%nat) /\
  z_sum (z_recv (P_Auth.x_p7 ++ [16;4;1;2;3;4])) = z_sum x_w2.
Proof. split; [apply x_reach2|]. vm_compute. do 2 (split; [reflexivity|]). split; reflexivity. Qed.

(** ** C32: the retraction at shutdown.  At its end (babeld.c:794-806) the daemon
    puts a wildcard retraction in the buffer of each interface which is up and is not configured for
    unicast, *)
Theorem C32_retraction_buffered : forall c w i, c_half_life c <> 2 -> reach c w -> In i (w_ifs w) -> if_up i = true -> flag i IF_UNICAST = false ->
  w_out (run1 (EvWildRetraction (if_id i)) w) = w_out w ++ [(BIf (if_id i), TWildRetract (w_seqno w))].
Proof.
  intros c w i Hc R Hi U Fl. cbn [run1]. unfold send_wildcard_retraction. rewrite (get_if_In c Hc w i R Hi), U. cbn [negb].
  unfold buffers. rewrite Fl. reflexivity.
Qed.
Print Assumptions C32_retraction_buffered.

(** then a Hello, and flushes the buffer.  Whatever was sent on the interface before
    ([l]), one of the datagrams sent is such that a neighbour which hears it (and anything before,
    and of what is sent after it any part in any order) has, at the end, only retracted routes
    of ours, unless its kernel refused a change. *)
Theorem C32_neighbours_retract : forall key mac (v : benv key) cx s l q,
  env_ok key mac v -> addr_ok (r_from cx) -> linklocal (r_from cx) = true -> start_ok key v s ->
  Forall (op_ok (has_key v)) l -> 0 <= q < 65536 ->
  exists before p after, e_sent (bsteps key mac v s (l ++ [BWild q; BHello false 10 true] ++ [BFlush])) = before ++ p :: after /\
  forall key' mac' port (keys : Z -> option key') ifid c w h1 h2 w', c_half_life c <> 2 -> reach c w -> keys ifid = None ->
    Forall (fun d => In d after) h2 ->
    hears key' mac' port keys cx ifid w (h1 ++ p :: h2) w' ->
    lowat (r_from cx) ifid w' \/ krefused w w'.
Proof.
  intros key mac v cx s l q V A L St O Q.
  assert (O' : Forall (op_ok (has_key v)) (l ++ [BWild q; BHello false 10 true])).
  { apply Forall_app. split; [exact O|]. repeat constructor; cbn; try lia. }
  pose proof (P_Buf.C09_updates key mac v cx s _ V A L St O') as D. rewrite <- app_assoc in D.
  rewrite wanted_wild in D. set (out := e_sent _) in *. clearbody out.
  destruct (last_withdraw cx out _ D) as (before & p & after & acts & x & y & -> & P & -> & Hy & Ha).
  exists before, p, after. split; [reflexivity|]. intros key' mac' port keys ifid c w h1 h2 w' Hc R K F H.
  apply (hears_retracted c Hc key' mac' port keys cx ifid K w (h1 ++ p :: h2) w' (decoded cx h1 ++ x) (y ++ decoded cx h2) H R).
  - unfold decoded. rewrite flat_map_app. cbn [flat_map]. rewrite P. rewrite <- !app_assoc. reflexivity.
  - rewrite existsb_app. apply orb_false_iff. split; [exact Hy|]. apply decoded_sub with (1 := F) (2 := Ha).
Qed.
Print Assumptions C32_neighbours_retract.

(** A neighbour that hears it all: the metrics announced before and after the shutdown *)
Definition y_cx : rctx := mkR P_Buf.x_ll y_lls true.
Definition y_v : benv unit := P_Buf.x_v None.
Definition y_ops : list bop := [BHello false 400 true; BIhu 96 1200 (x_addr 1) None; BFlush; BHello false 400 true; BFlush;
  BUpdate P_Buf.x_id P_Buf.x_p6 5 100 1600; BUpdate P_Buf.x_id P_Buf.x_p4 7 300 1600; BFlush; BUpdate P_Buf.x_id P_Buf.x_p4 8 310 1600].
Definition y_sent (l : list bop) : list (list Z) := e_sent (bsteps unit y_mac y_v P_Buf.x_s l).
Definition y_out : list (list Z) := y_sent (y_ops ++ [BWild 9; BHello false 10 true] ++ [BFlush]).
Definition y_end : world := fold_left (fun w p => y_recv p w) y_out x_boot.
Definition y_rt (w : world) := map (fun r => (d_prefix (dest_of r), r_refmetric r, r_installed r)) (all_routes w).
Lemma y_hears : forall l w, reach x_conf w -> Forall (fun p => bytes_ok p /\ 4 <= zlen p) l ->
  (forall k, let w' := fold_left (fun w p => y_recv p w) (firstn k l) w in
     Z.of_nat (length (w_nbs w')) < 64999 /\ exists i, receiver (y_g []) w' = Some i /\ if_id i = 1 /\ if_ll i = y_lls) ->
  hears unit y_mac [26;41] y_keys y_cx 1 w l (fold_left (fun w p => y_recv p w) l w).
Proof.
  induction l as [|p l IH]; intros w R F H; [apply hears_end|]. inversion F as [|? ? (B & L) Fl]; subst.
  destruct (H 0%nat) as (Ln & i & Hi & Ei & El).
  destruct (receive_reach x_conf x_hl unit y_mac [26;41] true y_keys (y_g p) [] [] w R Ln P_Buf.x_from B L (Forall_nil _)) as (w1 & E & R1).
  assert (Ey : y_recv p w = w1) by (unfold y_recv; rewrite E; reflexivity).
  change p with (g_data (y_g p)) at 1. eapply hears_own with (g := y_g p) (clk := []) (rnd := []) (w1 := w1) (i := i); auto.
  - split; [exact Ln|]. split; [exact P_Buf.x_from|]. split; [exact B|]. split; [exact L|constructor].
  - cbn [fold_left]. rewrite Ey. apply IH; auto. intros k. specialize (H (S k)). cbn [firstn fold_left] in H. rewrite Ey in H. exact H.
Qed.
Definition y_okb (w : world) : bool :=
  (Z.of_nat (length (w_nbs w)) <? 64999) &&
  match receiver (y_g []) w with
  | Some i => (if_id i =? 1) && match if_ll i with [a] => beq a (x_addr 1) | _ => false end
  | None => false
  end.
Lemma y_okb_ok : forall w, y_okb w = true ->
  Z.of_nat (length (w_nbs w)) < 64999 /\ exists i, receiver (y_g []) w = Some i /\ if_id i = 1 /\ if_ll i = y_lls.
Proof.
  intros w H. apply andb_prop in H. destruct H as (H1 & H2). split; [lia|]. destruct (receiver _ w) as [i|]; [|discriminate].
  exists i. apply andb_prop in H2. destruct H2 as (H2 & H3). split; [reflexivity|]. split; [lia|].
  destruct (if_ll i) as [|a [|? ?]]; try discriminate. apply beq_true in H3. rewrite H3. reflexivity.
Qed.
Example C32_neighbours_ex : hears unit y_mac [26;41] y_keys y_cx 1 x_boot y_out y_end /\ length y_out = 4%nat /\
  y_rt (fold_left (fun w p => y_recv p w) (firstn 3 y_out) x_boot) = [(d_prefix P_Buf.x_p4, 300, true); (d_prefix P_Buf.x_p6, 100, true)] /\
  y_rt y_end = [(d_prefix P_Buf.x_p4, 65535, true); (d_prefix P_Buf.x_p6, 65535, true)].
Proof.
  assert (El : length y_out = 4%nat) by (vm_compute; reflexivity).
  split; [|split; [exact El|split; vm_compute; reflexivity]]. apply y_hears.
  - apply (preach_reach x_conf x_hl unit y_mac [26;41] true y_keys _ y_boot).
  - assert (X : forallb (fun p => forallb (fun x => (0 <=? x) && (x <=? 255)) p && (4 <=? zlen p)) y_out = true) by (vm_compute; reflexivity).
    rewrite forallb_forall in X. apply Forall_forall. intros p Hp. apply X in Hp. apply andb_prop in Hp. destruct Hp as (H1 & H2).
    split; [apply P_Buf.x_bytes, H1|lia].
  - assert (X : forallb (fun k => y_okb (fold_left (fun w p => y_recv p w) (firstn k y_out) x_boot)) (seq 0 5) = true) by (vm_compute; reflexivity).
    rewrite forallb_forall in X. intros k. cbv zeta. apply y_okb_ok. destruct (Nat.le_gt_cases k 4) as [K|K].
    + apply X, in_seq. lia.
    + rewrite firstn_all2 by lia. specialize (X 4%nat). rewrite firstn_all2 in X by lia. apply X, in_seq. lia.
Qed.

(** On an interface configured for unicast the retraction is put in the buffers of the
    neighbours, and nothing flushes these before the exit: none is sent. *)
Theorem C32_unicast_refuted : exists c w i r, c_half_life c <> 2 /\ reach c w /\ In i (w_ifs w) /\ if_up i = true /\
  In r (w_nbs w) /\ n_if r = if_id i /\
  let w' := run1 (EvWildRetraction (if_id i)) w in
  (exists q, In (BNb (n_id r), TWildRetract q) (w_out w')) /\
  forall q, ~ In (BIf (if_id i), TWildRetract q) (w_out w').
Proof.
  set (i := set_if_flags (Z.lor IF_UP IF_UNICAST) (x_if 1)).
  set (w := run [EvNeighbour (x_addr 51) 1] (boot x_conf (mkTv 1000 0) [i] 17)).
  exists x_conf, w, i, (new_neigh (mkTv 1000 0) 1 (x_addr 51) 1). split; [apply x_hl|]. split.
  { apply reach_run; [|apply allowedb_ok; reflexivity].
    apply reach_boot; [repeat constructor; simpl; lia| |unfold tv_ok; simpl; lia|unfold u16_ok; simpl; lia]. repeat constructor; simpl; lia. }
  split; [left; reflexivity|]. split; [reflexivity|]. split; [left; reflexivity|]. split; [reflexivity|]. cbv zeta.
  assert (E : w_out (run1 (EvWildRetraction (if_id i)) w) = [(BNb 1, TWildRetract 17)]) by (vm_compute; reflexivity). rewrite E. split.
  - exists 17. left. reflexivity.
  - intros q [H|[]]. discriminate H.
Qed.
Print Assumptions C32_unicast_refuted.

(** L_Packet.v: the arrival of a datagram as a step of the daemon. *)
From Verif Require Import Base M_Util M_Source M_Filter M_Types M_Neigh M_State M_Table M_Msg M_Route M_Xroute M_Daemon M_Wire M_Auth M_Packet.
From Verif Require Import S_Util S_Source S_Neigh S_World S_Wire S_Auth L_Util L_Neigh L_Table L_Step L_Daemon L_Inv L_Wire L_Wire2 L_Auth L_Auth2 L_Auth3 L_Codec L_Nbs.
From Coq Require Import Bool.
Import M_Daemon.

(** ** Updates whose source prefix is not in the form of the tables *)
Lemma def_src p n : prefix_ok p n -> is_default p n = true -> (n = 0 /\ p = zeroes 16) \/ (n = 96 /\ p = v4prefix).
Proof.
  intros ((L & B) & N & E) D. unfold is_default in D. apply orb_true_iff in D. destruct D as [D|D].
  - left. assert (n = 0) as -> by lia. split; [reflexivity|]. rewrite <- E.
    destruct p as [|a0 [|a1 [|a2 [|a3 [|a4 [|a5 [|a6 [|a7 [|a8 [|a9 [|a10 [|a11 [|a12 [|a13 [|a14 [|a15 [|]]]]]]]]]]]]]]]]]; try discriminate.
    reflexivity.
  - right. apply andb_true_iff in D. destruct D as [D1 D2]. assert (n = 96) as -> by lia. split; [reflexivity|].
    apply norm_v4prefix; [repeat split; auto; lia|exact D2].
Qed.
Lemma upd_family d w id q m iv n nh : v4mapped (d_prefix d) <> v4mapped (d_src d) -> update_route id d q m iv n nh w = w.
Proof.
  intros H. unfold update_route. cbv zeta. destruct (match id with None => _ | Some i => _ end); [reflexivity|].
  destruct (_ || _); [reflexivity|].
  destruct (eqb (v4mapped (d_prefix d)) (v4mapped (d_src d))) eqn:E; [apply eqb_prop in E; contradiction|reflexivity].
Qed.
Lemma dest_cases d : dest_ok d -> dvalid d \/ v4mapped (d_prefix d) <> v4mapped (d_src d).
Proof.
  intros (_ & S). destruct (is_default (d_src d) (d_splen d)) eqn:D; [|left; intros X; congruence].
  destruct (def_src _ _ S D) as [(E1 & E2)|(E1 & E2)]; destruct (v4mapped (d_prefix d)) eqn:V.
  - right. rewrite E2. discriminate.
  - left. intros _. rewrite V. congruence.
  - left. intros _. rewrite V. congruence.
  - right. rewrite E2. discriminate.
Qed.

(** ** Actions *)
Lemma nbk_eq w w' : w_nbs w' = w_nbs w -> nbk w' = nbk w.
Proof. unfold nbk. intros ->. reflexivity. Qed.
Lemma nbk_on_nb n f w : (forall nb, n_id (fst (f nb)) = n_id nb /\ n_addr (fst (f nb)) = n_addr nb /\ n_if (fst (f nb)) = n_if nb) ->
  NoDup (map n_id (w_nbs w)) -> nbk (on_nb n f w) = nbk w.
Proof.
  intros H Nd. unfold on_nb. destruct (get_nb n w) as [nb|] eqn:G; [|reflexivity]. specialize (H nb).
  destruct (f nb) as [nb' ch]. cbn [fst] in H.
  rewrite (nbk_eq (map_nb n (fun _ => nb') w) _) by apply nk_unm. apply nbk_map. intros x Hx Ex.
  apply find_some in G. destruct G as (G & Eg).
  assert (x = nb) as -> by (eapply NoDup_map_inj; [exact Nd|auto|auto|lia]). exact H.
Qed.

Lemma act_nbk n a w : NoDup (map n_id (w_nbs w)) -> nbk (run (act_events n a) w) = nbk w.
Proof.
  intros Nd. destruct a; cbn [act_events run fold_left]; try reflexivity.
  - assert (H : nbk (run1 (EvHello n unicast seqno interval) w) = nbk w).
    { cbn [run1]. unfold recv_hello. apply nbk_on_nb; [|exact Nd]. intros nb. destruct unicast; destruct (update_hist _ _ _ _); auto. }
    destruct timestamp; cbn [fold_left]; [|exact H]. rewrite <- H. cbn [run1]. apply nbk_map. auto.
  - cbn [run1]. unfold recv_ihu. apply nbk_on_nb; [|exact Nd]. auto.
  - apply nbk_eq, nk_rnr.
  - apply nbk_eq, nk_update.
  - apply nbk_eq, nk_recv_request.
  - apply nbk_eq, nk_request.
  - cbn [run1]. unfold recv_rtt. destruct (nb_if n w) as [[nb i]|] eqn:N; [|reflexivity].
    destruct (rtt_sample _ _ _); [|reflexivity]. cbv zeta.
    match goal with |- nbk (map_nb n _ (update_neighbour_metric n ?ch (map_nb n (fun _ => ?x) w))) = _ => set (nb1 := x); set (c := ch) end.
    assert (H : nbk (map_nb n (fun _ => nb1) w) = nbk w).
    { apply nbk_map. intros x Hx Ex. unfold nb_if in N. destruct (get_nb n w) as [y|] eqn:G; [|discriminate].
      destruct (get_if _ _); [|discriminate]. injection N as -> <-. apply find_some in G. destruct G as (G & Eg).
      assert (x = nb) as -> by (eapply NoDup_map_inj; [exact Nd|auto|auto|lia]). auto. }
    rewrite nbk_map by auto. rewrite <- H. apply nbk_eq, nk_unm.
Qed.
Lemma known_nbk n w w' : nbk w' = nbk w -> known_nb n w -> known_nb n w'.
Proof.
  unfold known_nb, nbk. intros E H. assert (X : map n_id (w_nbs w') = map n_id (w_nbs w)); [|rewrite X; exact H].
  apply (f_equal (map (fun x => fst (fst x)))) in E. rewrite !map_map in E. exact E.
Qed.
Lemma u16b_ok x : u16b x -> u16_ok x. Proof. auto. Qed.

Section Reach.
Variable c : conf.
Hypothesis Hc : c_half_life c <> 2.

Lemma reach_nodup w : reach c w -> NoDup (map n_id (w_nbs w)).
Proof. intros R. apply (W_nbs [] w). apply (reach_W c); auto. Qed.
Lemma act_reach n a w : reach c w -> known_nb n w -> act_ok a -> reach c (run (act_events n a) w).
Proof.
  intros R K A. destruct a; cbn [act_events run fold_left act_ok] in *.
  - exact R.
  - destruct A as (A1 & A2 & A3).
    assert (R1 : reach c (run1 (EvHello n unicast seqno interval) w)) by (apply reach_run; [exact R|split; [exact K|split; assumption]]).
    destruct timestamp; cbn [fold_left]; [|exact R1]. apply reach_run; [exact R1|exact Logic.I].
  - apply reach_run; [exact R|]. destruct A. split; [exact K|split; assumption].
  - apply reach_run; [exact R|exact Logic.I].
  - destruct A as (_ & D & Q & M & _). destruct (dest_cases d D) as [V|V].
    + apply reach_run; [exact R|]. split; [exact K|]. split; [exact V|split; assumption].
    + cbn [run1]. rewrite upd_family by exact V. exact R.
  - apply reach_run; [exact R|exact K].
  - apply reach_run; [exact R|exact K].
  - apply reach_run; [exact R|exact K].
Qed.
Lemma acts_reach n acts : forall w, reach c w -> known_nb n w -> Forall act_ok acts ->
  reach c (run (flat_map (act_events n) acts) w) /\ nbk (run (flat_map (act_events n) acts) w) = nbk w.
Proof.
  induction acts as [|a acts IH]; intros w R K F; [split; [exact R|reflexivity]|]. inversion F as [|? ? Fa Fl]; subst.
  cbn [flat_map]. unfold run. rewrite fold_left_app. fold (run (act_events n a) w).
  pose proof (act_nbk n a w (reach_nodup w R)) as E.
  destruct (IH (run (act_events n a) w) (act_reach n a w R K Fa) (known_nbk _ _ _ E K) Fl) as (R1 & E1).
  split; [exact R1|]. unfold run in *. rewrite E1. exact E.
Qed.

(** ** The neighbour *)
Lemma nb_at_found a i w : match nb_at a i w with
  | Some nb => run1 (EvNeighbour a i) w = w /\ In nb (w_nbs w) /\ n_addr nb = a /\ n_if nb = i
  | None => run1 (EvNeighbour a i) w = set_w_nbs (new_neigh (w_now w) (fresh_nb w) a i :: w_nbs w) w
  end.
Proof.
  unfold nb_at. cbn [run1]. unfold find_neighbour. destruct (find _ _) as [nb|] eqn:F.
  - pose proof (find_some _ _ F) as (F1 & F2). split.
    + assert (X : existsb (fun n => beq a (n_addr n) && (n_if n =? i)) (w_nbs w) = true) by (apply existsb_exists; eauto).
      rewrite X. reflexivity.
    + split; [exact F1|]. apply andb_true_iff in F2. destruct F2 as (F2 & F3). apply beq_true in F2. split; [auto|lia].
  - assert (X : existsb (fun n => beq a (n_addr n) && (n_if n =? i)) (w_nbs w) = false).
    { apply not_true_is_false. intros X. apply existsb_exists in X. destruct X as (y & Y1 & Y2).
      exact (eq_true_false_abs _ Y2 (find_none _ _ F y Y1)). }
    rewrite X. reflexivity.
Qed.
Definition nbid (a : list Z) (i : Z) (w : world) : Z := match nb_at a i w with Some nb => n_id nb | None => fresh_nb w end.
Lemma nb_known a i w : known_nb (nbid a i w) (run1 (EvNeighbour a i) w).
Proof.
  unfold nbid. pose proof (nb_at_found a i w) as H. destruct (nb_at a i w) as [nb|].
  - destruct H as (-> & H & _). apply in_map, H.
  - rewrite H. left. reflexivity.
Qed.

(** ** The clock *)
Definition okc (s : ast) : Prop := tv_ok (a_now s) /\ Forall tv_ok (a_clk s).
Lemma okc_gettime s : okc s -> okc (a_gettime s).
Proof. unfold okc, a_gettime. intros (A & B). destruct (a_clk s) as [|t l] eqn:E; [split; [auto|rewrite E; auto]|]. inversion B; subst. split; auto. Qed.
Lemma okc_random s : okc s -> okc (snd (a_random s)).
Proof. unfold okc, a_random. intros (A & B). destruct (a_rnd s); split; auto. Qed.
Lemma okc_req s : okc s -> okc (send_challenge_request s).
Proof.
  intros H. unfold send_challenge_request. cbv zeta. apply okc_gettime in H. destruct (_ <=? 0); [exact H|].
  pose proof (okc_random _ H) as H1. destruct (a_random (a_gettime s)) as [r s1]. cbn [snd] in H1. destruct r; [|exact H1].
  match goal with |- okc (a_note _ (set_a_pc _ ?x)) => assert (X : okc x) end.
  { apply okc_gettime. exact H1. }
  exact X.
Qed.
Lemma okc_rep n s : okc s -> okc (send_challenge_reply n s).
Proof.
  intros H. unfold send_challenge_reply. cbv zeta. apply okc_gettime in H. destruct (_ <=? 0); [exact H|].
  apply okc_gettime in H. exact H.
Qed.
Lemma okc_chal pkt m len s c0 r : okc s -> challenge_reply pkt m len s c0 = Ret r -> okc (fst r).
Proof.
  intros H. unfold challenge_reply. cbv zeta. assert (H1 : okc (a_gettime (set_a_found true s))) by (apply okc_gettime; exact H).
  destruct (_ >? 0); [intros E; injection E as <-; exact H1|]. destruct (len =? 8); [|intros E; injection E as <-; exact H1].
  destruct (rds _ _ _) as [n| |]; cbn [bind]; [|discriminate..]. destruct (memcmp _ _ =? 0); intros E; injection E as <-; exact H1.
Qed.
Lemma okc_pre pkt bl mc f : forall i s c0 r, okc s -> pre_loop pkt bl mc f i s c0 = Ret r -> okc (fst r).
Proof.
  induction f as [|f IH]; intros i s c0 r H E; cbn [pre_loop] in E; cbv zeta in E.
  - destruct (i <? bl); [discriminate|]. injection E as <-. exact H.
  - destruct (i <? bl); [|injection E as <-; exact H].
    destruct (rd pkt (4 + i)) as [t| |]; cbn [bind] in E; [|discriminate..].
    destruct (t =? MESSAGE_PAD1); [eapply IH; eauto|].
    destruct (i + 2 >? bl); [injection E as <-; exact H|].
    destruct (rd pkt (4 + i + 1)) as [len| |]; cbn [bind] in E; [|discriminate..].
    destruct (i + len + 2 >? bl); [injection E as <-; exact H|].
    destruct (t =? MESSAGE_PC).
    { destruct (sc_pc c0); [eapply IH; eauto|]. destruct (len <? 4); [injection E as <-; exact H|].
      destruct (len >? 36); [injection E as <-; exact H|].
      destruct (rd32 _ _) as [v| |]; cbn [bind] in E; [|discriminate..].
      destruct (rds _ _ _) as [ix| |]; cbn [bind] in E; [|discriminate..]. eapply IH; eauto. }
    destruct (t =? MESSAGE_CHALLENGE_REQUEST).
    { destruct mc; [eapply IH; eauto|]. destruct (len >? 192); [injection E as <-; exact H|].
      destruct (rds _ _ _) as [ix| |]; cbn [bind] in E; [|discriminate..]. eapply IH; eauto. }
    destruct (t =? MESSAGE_CHALLENGE_REPLY).
    { destruct (len >? 192); [injection E as <-; exact H|].
      destruct (challenge_reply _ _ _ _ _) as [x| |] eqn:Ec; cbn [bind] in E; [|discriminate..].
      eapply IH; [|exact E]. eapply okc_chal; eauto. }
    eapply IH; eauto.
Qed.
Lemma okc_decide mc s c0 : okc s -> okc (fst (pre_decide mc s c0)).
Proof.
  intros H. unfold pre_decide.
  assert (F : forall x (o : option (list Z)), okc x ->
    okc (match o with Some n => send_challenge_reply n (set_a_found true x) | None => x end)).
  { intros x o X. destruct o; [apply okc_rep; exact X|exact X]. }
  destruct (sc_pc c0) as [[p ix]|]; [|apply F; exact H]. destruct (sc_ok c0); [apply F; exact H|]. cbv zeta.
  destruct (pc_index _) as [i|]; [|apply F, okc_req; exact H]. destruct (_ && _); [|apply F, okc_req; exact H].
  destruct (p <=? _); [exact H|]. apply F. exact H.
Qed.
Lemma okc_key key mac port k bad c0 to_ pkt s r : okc s -> @parse_packet_key key mac port k bad c0 to_ pkt s = Ret r -> okc (fst r).
Proof.
  intros H E. unfold parse_packet_key in E. destruct (parse_header c0 pkt) as [h| |]; cbn [bind] in E; [|discriminate..].
  destruct h as [bl|]; [|injection E as <-; exact H].
  destruct (check_hmac _ _ _ _ _ _ _ _) as [rc| |]; cbn [bind] in E; [|discriminate..].
  destruct (rc <=? 0).
  - destruct (negb bad); [injection E as <-; exact H|]. destruct (parse_body _ _ _) as [a| |]; cbn [bind] in E; [|discriminate..].
    injection E as <-. exact H.
  - destruct (preparse_packet _ _ _ _) as [x| |] eqn:P; cbn [bind] in E; [|discriminate..].
    assert (X : okc (fst x)).
    { unfold preparse_packet in P. destruct (pre_loop _ _ _ _ _ _ _) as [y| |] eqn:L; cbn [bind] in P; [|discriminate..].
      injection P as <-. apply okc_decide. eapply okc_pre; eauto. }
    destruct (snd x); [|injection E as <-; exact X]. destruct (parse_body _ _ _) as [a| |]; cbn [bind] in E; [|discriminate..].
    injection E as <-. exact X.
Qed.
(** and what is acted upon is well formed, for a neighbour which was looked up *)
Lemma body_acts c0 pkt acts : addr_ok (r_from c0) -> bytes_ok pkt -> 4 <= zlen pkt -> babel_header c0 pkt = true ->
  parse_body c0 pkt (body_len pkt) = Ret acts -> parse_packet c0 pkt = Ret acts /\ Forall act_ok acts.
Proof.
  intros A B L Hd E. assert (X : parse_packet c0 pkt = Ret acts).
  { unfold parse_packet. destruct (parse_header_ok c0 pkt B L) as (Eh & _). rewrite Eh, Hd. exact E. }
  split; [exact X|]. eapply parse_actions_ok; eauto.
Qed.
Lemma key_acts key mac port k bad c0 to_ pkt s s' acts : addr_ok (r_from c0) -> bytes_ok pkt -> 4 <= zlen pkt ->
  @parse_packet_key key mac port k bad c0 to_ pkt s = Ret (s', Some acts) ->
  a_found s' = true /\ babel_header c0 pkt = true /\ parse_packet c0 pkt = Ret acts /\ Forall act_ok acts.
Proof.
  intros A B L E. unfold parse_packet_key in E. destruct (parse_header_ok c0 pkt B L) as (Eh & _). rewrite Eh in E. cbn [bind] in E.
  destruct (babel_header c0 pkt) eqn:Hd; [|discriminate].
  destruct (check_hmac _ _ _ _ _ _ _ _) as [rc| |]; cbn [bind] in E; [|discriminate..].
  destruct (rc <=? 0).
  - destruct (negb bad); [discriminate|]. destruct (parse_body _ _ _) as [a| |] eqn:Pb; cbn [bind] in E; [|discriminate..].
    injection E as <- <-. split; [reflexivity|]. split; [reflexivity|]. apply body_acts; auto.
  - destruct (preparse_packet _ _ _ _) as [x| |] eqn:P; cbn [bind] in E; [|discriminate..].
    destruct (snd x); [|discriminate]. destruct (parse_body _ _ _) as [a| |] eqn:Pb; cbn [bind] in E; [|discriminate..].
    injection E as <- <-. split; [reflexivity|]. split; [reflexivity|]. apply body_acts; auto.
Qed.

(** ** A datagram *)
Section Pkt.
Variable key : Type.
Variable mac : key -> list Z -> option (list Z).
Variable port : list Z.
Variable v46 : bool.
Variable keys : Z -> option key.

Lemma run_app a b w : run (a ++ b) w = run b (run a w).
Proof. unfold run. apply fold_left_app. Qed.

Lemma nbid_clock a i t w : nbid a i (set_w_now t w) = nbid a i w. Proof. reflexivity. Qed.
Lemma nb_reach a i w : reach c w -> known_if i w -> Z.of_nat (length (w_nbs w)) < 64999 -> reach c (run1 (EvNeighbour a i) w).
Proof. intros R K L. apply reach_run; [exact R|split; auto]. Qed.

(** The shape of what happens *)
Inductive outcome (i : iface) (g : datagram) (w : world) : list event -> Prop :=
| out_none : forall pre, (pre = [] \/ exists t, tv_ok t /\ pre = [EvClock t]) -> outcome i g w pre
| out_pc : forall pre t pc, (pre = [] \/ exists t, tv_ok t /\ pre = [EvClock t]) -> tv_ok t -> keys (if_id i) <> None ->
    outcome i g w (pre ++ [EvNeighbour (g_from g) (if_id i); EvClock t; EvPc (nbid (g_from g) (if_id i) w) pc])
| out_acts : forall pre mid acts, (pre = [] \/ exists t, tv_ok t /\ pre = [EvClock t]) ->
    (mid = [] \/ exists t pc, tv_ok t /\ mid = [EvClock t; EvPc (nbid (g_from g) (if_id i) w) pc]) ->
    parse_packet (mkR (g_from g) (if_ll i) v46) (g_data g) = Ret acts -> Forall act_ok acts ->
    outcome i g w (pre ++ EvNeighbour (g_from g) (if_id i) :: mid ++ flat_map (act_events (nbid (g_from g) (if_id i) w)) acts).

Lemma packet_outcome i g clk rnd w : tv_ok (w_now w) -> addr_ok (g_from g) -> bytes_ok (g_data g) -> 4 <= zlen (g_data g) ->
  Forall tv_ok clk -> exists evs, packet_events key mac port v46 keys i g clk rnd w = Ret evs /\ outcome i g w evs.
Proof.
  intros Tn A B L Tc. unfold packet_events. cbv zeta.
  set (x := if flag i IF_TIMESTAMPS then match clk with [] => (w_now w, []) | t :: l => (t, l) end else (w_now w, clk)).
  assert (X : tv_ok (fst x) /\ Forall tv_ok (snd x)).
  { unfold x. destruct (flag i IF_TIMESTAMPS); [|split; auto]. destruct clk; [split; auto|]. inversion Tc; subst. split; auto. }
  destruct x as [t0 clk0].
  cbn [fst snd] in X. destruct X as (T0 & Tc0).
  set (pre := if flag i IF_TIMESTAMPS then [EvClock t0] else []).
  assert (Hp : pre = [] \/ exists t, tv_ok t /\ pre = [EvClock t]).
  { unfold pre. destruct (flag i IF_TIMESTAMPS); [right; eauto|auto]. }
  set (x := match nb_at (g_from g) (if_id i) w with Some nb => (n_id nb, n_pc nb) | None => (fresh_nb w, new_pc) end).
  assert (X : fst x = nbid (g_from g) (if_id i) w).
  { unfold x, nbid. destruct (nb_at _ _ _); reflexivity. }
  destruct x as [n pc].
  cbn [fst] in X. subst n. set (c0 := mkR (g_from g) (if_ll i) v46).
  assert (A0 : addr_ok (r_from c0)) by exact A. destruct (parse_header_ok c0 (g_data g) B L) as (Eh & N1 & N2).
  destruct (keys (if_id i)) as [k|] eqn:K.
  - destruct (parse_key_total key mac port k (flag i IF_ACCEPT_BAD_SIGNATURES) c0 (g_to g) (g_data g) (mkA t0 clk0 rnd pc false []) A0 B L)
      as ((s1 & o) & E). rewrite E. cbn [bind fst snd]. eexists. split; [reflexivity|].
    assert (Ok : okc s1) by (apply (okc_key _ _ _ _ _ _ _ _ _ _ (conj T0 Tc0 : okc (mkA t0 clk0 rnd pc false [])) E)).
    destruct o as [acts|].
    + destruct (key_acts _ _ _ _ _ _ _ _ _ _ _ A0 B L E) as (F & _ & P & Fa). rewrite F.
      apply (out_acts i g w pre [EvClock (a_now s1); EvPc (nbid (g_from g) (if_id i) w) (a_pc s1)] acts); auto.
      right. exists (a_now s1), (a_pc s1). split; [apply Ok|reflexivity].
    + rewrite app_nil_r. destruct (a_found s1); [|rewrite app_nil_r; apply out_none; auto].
      apply out_pc; auto; [apply Ok|congruence].
  - rewrite Eh. cbn [bind]. destruct (babel_header c0 (g_data g)) eqn:Hd.
    + destruct (parse_body_total c0 (g_data g) (body_len (g_data g)) A0 B N1 N2) as (acts & Ea). rewrite Ea. cbn [bind].
      eexists. split; [reflexivity|]. destruct (body_acts c0 _ _ A0 B L Hd Ea) as (P & F).
      apply (out_acts i g w pre [] acts); auto.
    + eexists. split; [reflexivity|]. apply out_none. auto.
Qed.

Lemma pre_reach pre w : reach c w -> (pre = [] \/ exists t, tv_ok t /\ pre = [EvClock t]) -> 
  reach c (run pre w) /\ w_nbs (run pre w) = w_nbs w /\ w_ifs (run pre w) = w_ifs w.
Proof.
  intros R [->|(t & T & ->)]; [auto|]. split; [|split; reflexivity]. apply reach_run; [exact R|exact T].
Qed.
Lemma nbid_same a i w w' : w_nbs w' = w_nbs w -> nbid a i w' = nbid a i w.
Proof. intros E. unfold nbid, nb_at, fresh_nb. rewrite E. reflexivity. Qed.
Lemma outcome_reach i g w evs : reach c w -> In i (w_ifs w) -> Z.of_nat (length (w_nbs w)) < 64999 -> outcome i g w evs ->
  reach c (run evs w).
Proof.
  intros R Hi L O. assert (Ki : forall w', w_ifs w' = w_ifs w -> known_if (if_id i) w') by (intros w' E; unfold known_if; rewrite E; apply in_map, Hi).
  destruct O as [pre Hp|pre t pc Hp Tt _|pre mid acts Hp Hm P F]; rewrite ?run_app.
  - apply (pre_reach pre w R Hp).
  - destruct (pre_reach pre w R Hp) as (R1 & En & Ei). set (w1 := run pre w) in *.
    assert (R2 : reach c (run1 (EvNeighbour (g_from g) (if_id i)) w1)) by (apply nb_reach; [exact R1|auto|rewrite En; exact L]).
    cbn [run fold_left]. apply reach_run; [|exact Logic.I]. apply reach_run; [exact R2|exact Tt].
  - destruct (pre_reach pre w R Hp) as (R1 & En & Ei). set (w1 := run pre w) in *.
    assert (R2 : reach c (run1 (EvNeighbour (g_from g) (if_id i)) w1)) by (apply nb_reach; [exact R1|auto|rewrite En; exact L]).
    pose proof (nb_known (g_from g) (if_id i) w1) as K. rewrite (nbid_same _ _ w w1 En) in K.
    set (w2 := run1 (EvNeighbour (g_from g) (if_id i)) w1) in *.
    change (EvNeighbour (g_from g) (if_id i) :: mid ++ ?x) with ([EvNeighbour (g_from g) (if_id i)] ++ mid ++ x).
    rewrite !run_app. change (run [EvNeighbour (g_from g) (if_id i)] w1) with w2.
    apply acts_reach; [| |exact F].
    + destruct Hm as [->|(t & pc & Tt & ->)]; [exact R2|]. cbn [run fold_left]. apply reach_run; [|exact Logic.I].
      apply reach_run; [exact R2|exact Tt].
    + destruct Hm as [->|(t & pc & Tt & ->)]; [exact K|]. cbn [run fold_left].
      apply (known_nbk _ w2); [|exact K]. cbn [run1]. rewrite nbk_map; [reflexivity|auto].
Qed.

Lemma receive_reach g clk rnd w : reach c w -> Z.of_nat (length (w_nbs w)) < 64999 ->
  addr_ok (g_from g) -> bytes_ok (g_data g) -> 4 <= zlen (g_data g) -> Forall tv_ok clk ->
  exists w', receive key mac port v46 keys g clk rnd w = Ret w' /\ reach c w'.
Proof.
  intros R L A B Lp Tc. unfold receive. destruct (find _ _) as [i|] eqn:F; [|eauto].
  destruct (packet_outcome i g clk rnd w (rg_now _ (reach_rng c w Hc R)) A B Lp Tc) as (evs & E & O).
  rewrite E. cbn [bind]. eexists. split; [reflexivity|]. apply find_some in F.
  apply (outcome_reach i g w evs R (proj1 F) L O).
Qed.
Lemma preach_reach w : preach key mac port v46 keys c w -> reach c w.
Proof.
  induction 1 as [now ifs seqno N I0 T S|w ev P IH N A|w g clk rnd w' P IH L A B Lp T E].
  - apply reach_boot; auto.
  - apply reach_run; auto.
  - destruct (receive_reach g clk rnd w IH L A B Lp T) as (w2 & E2 & R2). rewrite E in E2. injection E2 as ->. exact R2.
Qed.
End Pkt.
End Reach.

(** L_Packet2.v: datagrams that are not authentic; the last datagrams of a neighbour. *)
From Verif Require Import Base M_Util M_Source M_Filter M_Types M_Neigh M_State M_Table M_Msg M_Route M_Xroute M_Daemon M_Wire M_Auth M_Packet.
From Verif Require Import S_Util S_Source S_Neigh S_World S_Wire S_Auth S_Packet L_Util L_Neigh L_Table L_Step L_Daemon L_Inv L_Wire L_Wire2 L_Auth L_Auth2 L_Auth3 L_Codec L_Nbs L_Packet.
From Coq Require Import Bool.
Import M_Daemon.

Section Auth.
Variable key : Type.
Variable mac : key -> list Z -> option (list Z).
Variable port : list Z.
Variable v46 : bool.
Variable keys : Z -> option key.

Lemma clock_run t w : run [EvClock t] w = set_w_now t w. Proof. reflexivity. Qed.
Lemma set_now_same w : set_w_now (w_now w) w = w. Proof. destruct w; reflexivity. Qed.
Lemma set_nbs_same w : set_w_nbs (w_nbs w) w = w. Proof. destruct w; reflexivity. Qed.
Lemma pc_kept_refl x : pc_kept x x. Proof. split; [destruct x; reflexivity|auto]. Qed.
Lemma pc_kept_all l : Forall2 pc_kept l l. Proof. induction l; constructor; auto using pc_kept_refl. Qed.

Lemma no_mac_events i g clk rnd w k : keys (if_id i) = Some k -> flag i IF_ACCEPT_BAD_SIGNATURES = false ->
  addr_ok (g_from g) -> bytes_ok (g_data g) -> 4 <= zlen (g_data g) ->
  ~ signed mac k port (g_from g) (g_to g) (g_data g) ->
  exists evs, packet_events key mac port v46 keys i g clk rnd w = Ret evs /\ only_clock w (run evs w).
Proof.
  intros K Fl A B L Ns. unfold packet_events. cbv zeta. rewrite K, Fl.
  destruct (if flag i IF_TIMESTAMPS then _ else _) as [t0 clk0].
  destruct (match nb_at _ _ _ with Some nb => _ | None => _ end) as [n pc].
  rewrite (no_mac_nothing key mac port k (mkR (g_from g) (if_ll i) v46)); auto.
  - cbn [bind fst snd a_found]. eexists. split; [reflexivity|]. rewrite !app_nil_r.
    destruct (flag i IF_TIMESTAMPS); [exists t0; reflexivity|exists (w_now w); symmetry; apply set_now_same].
  - intros a h b E1 E2 E3. apply Ns. exists a, h, b. auto.
Qed.

Lemma pc_run n pc w : NoDup (map n_id (w_nbs w)) ->
  (forall x, In x (w_nbs w) -> n_id x = n -> pc_u pc = pc_u (n_pc x) /\ pc_m pc = pc_m (n_pc x) /\ pc_index pc = pc_index (n_pc x)) ->
  exists l, run1 (EvPc n pc) w = set_w_nbs l w /\ Forall2 pc_kept (w_nbs w) l.
Proof.
  intros _ H. cbn [run1]. unfold map_nb. eexists. split; [reflexivity|]. revert H. generalize (w_nbs w).
  induction l as [|x l IH]; intros H; cbn [map]; constructor.
  - destruct (n_id x =? n) eqn:E; [|apply pc_kept_refl]. destruct (H x (or_introl eq_refl) ltac:(lia)) as (H1 & H2 & H3).
    split; [reflexivity|]. auto.
  - apply IH. intros y Hy. apply H. right; exact Hy.
Qed.

(** A challenge which is completed is the pending one. *)
Lemma gettime_in s : a_pc (a_gettime s) = a_pc s /\
  incl (a_now (a_gettime s) :: a_clk (a_gettime s)) (a_now s :: a_clk s).
Proof.
  unfold a_gettime. destruct (a_clk s) as [|t l] eqn:E; [split; [reflexivity|rewrite E; apply incl_refl]|].
  split; [reflexivity|]. cbn. intros x H. right. exact H.
Qed.
Lemma loop_completed pkt bl mc f : forall i s c0 s' c' ts, pre_loop pkt bl mc f i s c0 = Ret (s', c') ->
  incl (a_now s :: a_clk s) ts ->
  exists add, a_log s' = add ++ a_log s /\
    (sc_ok c' = true -> sc_ok c0 = true \/ exists t, In (NHonoured (pc_nonce (a_pc s)) t) add /\ In t ts /\
       timeval_compare t (pc_deadline (a_pc s)) <= 0).
Proof.
  induction f as [|f IH]; intros i s c0 s' c' ts E T; cbn [pre_loop] in E; cbv zeta in E.
  all: assert (Fin : Ret (s, c0) = Ret (s', c') -> exists add, a_log s' = add ++ a_log s /\
    (sc_ok c' = true -> sc_ok c0 = true \/ exists t, In (NHonoured (pc_nonce (a_pc s)) t) add /\ In t ts /\
       timeval_compare t (pc_deadline (a_pc s)) <= 0)) by (intros X; injection X as <- <-; exists []; auto).
  { destruct (i <? bl); [discriminate E|auto]. }
  destruct (i <? bl); [|auto].
  destruct (rd pkt (4 + i)) as [t| |]; cbn [bind] in E; [|discriminate E..].
  destruct (t =? MESSAGE_PAD1); [eapply IH; eauto|]. destruct (i + 2 >? bl); [auto|].
  destruct (rd pkt (4 + i + 1)) as [len| |]; cbn [bind] in E; [|discriminate E..].
  destruct (i + len + 2 >? bl); [auto|].
  destruct (t =? MESSAGE_PC).
  { destruct (sc_pc c0); [eapply IH; eauto|]. destruct (len <? 4); [auto|]. destruct (len >? 36); [auto|].
    destruct (rd32 _ _) as [v| |]; cbn [bind] in E; [|discriminate E..].
    destruct (rds _ _ _) as [ix| |]; cbn [bind] in E; [|discriminate E..].
    destruct (IH _ _ _ _ _ _ E T) as (add & L & H). exists add. split; [exact L|exact H]. }
  destruct (t =? MESSAGE_CHALLENGE_REQUEST).
  { destruct mc; [eapply IH; eauto|]. destruct (len >? 192); [auto|].
    destruct (rds _ _ _) as [ix| |]; cbn [bind] in E; [|discriminate E..].
    destruct (IH _ _ _ _ _ _ E T) as (add & L & H). exists add. split; [exact L|exact H]. }
  destruct (t =? MESSAGE_CHALLENGE_REPLY); [|eapply IH; eauto]. destruct (len >? 192); [auto|].
  destruct (challenge_reply _ _ _ _ _) as [[s1 c1]| |] eqn:Ec; cbn [bind fst snd] in E; [|discriminate E..].
  unfold challenge_reply in Ec. cbv zeta in Ec. destruct (gettime_in (set_a_found true s)) as (G1 & G2).
  assert (G3 : a_log (a_gettime (set_a_found true s)) = a_log s) by (rewrite gettime_log; reflexivity).
  set (s0 := a_gettime (set_a_found true s)) in *. cbn [a_pc a_now a_clk set_a_found] in G1, G2.
  assert (T0 : incl (a_now s0 :: a_clk s0) ts) by (eapply incl_tran; eauto).
  assert (Same : (s0, c0) = (s1, c1) -> exists add, a_log s' = add ++ a_log s /\
    (sc_ok c' = true -> sc_ok c0 = true \/ exists t, In (NHonoured (pc_nonce (a_pc s)) t) add /\ In t ts /\
       timeval_compare t (pc_deadline (a_pc s)) <= 0)).
  { intros X. injection X as <- <-. destruct (IH _ _ _ _ _ _ E T0) as (add & L & H). rewrite G1, G3 in *. eauto. }
  destruct (_ >? 0) eqn:Dl; [injection Ec as -> ->; auto|]. destruct (len =? 8); [|injection Ec as -> ->; auto].
  destruct (rds _ _ _) as [n| |]; cbn [bind] in Ec; [|discriminate Ec..].
  destruct (memcmp _ n =? 0) eqn:M; [|injection Ec as -> ->; auto]. injection Ec as <- <-.
  destruct (IH _ _ _ _ _ _ E T0) as (add & L & _). cbn [a_log a_note set_a_pc] in L. rewrite G3 in L.
  exists (add ++ [NHonoured n (a_now s0)]). split; [rewrite <- app_assoc; exact L|]. intros _. right.
  exists (a_now s0). apply Z.eqb_eq, memcmp_0 in M. rewrite G1 in M, Dl. rewrite <- M. split; [apply in_or_app; right; left; reflexivity|].
  split; [apply T0; left; reflexivity|lia].
Qed.
Lemma accepted_counter pkt mc s s' ts : bytes_ok pkt -> 4 <= zlen pkt -> incl (a_now s :: a_clk s) ts ->
  preparse_packet pkt (body_len pkt) mc s = Ret (s', true) -> counter_ok mc (a_pc s) ts (body pkt).
Proof.
  intros B L T E. assert (N : 0 <= body_len pkt /\ 4 + body_len pkt <= zlen pkt).
  { destruct (parse_header_ok (mkR [] [] false) pkt B L) as (_ & N1 & N2). lia. }
  destruct N as (N1 & N2). unfold counter_ok. destruct (frames_total (body pkt)) as (fs & full & Fr).
  { apply bytes_ok_firstn, bytes_ok_skipn; auto. }
  exists fs, full. destruct (preparse_accepted pkt _ mc s s' fs full B N1 N2 Fr E) as (p & ix & _ & _ & P1 & P2 & _).
  exists p, ix. split; [exact Fr|]. split; [exact P2|]. split; [exact P1|].
  unfold preparse_packet in E.
  destruct (pre_loop _ _ _ _ _ _ _) as [[s1 c1]| |] eqn:Lp; cbn [bind fst snd] in E; [|discriminate E..].
  destruct (loop_completed _ _ _ _ _ _ _ _ _ ts Lp T) as (add & La & Hk).
  set (b := firstn (Z.to_nat (body_len pkt)) (skipn 4 pkt)) in *. change (body pkt) with b in *.
  assert (Lb : zlen b = body_len pkt) by (unfold b, zlen in *; rewrite firstn_length, skipn_length; lia).
  assert (Bb : bytes_ok b) by (apply bytes_ok_firstn, bytes_ok_skipn; auto).
  assert (W : win pkt 4 ([] ++ b)).
  { exists (firstn 4 pkt), (skipn (Z.to_nat (body_len pkt)) (skipn 4 pkt)). split.
    - cbn [app]. unfold b. rewrite firstn_skipn, firstn_skipn. auto.
    - unfold zlen in *. rewrite firstn_length. lia. }
  assert (Lp' : pre_loop pkt (zlen (@nil Z) + zlen b) mc (S (Z.to_nat (body_len pkt))) (zlen (@nil Z)) s (mkScan None None false) = Ret (s1, c1)).
  { rewrite zlen_nil, Lb. exact Lp. }
  destruct (pre_loop_uses _ _ _ Fr pkt [] mc _ _ _ _ _ W Bb Lp') as (H1 & H2 & _).
  destruct (pre_loop_pc _ _ _ _ _ _ _ _ _ Lp) as (Q1 & Q2 & Q3).
  injection E as E. unfold pre_decide in E.
  destruct (sc_pc c1) as [[p' ix']|] eqn:Sc; [|discriminate E].
  destruct (H1 p' ix' eq_refl) as [X|(_ & Rg & Fd)]; [discriminate X|].
  assert (Ep : p' = p /\ ix' = ix).
  { change (fun f => fst f =? 17) with is_pc in P2. rewrite P2 in Fd. unfold be32 in Fd. cbn [app] in Fd. injection Fd as F1 F2 F3 F4 F5. split; [|auto].
    clear - F1 F2 F3 F4 Rg P1. Z.div_mod_to_equations. lia. }
  destruct Ep as (-> & ->).
  destruct (sc_ok c1) eqn:Ok.
  { right. destruct (Hk eq_refl) as [X|(t & X1 & X2 & X3)]; [discriminate X|]. split; [eapply H2; eauto|eauto]. }
  cbv zeta in E. left. cbn [a_pc set_a_found] in E. rewrite Q3 in E.
  destruct (pc_index (a_pc s)) as [i|] eqn:Ix; [|discriminate E].
  destruct ((zlen i =? zlen ix) && (memcmp ix i =? 0)) eqn:Sm; [|discriminate E].
  apply andb_true_iff in Sm. destruct Sm as [_ Sm]. apply Z.eqb_eq, memcmp_0 in Sm. subst i. split; [reflexivity|].
  destruct (p <=? _) eqn:Le; [discriminate E|]. rewrite Q1, Q2 in Le. destruct mc; lia.
Qed.

Lemma key_result k c0 to_ pkt s s1 o : addr_ok (r_from c0) -> bytes_ok pkt -> 4 <= zlen pkt ->
  parse_packet_key mac port k false c0 to_ pkt s = Ret (s1, o) ->
  match o with
  | Some acts => signed mac k port (r_from c0) to_ pkt /\ counter_ok (at_ to_ 0 =? 255) (a_pc s) (a_now s :: a_clk s) (body pkt)
  | None => pc_u (a_pc s1) = pc_u (a_pc s) /\ pc_m (a_pc s1) = pc_m (a_pc s) /\ pc_index (a_pc s1) = pc_index (a_pc s)
  end.
Proof.
  intros A B L E. assert (E0 := E). unfold parse_packet_key in E.
  destruct (parse_header_ok c0 pkt B L) as (Eh & N1 & N2). rewrite Eh in E. cbn [bind] in E.
  destruct (babel_header c0 pkt) eqn:Hd; [|injection E as <- <-; auto].
  destruct (check_hmac _ _ _ _ _ _ _ _) as [rc| |] eqn:Ch; cbn [bind negb] in E; [|discriminate E..].
  destruct (rc <=? 0) eqn:Rc; [injection E as <- <-; auto|].
  destruct (preparse_packet _ _ _ _) as [[s2 ok]| |] eqn:Ep; cbn [bind fst snd] in E; [|discriminate E..].
  destruct ok.
  - destruct (parse_body _ _ _); cbn [bind] in E; [|discriminate E..]. injection E as <- <-. split.
    + assert (R1 : rc = 1).
      { destruct (check_loop_range key mac port (r_from c0) to_ pkt (body_len pkt) k _ _ _ _ ltac:(auto) Ch) as [X|[X|X]]; lia. }
      subst rc. destruct (check_loop_sound key mac port (r_from c0) to_ pkt (body_len pkt) k _ (body_len pkt + 4) (-1) B ltac:(lia) ltac:(lia) Ch)
        as (a0 & h & b & X1 & X2 & X3). exists a0, h, b. split; [exact X1|]. split; [lia|]. exact X3.
    + eapply accepted_counter; eauto. apply incl_refl.
  - injection E as <- <-. eapply preparse_refused; eauto.
Qed.

Lemma refused_quiet c i g clk rnd w k : c_half_life c <> 2 -> reach c w ->
  keys (if_id i) = Some k -> flag i IF_ACCEPT_BAD_SIGNATURES = false ->
  addr_ok (g_from g) -> bytes_ok (g_data g) -> 4 <= zlen (g_data g) ->
  ~ (signed mac k port (g_from g) (g_to g) (g_data g) /\
     counter_ok (at_ (g_to g) 0 =? 255) (match nb_at (g_from g) (if_id i) w with Some nb => n_pc nb | None => new_pc end)
       (w_now w :: clk) (body (g_data g))) ->
  exists evs, packet_events key mac port v46 keys i g clk rnd w = Ret evs /\ quiet (g_from g) (if_id i) w (run evs w).
Proof.
  intros Hl R K Fl A B L Ns. unfold packet_events. cbv zeta. rewrite K, Fl.
  set (x := if flag i IF_TIMESTAMPS then match clk with [] => (w_now w, []) | t :: l => (t, l) end else (w_now w, clk)).
  assert (X : incl (fst x :: snd x) (w_now w :: clk)).
  { unfold x. destruct (flag i IF_TIMESTAMPS); [|apply incl_refl]. destruct clk; [apply incl_refl|]. apply incl_tl, incl_refl. }
  destruct x as [t0 clk0]. cbn [fst snd] in X.
  set (pre := if flag i IF_TIMESTAMPS then [EvClock t0] else []).
  assert (Hp : exists t, run pre w = set_w_now t w).
  { unfold pre. destruct (flag i IF_TIMESTAMPS); [exists t0; reflexivity|exists (w_now w); symmetry; apply set_now_same]. }
  set (x := match nb_at (g_from g) (if_id i) w with Some nb => (n_id nb, n_pc nb) | None => (fresh_nb w, new_pc) end).
  assert (X1 : x = (nbid (g_from g) (if_id i) w, match nb_at (g_from g) (if_id i) w with Some nb => n_pc nb | None => new_pc end)).
  { unfold x, nbid. destruct (nb_at _ _ _); reflexivity. }
  rewrite X1. clear x X1. set (n := nbid _ _ _). set (pc := match nb_at _ _ _ with Some nb => _ | None => _ end) in *.
  destruct (parse_key_total key mac port k false (mkR (g_from g) (if_ll i) v46) (g_to g) (g_data g) (mkA t0 clk0 rnd pc false []) A B L)
    as ((s1 & o) & E). rewrite E. cbn [bind fst snd].
  pose proof (key_result k (mkR (g_from g) (if_ll i) v46) (g_to g) _ _ s1 o A B L E) as Kr.
  eexists. split; [reflexivity|]. destruct o as [acts|].
  - exfalso. apply Ns. destruct Kr as (K1 & K2). split; [exact K1|]. cbn [a_pc a_now a_clk] in K2.
    destruct K2 as (fs & full & p & ix & Q1 & Q2 & Q3 & Q4). exists fs, full, p, ix. split; [exact Q1|]. split; [exact Q2|]. split; [exact Q3|].
    destruct Q4 as [Q4|(Q4 & t & Q5 & Q6)]; [left; exact Q4|right; split; [exact Q4|exists t; split; [apply X, Q5|exact Q6]]].
  - cbn [a_pc] in Kr. rewrite app_nil_r, run_app. destruct Hp as (tp & Hp). rewrite Hp.
    destruct (a_found s1).
    2:{ exists tp, (w_nbs w). split; [destruct w; reflexivity|]. left. apply pc_kept_all. }
    cbn [run fold_left]. set (w1 := set_w_now tp w).
    pose proof (nb_at_found (g_from g) (if_id i) w1) as Nf. change (nb_at (g_from g) (if_id i) w1) with (nb_at (g_from g) (if_id i) w) in Nf.
    assert (Nd : NoDup (map n_id (w_nbs w))) by (apply (reach_nodup c Hl); exact R).
    unfold n, nbid, pc in *. destruct (nb_at (g_from g) (if_id i) w) as [nb|].
    + destruct Nf as (-> & Hn & Ha & Hi).
      change (run1 (EvClock (a_now s1)) w1) with (set_w_now (a_now s1) w).
      destruct (pc_run (n_id nb) (a_pc s1) (set_w_now (a_now s1) w) Nd) as (l & El & Fl2).
      { intros y Hy Ey. assert (y = nb) as -> by (eapply NoDup_map_inj; [exact Nd|exact Hy|exact Hn|exact Ey]). exact Kr. }
      rewrite El. exists (a_now s1), l. split; [destruct w; reflexivity|]. left. exact Fl2.
    + rewrite Nf. set (w2 := run1 (EvClock (a_now s1)) _).
      pose proof (fresh_nb_new w) as Fn.
      destruct (pc_run (fresh_nb w) (a_pc s1) w2) as (l & El & Fl2).
      { cbn. constructor; [exact Fn|exact Nd]. }
      { intros y [Hy|Hy] Ey.
        - subst y. exact Kr.
        - exfalso. apply Fn. rewrite <- Ey. apply in_map, Hy. }
      rewrite El. exists (a_now s1), l. split; [destruct w; reflexivity|]. right.
      exists (w_now w1), (fresh_nb w). split; [exact Fn|exact Fl2].
Qed.

Lemma receive_authentic c i g clk rnd w k : c_half_life c <> 2 -> reach c w ->
  find (fun i => if_up i && (if_ifindex i =? g_scope g)) (w_ifs w) = Some i ->
  keys (if_id i) = Some k -> flag i IF_ACCEPT_BAD_SIGNATURES = false ->
  addr_ok (g_from g) -> bytes_ok (g_data g) -> 4 <= zlen (g_data g) ->
  exists w', receive key mac port v46 keys g clk rnd w = Ret w' /\
  (~ signed mac k port (g_from g) (g_to g) (g_data g) -> only_clock w w') /\
  (~ (signed mac k port (g_from g) (g_to g) (g_data g) /\
      counter_ok (at_ (g_to g) 0 =? 255) (match nb_at (g_from g) (if_id i) w with Some nb => n_pc nb | None => new_pc end)
       (w_now w :: clk) (body (g_data g))) -> quiet (g_from g) (if_id i) w w').
Proof.
  intros Hl R F K Fl A B L. unfold receive. rewrite F.
  assert (T : exists evs, packet_events key mac port v46 keys i g clk rnd w = Ret evs).
  { unfold packet_events. cbv zeta. rewrite K, Fl. destruct (if flag i IF_TIMESTAMPS then _ else _) as [t0 clk0].
    destruct (match nb_at _ _ _ with Some nb => _ | None => _ end) as [n pc].
    destruct (parse_key_total key mac port k false (mkR (g_from g) (if_ll i) v46) (g_to g) (g_data g) (mkA t0 clk0 rnd pc false []) A B L)
      as ((s1 & o) & E). rewrite E. cbn [bind]. eauto. }
  destruct T as (evs & T). rewrite T. cbn [bind]. eexists. split; [reflexivity|]. split.
  - intros Ns. destruct (no_mac_events i g clk rnd w k K Fl A B L Ns) as (e & E & H). rewrite T in E. injection E as <-. exact H.
  - intros Ns. destruct (refused_quiet c i g clk rnd w k Hl R K Fl A B L Ns) as (e & E & H). rewrite T in E. injection E as <-. exact H.
Qed.
End Auth.

(** L_Packet4.v: a receiver which hears a wildcard retraction and no announcement after it. *)
From Verif Require Import Base M_Util M_Source M_Filter M_Types M_Neigh M_State M_Table M_Msg M_Route M_Xroute M_Daemon M_Wire M_Auth M_Packet.
From Verif Require Import S_Util S_Source S_Neigh S_World S_Wire S_Auth S_Packet L_Util L_Neigh L_Table L_Step L_Trace L_Chain2 L_Update2 L_Daemon L_Inv L_Walk L_Net3 L_Wire L_Wire2 L_Auth L_Auth2 L_Auth3 L_Codec L_Nbs L_Packet L_Ref L_Packet3 M_Buf S_Buf.
From Coq Require Import Bool.
Import M_Daemon.

Section Hear.
Variable c : conf.
Hypothesis Hc : c_half_life c <> 2.
Variable key : Type.
Variable mac : key -> list Z -> option (list Z).
Variable port : list Z.
Variable keys : Z -> option key.
Variable cx : rctx.
Variable ifid : Z.
Hypothesis Hk : keys ifid = None.
Notation hears := (hears key mac port keys cx ifid).
Notation LA := (lowat (r_from cx) ifid).

Lemma nb_is_at a i w : is_at a i (nbid a i w) (run1 (EvNeighbour a i) w).
Proof.
  apply is_at_nb. unfold nbid. pose proof (nb_at_found a i w) as H. destruct (nb_at a i w) as [nb|].
  - destruct H as (-> & H & E1 & E2). eauto 6.
  - rewrite H. cbn. eexists. split; [left; reflexivity|]. cbn. auto.
Qed.
Lemma is_at_known a i n w : is_at a i n w -> known_nb n w.
Proof. rewrite is_at_nb. intros (nb & H & <- & _). apply in_map, H. Qed.
Lemma is_at_fun a i b j n w : reach c w -> is_at a i n w -> is_at b j n w -> a = b /\ i = j.
Proof.
  rewrite !is_at_nb. intros R (x & X1 & X2 & X3 & X4) (y & Y1 & Y2 & Y3 & Y4).
  assert (x = y) as -> by (eapply NoDup_map_inj; [apply (reach_nodup c Hc w R)| | |]; auto; congruence). split; congruence.
Qed.
Lemma is_at_unique a i n w : reach c w -> is_at a i n w -> forall nb, In nb (w_nbs w) -> n_addr nb = a -> n_if nb = i -> n_id nb = n.
Proof.
  rewrite is_at_nb. intros R (x & X1 & X2 & X3 & X4) nb H E1 E2. rewrite <- X2. f_equal.
  apply (nb_unique c Hc w R); auto; congruence.
Qed.

(** What a datagram of the sender does *)
Lemma own_shape w g clk rnd w1 i : reach c w -> sane g clk w -> receiver g w = Some i -> if_id i = ifid -> if_ll i = r_lls cx ->
  g_from g = r_from cx -> receive key mac port (r_46 cx) keys g clk rnd w = Ret w1 ->
  exists acts, parse_packet cx (g_data g) = Ret acts /\ Forall act_ok acts /\
  exists w0 n, reach c w0 /\ kmono w w0 /\ (LA w -> LA w0) /\ w1 = run (flat_map (act_events n) acts) w0 /\
    (acts = [] \/ is_at (r_from cx) ifid n w0).
Proof.
  intros R (Ln & A & B & L & T) Hr Ei El Ef E. unfold receive in E. unfold receiver in Hr. rewrite Hr in E.
  unfold packet_events in E. cbv zeta in E. rewrite Ei, Hk in E.
  set (x := if flag i IF_TIMESTAMPS then match clk with [] => (w_now w, []) | t :: l => (t, l) end else (w_now w, clk)) in E.
  assert (X : tv_ok (fst x) /\ Forall tv_ok (snd x)).
  { pose proof (rg_now _ (reach_rng c w Hc R)). unfold x. destruct (flag i IF_TIMESTAMPS); [|split; auto]. destruct clk; [split; auto|]. inversion T; subst. split; auto. }
  destruct x as [t0 clk0]. cbn [fst snd] in X. destruct X as (T0 & _).
  set (pre := if flag i IF_TIMESTAMPS then [EvClock t0] else []) in E.
  assert (Hp : pre = [] \/ exists t, tv_ok t /\ pre = [EvClock t]).
  { unfold pre. destruct (flag i IF_TIMESTAMPS); [right; eauto|auto]. }
  set (x := match nb_at (g_from g) ifid w with Some nb => (n_id nb, n_pc nb) | None => (fresh_nb w, new_pc) end) in E.
  assert (X : fst x = nbid (g_from g) ifid w).
  { unfold x, nbid. destruct (nb_at _ _ _); reflexivity. }
  destruct x as [n pc]. cbn [fst] in X. subst n.
  assert (Ec : mkR (g_from g) (if_ll i) (r_46 cx) = cx) by (rewrite Ef, El; destruct cx; reflexivity). rewrite Ec in E.
  assert (A0 : addr_ok (r_from cx)) by (rewrite <- Ef; exact A).
  destruct (parse_header_ok cx (g_data g) B L) as (Eh & N1 & N2). rewrite Eh in E. cbn [bind] in E.
  destruct (pre_reach c pre w R Hp) as (R1 & En & Eif).
  assert (K1 : kmono w (run pre w)) by (destruct Hp as [->|(t & _ & ->)]; apply kmono_same; reflexivity).
  assert (L1 : LA w -> LA (run pre w)) by (destruct Hp as [->|(t & _ & ->)]; intros H; exact H).
  destruct (babel_header cx (g_data g)) eqn:Hd.
  - destruct (parse_body_total cx (g_data g) (body_len (g_data g)) A0 B N1 N2) as (acts & Ea). rewrite Ea in E. cbn [bind] in E.
    injection E as <-. destruct (body_acts cx _ _ A0 B L Hd Ea) as (P & F).
    exists acts. split; [exact P|]. split; [exact F|]. set (w0 := run pre w) in *.
    exists (run1 (EvNeighbour (g_from g) ifid) w0), (nbid (g_from g) ifid w).
    assert (Al : allowed (EvNeighbour (g_from g) ifid) w0).
    { split; [|rewrite En; exact Ln]. unfold known_if. rewrite Eif, <- Ei. apply in_map. apply find_some in Hr. apply Hr. }
    split; [apply reach_run; auto|]. split; [eapply kmono_trans; [exact K1|]; apply run1_kmono; [apply (reach_W c w0 Hc R1)|exact Al]|].
    split; [intros H; apply (lowat_run1 c Hc); auto; discriminate|]. split.
    + rewrite run_app. reflexivity.
    + right. rewrite <- Ef, <- (nbid_same (g_from g) ifid w w0 En). apply nb_is_at.
  - injection E as <-. exists []. split.
    + unfold parse_packet. rewrite Eh. cbn [bind]. reflexivity.
    + split; [constructor|]. exists (run pre w), 0. split; [exact R1|]. split; [exact K1|]. split; [exact L1|]. split; auto.
Qed.

(** What another datagram does *)
Lemma other_shape w g clk rnd w1 : reach c w -> sane g clk w ->
  (forall i, receiver g w = Some i -> if_id i = ifid -> g_from g <> r_from cx) ->
  receive key mac port (r_46 cx) keys g clk rnd w = Ret w1 ->
  reach c w1 /\ kmono w w1 /\ (LA w -> LA w1).
Proof.
  intros R (Ln & A & B & L & T) Ho E.
  destruct (receive_reach c Hc key mac port (r_46 cx) keys g clk rnd w R Ln A B L T) as (w2 & E2 & R2).
  rewrite E in E2. injection E2 as <-. split; [exact R2|]. clear R2. unfold receive in E. unfold receiver in Ho.
  destruct (find _ (w_ifs w)) as [i|] eqn:F; [|injection E as <-; split; [apply kmono_same; reflexivity|auto]].
  specialize (Ho i eq_refl). apply find_some in F. destruct F as (Hi & _).
  destruct (packet_outcome key mac port (r_46 cx) keys i g clk rnd w (rg_now _ (reach_rng c w Hc R)) A B L T) as (evs & Ev & O).
  rewrite Ev in E. cbn [bind] in E. injection E as <-.
  assert (Pre : forall pre, (pre = [] \/ exists t, tv_ok t /\ pre = [EvClock t]) -> kmono w (run pre w) /\ (LA w -> LA (run pre w))).
  { intros pre [->|(t & _ & ->)]; (split; [apply kmono_same; reflexivity|intros H; exact H]). }
  assert (Nb : forall w0, reach c w0 -> w_nbs w0 = w_nbs w -> w_ifs w0 = w_ifs w ->
    let w2 := run1 (EvNeighbour (g_from g) (if_id i)) w0 in
    reach c w2 /\ kmono w0 w2 /\ (LA w0 -> LA w2) /\ is_at (g_from g) (if_id i) (nbid (g_from g) (if_id i) w) w2).
  { intros w0 R0 En Eif. cbv zeta.
    assert (Al : allowed (EvNeighbour (g_from g) (if_id i)) w0).
    { split; [|rewrite En; exact Ln]. unfold known_if. rewrite Eif. apply in_map, Hi. }
    split; [apply reach_run; auto|]. split; [apply run1_kmono; [apply (reach_W c w0 Hc R0)|exact Al]|].
    split; [intros H; apply (lowat_run1 c Hc); auto; discriminate|].
    rewrite <- (nbid_same (g_from g) (if_id i) w w0 En). apply nb_is_at. }
  destruct O as [pre Hp|pre t pc Hp Tt _|pre mid acts Hp Hm P F]; rewrite ?run_app.
  - apply Pre, Hp.
  - destruct (pre_reach c pre w R Hp) as (R1 & En & Eif). destruct (Pre pre Hp) as (K1 & L1).
    destruct (Nb _ R1 En Eif) as (R2 & K2 & L2 & _). set (w2 := run1 _ (run pre w)) in *.
    cbn [run fold_left]. fold w2. set (w3 := run1 (EvClock t) w2).
    assert (R3 : reach c w3) by (apply reach_run; [exact R2|exact Tt]).
    split.
    + eapply kmono_trans; [exact K1|]. eapply kmono_trans; [exact K2|]. apply kmono_same. reflexivity.
    + intros H. apply (lowat_run1 c Hc); [exact R3|exact Logic.I| |discriminate]. apply (lowat_run1 c Hc); [exact R2|exact Tt|auto|discriminate].
  - destruct (pre_reach c pre w R Hp) as (R1 & En & Eif). destruct (Pre pre Hp) as (K1 & L1).
    destruct (Nb _ R1 En Eif) as (R2 & K2 & L2 & At2).
    change (EvNeighbour (g_from g) (if_id i) :: mid ++ ?x) with ([EvNeighbour (g_from g) (if_id i)] ++ mid ++ x).
    rewrite !run_app. change (run [EvNeighbour (g_from g) (if_id i)] (run pre w)) with (run1 (EvNeighbour (g_from g) (if_id i)) (run pre w)).
    set (w2 := run1 _ (run pre w)) in *. set (n := nbid _ _ w) in *.
    assert (M : reach c (run mid w2) /\ kmono w2 (run mid w2) /\ (LA w2 -> LA (run mid w2)) /\ is_at (g_from g) (if_id i) n (run mid w2)).
    { destruct Hm as [->|(t & pc & Tt & ->)].
      - split; [exact R2|]. split; [apply kmono_same; reflexivity|]. auto.
      - cbn [run fold_left]. set (w3 := run1 (EvClock t) w2). assert (R3 : reach c w3) by (apply reach_run; [exact R2|exact Tt]).
        split; [apply reach_run; [exact R3|exact Logic.I]|]. split; [apply kmono_same; reflexivity|]. split.
        + intros H. apply (lowat_run1 c Hc); [exact R3|exact Logic.I| |discriminate]. apply (lowat_run1 c Hc); [exact R2|exact Tt|auto|discriminate].
        + unfold is_at. cbn [run1]. rewrite nbk_map; [exact At2|auto]. }
    destruct M as (R3 & K3 & L3 & At3). split.
    + eapply kmono_trans; [exact K1|]. eapply kmono_trans; [exact K2|]. eapply kmono_trans; [exact K3|].
      apply (acts_kmono c Hc); auto. eapply is_at_known; eauto.
    + intros H. apply (acts_low c Hc); auto; [eapply is_at_known; eauto|].
      intros X. exfalso. destruct (is_at_fun _ _ _ _ _ _ R3 At3 X) as (E1 & E2). exact (Ho E2 E1).
Qed.

Lemma hears_kmono w l w' : hears w l w' -> reach c w -> kmono w w' /\ reach c w'.
Proof.
  induction 1 as [w|w ev l w' N A H IH|w g clk rnd w1 l w' S0 Ho E H IH|w g clk rnd w1 l w' i S0 Hr Ei El Ef E H IH]; intros R.
  - split; [apply kmono_same; reflexivity|exact R].
  - destruct IH as (K & R1); [apply reach_run; auto|]. split; [|exact R1]. eapply kmono_trans; [|exact K].
    apply run1_kmono; [apply (reach_W c w Hc R)|exact A].
  - destruct (other_shape w g clk rnd w1 R S0 Ho E) as (R1 & K1 & _). destruct (IH R1) as (K & R2).
    split; [eapply kmono_trans; eauto|exact R2].
  - destruct (own_shape w g clk rnd w1 i R S0 Hr Ei El Ef E) as (acts & P & F & w0 & n & R0 & K0 & _ & -> & D).
    destruct D as [->|D].
    + cbn in *. destruct (IH R0) as (K & R2). split; [eapply kmono_trans; eauto|exact R2].
    + pose proof (is_at_known _ _ _ _ D) as Kn. destruct (acts_reach c Hc n acts w0 R0 Kn F) as (R1 & _).
      destruct (IH R1) as (K & R2). split; [|exact R2]. eapply kmono_trans; [exact K0|]. eapply kmono_trans; [|exact K].
      apply (acts_kmono c Hc); auto.
Qed.

Lemma hears_low w l w' : hears w l w' -> reach c w -> LA w -> existsb announces (decoded cx l) = false -> LA w'.
Proof.
  induction 1 as [w|w ev l w' N A H IH|w g clk rnd w1 l w' S0 Ho E H IH|w g clk rnd w1 l w' i S0 Hr Ei El Ef E H IH]; intros R L D.
  - exact L.
  - apply IH; [apply reach_run; auto| |exact D]. apply (lowat_run1 c Hc); auto. intros. subst ev. discriminate N.
  - destruct (other_shape w g clk rnd w1 R S0 Ho E) as (R1 & _ & L1). auto.
  - destruct (own_shape w g clk rnd w1 i R S0 Hr Ei El Ef E) as (acts & P & F & w0 & n & R0 & _ & L0 & -> & Dn).
    cbn [decoded flat_map] in D. rewrite P, existsb_app in D. apply orb_false_iff in D. destruct D as (D1 & D2).
    destruct Dn as [->|Dn]; [cbn in *; auto|]. pose proof (is_at_known _ _ _ _ Dn) as Kn.
    apply IH; [apply (acts_reach c Hc n acts w0 R0 Kn F)| |exact D2]. apply (acts_low c Hc); auto.
Qed.

Lemma hears_retracted w l w' x y : hears w l w' -> reach c w -> decoded cx l = x ++ AWithdraw :: y -> existsb announces y = false ->
  LA w' \/ krefused w w'.
Proof.
  intros H. revert x y.
  induction H as [w|w ev l w' N A H IH|w g clk rnd w1 l w' S0 Ho E H IH|w g clk rnd w1 l w' i S0 Hr Ei El Ef E H IH]; intros x y R D Hy.
  - destruct x; discriminate D.
  - destruct (IH x y (reach_run c w ev R A) D Hy) as [X|X]; [left; exact X|right].
    eapply refused_l; [|exact X]. apply run1_kmono; [apply (reach_W c w Hc R)|exact A].
  - destruct (other_shape w g clk rnd w1 R S0 Ho E) as (R1 & K1 & _). destruct (IH x y R1 D Hy) as [X|X]; [left; exact X|right].
    eapply refused_l; eauto.
  - destruct (own_shape w g clk rnd w1 i R S0 Hr Ei El Ef E) as (acts & P & F & w0 & n & R0 & K0 & _ & -> & Dn).
    cbn [decoded flat_map] in D. rewrite P in D. fold (decoded cx l) in D.
    destruct (app_eq_app _ _ _ _ D) as (z & [(E1 & E2)|(E1 & E2)]).
    + destruct z as [|a z].
      { cbn in E2. rewrite app_nil_r in E1. subst x.
        assert (X : reach c (run (flat_map (act_events n) acts) w0) /\ kmono w0 (run (flat_map (act_events n) acts) w0)).
        { destruct Dn as [->|Dn]; [split; [exact R0|apply kmono_same; reflexivity]|]. pose proof (is_at_known _ _ _ _ Dn) as Kn.
          split; [apply (acts_reach c Hc n acts w0 R0 Kn F)|apply (acts_kmono c Hc); auto]. }
        destruct X as (R1 & K1). destruct (IH [] y R1 (eq_sym E2) Hy) as [X|X]; [left; exact X|right].
        eapply refused_l; [|exact X]. eapply kmono_trans; eauto. }
      injection E2 as <- E2. subst y. rewrite existsb_app in Hy. apply orb_false_iff in Hy. destruct Hy as (Hz & Hl).
      destruct Dn as [->|Dn]; [destruct x; discriminate E1|]. pose proof (is_at_known _ _ _ _ Dn) as Kn.
      rewrite E1 in F. apply Forall_app in F. destruct F as (Fx & Fz). pose proof (Forall_inv_tail Fz) as Fz'. rewrite E1 in H. clear E1 Fz D P E.
      destruct (acts_reach c Hc n x w0 R0 Kn Fx) as (R1 & Nx).
      pose proof (acts_kmono c Hc n x w0 R0 Kn Fx) as K1.
      clear IH. rewrite flat_map_app, run_app in H. cbn [flat_map act_events] in H. rewrite run_app in H.
      set (w1 := run (flat_map (act_events n) x) w0) in *. change (run [EvWithdraw n] w1) with (run1 (EvWithdraw n) w1) in *.
      set (w2 := run1 (EvWithdraw n) w1) in *.
      assert (D1 : is_at (r_from cx) ifid n w1) by (unfold is_at; rewrite Nx; exact Dn).
      assert (R2 : reach c w2) by (apply reach_run; [exact R1|exact Logic.I]).
      assert (D2 : is_at (r_from cx) ifid n w2).
      { pose proof (act_nbk n AWithdraw w1 (reach_nodup c Hc w1 R1)) as X. unfold is_at. cbn [act_events run fold_left] in X. fold w2 in X. rewrite X. exact D1. }
      pose proof (is_at_known _ _ _ _ D2) as Kn2.
      destruct (acts_reach c Hc n z w2 R2 Kn2 Fz') as (R3 & _).
      pose proof (acts_kmono c Hc n z w2 R2 Kn2 Fz') as K3. destruct (hears_kmono _ _ _ H R3) as (K4 & _).
      destruct (withdraw_low c Hc w1 n R1) as [Lw|Rf].
      * left. eapply hears_low; [exact H|exact R3| |exact Hl]. apply (acts_low c Hc); auto.
        intros nb Hn Ea Eb. rewrite (is_at_unique _ _ _ _ R2 D2 nb Hn Ea Eb). exact Lw.
      * right. eapply refused_l; [eapply kmono_trans; [exact K0|exact K1]|]. fold w2 in Rf.
        eapply refused_r; [exact Rf|]. eapply kmono_trans; eauto.
    + subst x. assert (X : reach c (run (flat_map (act_events n) acts) w0) /\ kmono w0 (run (flat_map (act_events n) acts) w0)).
      { destruct Dn as [->|Dn]; [split; [exact R0|apply kmono_same; reflexivity]|]. pose proof (is_at_known _ _ _ _ Dn) as Kn.
        split; [apply (acts_reach c Hc n acts w0 R0 Kn F)|apply (acts_kmono c Hc); auto]. }
      destruct X as (R1 & K1). destruct (IH z y R1 E2 Hy) as [X|X]; [left; exact X|right].
      eapply refused_l; [|exact X]. eapply kmono_trans; eauto.
Qed.
End Hear.

(** ** The sender *)
Lemma announces_update a : announces a = true -> is_update a = true. Proof. destruct a; cbn; auto. Qed.
Lemma no_update l : filter is_update l = [] -> existsb announces l = false.
Proof.
  intros H. apply not_true_is_false. intros X. apply existsb_exists in X. destruct X as (a & Ha & E). apply announces_update in E.
  assert (Y : In a (filter is_update l)) by (apply filter_In; auto). rewrite H in Y. exact Y.
Qed.
Lemma last_update l x : filter is_update l = x ++ [AWithdraw] -> exists a b, l = a ++ AWithdraw :: b /\ existsb announces b = false.
Proof.
  revert x. induction l as [|u l IH] using rev_ind; intros x E; [destruct x; discriminate E|].
  rewrite filter_app in E. cbn [filter] in E. destruct (is_update u) eqn:U.
  - apply app_inj_tail in E. destruct E as (_ & ->). exists l, []. auto.
  - rewrite app_nil_r in E. destruct (IH x E) as (a & b & -> & H). exists a, (b ++ [u]). rewrite <- app_assoc. split; [reflexivity|].
    rewrite existsb_app, H. cbn. rewrite orb_false_r. apply not_true_is_false. intros X. apply announces_update in X. congruence.
Qed.
Lemma last_withdraw cx out : forall x, filter is_update (decoded cx out) = x ++ [AWithdraw] ->
  exists before p after acts a b, out = before ++ p :: after /\ parse_packet cx p = Ret acts /\ acts = a ++ AWithdraw :: b /\
    existsb announces b = false /\ existsb announces (decoded cx after) = false.
Proof.
  induction out as [|p out IH] using rev_ind; intros x E; [destruct x; discriminate E|].
  unfold decoded in E. rewrite flat_map_app in E. cbn [flat_map] in E. rewrite app_nil_r, filter_app in E. fold (decoded cx out) in E.
  destruct (filter is_update (match parse_packet cx p with Ret a => a | _ => [] end)) as [|u us] eqn:F.
  - rewrite app_nil_r in E. destruct (IH x E) as (before & p0 & after & acts & a & b & -> & P & Q & Hb & Ha).
    exists before, p0, (after ++ [p]), acts, a, b. rewrite <- app_assoc. repeat (split; [auto; reflexivity|]).
    unfold decoded. rewrite flat_map_app, existsb_app. fold (decoded cx after). rewrite Ha. cbn [flat_map orb].
    rewrite app_nil_r. apply no_update, F.
  - destruct (exists_last (l := u :: us)) as (y & z & Ez); [discriminate|]. rewrite Ez in E, F.
    rewrite app_assoc in E. apply app_inj_tail in E. destruct E as (_ & ->).
    destruct (parse_packet cx p) as [acts| |] eqn:P; [|destruct y; discriminate F..].
    destruct (last_update acts y F) as (a & b & Q & Hb). exists out, p, [], acts, a, b. auto 10.
Qed.
Lemma decoded_sub cx after h : Forall (fun d => In d after) h -> existsb announces (decoded cx after) = false ->
  existsb announces (decoded cx h) = false.
Proof.
  intros F H. apply not_true_is_false. intros X. apply existsb_exists in X. destruct X as (a & Ha & E).
  unfold decoded in Ha. apply in_flat_map in Ha. destruct Ha as (d & Hd & Ha). rewrite Forall_forall in F.
  assert (Y : existsb announces (decoded cx after) = true).
  { apply existsb_exists. exists a. split; [|exact E]. apply in_flat_map. exists d. split; [apply F, Hd|exact Ha]. }
  congruence.
Qed.
Lemma wanted_wild cx v46 l q : forall ip, filter is_update (others_wanted cx v46 ip (l ++ [BWild q; BHello false 10 true])) =
  filter is_update (others_wanted cx v46 ip l) ++ [AWithdraw].
Proof.
  induction l as [|o l IH]; intros ip; [reflexivity|]. destruct o; cbn [others_wanted app]; rewrite ?filter_app, ?IH, ?app_assoc; auto.
Qed.
Lemma get_if_In c (Hc : c_half_life c <> 2) w i : reach c w -> In i (w_ifs w) -> get_if (if_id i) w = Some i.
Proof.
  intros R Hi. destruct (reach_W c w Hc R) as (Hw & _). pose proof (W_ifs _ _ Hw) as N. revert Hi N.
  unfold get_if. generalize (w_ifs w). intros ifs Hi N. induction ifs as [|a ifs IH]; [destruct Hi|]. cbn [find].
  destruct Hi as [->|Hi]; [rewrite Z.eqb_refl; reflexivity|]. inversion N; subst.
  destruct (if_id a =? if_id i) eqn:E; [|auto]. exfalso. apply H1. apply Z.eqb_eq in E. rewrite E. apply in_map, Hi.
Qed.

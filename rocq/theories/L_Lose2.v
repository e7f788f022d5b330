(** L_Lose2.v: losing the selected route, what is sent. *)
From Verif Require Import Base M_Util S_Util L_Util M_Slot L_Slot M_Source S_Source L_Source
  M_Filter M_Types M_Neigh M_State M_Table M_Msg M_Route M_Xroute S_World S_Send S_Pend L_Table L_Step L_Msg L_Smooth L_Quiet
  L_Trace L_Select L_Select2 L_Chain L_Chain2 L_Chain3 L_Flush L_Update L_Update2 L_Xroute L_Inv L_World L_World2 L_World4 L_Send L_Resend4 L_Out L_Request L_Pend
  L_Lose.
From Coq Require Import Permutation.

Lemma evo_get : forall rt now k s s', srcs_evo rt now s s' -> (forall r, In r (concat rt) -> r_installed r = true -> r_src r <> k) ->
  get_src k s' = get_src k s.
Proof.
  intros rt now k s s' H N. induction H as [|t' r H IH Hr Ir]; auto. rewrite <- IH. clear IH H. specialize (N r Hr Ir).
  unfold get_src, update_source, map_src. induction t' as [|a l IH]; auto. cbn [map find].
  destruct (skey_eqb (r_src r) (s_key a)) eqn:E.
  - apply skey_eqb_true in E.
    assert (Ea : forall b, s_key b = s_key a -> skey_eqb k (s_key b) = false).
    { intros b Eb. rewrite Eb, <- E. destruct (skey_eqb k (r_src r)) eqn:Ek; auto. apply skey_eqb_true in Ek. congruence. }
    rewrite (Ea (update_source1 _ _ _ a)), (Ea a); auto. unfold update_source1. destruct (_ >=? _); reflexivity.
  - destruct (skey_eqb k (s_key a)); auto.
Qed.

Lemma says_static : forall w i i' d s, ifstat i' = ifstat i -> says w i d s -> says w i' d s.
Proof.
  intros w i i' d s E H. destruct (static_flags _ _ E) as (F & Id).
  assert (Sh : forall r, split_horizon w i' r <-> split_horizon w i r) by (intros; unfold split_horizon, flag; rewrite F, Id; tauto).
  destruct H as [x H1 H2|r H1 H2 H3|r H1 H2 H3|H1 H2].
  - apply says_ours; auto.
  - apply says_route; auto. intros X. apply H3, Sh, X.
  - eapply says_split; eauto. apply Sh. auto.
  - apply says_lost; auto.
Qed.
Lemma told_static : forall w i i' d A, ifstat i' = ifstat i -> told w i d A -> told w i' d A.
Proof.
  intros w i i' d A E T. destruct (static_flags _ _ E) as (F & Id).
  assert (E1 : if_ifindex i' = if_ifindex i) by exact (f_equal if_ifindex E).
  assert (E2 : if_ipv4 i' = if_ipv4 i) by exact (f_equal if_ipv4 E).
  assert (E3 : if_update_interval i' = if_update_interval i) by exact (f_equal if_update_interval E).
  assert (Cc : cannot_carry i' d <-> cannot_carry i d) by (unfold cannot_carry, flag; rewrite F, E2; tauto).
  assert (Gt : forall bs, goes_to w i bs -> goes_to w i' bs) by (intros bs; unfold goes_to, flag; rewrite F, Id; auto).
  destruct T as [H|id q m H1 H2|id q m add bs H1 H2 H3 H4 H5].
  - apply told_nothing. eapply says_static; eauto.
  - eapply told_filtered; [eapply says_static; eauto|]. rewrite E1, Cc. auto.
  - rewrite <- E3. eapply told_update; eauto; [eapply says_static; eauto|rewrite E1; auto|rewrite Cc; auto].
Qed.

Lemma outq_ext : forall P w w', outq P w w' -> exists l, w_out w' = w_out w ++ l.
Proof. intros P w w' (l & E & _). eauto. Qed.
Lemma new_out_ext : forall w w1 w' m, new_out w1 w' m -> (exists l, w_out w1 = w_out w ++ l) -> new_out w w' m.
Proof. intros w w1 w' m (X & Y & E) (l & El). exists (l ++ X), Y. rewrite E, El, <- !app_assoc. auto. Qed.
Lemma new_out_more : forall w w1 w' m, new_out w w1 m -> (exists l, w_out w' = w_out w1 ++ l) -> new_out w w' m.
Proof. intros w w1 w' m (X & Y & E) (l & El). exists X, (Y ++ l). rewrite El, E, <- !app_assoc. auto. Qed.
Lemma announced_pending : forall w w' d, map if_id (w_ifs w') = map if_id (w_ifs w) -> NoDup (map if_id (w_ifs w)) ->
  map ifstat (w_ifs w') = map ifstat (w_ifs w) -> pending_all w' d -> announced w w' d.
Proof.
  intros w w' d _ Nd St P i Hi U. left. pose proof (get_if_In w i Nd Hi) as G.
  destruct (get_if_static _ w w' i St G) as (i' & G' & E'). destruct (static_flags _ _ E') as (F & Id).
  unfold get_if in G'. apply find_some in G'. destruct G' as (Hi' & _). exists i'. split; auto. split; auto. apply P; auto.
  unfold if_up, flag in *. rewrite F. auto.
Qed.

(** Asking for a new sequence number: what is sent, and what becomes of waiting updates. *)
Lemma multihop_out : forall b i d q id h w, (is_default (d_src d) (d_splen d) = true \/ flag i IF_RFC6126 = false) ->
  w_out (send_multihop_request b i d q id h w) = w_out w ++ [(b, TMhRequest d q (u8 h) id)].
Proof.
  intros b i d q id h w H. unfold send_multihop_request.
  destruct (negb (is_default (d_src d) (d_splen d)) && flag i IF_RFC6126) eqn:E; [|reflexivity].
  apply andb_prop in E. destruct E as (E1 & E2). destruct H as [H|H]; rewrite H in *; discriminate.
Qed.
Lemma multihop_ext : forall b i d q id h w, exists l, w_out (send_multihop_request b i d q id h w) = w_out w ++ l.
Proof.
  intros. unfold send_multihop_request. destruct (_ && _); [exists []; rewrite app_nil_r; auto|]. eexists. reflexivity.
Qed.
Lemma multihop_ifs : forall b i d q id h w, w_ifs (send_multihop_request b i d q id h w) = w_ifs w.
Proof. intros. unfold send_multihop_request. destruct (_ && _); auto. Qed.

Definition groupreq (d : dest) (q : Z) (id : list Z) (w : world) (i : Z) : world :=
  match get_if i w with
  | Some x => if if_up x then send_multihop_request (BIf i) x d q id 127 w else w
  | None => fault w
  end.
Lemma groupreq_ext : forall d q id l w, (exists m, w_out (fold_left (groupreq d q id) l w) = w_out w ++ m) /\
  w_ifs (fold_left (groupreq d q id) l w) = w_ifs w.
Proof.
  intros d q id. induction l as [|i l IH]; intros w; cbn [fold_left]; [split; [exists []; rewrite app_nil_r; auto|auto]|].
  destruct (IH (groupreq d q id w i)) as ((m & A) & B).
  assert (X : (exists m, w_out (groupreq d q id w i) = w_out w ++ m) /\ w_ifs (groupreq d q id w i) = w_ifs w).
  { unfold groupreq. destruct (get_if i w) as [x|]; [|split; [exists []; rewrite app_nil_r; auto|auto]].
    destruct (if_up x); [split; [apply multihop_ext|apply multihop_ifs]|split; [exists []; rewrite app_nil_r; auto|auto]]. }
  destruct X as ((m' & C) & D). split; [|congruence]. exists (m' ++ m). rewrite A, C, <- app_assoc. auto.
Qed.
Lemma groupreq_sent : forall d q id l w i, In (if_id i) l -> get_if (if_id i) w = Some i -> if_up i = true ->
  (is_default (d_src d) (d_splen d) = true \/ flag i IF_RFC6126 = false) ->
  new_out w (fold_left (groupreq d q id) l w) (BIf (if_id i), TMhRequest d q 127 id).
Proof.
  intros d q id. induction l as [|a l IH]; intros w i Hi G U F; [destruct Hi|]. cbn [fold_left].
  destruct (Z.eq_dec a (if_id i)) as [->|Na].
  - eapply new_out_more; [|apply groupreq_ext]. unfold groupreq. rewrite G, U. exists [], []. rewrite multihop_out; auto.
  - destruct (groupreq_ext d q id [a] w) as (X & Y). cbn [fold_left] in X, Y. eapply new_out_ext; [|exact X].
    apply IH; auto; [destruct Hi; [congruence|auto]|]. unfold get_if in *. rewrite Y. auto.
Qed.

Lemma old_iff : forall w r, acceptable r false None w = true <-> eligible w false None r.
Proof.
  intros w r. unfold acceptable, eligible, route_expired. change (sec w) with (now_s w). cbn [andb].
  destruct (r_time r <? now_s w - r_hold_time r) eqn:E; (split; [|intros (H & _)]); try discriminate; auto; [lia|].
  intros _. split; [lia|]. split; [discriminate|discriminate].
Qed.
Lemma old_core : forall w w' r r', core r' = core r -> w_now w' = w_now w -> acceptable r' false None w' = acceptable r false None w.
Proof.
  intros w w' r r' C N. unfold acceptable, route_expired, sec. rewrite N.
  assert (E1 : r_time r' = r_time r) by exact (f_equal r_time C). assert (E2 : r_hold_time r' = r_hold_time r) by exact (f_equal r_hold_time C).
  rewrite E1, E2. auto.
Qed.
Section Req.
Variables (e : list skey) (w0 w : world) (d : dest) (q : Z) (id : list Z).
Hypothesis Hw0 : W e w0.
Hypothesis Hw : W e w.
Hypothesis V : dvalid d.
Hypothesis St : map ifstat (w_ifs w) = map ifstat (w_ifs w0).
Hypothesis Po : exists l, w_out w = w_out w0 ++ l.
Hypothesis Pa : pending_all w d.
Hypothesis Vp : forall i, In i (w_ifs w) -> Forall dvalid (if_pend i).

Lemma request_resend_sent : let w' := send_request_resend d q id w in
  announced w0 w' d /\ request_sent w0 w' d q id.
Proof.
  cbv zeta. unfold send_request_resend. pose proof (best_digest e w d false None Hw V) as B.
  destruct (find_best_route d false None w) as [[b|] w1].
  - destruct B as (Sm & Q & r0 & r1 & Hr0 & D0 & A0 & F0 & F1 & C1 & I1). rewrite F1.
    destruct (smw_keep _ _ Sm) as (K1 & K2 & K3 & K4 & K5). pose proof (quiet_W _ _ _ Q Hw) as Hw1.
    pose proof (find_In _ _ _ F1) as Hr1.
    destruct (W_nbif_ e w1 r1 Hw1 Hr1) as (nb & i & Nb). pose proof (nb_if_get _ _ _ _ Nb) as (G1 & G2). rewrite G1.
    destruct (proj1 (nb_if_iff e w1 (r_neigh r1) nb i Hw1) Nb) as (N1 & N2 & N3 & N4).
    unfold send_unicast_multihop_request. rewrite Nb. rewrite N4. rewrite N4 in G2 || idtac.
    set (wf := flushupdates (n_if nb) w1). set (wm := send_multihop_request (BNb (r_neigh r1)) i d q id 127 wf).
    set (w' := record_resend _ _ _ _ _ _ wm).
    pose proof (flushupdates_frame (n_if nb) w1 (W_refs _ _ Hw1) (get_if_has _ _ _ G2)) as Ff. fold wf in Ff.
    pose proof (multihop_frame (BNb (r_neigh r1)) i d q id 127 wf) as Fm. fold wm in Fm.
    assert (Fr : frame wm w').
    { apply record_frame. eapply frame_has_if; [exact Fm|]. eapply frame_has_if; [exact Ff|]. eapply get_if_has; eauto. }
    pose proof (frame_trans _ _ _ Ff (frame_trans _ _ _ Fm Fr)) as Ft.
    assert (Ow : w_out w' = w_out wm) by apply record_out.
    assert (Iw : w_ifs w' = w_ifs wf) by (unfold w'; rewrite record_ifs; apply multihop_ifs).
    assert (Of : exists l, w_out wf = w_out w1 ++ l).
    { apply (outq_ext (fun _ => True)). apply flushupdates_outq. auto. }
    split.
    + intros i0 Hi0 U0. pose proof (get_if_In w0 i0 (W_ifs _ _ Hw0) Hi0) as Gi0.
      destruct (get_if_static _ w0 w i0 St Gi0) as (ia & Ga & Ea). destruct (static_flags _ _ Ea) as (Fa & Ida).
      assert (Ua : if_up ia = true) by (unfold if_up, flag in *; rewrite Fa; auto).
      assert (Hia : In ia (w_ifs w)) by (unfold get_if in Ga; apply find_some in Ga; apply Ga).
      destruct (Z.eq_dec (if_id i0) (n_if nb)) as [En|En].
      * right. assert (Ga1 : get_if (n_if nb) w1 = Some ia) by (rewrite <- En; unfold get_if in *; rewrite K1; auto).
        assert (i = ia) as -> by congruence. pose proof (Vp ia Hia) as Vi.
        destruct (flush_told e w1 (n_if nb) ia Hw1 Ga1 Vi Ua) as (L & AA & T & O & IL & _).
        assert (Hd : In d L) by (apply IL; apply Pa; auto).
        assert (Sp : exists A1 A A2, AA = A1 ++ A :: A2 /\ told w1 ia d A).
        { clear -T Hd. induction T as [|x y l l' Hxy T IH]; [destruct Hd|]. destruct Hd as [->|Hd]; [exists [], y, l'; auto|].
          destruct (IH Hd) as (A1 & A & A2 & E & H). exists (y :: A1), A, A2. rewrite E. auto. }
        destruct Sp as (A1 & A & A2 & EA & TA). destruct Po as (l0 & E0).
        destruct (multihop_ext (BNb (r_neigh r1)) ia d q id 127 wf) as (lm & Em). fold wm in Em.
        exists (l0 ++ concat A1), A, (concat A2 ++ lm). split.
        -- apply (told_static w' ia i0); auto. apply (told_env w' w1); auto.
           ++ symmetry. apply (f_cfg _ _ Ft).
           ++ symmetry. apply (f_nbs _ _ Ft).
           ++ symmetry. apply (f_rt _ _ Ft).
           ++ symmetry. apply (f_xr _ _ Ft).
           ++ symmetry. apply (f_seqno _ _ Ft).
        -- rewrite Ow, Em. fold wf in O. rewrite O, K2, E0, EA, concat_app. cbn [concat]. rewrite <- !app_assoc. auto.
      * left. exists ia. split; [|split; [auto|apply Pa; auto]].
        assert (get_if (if_id i0) w' = Some ia).
        { unfold get_if in *. rewrite Iw. fold (get_if (if_id i0) wf). unfold wf. rewrite flush_other; auto.
          unfold get_if. rewrite K1. auto. }
        unfold get_if in H. apply find_some in H. apply H.
    + left. assert (Rt : all_routes w' = all_routes w1) by (unfold all_routes; rewrite (f_rt _ _ Ft); auto).
      assert (Hi1 : In i (w_ifs w)) by (rewrite <- K1; auto).
      pose proof (get_if_In w i (W_ifs _ _ Hw) Hi1) as Gi. destruct (get_if_static _ w w0 i (eq_sym St) Gi) as (i0 & G0 & E0).
      destruct (static_flags _ _ E0) as (Fl & Id0). unfold get_if in G0. apply find_some in G0. destruct G0 as (Hi0 & _).
      exists r1, nb, i0. rewrite Rt, (f_nbs _ _ Ft). split; auto. split; [rewrite <- D0; apply (core_dest _ _ C1)|].
      split; [|split; [auto|split; [auto|split; [auto|split; [congruence|]]]]].
      * apply old_iff. rewrite <- A0. apply old_core; auto. rewrite (f_now _ _ Ft). apply (smw_now _ _ Sm).
      * intros Hf. destruct Po as (l0 & El0). destruct Of as (lf & Elf).
        assert (Hf' : is_default (d_src d) (d_splen d) = true \/ flag i IF_RFC6126 = false).
        { destruct Hf as [Hf|Hf]; [left; apply is_default_any; auto|right]. unfold flag in *. rewrite <- Fl. auto. }
        exists (l0 ++ lf), []. rewrite Ow. unfold wm. rewrite multihop_out; auto. rewrite Elf, K2, El0, <- !app_assoc. auto.
  - destruct B as (-> & Na). change (fold_left _ (map if_id (w_ifs w)) w) with (fold_left (groupreq d q id) (map if_id (w_ifs w)) w).
    set (w' := fold_left (groupreq d q id) (map if_id (w_ifs w)) w).
    destruct (groupreq_ext d q id (map if_id (w_ifs w)) w) as (Ow & Iw). fold w' in Ow, Iw.
    split.
    + apply announced_pending; auto; try (rewrite Iw); auto using stat_ids; [apply (W_ifs _ _ Hw0)|]. unfold pending_all. rewrite Iw. auto.
    + right. split.
      * intros r Hr Dr El. apply old_iff in El.
        assert (Fr : frame w w').
        { apply frame_fold. intros j w2 Hj F. pose proof (all_ifs _ _ Hj _ F) as Gj. unfold groupreq.
          apply get_if_iff in Gj. destruct (get_if j w2) as [x|]; [|contradiction]. destruct (if_up x); [apply multihop_frame|apply frame_refl]. }
        assert (Hr0 : In r (all_routes w)) by (unfold all_routes in *; rewrite (f_rt _ _ Fr) in Hr; auto).
        rewrite (old_core w w' r r) in El; auto; [|apply (f_now _ _ Fr)]. rewrite (Na r Hr0 Dr) in El. discriminate El.
      * intros i0 Hi0 U0 Hf. pose proof (get_if_In w0 i0 (W_ifs _ _ Hw0) Hi0) as Gi0.
        destruct (get_if_static _ w0 w i0 St Gi0) as (ia & Ga & Ea). destruct (static_flags _ _ Ea) as (Fa & Ida).
        assert (Hia : In ia (w_ifs w)) by (unfold get_if in Ga; apply find_some in Ga; apply Ga).
        apply (new_out_ext w0 w w'); auto. rewrite <- Ida. apply groupreq_sent.
        -- apply in_map; auto.
        -- rewrite Ida. auto.
        -- unfold if_up, flag in *. rewrite Fa. auto.
        -- destruct Hf as [Hf|Hf]; [left; apply is_default_any; auto|right]. unfold flag in *. rewrite Fa. auto.
Qed.
End Req.

(** ** route_lost, when there is no redistributed route and nothing is selected *)
Lemma wanted_next : forall s, wanted_seqno s = next_seqno s.
Proof.
  intros. unfold wanted_seqno, next_seqno. rewrite Z.geb_leb. unfold INFINITY. destruct (65535 <=? s_metric s); auto.
  unfold seqno_plus. apply land_65535.
Qed.
Lemma lost_sent : forall e w k m s, W e w -> get_src k (w_srcs w) = Some s -> dvalid (kdest k) ->
  (forall x, ~ ours w (kdest k) x) -> (forall r, ~ is_selected w (kdest k) r) -> m < INFINITY ->
  (forall i, In i (w_ifs w) -> Forall dvalid (if_pend i)) ->
  let w' := route_lost k m w in let d := kdest k in
  announced w w' d /\
  ((exists r, In r (all_routes w) /\ dest_of r = d /\ acceptable r true None w = true) ->
   (exists r', is_selected w' d r') \/ krefused w w' \/ exists r, In r (all_routes w) /\ dest_of r = d /\ install_denied w r) /\
  ((forall r, In r (all_routes w) -> dest_of r = d -> acceptable r true None w = false) ->
   (forall r', ~ is_selected w' d r') /\ (m <= 32767 -> request_sent w w' d (next_seqno s) (k_id k))).
Proof.
  intros e w k m s Hw Gs V Nx Ns Fm Vp. cbv zeta. unfold route_lost. set (d := kdest k) in *.
  pose proof (best_digest e w d true None Hw V) as B. destruct (find_best_route d true None w) as [[b|] w1].
  - destruct B as (Sm & Q & r0 & r1 & Hr0 & D0 & A0 & F0 & F1 & C1 & I1). rewrite F1.
    pose proof (quiet_W _ _ _ Q Hw) as Hw1. destruct (smw_keep _ _ Sm) as (K1 & K2 & K3 & K4 & K5).
    assert (Fe : feasible r1 w1 = true).
    { assert (Aa : acceptable r1 true None w1 = true) by (rewrite (acceptable_core r0 r1 true None w w1); auto using smw_srcs, smw_now).
      unfold acceptable in Aa. destruct (route_expired r1 w1); [discriminate Aa|]. cbn [andb] in Aa.
      destruct (feasible r1 w1); auto. }
    rewrite Fe. assert (D1 : dest_of r1 = d) by (rewrite <- D0; apply (core_dest _ _ C1)).
    assert (Ii : r_installed r1 = false).
    { destruct (r_installed r1) eqn:Ii; auto. exfalso. apply (Ns r0). split; [auto|]. split; [congruence|auto]. }
    assert (Nx1 : find_xroute (rdest r1) w1 = None).
    { change (rdest r1) with (dest_of r1). rewrite D1. destruct (find_xroute d w1) as [x|] eqn:Ex; auto. exfalso.
      apply find_xroute_iff in Ex; [|apply (W_xr _ _ Hw1)]. apply (Nx x). unfold ours in *. rewrite K4 in Ex. auto. }
    assert (Ns1 : find_installed (rdest r1) w1 = None).
    { change (rdest r1) with (dest_of r1). rewrite D1. destruct (find_installed d w1) as [h|] eqn:Ex; auto. exfalso.
      apply (find_installed_iff d) in Ex; [|apply (W_rt _ _ Hw1)|auto]. destruct Ex as (H1 & H2 & H3).
      destruct (others_smw (mkDest [] 0 [] 0) _ _ Sm) as (_ & O2). 
      destruct (dest_dec (dest_of h) (mkDest [] 0 [] 0)) as [Ed|Ed].
      - destruct (others_smw (mkDest [] 1 [] 0) _ _ Sm) as (_ & O3). destruct (O3 h H1) as (h0 & X1 & X2 & X3).
        + rewrite Ed. discriminate.
        + apply (Ns h0). split; auto. split; [congruence|]. rewrite <- H3. symmetry. apply (core_dest _ _ X2).
      - destruct (O2 h H1 Ed) as (h0 & X1 & X2 & X3). apply (Ns h0). split; auto. split; [congruence|]. rewrite <- H3. symmetry. apply (core_dest _ _ X2). }
    unfold consider_route. rewrite F1, Ii, Fe, Nx1, Ns1. cbn [negb]. unfold consider_install. cbn [option_map]. cbv zeta.
    cbn [switch_routes].
    destruct (install_result e w1 b r1 Hw1 F1 Ii Ns1) as (R1 & R2 & R3 & R4 & R5). rewrite D1 in *.
    pose proof (install_any e w1 b r1 Hw1 F1 Fe) as Q2. pose proof (quiet_W _ _ _ Q2 Hw1) as Hw2.
    destruct (quiet_find e w1 (install_route b w1) b r1 Hw1 Q2 F1) as (r2 & F2 & C2). rewrite F2.
    assert (rdest r2 = d) as ->. { change (rdest r2) with (dest_of r2). rewrite <- D1. apply (core_dest _ _ C2). }
    set (w2 := install_route b w1) in *.
    destruct (send_all_pend e true d w2 Hw2) as (P1 & _). pose proof (send_update_all_frame true d w2 (W_refs _ _ Hw2)) as Fr.
    assert (Kt : w_ktr (send_update_all true d w2) = w_ktr w2) by apply (f_ktr _ _ Fr).
    split; [|split].
    + assert (Si : map ifstat (w_ifs (send_update_all true d w2)) = map ifstat (w_ifs w)) by (rewrite (f_ifs _ _ Fr), R1, K1; auto).
      apply announced_pending; auto using stat_ids. apply (W_ifs _ _ Hw).
    + intros _. destruct R5 as [(_ & [R5|R5])|(r' & R5 & _)].
      * right. left. eapply krefused_tr; [exact K5|exact R5|exact Kt].
      * right. right. exists r0. split; auto. split; auto. eapply denied_core; [exact C1| | | |exact R5].
        -- pose proof (quiet_same _ _ _ Q) as Sq. apply (q_nbs _ _ Sq).
        -- rewrite K1. auto.
        -- pose proof (quiet_same _ _ _ Q) as Sq. apply (q_cfg _ _ Sq).
      * left. exists r'. eapply is_sel_rt; [apply (f_rt _ _ Fr)|exact R5].
    + intros Na. rewrite (Na r0 Hr0 D0) in A0. discriminate A0.
  - destruct B as (-> & Na). assert (m <? INFINITY = true) as -> by lia. cbv zeta.
    destruct (send_resend_pend e d w Hw) as (P1 & P2). pose proof (send_update_resend_frame d w (W_refs _ _ Hw)) as Fr.
    set (w1 := send_update_resend d w) in *.
    assert (Hw1 : W e w1) by (eapply W_frame; eauto).
    assert (Si : map ifstat (w_ifs w1) = map ifstat (w_ifs w)) by apply (f_ifs _ _ Fr).
    assert (Gs1 : get_src k (w_srcs w1) = Some s).
    { rewrite <- Gs. eapply evo_get; [apply (f_srcs _ _ Fr)|]. intros r Hr Ir E. apply (Ns r). split; auto. split; auto.
      unfold d, kdest, dest_of, dest_of_key. rewrite E. reflexivity. }
    rewrite Gs1, wanted_next.
    assert (Vp1 : forall i, In i (w_ifs w1) -> Forall dvalid (if_pend i)).
    { intros i Hi. destruct (P2 (if_id i) i) as (i0 & G0 & In0). { apply get_if_In; auto. apply (W_ifs _ _ Hw1). }
      apply Forall_forall. intros d' Hd'. apply In0 in Hd'. destruct Hd' as [<-|Hd']; auto.
      unfold get_if in G0. apply find_some in G0. destruct G0 as (G0 & _). specialize (Vp i0 G0). rewrite Forall_forall in Vp. auto. }
    assert (Po : exists l, w_out w1 = w_out w ++ l).
    { apply (outq_ext (fun _ => True)). apply send_update_resend_outq. auto. }
    destruct (m <=? INFINITY / 2) eqn:Hm.
    + destruct (request_resend_sent e w w1 d (next_seqno s) (k_id k) Hw Hw1 V Si Po P1 Vp1) as (A1 & A2).
      split; [exact A1|]. split.
      * intros (r & Hr & Dr & Ar). rewrite (Na r Hr Dr) in Ar. discriminate Ar.
      * intros _. split; [|auto]. intros r' (H1 & H2 & H3).
        assert (X : exists r0, In r0 (all_routes w1) /\ r_installed r0 = true /\ dest_of r0 = dest_of r').
        { clear -H1 H2 Hw1 V. unfold send_request_resend in H1. pose proof (best_digest e w1 d false None Hw1 V) as B.
          destruct (find_best_route d false None w1) as [[b|] w2].
          - destruct B as (Sm & Q & r0 & r1 & Hr0 & D0 & A0 & F0 & F1 & C1 & I1). rewrite F1 in H1. pose proof (quiet_W _ _ _ Q Hw1) as Hw2.
            destruct (W_nbif_ e w2 r1 Hw2 (find_In _ _ _ F1)) as (n & i & Nb). pose proof (nb_if_get _ _ _ _ Nb) as (G1 & G2). rewrite G1 in H1.
            assert (Fr : frame w2 (send_unicast_multihop_request (r_neigh r1) d (next_seqno s) (k_id k) 127 w2)).
            { apply unicast_multihop_frame; [eapply W_refs; eauto|]. unfold has_nb. congruence. }
            match type of H1 with In r' (all_routes ?x) => assert (Fr2 : frame w2 x) end.
            { eapply frame_trans; [exact Fr|]. apply record_frame. eapply frame_has_if; [exact Fr|]. eapply get_if_has; eauto. }
            unfold all_routes in H1. rewrite (f_rt _ _ Fr2) in H1. fold (all_routes w2) in H1.
            destruct (dest_dec (dest_of r') (mkDest [] 0 [] 0)) as [Ed|Ed].
            + destruct (others_smw (mkDest [] 1 [] 0) _ _ Sm) as (_ & O3). destruct (O3 r' H1) as (h0 & X1 & X2 & X3); [rewrite Ed; discriminate|].
              exists h0. split; auto. split; [congruence|]. symmetry. apply (core_dest _ _ X2).
            + destruct (others_smw (mkDest [] 0 [] 0) _ _ Sm) as (_ & O3). destruct (O3 r' H1 Ed) as (h0 & X1 & X2 & X3).
              exists h0. split; auto. split; [congruence|]. symmetry. apply (core_dest _ _ X2).
          - destruct B as (-> & _). exists r'. split; [|auto].
            match type of H1 with In r' (all_routes ?x) => assert (Fr2 : frame w1 x) end.
            { apply frame_fold. intros j w2 Hj F. pose proof (all_ifs _ _ Hj _ F) as Gj.
              apply get_if_iff in Gj. destruct (get_if j w2) as [x|]; [|contradiction]. destruct (if_up x); [apply multihop_frame|apply frame_refl]. }
            unfold all_routes in H1. rewrite (f_rt _ _ Fr2) in H1. exact H1. }
        destruct X as (r0 & X1 & X2 & X3). apply (Ns r0). unfold all_routes in X1. rewrite (f_rt _ _ Fr) in X1. split; auto. split; [auto|congruence].
    + split; [apply announced_pending; auto using stat_ids; apply (W_ifs _ _ Hw)|]. split.
      * intros (r & Hr & Dr & Ar). rewrite (Na r Hr Dr) in Ar. discriminate Ar.
      * intros _. split; [|unfold INFINITY in Hm; lia]. intros r' Sr. apply (Ns r'). eapply is_sel_rt; [|exact Sr]. symmetry. apply (f_rt _ _ Fr).
Qed.

(** ** Flushing the selected route *)
Lemma released : forall k w, let w' := release_source k w in
  w_rt w' = w_rt w /\ w_ifs w' = w_ifs w /\ w_out w' = w_out w /\ w_cfg w' = w_cfg w /\ w_nbs w' = w_nbs w /\ w_xr w' = w_xr w /\
  w_seqno w' = w_seqno w /\ w_ktr w' = w_ktr w /\ w_now w' = w_now w.
Proof.
  intros k w. cbv zeta. unfold release_source. destruct (get_src k (w_srcs w)) as [s|]; [destruct (release_ok s)|]; cbn; auto 10.
Qed.
Lemma flush_lost : forall e w r, W e w -> In r (all_routes w) -> r_installed r = true -> route_metric r < INFINITY ->
  (forall x, ~ ours w (dest_of r) x) -> (forall i, In i (w_ifs w) -> Forall dvalid (if_pend i)) ->
  exists s, get_src (r_src r) (w_srcs w) = Some s /\
  let w' := flush_route (r_ptr r) w in let d := dest_of r in
  announced w w' d /\ (forall x, In x (all_routes w') -> r_ptr x <> r_ptr r) /\
  ((exists r1, In r1 (all_routes w) /\ r1 <> r /\ dest_of r1 = d /\ acceptable r1 true None w = true) ->
   (exists r', is_selected w' d r') \/ krefused w w' \/
   exists r1, In r1 (all_routes w) /\ r1 <> r /\ dest_of r1 = d /\ install_denied w r1) /\
  ((forall r1, In r1 (all_routes w) -> r1 <> r -> dest_of r1 = d -> acceptable r1 true None w = false) ->
   (forall r', ~ is_selected w' d r') /\
   (route_metric r <= 32767 -> request_sent w w' d (next_seqno s) (k_id (r_src r)))).
Proof.
  intros e w r Hw Hr Ir Fm Nx Vp. set (p := r_ptr r). pose proof (W_rt _ _ Hw) as Wf.
  assert (F : find_ptr p w = Some r) by (apply find_ptr_iff; auto).
  assert (Gs : exists s, get_src (r_src r) (w_srcs w) = Some s).
  { assert (X : src_of r w <> None) by (apply (W_refs _ _ Hw); auto). unfold src_of in X.
    destruct (get_src (r_src r) (w_srcs w)); [eauto|contradiction]. }
  destruct Gs as (s & Gs). exists s. split; auto. cbv zeta.
  pose proof (proj1 (flush_spec e w p r Hw F)) as Ch. pose proof (chain_W _ _ _ Ch Hw) as HwF.
  pose proof (route_dvalid w r Wf Hr) as V.
  pose proof (uninstall_chain e w p r Hw F) as Q1. pose proof (uninstall_find e w p r Hw F) as F1.
  pose proof (quiet_W _ _ _ Q1 Hw) as Hw1.
  assert (U1 : exists w1k, uninstall_route p w = w1k /\ kmono w w1k /\ kframe (map_ptr p (set_r_installed false) w) w1k).
  { eexists. split; [reflexivity|]. unfold uninstall_route. rewrite F, Ir. cbn [negb].
    destruct (W_nbif_ e w r Hw Hr) as (n & i & Nb). rewrite Nb. destruct (change_route_flush _ _ _ _) as [rc w1] eqn:C. cbn [snd].
    split; [apply (flush_log _ _ _ _ _ _ C)|eapply change_route_flush_frame; eauto]. }
  destruct U1 as (w1 & E1 & Km & (ka & kb & Ek)). unfold flush_route. rewrite F. cbv zeta. rewrite Ir, E1 in *.
  destruct (unlink_spec w1 p _ (W_rt _ _ Hw1) F1) as (A & l1 & l2 & B & Rt1 & U). change (rdest (set_r_installed false r)) with (rdest r) in U.
  assert (S2 : star false (e, w1) (r_src r :: e, unlink_route (rdest r) p w1)).
  { eapply star_loud. apply (S_unlink e w1 p (set_r_installed false r)); auto. }
  pose proof (star_W _ _ _ _ _ S2 Hw1) as Hw2. set (w2 := unlink_route (rdest r) p w1) in *.
  set (rt2 := A ++ match l1 ++ l2 with [] => [] | _ :: _ => [l1 ++ l2] end ++ B) in U.
  assert (R2 : all_routes w2 = concat A ++ (l1 ++ l2) ++ concat B).
  { rewrite U. unfold all_routes, rt2. cbn [w_rt set_w_rt]. rewrite !concat_app. f_equal. f_equal. destruct (l1 ++ l2); cbn; auto. rewrite app_nil_r. auto. }
  assert (R1 : all_routes w1 = concat A ++ (l1 ++ set_r_installed false r :: l2) ++ concat B).
  { unfold all_routes. rewrite Rt1, concat_mid. auto. }
  assert (R0 : all_routes w1 = map (upd_route p (set_r_installed false)) (all_routes w)).
  { rewrite <- all_map_ptr, Ek. reflexivity. }
  assert (Nd : NoDup (map r_ptr (all_routes w1))) by apply (wf_ptrs _ (W_rt _ _ Hw1)).
  assert (In2 : forall x, In x (all_routes w2) -> In x (all_routes w) /\ r_ptr x <> p).
  { intros x Hx. assert (Px : r_ptr x <> p).
    { rewrite R2 in Hx. intros Ep.
      assert (Nd2 : NoDup (map r_ptr (set_r_installed false r :: all_routes w2))).
      { rewrite R2. apply (Permutation_NoDup (l := map r_ptr (all_routes w1))); [|apply (wf_ptrs _ (W_rt _ _ Hw1))].
        apply Permutation_map. rewrite R1. rewrite <- !app_assoc. cbn [app].
        etransitivity; [|apply Permutation_sym, Permutation_middle]. apply Permutation_app_head.
        etransitivity; [|apply Permutation_sym, Permutation_middle]. reflexivity. }
      cbn [map] in Nd2. apply NoDup_cons_iff in Nd2. destruct Nd2 as (N1 & _). apply N1. change (r_ptr (set_r_installed false r)) with p. rewrite <- Ep.
      apply in_map. rewrite R2. auto. }
    split; auto. assert (H1 : In x (all_routes w1)).
    { rewrite R1. rewrite R2 in Hx. rewrite !in_app_iff in *. cbn [In]. tauto. }
    rewrite R0 in H1. apply in_map_iff in H1. destruct H1 as (y & Ey & Hy). unfold upd_route, is_ptr in Ey.
    destruct (r_ptr y =? p) eqn:Py; [|congruence]. exfalso. apply Px. rewrite <- Ey. cbn. lia. }
  assert (In2' : forall x, In x (all_routes w) -> x <> r -> In x (all_routes w2)).
  { intros x Hx Nr. assert (Px : r_ptr x <> p).
    { intros Ep. apply Nr. assert (find_ptr p w = Some x) by (apply find_ptr_iff; auto). congruence. }
    assert (H1 : In x (all_routes w1)).
    { rewrite R0. apply in_map_iff. exists x. unfold upd_route, is_ptr. assert (r_ptr x =? p = false) as -> by lia. auto. }
    rewrite R1 in H1. rewrite R2. rewrite !in_app_iff in *. cbn [In] in H1. destruct H1 as [H1|[[H1|[H1|H1]]|H1]]; auto.
    exfalso. apply Px. rewrite <- H1. reflexivity. }
  assert (E2 : w_ifs w2 = w_ifs w /\ w_out w2 = w_out w /\ w_cfg w2 = w_cfg w /\ w_nbs w2 = w_nbs w /\ w_xr w2 = w_xr w /\
    w_srcs w2 = w_srcs w /\ w_now w2 = w_now w /\ w_ktr w2 = w_ktr w1) by (rewrite U, Ek; cbn; auto 10).
  destruct E2 as (EI & EO & EC & EN & EX & ES & ET & EK).
  assert (Gs2 : get_src (r_src r) (w_srcs w2) = Some s) by (rewrite ES; auto).
  assert (Ac : forall x, acceptable x true None w2 = acceptable x true None w) by (intros; apply acceptable_core; auto).
  assert (Ns2 : forall x, ~ is_selected w2 (dest_of r) x).
  { intros x (H1 & H2 & H3). apply In2 in H1. destruct H1 as (H1 & Px). apply Px. unfold p. f_equal.
    eapply selected_unique; [exact Wf| |]; [split; [exact H1|split; [exact H2|exact H3]]|split; auto]. }
  destruct (lost_sent (r_src r :: e) w2 (r_src r) (route_metric r) s Hw2 Gs2 V) as (L1 & L2 & L3); auto.
  { intros x Hx. apply (Nx x). unfold ours in *. rewrite EX in Hx. auto. }
  { rewrite EI. auto. }
  change (kdest (r_src r)) with (dest_of r) in *. set (w3 := route_lost (r_src r) (route_metric r) w2) in *.
  destruct (released (r_src r) w3) as (P1 & P2 & P3 & P4 & P5 & P6 & P7 & P8 & P9). set (w' := release_source (r_src r) w3) in *.
  assert (Km2 : kmono w w2) by (destruct Km as (l & Km); exists l; rewrite EK; auto).
  split; [|split; [|split]].
  - intros i Hi U0. rewrite <- EI in Hi. destruct (L1 i Hi U0) as [(i' & X1 & X2 & X3)|(X & AA & Y & T & O)].
    + left. exists i'. rewrite P2. auto.
    + right. exists X, AA, Y. split; [|rewrite P3, O, EO; auto]. apply (told_env w' w3); auto.
  - intros x Hx. unfold all_routes in Hx. rewrite P1 in Hx.
    assert (Q3 : quiet (r_src r :: e) w2 w3) by (apply lost_chain; auto; congruence).
    pose proof (q_rt _ _ (quiet_same _ _ _ Q3)) as R3. apply rt_same_concat in R3.
    assert (Hc : In (core x) (map core (all_routes w2))) by (eapply Permutation_in; [exact R3|]; apply in_map; auto).
    apply in_map_iff in Hc. destruct Hc as (y & Cy & Hy). apply In2 in Hy. destruct Hy as (_ & Hy).
    intros Ep. apply Hy. rewrite (core_ptr _ _ Cy). auto.
  - intros (r1 & H1 & H2 & H3 & H4). destruct L2 as [(r' & X)|[X|(r2 & X1 & X2 & X3)]].
    + exists r1. rewrite Ac. auto.
    + left. exists r'. eapply is_sel_rt; [exact P1|exact X].
    + right. left. eapply refused_r; [eapply refused_l; [exact Km2|exact X]|]. apply kmono_same. auto.
    + right. right. apply In2 in X1. destruct X1 as (X1 & Px). exists r2. split; auto. split; [intros ->; apply Px; reflexivity|].
      split; auto. eapply denied_core; [reflexivity| | | |exact X3]; congruence.
  - intros Na. destruct L3 as (X1 & X2).
    + intros r1 H1 D1. apply In2 in H1. destruct H1 as (H1 & Px). rewrite Ac. apply Na; auto. intros ->. apply Px. reflexivity.
    + split; [intros r' Sr; apply (X1 r'); eapply is_sel_rt; [|exact Sr]; auto|].
      intros Hm. destruct (X2 Hm) as [(r2 & nb & i & Y1 & Y2 & Y3 & Y4 & Y5 & Y6 & Y7 & Y8)|(Y1 & Y2)].
      * left. exists r2, nb, i. unfold all_routes. rewrite P1, P5, <- EI. split; auto. split; auto. split; [|split; auto; split; auto; split; auto; split; auto].
        -- unfold eligible, now_s in *. rewrite P9. destruct Y3 as (Z1 & Z2 & Z3). split; auto. split; [discriminate|auto].
        -- intros Hf. destruct (Y8 Hf) as (X & Y & EE). exists X, Y. rewrite P3, EE, EO. auto.
      * right. split.
        -- intros x Hx Dx El. apply (Y1 x); auto; [unfold all_routes in *; rewrite P1 in Hx; auto|].
           unfold eligible, now_s in *. rewrite P9 in El. destruct El as (Z1 & Z2 & Z3). split; auto. split; [discriminate|auto].
        -- intros i Hi U0 Hf. rewrite <- EI in Hi. destruct (Y2 i Hi U0 Hf) as (X & Y & EE). exists X, Y. rewrite P3, EE, EO. auto.
Qed.

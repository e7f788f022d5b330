(** L_Buf8.v: a timestamped IHU and a Hello in one datagram, for every fill level but those
    for which it is false, and with a key. *)
From Verif Require Import Base M_Util S_Util L_Util M_Filter M_Types M_Wire S_Wire L_Wire L_Wire2 M_Auth L_Auth2 M_Buf S_Buf L_Codec L_Buf L_Buf2 L_Buf3 L_Buf4 L_Buf5 L_Buf7.

(** ** A Hello with a timestamp is not forgotten *)
Definition hp (p : pst) (x : step) : Prop := forall r, x = Ret r -> p_hello p = true -> p_hello (fst r) = true.
Lemma hp_bind p A (x : pr A) f : (forall a, hp p (f a)) -> hp p (bind x f).
Proof. intros H r E. destruct x; cbn [bind] in E; [exact (H _ r E)|discriminate E..]. Qed.
Lemma hp_ret p p' l : (p_hello p = true -> p_hello p' = true) -> hp p (Ret (p', l)).
Proof. intros H r E. injection E as <-. exact H. Qed.
Ltac hps := cbv zeta; repeat first
  [ apply hp_bind; intros
  | match goal with |- hp _ (if ?b then _ else _) => destruct b end
  | match goal with |- hp _ (match ?o with _ => _ end) => destruct o end
  | apply hp_ret; cbn; intros
  | unfold ignore ].
Lemma hp_tlv c pkt t m len p : hp p (parse_tlv c pkt t m len p).
Proof.
  unfold parse_tlv, p_ack_req, p_ack, p_hello_tlv, p_ihu, p_router_id, p_nh, p_update, p_request, p_mh_request, clear_prefixes.
  repeat match goal with |- hp _ (if ?b then _ else _) => destruct b end;
  hps; auto;
  repeat match goal with |- context [if ?b then _ else _] => destruct b | |- context [match ?b with _ => _ end] => destruct b end; auto.
Qed.
Lemma hp_one c p t w : p_hello p = true -> p_hello (fst (one c p t w)) = true.
Proof.
  unfold one. intros H. destruct (parse_tlv _ _ _ _ _ _) as [r| |] eqn:E; [|exact H..]. exact (hp_tlv _ _ _ _ _ _ r E H).
Qed.
Lemma hp_tlvs c fs : forall p, p_hello p = true -> p_hello (fst (tlvs c p fs)) = true.
Proof. induction fs as [|[t w] fs IH]; intros p H; [exact H|]. cbn [tlvs fst]. apply IH, hp_one, H. Qed.

Section Rtt.
Variable key : Type.
Variable mac : key -> list Z -> option (list Z).
Notation env := (benv key).
Variable v : env.
Variable c : rctx.
Hypothesis VOK : env_ok key mac v.
Hypothesis FROM : addr_ok (r_from c).
Hypothesis LL : linklocal (r_from c) = true.
Variable own : bool.
Notation binv := (binv key v c own).
Notation avail := (avail key v).

Lemma flush_pkt : forall s E R G, binv s E R -> e_buf s = enc (G None) -> shape key v (e_hello s) G ->
  (forall o, t_ok o -> Forall frame_ok (G o)) -> 0 < zlen (e_buf s) ->
  exists o pkt, t_ok o /\ e_sent (flushbuf key mac v s) = e_sent s ++ [pkt] /\
    (v_ts v = true -> 0 <= e_hello s -> exists t, o = Some t) /\
    parse_packet c pkt = Ret (snd (tlvs c p0 (G o)) ++ rtt_action (fst (tlvs c p0 (G o)))).
Proof.
  intros s E R G (E1 & E2 & R1 & R2 & F & -> & -> & Sn & C) BG Sh0 Go Z0.
  assert (Sz : zlen (e_buf s) <= v_size v).
  { pose proof (c_avail _ _ _ _ _ _ _ _ C) as Av. unfold L_Buf.avail in Av. destruct (auth_room_cases key v); lia. }
  unfold flushbuf. replace (zlen (e_buf s) >? v_size v) with false by lia. cbn [bad_if].
  replace (zlen (e_buf s) >? 0) with true by lia.
  set (s1 := match v_key v with Some _ => send_pc key v s | None => s end).
  assert (P : exists extra, e_buf s1 = e_buf s ++ enc extra /\ zlen (enc extra) <= (if auth_room key v =? 0 then 0 else 14) /\ e_hello s1 = e_hello s /\
    Forall frame_ok extra /\ Forall (fun f : Z * list Z => 10 < fst f < 256 /\ is_raw f = false) extra /\
    (extra = [] \/ exists f, extra = [f]) /\
    keeps s s1 /\ e_sent s1 = e_sent s).
  { unfold s1, auth_room. destruct (v_key v) as [k|] eqn:K.
    - destruct (pc_ok key v c own s E2 R2 F C ltac:(congruence)) as (s' & extra & -> & Hp). exists extra. tauto.
    - exists []. cbn [enc flat_map]. rewrite app_nil_r, zlen_nil. destruct C. repeat split; auto; try tauto. exact (Z.le_refl 0). }
  destruct P as (extra & P1 & P2 & P3 & P4 & P5 & P6 & P8 & P9).
  set (F1 := fun o => G o ++ extra).
  assert (B1 : e_buf s1 = enc (F1 None)) by (unfold F1; rewrite enc_app, P1, BG; auto).
  assert (Sh : shape key v (e_hello s1) F1).
  { rewrite P3. unfold F1. destruct P6 as [-> |(f & ->)]; [|apply shape_snoc, Sh0].
    destruct Sh0 as [[Q1 Q2]|(pre & post & u & sq & iv & Q1 & Q2)].
    - left. split; auto. intros o. rewrite Q2. auto.
    - right. exists pre, post, u, sq, iv. split; auto. intros o. rewrite app_nil_r. auto. }
  destruct (fill_patch key v c F1 s1 B1 Sh) as (o & To & Q & Lo & Ht).
  set (header := 42 :: 2 :: be16 (zlen (e_buf s1))).
  set (s2 := fill_rtt key v s1) in *.
  destruct Q as (Q1 & Q2 & Q3 & Q4 & Q5 & Q6 & Q7 & Q8 & Q9 & Q10 & Q11 & Q12 & Q13 & Q14).
  cbn [set_e_buf e_buf e_hello e_id e_nh e_prefix e_pc e_index e_hseq e_ipv4 e_lls e_mc e_rndb e_sent e_bad] in *.
  pose proof (c_avail _ _ _ _ _ _ _ _ C) as Av. unfold L_Buf.avail in Av.
  assert (L1 : zlen (e_buf s1) = zlen (e_buf s) + zlen (enc extra)) by (rewrite P1, zlen_app; auto).
  pose proof (zlen_nonneg _ (enc extra)) as Nx.
  assert (Tr : exists tl, match v_key v with
      | None => Some []
      | Some k => add_hmac key mac (v_port v) (e_lls s2) (v_dst v) header (e_buf s2) (v_size v) k
      end = Some tl /\ bytes_ok tl /\ zlen (e_buf s2) + zlen tl <= v_size v).
  { assert (P2' : v_key v <> None -> zlen (enc extra) <= 14 /\ 0 <= v_size v - 62 - zlen (e_buf s)).
    { unfold auth_room in P2, Av. destruct (v_key v); [|congruence]. auto. }
    assert (P2'' : v_key v = None -> zlen (enc extra) <= 0).
    { intros Kn. unfold auth_room in P2. rewrite Kn in P2. exact P2. }
    destruct (v_key v) as [k|] eqn:K.
    - destruct (P2' ltac:(congruence)) as [X1 X2].
      unfold add_hmac, compute_hmac.
      destruct (e_lls s2) as [|src lls] eqn:El.
      { exfalso. apply (c_lls _ _ _ _ _ _ _ _ C); [congruence|]. destruct P8 as (_ & _ & P8 & _). congruence. }
      rewrite Q1, Lo. replace (zlen (e_buf s1) + 2 + 32 >? v_size v) with false by lia.
      match goal with |- context [mac k ?m] => destruct (proj2 VOK ltac:(congruence) k m) as (d & -> & Ld & Bd) end.
      pose proof (zlen_nonneg _ d). eexists. split; [reflexivity|]. split.
      + constructor; [unfold byte_ok, MESSAGE_MAC; lia|]. constructor; [|auto]. unfold byte_ok, u8. lia.
      + rewrite !zlen_cons. lia.
    - exists []. split; auto. split; [constructor|]. rewrite Q1, Lo, zlen_nil. specialize (P2'' eq_refl). lia. }
  destruct Tr as (tl & -> & Btl & Ltl).
  replace (zlen (e_buf s2) + zlen tl >? v_size v) with false by lia. cbn [bad_if].
  set (padding := if v_probe v && _ then _ else _).
  assert (Bpd : bytes_ok padding).
  { unfold padding. destruct (_ && _); [|constructor]. apply (probe_pad_bytes c). lia. }
  exists o. eexists. split; [exact To|]. split.
  { cbn [buf_reset set_e_sent set_e_timeout set_e_prefix set_e_nh set_e_id set_e_hello set_e_buf e_sent]. rewrite Q13, P9. reflexivity. }
  split; [intros T1 T2; rewrite P3 in Ht; eexists; apply Ht; auto|].
  unfold header. rewrite <- Lo, Q1. set (b := enc (F1 o)) in *. set (pkt := (42 :: 2 :: be16 (zlen b)) ++ b ++ tl ++ padding).
  assert (Fall : Forall frame_ok (F1 o)) by (apply Forall_app; split; [apply Go, To|exact P4]).
  pose proof (proj1 VOK) as [V1 V2]. pose proof (zlen_nonneg _ tl) as Nt. rewrite Q1 in Ltl.
  assert (Bp : bytes_ok pkt).
  { unfold pkt. rewrite !bytes_ok_app. split.
    - constructor; [unfold byte_ok; lia|]. constructor; [unfold byte_ok; lia|]. apply be16_ok.
    - split; [apply enc_bytes; auto|]. split; auto. }
  assert (Lp : 4 <= zlen pkt).
  { unfold pkt. rewrite zlen_app. change (zlen (42 :: 2 :: be16 (zlen b))) with 4. pose proof (zlen_nonneg _ (b ++ tl ++ padding)). lia. }
  assert (Fr : frames (body pkt) (F1 o) true).
  { unfold pkt. rewrite (body_of c) by lia. apply frames_enc. auto. }
  destruct (parse_packet_frames c pkt _ _ FROM Bp Lp Fr) as [Pk _].
  assert (Hh : babel_header c pkt = true) by (unfold babel_header; rewrite LL; reflexivity).
  rewrite Hh in Pk. unfold F1 in Pk. rewrite tlvs_extra in Pk; [exact Pk|]. eapply Forall_impl; [|exact P5]. cbv beta. tauto.
Qed.

Definition together (rx iv x y : Z) (acts : list action) : Prop :=
  (exists u q i t, In (AHello u q i (Some t)) acts) /\ In (AIhu rx iv) acts /\ In (ARtt x y) acts.

Lemma ihu_frame_ok rx iv a x y : linklocal a = true -> addr_ok a -> frame_ok (MESSAGE_IHU, ihu_body rx iv a (Some (x, y))).
Proof.
  intros La Ha. unfold frame_ok. cbn [fst snd]. unfold ihu_body, MESSAGE_IHU. rewrite La. split; [lia|]. split.
  - rewrite !zlen_cons, !zlen_app. change (zlen (ihu_tail (Some (x, y)))) with 10. unfold be16. rewrite !zlen_cons, !zlen_nil.
    unfold zlen. rewrite skipn_length. destruct Ha. lia.
  - constructor; [unfold byte_ok, AE_IPV6_LOCAL; lia|]. constructor; [unfold byte_ok; lia|].
    rewrite !bytes_ok_app. repeat split; try apply be16_ok; [|apply ihu_tail_ok]. apply bytes_ok_skipn, Ha.
Qed.
Lemma one_ihu_here p rx iv a x y : 0 <= rx < 65536 -> 0 <= iv < 65536 -> addr_ok a -> linklocal a = true -> u32_ok x -> u32_ok y -> In a (r_lls c) ->
  one c p MESSAGE_IHU (ihu_body rx iv a (Some (x, y))) = (set_p_ts x y p, [AIhu rx iv]).
Proof.
  intros Hr Hi Ha La Hx Hy Ia. rewrite one_ihu_ok by (auto; split; auto).
  assert (Ex : existsb (fun l => beq l a) (r_lls c) = true) by (apply existsb_exists; exists a; split; [auto|apply beq_refl]).
  rewrite Ex. reflexivity.
Qed.

(** With the Hello in the buffer and room for the IHU *)
Lemma ihu_after_hello : forall s E R rx iv a x y, v_ts v = true -> binv s E R -> 0 <= e_hello s -> 26 <= avail s ->
  0 <= rx < 65536 -> 0 <= iv < 65536 -> addr_ok a -> linklocal a = true -> u32_ok x -> u32_ok y -> x <> 0 -> y <> 0 -> In a (r_lls c) ->
  exists pkt acts, e_sent (flushbuf key mac v (buffer_ihu key mac v rx iv a (Some (x, y)) s)) = e_sent s ++ [pkt] /\
    parse_packet c pkt = Ret acts /\ together rx iv x y acts.
Proof.
  intros s E R rx iv a x y Ts B H0 Av Hr Hi Ha La Hx Hy Nx Ny Ia.
  destruct (ihu_append key mac v rx iv a (Some (x, y)) s Ha) as [Lb Qi]. cbv zeta in Lb, Qi. rewrite La in Lb. change (14 + 10) with 24 in Lb.
  specialize (Qi ltac:(rewrite Lb; lia)).
  pose proof (b_ihu key mac v c VOK FROM LL own rx iv a (Some (x, y)) s E R B) as B2.
  specialize (B2 ltac:(cbn [op_ok]; unfold u32_ok in *; auto 10)).
  set (s2 := buffer_ihu key mac v rx iv a (Some (x, y)) s) in *. clearbody s2.
  destruct B as (E1 & E2 & R1 & R2 & F & -> & -> & Sn & C).
  pose proof (c_buf _ _ _ _ _ _ _ _ C) as Cb. pose proof (c_shape _ _ _ _ _ _ _ _ C) as Cs.
  destruct Qi as (Q1 & Q2 & _ & _ & _ & _ & _ & _ & _ & _ & _ & _ & Q13 & _). cbn [set_e_buf e_buf e_hello e_sent] in Q1, Q2, Q13.
  set (G := fun o => F o ++ [(MESSAGE_IHU, ihu_body rx iv a (Some (x, y)))]).
  assert (BG : e_buf s2 = enc (G None)) by (unfold G; rewrite Q1, Cb, <- enc_app; reflexivity).
  destruct (flush_pkt s2 _ _ G B2 BG) as (o & pkt & To & Sn2 & Ho & Pk).
  - rewrite Q2. apply shape_snoc. exact Cs.
  - intros o To. apply Forall_app. split; [apply (c_ok _ _ _ _ _ _ _ _ C o To)|]. constructor; [apply ihu_frame_ok; auto|constructor].
  - rewrite Q1, zlen_app, enc_one, !zlen_cons, Lb. pose proof (zlen_nonneg _ (e_buf s)). lia.
  - exists pkt. eexists. split; [rewrite Sn2, Q13; reflexivity|]. split; [exact Pk|].
    destruct (Ho Ts ltac:(lia)) as (t & ->).
    destruct Cs as [[X _]|(pre & post & u & q & i & Eh & EF)]; [lia|].
    unfold G. rewrite EF. rewrite <- app_assoc. cbn [app]. rewrite tlvs_app.
    set (pp := fst (tlvs c p0 pre)). cbn [tlvs fst snd].
    pose proof (c_ok _ _ _ _ _ _ _ _ C (Some t) To) as Fo. rewrite EF in Fo. apply Forall_app in Fo. destruct Fo as (_ & Fo).
    apply Forall_inv in Fo. 
    assert (Oh : exists q' i', one c pp MESSAGE_HELLO (hello_body u q i (htail key v (Some t))) = (set_p_hello true pp, [AHello u q' i' (Some t)])).
    { exists (q mod 65536), (i mod 65536).
      assert (Em : hello_body u q i (htail key v (Some t)) = hello_body u (q mod 65536) (i mod 65536) (htail key v (Some t))).
      { unfold hello_body, be16. f_equal. f_equal; [|f_equal].
        - f_equal; [|f_equal]; Z.div_mod_to_equations; lia.
        - f_equal; [|f_equal]; Z.div_mod_to_equations; lia. }
      rewrite Em. unfold htail. rewrite Ts. rewrite (one_hello_ok c pp u _ _ _ (Some t)); auto; try (apply Z.mod_pos_bound; lia).
      constructor. exact To. }
    destruct Oh as (q' & i' & Oh). rewrite Oh. cbn [fst snd]. rewrite tlvs_app. cbn [tlvs fst snd].
    set (pq := fst (tlvs c (set_p_hello true pp) post)).
    assert (Hq : p_hello pq = true) by (apply hp_tlvs; reflexivity).
    rewrite one_ihu_here by auto. cbn [fst snd app].
    unfold rtt_action. cbn [set_p_ts p_hello p_us p_rx]. rewrite Hq. replace (x =? 0) with false by lia. replace (y =? 0) with false by lia.
    cbn [andb negb]. split; [|split].
    + exists u, q', i', t. apply in_or_app. left. apply in_or_app. right. left. reflexivity.
    + apply in_or_app. left. apply in_or_app. right. right. apply in_or_app. right. left. reflexivity.
    + apply in_or_app. right. left. reflexivity.
Qed.

Lemma ihu_with_hello : forall s E R u rx iv a x y, v_ts v = true -> binv s E R ->
  ~ (e_hello s = -1 /\ 30 <= avail s < 40) ->
  0 <= rx < 65536 -> 0 <= iv < 65536 -> addr_ok a -> linklocal a = true -> u32_ok x -> u32_ok y -> x <> 0 -> y <> 0 -> In a (r_lls c) ->
  exists l pkt acts, e_sent (flushbuf key mac v (send_ihu_buf key mac v u true rx iv a (Some (x, y)) s)) = e_sent s ++ l ++ [pkt] /\
    parse_packet c pkt = Ret acts /\ together rx iv x y acts.
Proof.
  intros s E R u rx iv a x y Ts B Hn Hr Hi Ha La Hx Hy Nx Ny Ia.
  unfold send_ihu_buf. cbv zeta. change (14 + 16) with 30.
  destruct (space_inv key mac v c VOK FROM LL own 30 s E R B) as (B0 & _ & Fr & A0). specialize (A0 ltac:(lia)).
  assert (Sn : exists l, e_sent (ensure_space key mac v 30 s) = e_sent s ++ l).
  { destruct (bm_sends key mac v s (ensure_space key mac v 30 s)) as (_ & l & Hl & _); [apply bm_space; constructor|]. eauto. }
  destruct Sn as (l & Sn). exists l.
  assert (A1 : e_hello (ensure_space key mac v 30 s) = -1 -> 40 <= avail (ensure_space key mac v 30 s)).
  { destruct Fr as [Fr|Fr]; [rewrite Fr in *; lia|]. intros _. unfold L_Buf.avail. destruct Fr as (-> & _). rewrite zlen_nil.
    destruct (auth_room_cases key v), VOK as [[? ?] _]; lia. }
  set (s0 := ensure_space key mac v 30 s) in *. clearbody s0.
  assert (H0 : e_hello s0 = -1 \/ 0 <= e_hello s0).
  { destruct B0 as (E1 & E2 & R1 & R2 & F & _ & _ & _ & C). destruct (c_shape _ _ _ _ _ _ _ _ C) as [[X _]|(pre & post & u' & q & i & X & _)]; [auto|].
    right. pose proof (zlen_nonneg _ (enc pre)). lia. }
  cut (exists pkt acts, e_sent (flushbuf key mac v (buffer_ihu key mac v rx iv a (Some (x, y)) (send_hello_buf key mac v u 0 false s0))) = e_sent s0 ++ [pkt] /\
    parse_packet c pkt = Ret acts /\ together rx iv x y acts).
  { intros (pkt & acts & X1 & X2 & X3). exists pkt, acts. rewrite app_assoc, <- Sn. auto. }
  destruct H0 as [H0|H0].
  - specialize (A1 H0). pose proof (hello_append key mac v u s0 Ts H0 ltac:(lia)) as Qh. cbv zeta in Qh.
    pose proof (b_hello key mac v c VOK FROM LL own u 0 false s0 E R B0 ltac:(lia)) as B1.
    set (s1 := send_hello_buf key mac v u 0 false s0) in *. clearbody s1. set (q := (e_hseq s0 + 1) mod 65536) in *.
    destruct Qh as (Q1 & Q2 & _ & _ & _ & _ & _ & _ & _ & _ & _ & _ & Q13 & _). cbn [set_e_buf set_e_hseq set_e_hello e_buf e_hello e_sent] in Q1, Q2, Q13.
    assert (Lh : zlen (enc [(MESSAGE_HELLO, hello_body u q 0 (htail key v None))]) = 14).
    { rewrite enc_one. unfold hello_body, htail. rewrite Ts. rewrite !zlen_cons, !zlen_app. unfold be16. rewrite !zlen_cons, !zlen_nil. lia. }
    rewrite <- Q13. eapply ihu_after_hello; eauto.
    + rewrite Q2. apply zlen_nonneg.
    + unfold L_Buf.avail in *. rewrite Q1, zlen_app, Lh. lia.
  - assert (Es : send_hello_buf key mac v u 0 false s0 = s0).
    { unfold send_hello_buf. replace (e_hello s0 >=? 0) with true by lia. reflexivity. }
    rewrite Es. eapply ihu_after_hello; eauto. lia.
Qed.
End Rtt.

(** L_Buf7.v: a Hello and an IHU with their timestamps in one datagram. *)
From Verif Require Import Base M_Util S_Util L_Util M_Filter M_Types M_Wire S_Wire L_Wire L_Wire2 M_Auth L_Auth2 M_Buf S_Buf L_Codec L_Buf L_Buf2 L_Buf3 L_Buf4 L_Buf5.

Section Append.
Variable key : Type.
Variable mac : key -> list Z -> option (list Z).
Notation env := (benv key).
Variable v : env.
Notation writes := (writes key v).
Notation avail := (avail key v).
Notation quiet := quiet.

Lemma avail_room : forall s, avail s <= v_size v - zlen (e_buf s).
Proof. intros s. unfold L_Buf.avail. destruct (auth_room_cases key v); lia. Qed.

Lemma ihu_append : forall rxcost interval a rtt s, addr_ok a ->
  let body := ihu_body rxcost interval a rtt in
  zlen body = (if linklocal a then 14 else 22) + match rtt with Some _ => 10 | None => 0 end /\
  (zlen body + 2 <= avail s ->
   quiet (set_e_buf (e_buf s ++ enc [(MESSAGE_IHU, body)]) s) (buffer_ihu key mac v rxcost interval a rtt s)).
Proof.
  intros rxcost interval a rtt s [La Ba]. cbv zeta.
  set (body := ihu_body rxcost interval a rtt).
  set (n := (if linklocal a then 14 else 22) + match rtt with Some _ => 10 | None => 0 end).
  assert (Lb : zlen body = n).
  { unfold body, ihu_body, n. rewrite !zlen_cons, !zlen_app. unfold be16. rewrite !zlen_cons, zlen_nil.
    assert (X : zlen (ihu_tail rtt) = match rtt with Some _ => 10 | None => 0 end) by (destruct rtt as [[x y]|]; reflexivity).
    assert (Y : zlen (if linklocal a then skipn 8 a else a) = if linklocal a then 8 else 16).
    { unfold zlen. destruct (linklocal a); [rewrite skipn_length|]; lia. }
    rewrite X, Y. destruct (linklocal a); lia. }
  split; [exact Lb|]. intros Av.
  set (m := fun s : est =>
    let s := put key v ([if linklocal a then AE_IPV6_LOCAL else AE_IPV6; 0] ++ be16 rxcost ++ be16 interval) s in
    let s := if linklocal a then puts key v a 8 8 s else puts key v a 0 16 s in
    match rtt with
    | Some (t1, t2) => put key v (SUBTLV_TIMESTAMP :: 8 :: be32 t1 ++ be32 t2) s
    | None => s
    end).
  change (buffer_ihu key mac v rxcost interval a rtt s) with (end_message key v MESSAGE_IHU n (m (start_message key mac v MESSAGE_IHU n s))).
  assert (W : writes m body).
  { assert (W1 : writes (fun s => if linklocal a then puts key v a 8 8 s else puts key v a 0 16 s) (if linklocal a then skipn 8 a else a)).
    { destruct (linklocal a).
      - apply writes_puts; try lia; [unfold zlen; lia|]. change (Z.to_nat 8) with 8%nat. symmetry. apply firstn_k. rewrite skipn_length. lia.
      - apply writes_puts; try lia; [unfold zlen; lia|]. change (Z.to_nat 0) with 0%nat. change (Z.to_nat 16) with 16%nat. cbn [skipn].
        symmetry. apply firstn_k. auto. }
    assert (W2 : writes (fun s => match rtt with Some (t1, t2) => put key v (SUBTLV_TIMESTAMP :: 8 :: be32 t1 ++ be32 t2) s | None => s end) (ihu_tail rtt)).
    { destruct rtt as [[x y]|]; [apply writes_put|apply writes_id]. }
    pose proof (writes_comp key v _ _ _ _ (writes_comp key v _ _ _ _ (writes_put key v ([if linklocal a then AE_IPV6_LOCAL else AE_IPV6; 0] ++ be16 rxcost ++ be16 interval)) W1) W2) as W.
    assert (Eb : (([if linklocal a then AE_IPV6_LOCAL else AE_IPV6; 0] ++ be16 rxcost ++ be16 interval) ++ (if linklocal a then skipn 8 a else a)) ++ ihu_tail rtt = body).
    { unfold body, ihu_body. rewrite <- !app_assoc. reflexivity. }
    rewrite Eb in W. exact W. }
  assert (Hn : n < 256) by (unfold n; destruct (linklocal a), rtt; lia).
  pose proof (avail_room s) as Ar.
  pose proof (space_id key v mac (n + 2) s ltac:(lia)) as Sp.
  pose proof (build key v mac MESSAGE_IHU n m body s W Lb Hn) as Q. cbv zeta in Q. rewrite Sp in Q.
  rewrite enc_one, Lb. apply Q. lia.
Qed.

Lemma hello_append : forall u s, v_ts v = true -> e_hello s = -1 -> 14 <= avail s ->
  let q := (e_hseq s + 1) mod 65536 in
  quiet (set_e_hello (zlen (e_buf s)) (set_e_hseq q (set_e_buf (e_buf s ++ enc [(MESSAGE_HELLO, hello_body u q 0 (htail key v None))]) s)))
    (send_hello_buf key mac v u 0 false s).
Proof.
  intros u s Ts H0 Av. cbv zeta. unfold send_hello_buf. rewrite H0. change (-1 >=? 0) with false. cbn [andb]. cbv iota zeta.
  replace (seqno_plus (e_hseq s) 1) with ((e_hseq s + 1) mod 65536).
  2:{ unfold seqno_plus. change 65535 with (Z.ones 16). rewrite Z.land_ones by lia. reflexivity. }
  set (sq := (e_hseq s + 1) mod 65536). set (s1 := set_e_hseq sq s). change (e_hseq s1) with sq.
  unfold buffer_hello. cbv zeta. rewrite Ts.
  assert (Av1 : 14 <= avail s1) by exact Av. pose proof (avail_room s1) as Ar.
  pose proof (space_id key v mac (12 + 2) s1 ltac:(lia)) as Sp.
  rewrite start_eq by (rewrite ?Sp; lia). rewrite Sp. cbn [set_e_buf e_buf].
  rewrite zlen_app. change (zlen [MESSAGE_HELLO; 12]) with 2.
  replace (zlen (e_buf s1) + 2 - 2) with (zlen (e_buf s1)) by lia.
  set (s3 := set_e_hello (zlen (e_buf s1)) s1).
  change (set_e_hello (zlen (e_buf s1)) (set_e_buf (e_buf s1 ++ [MESSAGE_HELLO; 12]) s1))
    with (set_e_buf (e_buf s1 ++ [MESSAGE_HELLO; 12]) s3).
  set (hb := hello_body u sq 0 (htail key v None)). change (if 0 >? 65535 then 65535 else 0) with 0.
  pose proof (writes_comp key v _ _ _ _ (writes_put key v (be16 (if u then 32768 else 0) ++ be16 sq ++ be16 0)) (writes_put key v (SUBTLV_PADN :: 4 :: be32 0))) as W.
  assert (Eb : (be16 (if u then 32768 else 0) ++ be16 sq ++ be16 0) ++ SUBTLV_PADN :: 4 :: be32 0 = hb).
  { unfold hb, hello_body, htail. rewrite Ts. rewrite <- !app_assoc. reflexivity. }
  rewrite Eb in W. cbv beta in W. 
  assert (Lh : zlen hb = 12).
  { unfold hb, hello_body, htail. rewrite Ts. rewrite !zlen_app; unfold be16; rewrite !zlen_cons, ?zlen_nil; lia. }
  rewrite W by (rewrite zlen_app, Lh; change (zlen [MESSAGE_HELLO; 12]) with 2; lia).
  rewrite <- app_assoc. cbn [app]. rewrite end_id by auto.
  rewrite enc_one, Lh.
  change (set_e_hello (zlen (e_buf s)) (set_e_hseq sq (set_e_buf (e_buf s ++ MESSAGE_HELLO :: 12 :: hb) s)))
    with (set_e_buf (e_buf s1 ++ MESSAGE_HELLO :: 12 :: hb) s3).
  apply quiet_schedule.
Qed.
End Append.

Section Rtt.
Variable key : Type.
Variable mac : key -> list Z -> option (list Z).
Notation env := (benv key).
Variable v : env.
Variable c : rctx.
Hypothesis VOK : env_ok key mac v.
Hypothesis FROM : addr_ok (r_from c).
Hypothesis LL : linklocal (r_from c) = true.

Lemma flush_plain : forall F s, v_key v = None -> e_buf s = enc (F None) -> shape key v (e_hello s) F ->
  (forall o, t_ok o -> Forall frame_ok (F o)) -> 0 < zlen (e_buf s) <= v_size v ->
  let s' := flushbuf key mac v s in
  exists o pkt, t_ok o /\ e_sent s' = e_sent s ++ [pkt] /\
    (v_ts v = true -> 0 <= e_hello s -> o = Some (time_us (e_now (e_gettime s)))) /\
    parse_packet c pkt = Ret (snd (tlvs c p0 (F o)) ++ rtt_action (fst (tlvs c p0 (F o)))).
Proof.
  intros F s K B Sh Fo Ls. cbv zeta. unfold flushbuf. replace (zlen (e_buf s) >? v_size v) with false by lia. cbn [bad_if].
  replace (zlen (e_buf s) >? 0) with true by lia. rewrite K. cbv zeta.
  destruct (fill_patch key v c F s B Sh) as (o & To & Q & Lo & Ht).
  destruct Q as (Q1 & Q2 & Q3 & Q4 & Q5 & Q6 & Q7 & Q8 & Q9 & Q10 & Q11 & Q12 & Q13 & Q14).
  cbn [set_e_buf e_buf e_hello e_id e_nh e_prefix e_pc e_index e_hseq e_ipv4 e_lls e_mc e_rndb e_sent e_bad] in *.
  set (s2 := fill_rtt key v s) in *. cbn [app]. rewrite zlen_nil. replace (zlen (e_buf s2) + 0 >? v_size v) with false by (rewrite Q1, Lo; lia).
  cbn [bad_if]. set (padding := if v_probe v && _ then _ else _).
  exists o. eexists. split; [exact To|]. split; [cbn [buf_reset set_e_sent set_e_timeout set_e_prefix set_e_nh set_e_id set_e_hello set_e_buf e_sent]; rewrite Q13; reflexivity|].
  split; [exact Ht|]. rewrite Q1, <- Lo. set (b := enc (F o)) in *.
  set (pkt := 42 :: 2 :: be16 (zlen b) ++ b ++ padding).
  pose proof (proj1 VOK) as [V1 V2].
  assert (Bp : bytes_ok pkt).
  { unfold pkt. constructor; [unfold byte_ok; lia|]. constructor; [unfold byte_ok; lia|]. rewrite !bytes_ok_app. split; [apply be16_ok|].
    split; [apply enc_bytes; auto|]. unfold padding. destruct (_ && _); [|constructor]. apply (probe_pad_bytes c). rewrite Q1. lia. }
  assert (Lp : 4 <= zlen pkt).
  { unfold pkt. rewrite !zlen_cons, zlen_app. change (zlen (be16 (zlen b))) with 2. pose proof (zlen_nonneg _ (b ++ padding)). lia. }
  assert (Fr : frames (body pkt) (F o) true).
  { change pkt with ((42 :: 2 :: be16 (zlen b)) ++ b ++ padding). rewrite (body_of c) by lia. apply frames_enc. auto. }
  destruct (parse_packet_frames c pkt _ _ FROM Bp Lp Fr) as [Pk _].
  assert (Hh : babel_header c pkt = true) by (unfold babel_header; rewrite LL; reflexivity).
  rewrite Hh in Pk. exact Pk.
Qed.

Lemma gettime_now : forall s s', e_clk s' = e_clk s -> e_now s' = e_now s -> e_now (e_gettime s') = e_now (e_gettime s).
Proof. intros s s' A B. unfold e_gettime. rewrite A. destruct (e_clk s); auto. Qed.

Lemma hello_ihu_flush : forall own s E R u rx iv a x y, v_key v = None -> v_ts v = true ->
  binv key v c own s E R -> e_hello s = -1 -> 40 <= v_size v - zlen (e_buf s) ->
  0 <= rx < 65536 -> 0 <= iv < 65536 -> addr_ok a -> linklocal a = true -> u32_ok x -> u32_ok y -> x <> 0 -> y <> 0 -> In a (r_lls c) ->
  let s' := flushbuf key mac v (send_ihu_buf key mac v u true rx iv a (Some (x, y)) s) in
  exists pkt acts t, e_sent s' = e_sent s ++ [pkt] /\ parse_packet c pkt = Ret (acts ++ [AHello u ((e_hseq s + 1) mod 65536) 0 (Some t); AIhu rx iv; ARtt x y]).
Proof.
  intros own s E R u rx iv a x y K Ts (E1 & E2 & R1 & R2 & F & -> & -> & Sn & C) H0 Av Hr Hi Ha La Hx Hy Nx Ny Ia. cbv zeta.
  assert (Ar : forall s, avail key v s = v_size v - zlen (e_buf s)).
  { intros s0. unfold avail, auth_room. rewrite K. lia. }
  unfold send_ihu_buf. cbv zeta. rewrite space_id by (rewrite Ar; lia).
  pose proof (hello_append key mac v u s Ts H0 ltac:(rewrite Ar; lia)) as Qh. cbv zeta in Qh.
  set (q := (e_hseq s + 1) mod 65536) in *. assert (Hq : 0 <= q < 65536) by (apply Z.mod_pos_bound; lia).
  set (s1 := send_hello_buf key mac v u 0 false s) in *. clearbody s1.
  assert (Lh : zlen (enc [(MESSAGE_HELLO, hello_body u q 0 (htail key v None))]) = 14).
  { rewrite enc_one. unfold hello_body, htail. rewrite Ts. rewrite !zlen_cons, !zlen_app. unfold be16. rewrite !zlen_cons, !zlen_nil. lia. }
  assert (B1 : e_buf s1 = e_buf s ++ enc [(MESSAGE_HELLO, hello_body u q 0 (htail key v None))]) by (destruct Qh as (X & _); exact X).
  assert (H1 : e_hello s1 = zlen (e_buf s)) by (destruct Qh as (_ & X & _); exact X).
  assert (S1 : e_sent s1 = e_sent s) by (destruct Qh as (_ & _ & _ & _ & _ & _ & _ & _ & _ & _ & _ & _ & X & _); exact X).
  destruct (ihu_append key mac v rx iv a (Some (x, y)) s1 Ha) as [Lb Qi]. cbv zeta in Lb, Qi. rewrite La in Lb. change (14 + 10) with 24 in Lb.
  specialize (Qi ltac:(rewrite Ar, B1, zlen_app, Lh, Lb; lia)).
  set (s2 := buffer_ihu key mac v rx iv a (Some (x, y)) s1) in *. clearbody s2.
  assert (B2 : e_buf s2 = e_buf s1 ++ enc [(MESSAGE_IHU, ihu_body rx iv a (Some (x, y)))]) by (destruct Qi as (X & _); exact X).
  assert (H2 : e_hello s2 = zlen (e_buf s)) by (destruct Qi as (_ & X & _); rewrite <- H1; exact X).
  assert (S2 : e_sent s2 = e_sent s) by (destruct Qi as (_ & _ & _ & _ & _ & _ & _ & _ & _ & _ & _ & _ & X & _); rewrite <- S1; exact X).
  clear Qh Qi.
  set (G := fun o => F None ++ [(MESSAGE_HELLO, hello_body u q 0 (htail key v o)); (MESSAGE_IHU, ihu_body rx iv a (Some (x, y)))]).
  pose proof (c_buf _ _ _ _ _ _ _ _ C) as Cb.
  assert (BG : e_buf s2 = enc (G None)).
  { unfold G. rewrite B2, B1, Cb, <- app_assoc, <- enc_app, <- enc_app. reflexivity. }
  assert (Lz : zlen (e_buf s2) = zlen (e_buf s) + 14 + 26).
  { rewrite B2, B1, !zlen_app, Lh. rewrite enc_one, !zlen_cons, Lb. lia. }
  pose proof (zlen_nonneg _ (e_buf s)) as Ns.
  destruct (flush_plain G s2 K BG) as (o & pkt & To & Sn2 & Ho & Pk).
  - right. exists (F None), [(MESSAGE_IHU, ihu_body rx iv a (Some (x, y)))], u, q, 0. split; [rewrite H2, Cb; auto|]. intros o. reflexivity.
  - intros o To. apply Forall_app. split; [apply (c_ok _ _ _ _ _ _ _ _ C None Logic.I)|].
    constructor.
    { unfold frame_ok. cbn [fst snd]. assert (Y : zlen (htail key v o) = 6 /\ bytes_ok (htail key v o)).
      { unfold htail. rewrite Ts. destruct o as [t|]; (split; [reflexivity|]).
        - constructor; [unfold byte_ok; lia|]. constructor; [unfold byte_ok; lia|]. apply be32_ok.
        - repeat (constructor; [unfold byte_ok; lia|]). constructor. }
      unfold hello_body. rewrite !zlen_app, (proj1 Y). unfold be16 at 1 2 3. rewrite !zlen_cons, !zlen_nil. unfold MESSAGE_HELLO.
      split; [lia|]. split; [lia|]. rewrite !bytes_ok_app. repeat split; try apply be16_ok. apply Y. }
    constructor; [|constructor]. unfold frame_ok. cbn [fst snd]. rewrite Lb. unfold MESSAGE_IHU. split; [lia|]. split; [lia|].
    unfold ihu_body. rewrite La. constructor; [unfold byte_ok, AE_IPV6_LOCAL; lia|]. constructor; [unfold byte_ok; lia|].
    rewrite !bytes_ok_app. repeat split; try apply be16_ok; [|apply ihu_tail_ok]. apply bytes_ok_skipn, Ha.
  - lia.
  - specialize (Ho Ts ltac:(lia)). set (t := time_us (e_now (e_gettime s2))) in *. clearbody t. subst o.
    exists pkt, (snd (tlvs c p0 (F None))), t. split; [rewrite Sn2, S2; auto|]. rewrite Pk. unfold G. rewrite !tlvs_app.
    assert (Oh : forall p, one c p MESSAGE_HELLO (hello_body u q 0 (htail key v (Some t))) = (set_p_hello true p, [AHello u q 0 (Some t)])).
    { intros p. unfold htail. rewrite Ts. rewrite (one_hello_ok c p u q 0 _ (Some t)); auto; [lia|]. constructor. exact To. }
    assert (Oi : forall p, one c p MESSAGE_IHU (ihu_body rx iv a (Some (x, y))) = (set_p_ts x y p, [AIhu rx iv])).
    { intros p. rewrite one_ihu_ok by (auto; split; auto).
      assert (Ex : existsb (fun l => beq l a) (r_lls c) = true).
      { apply existsb_exists. exists a. split; auto. apply beq_refl. }
      rewrite Ex. reflexivity. }
    cbn [tlvs]. rewrite Oh. cbn [fst snd]. rewrite Oi. cbn [fst snd app].
    f_equal. rewrite <- app_assoc. f_equal. unfold rtt_action. cbn [set_p_ts set_p_hello p_hello p_us p_rx andb].
    replace (x =? 0) with false by lia. replace (y =? 0) with false by lia. reflexivity.
Qed.
End Rtt.

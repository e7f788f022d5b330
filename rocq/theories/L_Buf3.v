(** L_Buf3.v: what is put in an output buffer is what the peer decodes. *)
From Verif Require Import Base M_Util S_Util L_Util M_Filter L_Filter M_Types M_Wire S_Wire L_Wire L_Wire2 M_Auth M_Buf S_Buf L_Codec L_Buf L_Buf2.

Lemma firstn_k : forall k (l : list Z), length l = k -> firstn k l = l.
Proof. intros k l <-. apply firstn_all. Qed.
Lemma zl : forall (l : list Z) k, length l = k -> zlen l = Z.of_nat k.
Proof. intros l k <-. reflexivity. Qed.

(** Destinations *)
Lemma pb_quot : forall d, dest_wire d -> Z.quot (real_splen d + 7) 8 = spb d.
Proof. intros d W. destruct (spb_range d W) as (H & _). unfold spb. apply Z.quot_div_nonneg; lia. Qed.
Lemma u8_small : forall x, 0 <= x < 256 -> u8 x = x.
Proof. intros. unfold u8. apply Z.mod_small. auto. Qed.

Lemma src_len_ok : forall d, dest_wire d -> src_len d = zlen (src_tail d).
Proof.
  intros d W. rewrite src_tail_len by auto. unfold src_len. cbv zeta. fold (is4 d).
  pose proof (pb_quot d W) as Q. unfold spb, real_splen in *. destruct (is_default _ _); auto. f_equal. destruct (is4 d); auto.
Qed.
Lemma src_tail_max : forall d, dest_wire d -> zlen (src_tail d) <= 19.
Proof. intros d W. rewrite src_tail_len by auto. destruct (spb_range d W) as (_ & S & _). destruct (is_default _ _); lia. Qed.
Lemma pb_eq : forall d, (if is4 d then (d_plen d - 96 + 7) / 8 else (d_plen d + 7) / 8) = pb d.
Proof. intros d. unfold pb, real_plen. destruct (is4 d); auto. Qed.

Section Dest.
Variable key : Type.
Variable v : benv key.
Notation writes := (writes key v).
Lemma w_src : forall d, dest_wire d -> writes (put_src key v d) (src_tail d).
Proof.
  intros d W. unfold put_src, src_tail. cbv zeta. fold (is4 d). destruct (is_default _ _); [apply writes_id|].
  destruct (spb_range d W) as (S1 & S2 & S3).
  assert (X : (if is4 d then Z.quot (d_splen d - 96 + 7) 8 else (d_splen d + 7) / 8) = spb d).
  { pose proof (pb_quot d W) as Q. unfold spb, real_splen in *. destruct (is4 d); auto. }
  rewrite X. fold (real_splen d). rewrite !u8_small by lia.
  change (SUBTLV_SOURCE_PREFIX :: 1 + spb d :: real_splen d :: ?l) with ([SUBTLV_SOURCE_PREFIX; 1 + spb d; real_splen d] ++ l).
  destruct W as ((_ & (La & _) & _) & _).
  apply (writes_comp key v (put key v [SUBTLV_SOURCE_PREFIX; 1 + spb d; real_splen d]) (puts key v (d_src d) (if is4 d then 12 else 0) (spb d)));
    [apply writes_put|].
  apply writes_puts; try lia.
  - destruct (is4 d); lia.
  - unfold zlen. rewrite La. destruct (is4 d); [specialize (S3 eq_refl)|]; lia.
  - destruct (is4 d); reflexivity.
Qed.
Lemma w_prefix : forall d, dest_wire d -> writes (put_prefix key v d) (pbytes d 0).
Proof.
  intros d W. unfold put_prefix, pbytes. cbv zeta. fold (is4 d). destruct (pb_range d W) as (P1 & P2 & P3).
  assert (X : (fun s => if is4 d then puts key v (d_prefix d) 12 ((d_plen d - 96 + 7) / 8) s else puts key v (d_prefix d) 0 ((d_plen d + 7) / 8) s) = puts key v (d_prefix d) (if is4 d then 12 else 0) (pb d)).
  { unfold pb, real_plen. destruct (is4 d); reflexivity. }
  rewrite X. destruct W as ((((La & _) & _) & _) & _).
  apply writes_puts; try lia.
  - destruct (is4 d); lia.
  - unfold zlen. rewrite La. destruct (is4 d); [specialize (P3 eq_refl)|]; lia.
  - replace (pb d - 0) with (pb d) by lia. destruct (is4 d); reflexivity.
Qed.
End Dest.

Section Mac.
Variable key : Type.
Variable mac : key -> list Z -> option (list Z).
Notation env := (benv key).
Variable v : env.
Variable c : rctx.
Hypothesis VOK : env_ok key mac v.
Hypothesis FROM : addr_ok (r_from c).
Hypothesis LL : linklocal (r_from c) = true.
Variable own : bool.
Notation binv := (binv key v c own).
Notation avail := (avail key v).
Notation writes := (writes key v).
Notation plain_op := (plain_op key mac v c VOK FROM LL own).

Lemma b_same : forall s E R s', binv s E R -> quiet s s' -> binv s' (E ++ []) (R ++ []).
Proof. intros. rewrite !app_nil_r. eapply quiet_binv; eauto. Qed.

Lemma b_wild : forall seqno s E R, binv s E R -> 0 <= seqno < 65536 ->
  binv (buffer_wildcard_retraction key mac v seqno s) (E ++ [AWithdraw]) R.
Proof.
  intros seqno s E R B Hs. set (body := [AE_WILDCARD; 0; 0; 0] ++ be16 65535 ++ be16 seqno ++ be16 65535).
  destruct (plain_op MESSAGE_UPDATE 10 (put key v body) body s E R [AWithdraw]) as [X _];
    auto; try reflexivity; try discriminate; try (unfold MESSAGE_UPDATE; lia).
  - apply writes_put.
  - unfold body. rewrite !bytes_ok_app. split; [|repeat split; apply be16_ok].
    repeat (constructor; [unfold byte_ok, AE_WILDCARD; lia|]). constructor.
  - intros p s1 Cp. exists p, [AWithdraw]. split; [|auto]. apply one_wild_ok. apply Cp.
  - cbn [raw1 is_raw] in X. rewrite app_nil_r in X.
    unfold buffer_wildcard_retraction. cbv zeta. fold body. set (s' := end_message _ _ _ _ _) in *.
    destruct X as (E1 & E2 & R1 & R2 & F & X1 & X2 & X3 & C). exists E1, E2, R1, R2, F. repeat (split; [auto|]).
    destruct C. constructor; auto. intros o To. destruct (c_coupled o To) as (Y1 & Y2 & Y3 & Y4).
    split; [intros i Q; discriminate|]. auto.
Qed.

Lemma b_ack_msg : forall nonce s E R, binv s E R ->
  binv (end_message key v MESSAGE_ACK 2 (put key v (be16 nonce) (start_message key mac v MESSAGE_ACK 2 s)))
       (E ++ []) (R ++ [(3, be16 nonce)]).
Proof.
  intros nonce s E R B. apply (plain_op MESSAGE_ACK 2 (put key v (be16 nonce)) (be16 nonce)); auto; try reflexivity; try discriminate; try (unfold MESSAGE_ACK; lia).
  - apply writes_put.
  - apply be16_ok.
  - intros p s1 Cp. exists p, []. rewrite one_ack_ok. auto.
Qed.
Lemma b_ack : forall nonce interval s E R, binv s E R ->
  binv (send_ack key mac v nonce interval s) (E ++ []) (R ++ [(3, be16 nonce)]).
Proof.
  intros nonce interval s E R B. unfold send_ack. cbv zeta.
  pose proof (b_ack_msg nonce s E R B) as X. set (s1 := end_message _ _ _ _ _) in *.
  pose proof (quiet_random s1) as Q. destruct (e_random s1) as [r s2]. cbn [snd] in Q.
  eapply quiet_binv; [|exact X]. eapply quiet_trans; [exact Q|apply quiet_flush_ms].
Qed.

Lemma b_challenge : forall t nonce s E R, binv s E R -> zlen nonce <= 192 -> bytes_ok nonce -> t = 18 \/ t = 19 ->
  binv (end_message key v t (zlen nonce) (puts key v nonce 0 (zlen nonce) (start_message key mac v t (zlen nonce) s)))
       (E ++ []) (R ++ [(t, nonce)]).
Proof.
  intros t nonce s E R B L By T. pose proof (zlen_nonneg _ nonce).
  assert (RR : raw1 (t, nonce) = [(t, nonce)]) by (destruct T as [-> | ->]; reflexivity).
  rewrite <- RR. apply (plain_op t (zlen nonce) (puts key v nonce 0 (zlen nonce)) nonce); auto; try (unfold MESSAGE_HELLO; lia).
  - apply writes_puts; try lia. change (Z.to_nat 0) with 0%nat. cbn [skipn]. unfold zlen. rewrite Nat2Z.id, firstn_all. auto.
  - intros p s1 Cp. exists p, []. rewrite one_unknown by (unfold byte_ok; lia). auto.
Qed.

Lemma b_ihu : forall rxcost interval a rtt s E R, binv s E R -> op_ok (match v_key v with Some _ => true | None => false end) (BIhu rxcost interval a rtt) ->
  binv (buffer_ihu key mac v rxcost interval a rtt s)
    (E ++ if existsb (fun l => beq l a) (r_lls c) then [AIhu rxcost interval] else []) (R ++ []).
Proof.
  intros rxcost interval a rtt s E R B (Hr & Hi & [La Ba] & Ht).
  set (body := ihu_body rxcost interval a rtt).
  set (n := (if linklocal a then 14 else 22) + match rtt with Some _ => 10 | None => 0 end).
  assert (Lb : zlen body = n).
  { unfold body, ihu_body, n. rewrite !zlen_cons, !zlen_app. unfold be16. rewrite !zlen_cons, zlen_nil.
    assert (X : zlen (ihu_tail rtt) = match rtt with Some _ => 10 | None => 0 end) by (destruct rtt as [[x y]|]; reflexivity).
    assert (Y : zlen (if linklocal a then skipn 8 a else a) = if linklocal a then 8 else 16).
    { unfold zlen. destruct (linklocal a); [rewrite skipn_length|]; lia. }
    rewrite X, Y. destruct (linklocal a); lia. }
  set (m := fun s : est =>
    let s := put key v ([if linklocal a then AE_IPV6_LOCAL else AE_IPV6; 0] ++ be16 rxcost ++ be16 interval) s in
    let s := if linklocal a then puts key v a 8 8 s else puts key v a 0 16 s in
    match rtt with
    | Some (t1, t2) => put key v (SUBTLV_TIMESTAMP :: 8 :: be32 t1 ++ be32 t2) s
    | None => s
    end).
  change (buffer_ihu key mac v rxcost interval a rtt s) with (end_message key v MESSAGE_IHU n (m (start_message key mac v MESSAGE_IHU n s))).
  change (R ++ []) with (R ++ raw1 (MESSAGE_IHU, body)).
  apply (plain_op MESSAGE_IHU n m body); auto; try discriminate.
  - assert (W1 : writes (fun s => if linklocal a then puts key v a 8 8 s else puts key v a 0 16 s) (if linklocal a then skipn 8 a else a)).
    { destruct (linklocal a).
      - apply writes_puts; try lia; [unfold zlen; lia|]. change (Z.to_nat 8) with 8%nat. symmetry. apply firstn_k. rewrite skipn_length. lia.
      - apply writes_puts; try lia; [unfold zlen; lia|]. change (Z.to_nat 0) with 0%nat. change (Z.to_nat 16) with 16%nat. cbn [skipn].
        symmetry. apply firstn_k. auto. }
    assert (W2 : writes (fun s => match rtt with Some (t1, t2) => put key v (SUBTLV_TIMESTAMP :: 8 :: be32 t1 ++ be32 t2) s | None => s end) (ihu_tail rtt)).
    { destruct rtt as [[x y]|]; [apply writes_put|apply writes_id]. }
    pose proof (writes_comp key v _ _ _ _ (writes_comp key v _ _ _ _ (writes_put key v ([if linklocal a then AE_IPV6_LOCAL else AE_IPV6; 0] ++ be16 rxcost ++ be16 interval)) W1) W2) as W.
    assert (Eb : (([if linklocal a then AE_IPV6_LOCAL else AE_IPV6; 0] ++ be16 rxcost ++ be16 interval) ++ (if linklocal a then skipn 8 a else a)) ++ ihu_tail rtt = body).
    { unfold body, ihu_body. rewrite <- !app_assoc. reflexivity. }
    rewrite Eb in W. exact W.
  - unfold n. destruct (linklocal a), rtt; lia.
  - unfold MESSAGE_IHU. lia.
  - unfold body, ihu_body. constructor; [unfold byte_ok, AE_IPV6_LOCAL, AE_IPV6; destruct (linklocal a); lia|].
    constructor; [unfold byte_ok; lia|]. rewrite !bytes_ok_app. repeat split; try apply be16_ok; [|apply ihu_tail_ok].
    destruct (linklocal a); [apply bytes_ok_skipn|]; auto.
  - intros p s1 (C1 & C2 & C3 & C4). unfold body. rewrite one_ihu_ok by (auto; split; auto).
    destruct (existsb _ _); [|exists p, []; repeat split; auto; [apply C2|apply C2|apply C3|apply C3|apply C3|apply C3]; auto].
    eexists _, _. split; [reflexivity|]. split; [|reflexivity].
    destruct rtt as [[x y]|]; [|split; auto]. split; [exact C1|]. split; [exact C2|]. split; [exact C3|exact C4].
Qed.

Lemma b_request : forall o s E R, binv s E R -> match o with Some d => dest_wire d | None => True end ->
  binv (buffer_request key mac v o s) (E ++ [ARequest o]) (R ++ []).
Proof.
  intros [d|] s E R B W.
  - destruct (pb_range d W) as (P1 & P2 & P3). pose proof (src_tail_max d W). pose proof (zlen_nonneg _ (src_tail d)).
    pose proof (pbytes_len d 0 W ltac:(lia) (fun _ : is4 d = true => eq_refl)) as Lp.
    unfold buffer_request. cbv zeta. fold (is4 d). rewrite pb_eq, src_len_ok by auto.
    fold (real_plen d). rewrite u8_small by lia.
    set (n := 2 + pb d + zlen (src_tail d)).
    set (m := fun s => put_src key v d (put_prefix key v d (put key v [if is4 d then AE_IPV4 else AE_IPV6; real_plen d] s))).
    change (binv (end_message key v MESSAGE_REQUEST n (m (start_message key mac v MESSAGE_REQUEST n s)))
      (E ++ [ARequest (Some d)]) (R ++ raw1 (MESSAGE_REQUEST, request_body d))).
    apply (plain_op MESSAGE_REQUEST n m (request_body d)); auto; try discriminate.
    + pose proof (writes_comp key v _ _ _ _ (writes_comp key v _ _ _ _ (writes_put key v [if is4 d then AE_IPV4 else AE_IPV6; real_plen d]) (w_prefix key v d W)) (w_src key v d W)) as Q.
      exact Q.
    + unfold request_body, n. rewrite !zlen_cons, zlen_app. lia.
    + unfold n. lia.
    + unfold MESSAGE_REQUEST. lia.
    + unfold request_body. constructor; [unfold byte_ok, AE_IPV4, AE_IPV6; destruct (is4 d); lia|].
      constructor; [unfold byte_ok; lia|]. apply bytes_ok_app. split; [apply pbytes_bytes; auto|apply src_tail_bytes; auto].
    + intros p s1 Cp. exists p, [ARequest (Some d)]. rewrite one_request_ok by auto. auto.
  - change (binv (end_message key v MESSAGE_REQUEST 2 ((put key v [AE_WILDCARD; 0]) (start_message key mac v MESSAGE_REQUEST 2 s)))
      (E ++ [ARequest None]) (R ++ raw1 (MESSAGE_REQUEST, [AE_WILDCARD; 0]))).
    apply (plain_op MESSAGE_REQUEST 2 (put key v [AE_WILDCARD; 0]) [AE_WILDCARD; 0]); auto; try discriminate; try (unfold MESSAGE_REQUEST; lia).
    + apply writes_put.
    + repeat (constructor; [unfold byte_ok, AE_WILDCARD; lia|]). constructor.
    + intros p s1 Cp. exists p, [ARequest None]. rewrite one_request_any. auto.
Qed.

Lemma b_mh : forall d seqno hop id s E R, binv s E R -> dest_wire d -> 0 <= seqno < 65536 -> 0 <= hop < 256 ->
  length id = 8%nat -> bytes_ok id ->
  binv (buffer_mh_request key mac v d seqno hop id s) (E ++ [ASeqno d hop seqno id]) (R ++ []).
Proof.
  intros d seqno hop id s E R B W Hs Hh Li Bi.
  destruct (pb_range d W) as (P1 & P2 & P3). pose proof (src_tail_max d W). pose proof (zlen_nonneg _ (src_tail d)).
  destruct (spb_range d W) as (S1 & S2 & S3).
  pose proof (pbytes_len d 0 W ltac:(lia) (fun _ : is4 d = true => eq_refl)) as Lp.
  unfold buffer_mh_request. cbv zeta. fold (is4 d). rewrite pb_eq, src_len_ok by auto.
  fold (real_plen d) (real_splen d). rewrite !u8_small by lia.
  set (n := 6 + 8 + pb d + zlen (src_tail d)).
  set (hd := [if is4 d then AE_IPV4 else AE_IPV6; real_plen d] ++ be16 seqno ++ [hop; real_splen d]).
  set (m := fun s => put_src key v d (put_prefix key v d (puts key v id 0 8 (put key v hd s)))).
  change (binv (end_message key v MESSAGE_MH_REQUEST n (m (start_message key mac v MESSAGE_MH_REQUEST n s)))
    (E ++ [ASeqno d hop seqno id]) (R ++ raw1 (MESSAGE_MH_REQUEST, mh_body d seqno hop id))).
  assert (Lid : zlen id = 8) by (unfold zlen; rewrite Li; reflexivity).
  apply (plain_op MESSAGE_MH_REQUEST n m (mh_body d seqno hop id)); auto; try discriminate.
  - assert (Wi : writes (puts key v id 0 8) id).
    { apply writes_puts; try lia. symmetry. apply firstn_all8. auto. }
    pose proof (writes_comp key v _ _ _ _ (writes_comp key v _ _ _ _ (writes_comp key v _ _ _ _ (writes_put key v hd) Wi) (w_prefix key v d W)) (w_src key v d W)) as Q.
    replace (((hd ++ id) ++ pbytes d 0) ++ src_tail d) with (mh_body d seqno hop id) in Q; [exact Q|].
    unfold mh_body, hd. rewrite <- !app_assoc. reflexivity.
  - unfold mh_body, n, be16. rewrite !zlen_cons, !zlen_app, !zlen_cons, !zlen_nil. lia.
  - unfold n. lia.
  - unfold MESSAGE_MH_REQUEST. lia.
  - unfold mh_body. constructor; [unfold byte_ok, AE_IPV4, AE_IPV6; destruct (is4 d); lia|].
    constructor; [unfold byte_ok; lia|]. rewrite !bytes_ok_app. repeat split; auto; try apply be16_ok.
    + constructor; [unfold byte_ok; lia|]. constructor; [unfold byte_ok; lia|constructor].
    + apply pbytes_bytes; auto.
    + apply src_tail_bytes; auto.
  - intros p s1 Cp. exists p, [ASeqno d hop seqno id]. rewrite one_mh_ok by auto. auto.
Qed.

(** Hello *)
Lemma b_hello : forall u interval force s E R, binv s E R -> 0 <= interval ->
  binv (send_hello_buf key mac v u interval force s)
    (E ++ if (e_hello s >=? 0) && negb force then [] else [AHello u ((e_hseq s + 1) mod 65536) (Z.min interval 65535) None]) (R ++ []).
Proof.
  intros u interval force s E R B Hi. unfold send_hello_buf. destruct ((e_hello s >=? 0) && negb force) eqn:G.
  { rewrite !app_nil_r. exact B. }
  set (s0 := if e_hello s >=? 0 then flushbuf key mac v s else s).
  assert (P0 : binv s0 E R /\ e_hello s0 = -1 /\ e_hseq s0 = e_hseq s).
  { unfold s0. destruct (e_hello s >=? 0) eqn:H0.
    - destruct (flush_ok key mac v c VOK FROM LL own s E R B) as (X1 & X2 & X3). split; auto. split; [apply X2|apply X3].
    - split; auto. split; auto. destruct B as (E1 & E2 & R1 & R2 & F & _ & _ & _ & C).
      destruct (c_shape _ _ _ _ _ _ _ _ C) as [[X _]|(pre & post & u' & sq' & iv' & X & _)]; auto.
      pose proof (zlen_nonneg _ (enc pre)). lia. }
  destruct P0 as (B0 & H0 & Q0). cbv zeta.
  replace (seqno_plus (e_hseq s0) 1) with ((e_hseq s + 1) mod 65536).
  2:{ rewrite Q0. unfold seqno_plus. change 65535 with (Z.ones 16). rewrite Z.land_ones by lia. reflexivity. }
  set (sq := (e_hseq s + 1) mod 65536). assert (Hsq : 0 <= sq < 65536) by (unfold sq; apply Z.mod_pos_bound; lia).
  set (s1 := set_e_hseq sq s0).
  assert (B1 : binv s1 E R).
  { destruct B0 as (E1 & E2 & R1 & R2 & F & X1 & X2 & X3 & []). exists E1, E2, R1, R2, F. repeat (split; [auto|]). constructor; auto. }
  change (e_hseq s1) with sq. unfold buffer_hello. cbv zeta.
  set (n := if v_ts v then 12 else 6). assert (Hn : 6 <= n <= 12) by (unfold n; destruct (v_ts v); lia).
  replace (if interval >? 65535 then 65535 else interval) with (Z.min interval 65535) by (destruct (interval >? 65535) eqn:X; lia).
  set (iv := Z.min interval 65535). assert (Hiv : 0 <= iv < 65536) by lia.
  destruct (space_inv key mac v c VOK FROM LL own (n + 2) s1 E R B1) as (B2 & K2 & F2 & A2). specialize (A2 ltac:(lia)).
  set (s2 := ensure_space key mac v (n + 2) s1) in *.
  destruct (binv_avail key v c own s2 E R B2) as [Y1 Y2].
  assert (A2' : n + 2 <= v_size v - zlen (e_buf s2)) by (unfold L_Buf.avail in A2; destruct (auth_room_cases key v); lia).
  assert (H2 : e_hello s2 = -1) by (destruct F2 as [-> |F2]; [exact H0|apply F2]).
  rewrite start_eq by (fold s2; lia). fold s2. cbn [set_e_buf e_buf].
  rewrite zlen_app. change (zlen [MESSAGE_HELLO; n]) with 2.
  replace (zlen (e_buf s2) + 2 - 2) with (zlen (e_buf s2)) by lia.
  set (s3 := set_e_hello (zlen (e_buf s2)) s2).
  change (set_e_hello (zlen (e_buf s2)) (set_e_buf (e_buf s2 ++ [MESSAGE_HELLO; n]) s2))
    with (set_e_buf (e_buf s2 ++ [MESSAGE_HELLO; n]) s3).
  set (hb := hello_body u sq iv (htail key v None)).
  set (m := fun s => if v_ts v then put key v (SUBTLV_PADN :: 4 :: be32 0) (put key v (be16 (if u then 32768 else 0) ++ be16 sq ++ be16 iv) s)
                     else put key v (be16 (if u then 32768 else 0) ++ be16 sq ++ be16 iv) s).
  assert (W : writes m hb).
  { unfold m, hb, hello_body, htail. destruct (v_ts v).
    - pose proof (writes_comp key v _ _ _ _ (writes_put key v (be16 (if u then 32768 else 0) ++ be16 sq ++ be16 iv)) (writes_put key v (SUBTLV_PADN :: 4 :: be32 0))) as Q.
      rewrite <- !app_assoc in Q. exact Q.
    - rewrite app_nil_r. apply writes_put. }
  assert (Lh : zlen hb = n).
  { unfold hb, hello_body, htail, n. destruct (v_ts v); rewrite !zlen_app; unfold be16; rewrite !zlen_cons, ?zlen_nil; lia. }
  change (if v_ts v then _ else _) with (m (set_e_buf (e_buf s2 ++ [MESSAGE_HELLO; n]) s3)).
  rewrite W by (rewrite zlen_app, Lh; change (zlen [MESSAGE_HELLO; n]) with 2; lia).
  rewrite <- app_assoc. cbn [app]. rewrite end_id by auto. rewrite app_nil_r.
  eapply quiet_binv; [apply quiet_schedule|].
  apply (hello_ok key v c own s2 E R); auto; try lia; try reflexivity.
  - rewrite enc_one. fold hb. rewrite Lh. reflexivity.
  - repeat split.
  - assert (X : zlen (htail key v None) = n - 6) by (unfold htail, n; destruct (v_ts v); reflexivity). lia.
Qed.
End Mac.

(** L_Wire2.v: the loop over the TLVs of a packet, and what unknown sub-TLVs do. *)
From Verif Require Import Base M_Util M_Filter M_Wire S_Wire L_Wire.

(** ** The loop *)

(** A TLV parsed alone. *)
Definition one (c : rctx) (p : pst) (t : Z) (v : list Z) : pst * list action :=
  match parse_tlv c (t :: zlen v :: v) t 0 (zlen v) p with Ret r => r | _ => (p, []) end.
Fixpoint tlvs (c : rctx) (p : pst) (fs : list (Z * list Z)) : pst * list action :=
  match fs with
  | [] => (p, [])
  | (t, v) :: fs => let r := one c p t v in let s := tlvs c (fst r) fs in (fst s, snd r ++ snd s)
  end.

Lemma one_ok : forall c p t v pkt m, addr_ok (r_from c) -> pst_ok p -> bytes_ok (t :: zlen v :: v) ->
  win pkt m (t :: zlen v :: v) ->
  parse_tlv c pkt t m (zlen v) p = Ret (one c p t v) /\ res_ok (one c p t v).
Proof.
  intros c p t v pkt m A P B W.
  assert (L : zlen (t :: zlen v :: v) = zlen v + 2) by (rewrite !zlen_cons; lia).
  destruct (parse_tlv_ok c t A pkt m _ (zlen v) p W B L (zlen_nonneg _ v) P) as (r & E1 & E2 & R).
  unfold one. rewrite E1. auto.
Qed.

Lemma tlv_loop_frames : forall c, addr_ok (r_from c) -> forall b fs full, frames b fs full ->
  forall pkt b0 f p, win pkt 4 (b0 ++ b) -> bytes_ok b -> pst_ok p -> (length b < f)%nat ->
  tlv_loop c pkt (zlen b0 + zlen b) f (zlen b0) p = Ret (tlvs c p fs) /\ res_ok (tlvs c p fs).
Proof.
  intros c A. induction 1 as [|b l e Fr IH|t n v b l e Ht Hn Fr IH|t Ht|t n b Ht Hn];
    intros pkt b0 f p W B P Lf; (destruct f as [|f]; [lia|]); cbn [tlv_loop tlvs].
  - rewrite zlen_nil. replace (zlen b0 <? zlen b0 + 0) with false by lia. unfold ignore.
    split; auto. split; [auto|constructor].
  - rewrite zlen_cons. pose proof (zlen_nonneg _ b) as Nb. pose proof (zlen_nonneg _ b0) as Nb0.
    replace (zlen b0 <? zlen b0 + (1 + zlen b)) with true by lia.
    rewrite (rd_win _ _ _ _ W) by (rewrite zlen_app, zlen_cons; lia).
    cbn [bind]. replace (nth (Z.to_nat (zlen b0)) (b0 ++ 0 :: b) 0) with 0
      by (unfold zlen; rewrite Nat2Z.id, nth_middle; auto).
    unfold MESSAGE_PAD1. cbn [Z.eqb].
    inversion B; subst.
    specialize (IH pkt (b0 ++ [0]) f p). rewrite zlen_app, zlen_cons, zlen_nil in IH.
    replace (zlen b0 + (1 + zlen b)) with (zlen b0 + (1 + 0) + zlen b) by lia.
    replace (zlen b0 + 1) with (zlen b0 + (1 + 0)) by lia.
    apply IH; auto. { rewrite <- app_assoc. auto. } cbn in Lf. lia.
  - pose proof (zlen_nonneg _ b) as Nb. pose proof (zlen_nonneg _ b0) as Nb0.
    pose proof (zlen_nonneg _ v) as Nv. change (Z.of_nat (length v)) with (zlen v) in Hn.
    rewrite !zlen_cons, zlen_app.
    replace (zlen b0 <? zlen b0 + (1 + (1 + (zlen v + zlen b)))) with true by lia.
    rewrite (rd_win _ _ _ _ W) by (rewrite zlen_app, !zlen_cons, zlen_app; lia).
    cbn [bind]. replace (nth (Z.to_nat (zlen b0)) (b0 ++ t :: n :: v ++ b) 0) with t
      by (unfold zlen; rewrite Nat2Z.id, nth_middle; auto).
    unfold MESSAGE_PAD1. replace (t =? 0) with false by lia.
    replace (zlen b0 + 2 >? zlen b0 + (1 + (1 + (zlen v + zlen b)))) with false by lia.
    replace (4 + zlen b0 + 1) with (4 + (zlen b0 + 1)) by lia.
    rewrite (rd_win _ _ _ _ W) by (rewrite zlen_app, !zlen_cons, zlen_app; lia).
    cbn [bind]. replace (nth (Z.to_nat (zlen b0 + 1)) (b0 ++ t :: n :: v ++ b) 0) with n
      by (unfold zlen; rewrite app_nth2 by lia;
          replace (Z.to_nat (Z.of_nat (length b0) + 1) - length b0)%nat with 1%nat by lia; auto).
    replace (zlen b0 + n + 2 >? zlen b0 + (1 + (1 + (zlen v + zlen b)))) with false by lia.
    assert (Bw : bytes_ok (t :: zlen v :: v)).
    { change (t :: n :: v ++ b) with ((t :: n :: v) ++ b) in B. apply bytes_ok_app in B. subst n. apply B. }
    assert (Bb : bytes_ok b).
    { change (t :: n :: v ++ b) with ((t :: n :: v) ++ b) in B. apply bytes_ok_app in B. apply B. }
    subst n.
    assert (Wt : win pkt (4 + zlen b0) (t :: zlen v :: v)) by (apply win_app with (c := b); exact W).
    destruct (one_ok c p t v pkt _ A P Bw Wt) as [E R]. rewrite E. cbn [bind].
    assert (W' : win pkt 4 ((b0 ++ t :: zlen v :: v) ++ b)) by (rewrite <- app_assoc; cbn [app]; auto).
    assert (E1 : zlen b0 + (1 + (1 + (zlen v + zlen b))) = zlen (b0 ++ t :: zlen v :: v) + zlen b)
      by (rewrite zlen_app, !zlen_cons; lia).
    assert (E2 : zlen b0 + zlen v + 2 = zlen (b0 ++ t :: zlen v :: v))
      by (rewrite zlen_app, !zlen_cons; lia).
    assert (L' : (length b < f)%nat) by (cbn [length] in Lf; rewrite app_length in Lf; lia).
    rewrite E1, E2. destruct (IH pkt _ f (fst (one c p t v)) W' Bb (proj1 R) L') as [I1 I2].
    rewrite I1. cbn [bind]. split; auto. split; [apply I2|]. cbn [snd]. apply Forall_app. split; [apply R|apply I2].
  - rewrite zlen_cons, zlen_nil.
    pose proof (zlen_nonneg _ b0) as Nb0.
    replace (zlen b0 <? zlen b0 + (1 + 0)) with true by lia.
    rewrite (rd_win _ _ _ _ W) by (rewrite zlen_app, zlen_cons, zlen_nil; lia).
    cbn [bind]. replace (nth (Z.to_nat (zlen b0)) (b0 ++ [t]) 0) with t
      by (unfold zlen; rewrite Nat2Z.id, nth_middle; auto).
    unfold MESSAGE_PAD1. replace (t =? 0) with false by lia.
    replace (zlen b0 + 2 >? zlen b0 + (1 + 0)) with true by lia. split; auto. split; [auto|constructor].
  - change (Z.of_nat (length b)) with (zlen b) in Hn.
    pose proof (zlen_nonneg _ b) as Nb. pose proof (zlen_nonneg _ b0) as Nb0.
    rewrite !zlen_cons.
    replace (zlen b0 <? zlen b0 + (1 + (1 + zlen b))) with true by lia.
    rewrite (rd_win _ _ _ _ W) by (rewrite zlen_app, !zlen_cons; lia).
    cbn [bind]. replace (nth (Z.to_nat (zlen b0)) (b0 ++ t :: n :: b) 0) with t
      by (unfold zlen; rewrite Nat2Z.id, nth_middle; auto).
    unfold MESSAGE_PAD1. replace (t =? 0) with false by lia.
    replace (zlen b0 + 2 >? zlen b0 + (1 + (1 + zlen b))) with false by lia.
    replace (4 + zlen b0 + 1) with (4 + (zlen b0 + 1)) by lia.
    rewrite (rd_win _ _ _ _ W) by (rewrite zlen_app, !zlen_cons; lia).
    cbn [bind]. replace (nth (Z.to_nat (zlen b0 + 1)) (b0 ++ t :: n :: b) 0) with n
      by (unfold zlen; rewrite app_nth2 by lia;
          replace (Z.to_nat (Z.of_nat (length b0) + 1) - length b0)%nat with 1%nat by lia; auto).
    replace (zlen b0 + n + 2 >? zlen b0 + (1 + (1 + zlen b))) with true by lia. split; auto. split; [auto|constructor].
Qed.

(** The body of a packet: the bytes after the header, at most as many as the header
    says. *)
Definition body_len (pkt : list Z) : Z := Z.min (un16 (nth 2 pkt 0) (nth 3 pkt 0)) (zlen pkt - 4).
Definition body (pkt : list Z) : list Z := firstn (Z.to_nat (body_len pkt)) (skipn 4 pkt).

Lemma p0_ok : pst_ok p0.
Proof. repeat split. Qed.

(** An acceptable header *)
Definition babel_header (c : rctx) (pkt : list Z) : bool :=
  linklocal (r_from c) && (nth 0 pkt 0 =? 42) && (nth 1 pkt 0 =? 2).


Theorem parse_packet_frames : forall c pkt fs full,
  addr_ok (r_from c) -> bytes_ok pkt -> 4 <= zlen pkt -> frames (body pkt) fs full ->
  parse_packet c pkt =
    Ret (if babel_header c pkt then snd (tlvs c p0 fs) ++ rtt_action (fst (tlvs c p0 fs)) else []) /\
  Forall act_ok (snd (tlvs c p0 fs)).
Proof.
  intros c pkt fs full A B L Fr.
  assert (R : forall i, 0 <= i < zlen pkt -> rd pkt i = Ret (nth (Z.to_nat i) pkt 0)).
  { intros i H. exact (rd_win pkt 0 pkt i (win_refl pkt) H). }
  assert (U : 0 <= un16 (nth 2 pkt 0) (nth 3 pkt 0)).
  { destruct (rd16_post pkt 2 B ltac:(lia) ltac:(lia)) as (v & E & V).
    unfold rd16 in E. rewrite !R in E by lia. cbn [bind] in E. injection E as <-. apply V. }
  assert (BL : 0 <= body_len pkt <= zlen pkt - 4) by (unfold body_len; lia).
  assert (Lb : zlen (body pkt) = body_len pkt).
  { unfold body, zlen. rewrite firstn_length, skipn_length. unfold zlen in *. lia. }
  assert (W : win pkt 4 ([] ++ body pkt)).
  { exists (firstn 4 pkt), (skipn (Z.to_nat (body_len pkt)) (skipn 4 pkt)). split.
    - cbn [app]. unfold body. rewrite firstn_skipn, firstn_skipn. auto.
    - unfold zlen in *. rewrite firstn_length. lia. }
  assert (Bb : bytes_ok (body pkt)) by (apply bytes_ok_firstn, bytes_ok_skipn; auto).
  destruct (tlv_loop_frames c A _ fs full Fr pkt [] (S (Z.to_nat (body_len pkt))) p0 W Bb p0_ok
              ltac:(unfold zlen in Lb; lia)) as [E O].
  split; [|apply O].
  unfold parse_packet, parse_header, babel_header.
  destruct (linklocal (r_from c)); [|reflexivity]. cbn [negb andb].
  rewrite R by lia. cbn [bind]. change (Z.to_nat 0) with 0%nat.
  destruct (nth 0 pkt 0 =? 42); [|reflexivity]. cbn [negb andb].
  rewrite R by lia. cbn [bind]. change (Z.to_nat 1) with 1%nat.
  destruct (nth 1 pkt 0 =? 2); [|reflexivity]. cbn [negb andb].
  unfold rd16. rewrite !R by lia. cbn [bind].
  change (Z.to_nat 2) with 2%nat. change (Z.to_nat (2 + 1)) with 3%nat.
  replace (if un16 (nth 2 pkt 0) (nth 3 pkt 0) + 4 >? zlen pkt then zlen pkt - 4
           else un16 (nth 2 pkt 0) (nth 3 pkt 0)) with (body_len pkt)
    by (unfold body_len; destruct (_ >? _) eqn:G; lia).
  unfold parse_body. rewrite zlen_nil, Lb in E. change (0 + body_len pkt) with (body_len pkt) in E.
  replace (0 + body_len pkt) with (body_len pkt) in E by lia.
  rewrite E. reflexivity.
Qed.

(** ** Unknown sub-TLVs *)

(** A parser of sub-TLVs which treats the unknown ones by their mandatory bit. *)
Definition plain {St} (F : list Z -> St -> Z -> Z -> Z -> pr (option St)) (known : Z -> bool) : Prop :=
  forall s t v, known t = false -> byte_ok t -> sub1 St F s t v = if mandatory t then None else Some s.

Lemma bit_128 : forall t, byte_ok t -> bit t 128 = mandatory t.
Proof.
  intros t H. unfold bit, mandatory, byte_ok in *.
  assert (E : forall n, (n < 256)%nat ->
            negb (Z.land (Z.of_nat n) 128 =? 0) = (128 <=? Z.of_nat n)).
  { intros n Hn.
    assert (X : forallb (fun n => Bool.eqb (negb (Z.land (Z.of_nat n) 128 =? 0)) (128 <=? Z.of_nat n)) (seq 0 256) = true)
      by (vm_compute; reflexivity).
    rewrite forallb_forall in X. apply Bool.eqb_prop, X, in_seq. lia. }
  specialize (E (Z.to_nat t) ltac:(lia)). rewrite Z2Nat.id in E by lia. exact E.
Qed.

Lemma plain_source : forall ae, plain (fun pkt => source_step pkt ae) (fun s => s =? 128).
Proof.
  intros ae s t v K B. unfold sub1, source_step, SUBTLV_SOURCE_PREFIX. rewrite K.
  unfold unknown_sub. rewrite bit_128; auto.
Qed.
Lemma plain_seqno_source : forall ae, plain (fun pkt => seqno_source_step pkt ae) (fun s => s =? 128).
Proof.
  intros ae s t v K B. unfold sub1, seqno_source_step, SUBTLV_SOURCE_PREFIX. rewrite K.
  unfold unknown_sub. rewrite bit_128; auto.
Qed.
Lemma plain_hello : plain hello_step (fun s => s =? 3).
Proof.
  intros s t v K B. unfold sub1, hello_step, SUBTLV_TIMESTAMP. rewrite K.
  unfold unknown_sub. rewrite bit_128; auto.
Qed.
Lemma plain_ihu : plain ihu_step (fun s => s =? 3).
Proof.
  intros s t v K B. unfold sub1, ihu_step, SUBTLV_TIMESTAMP. rewrite K.
  unfold unknown_sub. rewrite bit_128; auto.
Qed.
Lemma plain_other : plain (fun _ : list Z => other_step) (fun _ => false).
Proof. intros s t v K B. unfold sub1, other_step, unknown_sub. rewrite bit_128; auto. Qed.

(** *** The part before the sub-TLVs decides everything else *)
Definition decided (c : rctx) (p : pst) (t : Z) (h : list Z) : Prop :=
  exists (St : Type) (F : list Z -> St -> Z -> Z -> Z -> pr (option St)) (s0 : St)
         (cont : option St -> pst * list action),
    plain F (known_sub t) /\ snd (cont None) = [] /\
    (t <> 8 -> fst (cont None) = p) /\
    (t = 8 -> forall s, fst (cont s) = fst (cont None)) /\
    forall u fs full, bytes_ok u -> frames u fs full ->
      one c p t (h ++ u) = cont (sub_fold St F s0 fs full).

Lemma win_head : forall (t n : Z) h u, win (t :: n :: h ++ u) 2 h.
Proof. intros. exists [t; n], u. split; reflexivity. Qed.
Lemma win_tail : forall (t n : Z) h u, win (t :: n :: h ++ u) (2 + zlen h) u.
Proof.
  intros. exists (t :: n :: h), []. split.
  - rewrite app_nil_r. reflexivity.
  - rewrite !zlen_cons. lia.
Qed.

(** A constant result *)
Lemma decided_const : forall c p t h p', (t <> 8 -> p' = p) ->
  (forall u, bytes_ok u -> parse_tlv c (t :: zlen (h ++ u) :: h ++ u) t 0 (zlen (h ++ u)) p = ignore p') ->
  decided c p t h.
Proof.
  intros c p t h p' H8 H.
  exists unit, (fun _ s t _ _ => unknown_sub s t), tt, (fun _ => (p', [])).
  split; [|split; [|split; [|split]]]; auto.
  - intros s x v K B. unfold sub1, unknown_sub. rewrite bit_128; auto.
  - intros u fs full Bu Fr. unfold one. rewrite H; auto.
Qed.

Ltac no_if := match goal with |- (if ?b then Ret None else _) = _ -> _ => destruct b end; [discriminate|].

Lemma np_any_len : forall pkt ae plen om p dp k, 0 <= plen -> 0 <= om ->
  prefix_bytes ae plen om = Some k ->
  (forall len len', k <= len -> k <= len' ->
    network_prefix pkt ae plen om p dp len = network_prefix pkt ae plen om p dp len') /\
  (forall len rc x, network_prefix pkt ae plen om p dp len = Ret (Some (rc, x)) -> rc = k).
Proof.
  intros pkt ae plen om p dp k P O K. unfold prefix_bytes in K. cbv zeta in K.
  unfold network_prefix. replace (plen >=? 0) with true by lia.
  replace (plen <? 0) with false by lia. cbv zeta.
  set (n := (plen + 7) / 8) in *. clearbody n.
  unfold AE_WILDCARD, AE_IPV4, AE_V4VIAV6, AE_IPV6, AE_IPV6_LOCAL.
  destruct (ae =? 0) eqn:A0.
  { destruct (n <=? 16) eqn:N; [|discriminate]. injection K as <-.
    replace (n >? 16) with false by lia. split; [auto|]. intros len rc x E. injection E as <- _. auto. }
  destruct ((ae =? 1) || (ae =? 4)) eqn:A1.
  { destruct ((n <=? 4) && (om <=? n)) eqn:N; [|discriminate]. injection K as <-.
    apply andb_true_iff in N. destruct N as [N1 N2].
    replace (n >? 16) with false by lia. split.
    - intros len len' H1 H2. replace (len <? n - om) with false by lia.
      replace (len' <? n - om) with false by lia. auto.
    - intros len rc x. no_if.
      destruct (if om =? 0 then _ else _) as [base|]; [|discriminate].
      destruct (rds pkt p (n - om)); cbn [bind]; [|discriminate..]. intros E. injection E as <- _. auto. }
  destruct (ae =? 2) eqn:A2.
  { destruct ((n <=? 16) && (om <=? n)) eqn:N; [|discriminate]. injection K as <-.
    apply andb_true_iff in N. destruct N as [N1 N2].
    replace (n >? 16) with false by lia. split.
    - intros len len' H1 H2. replace (len <? n - om) with false by lia.
      replace (len' <? n - om) with false by lia. auto.
    - intros len rc x. no_if.
      destruct (if om =? 0 then _ else _) as [base|]; [|discriminate].
      destruct (rds pkt p (n - om)); cbn [bind]; [|discriminate..]. intros E. injection E as <- _. auto. }
  destruct (ae =? 3) eqn:A3; [|discriminate].
  destruct ((n <=? 16) && (8 <=? n)) eqn:N; [|discriminate]. injection K as <-.
  apply andb_true_iff in N. destruct N as [N1 N2].
  replace (n >? 16) with false by lia. split.
  - intros len len' H1 H2. replace (len <? n - 8) with false by lia.
    replace (len' <? n - 8) with false by lia. auto.
  - intros len rc x. no_if.
    destruct (rds pkt p (n - 8)); cbn [bind]; [|discriminate..]. intros E. injection E as <- _. auto.
Qed.

Lemma prefix_bytes_pos : forall ae plen om k, 0 <= plen -> prefix_bytes ae plen om = Some k -> 0 <= k.
Proof.
  intros ae plen om k P. unfold prefix_bytes. cbv zeta.
  destruct (ae =? 0). { destruct (_ <=? 16); [|discriminate]. intros X. injection X as <-. lia. }
  destruct ((ae =? 1) || (ae =? 4)).
  { destruct (_ && _) eqn:N; [|discriminate]. intros X. injection X as <-. lia. }
  destruct (ae =? 2). { destruct (_ && _) eqn:N; [|discriminate]. intros X. injection X as <-. lia. }
  destruct (ae =? 3); [|discriminate]. destruct (_ && _) eqn:N; [|discriminate].
  intros X. injection X as <-. lia.
Qed.

(** The same prefix whatever follows. *)
Lemma np_head : forall h ae plen om j dp k, bytes_ok h -> byte_ok plen -> 0 <= om -> dp_ok dp ->
  prefix_bytes ae plen om = Some k -> 0 <= j -> zlen h = j + k ->
  exists r, np_facts ae plen k r /\ (forall rc x, r = Some (rc, x) -> rc = k) /\
    forall t n u, network_prefix (t :: n :: h ++ u) ae plen om (2 + j) dp (zlen h + zlen u - j) = Ret r.
Proof.
  intros h ae plen om j dp k B Bp O D K J L.
  pose proof (prefix_bytes_pos _ _ _ _ (proj1 Bp) K) as K0.
  destruct (np_post h ae plen om j dp k B J ltac:(lia) K0 ltac:(unfold byte_ok in Bp; lia) O D) as (r & E & Fr).
  exists r. split; [auto|]. split.
  - intros rc x ->. exact (proj2 (np_any_len h ae plen om j dp k (proj1 Bp) O K) _ _ _ E).
  - intros t n u.
    pose proof (zlen_nonneg _ u) as Nu.
    rewrite (proj1 (np_any_len (t :: n :: h ++ u) ae plen om (2 + j) dp k (proj1 Bp) O K) (zlen h + zlen u - j) k ltac:(lia) ltac:(lia)).
    eapply np_le; [apply win_head|reflexivity|exact E].
Qed.
Lemma na_head : forall h ae j k, bytes_ok h -> addr_bytes ae = Some k -> 0 <= j -> zlen h = j + k ->
  exists r, np_facts ae (-1) k r /\ (forall rc x, r = Some (rc, x) -> rc = k) /\
    forall t n u, network_address (t :: n :: h ++ u) ae (2 + j) (zlen h + zlen u - j) = Ret r.
Proof.
  intros h ae j k B K J L. unfold network_address.
  assert (K0 : 0 <= k).
  { unfold addr_bytes in K. destruct (ae =? 0); [injection K as <-; lia|]. destruct (ae =? 1); [injection K as <-; lia|].
    destruct (ae =? 2); [injection K as <-; lia|]. destruct (ae =? 3); [injection K as <-; lia|discriminate]. }
  destruct (np_post h ae (-1) 0 j None k B J ltac:(lia) K0 ltac:(lia) ltac:(lia) I) as (r & E & Fr).
  assert (Any : forall pkt p len, k <= len -> network_prefix pkt ae (-1) 0 p None len = network_prefix pkt ae (-1) 0 p None k).
  { intros pkt p len H. unfold network_prefix, addr_bytes, AE_WILDCARD, AE_IPV4, AE_V4VIAV6, AE_IPV6, AE_IPV6_LOCAL in *.
    change (-1 >=? 0) with false. cbv zeta iota.
    destruct (ae =? 0); [reflexivity|]. destruct (ae =? 1) eqn:A1; cbn [orb].
    { injection K as <-. replace (len <? 4 - 0) with false by lia. reflexivity. }
    destruct (ae =? 2) eqn:A2.
    { injection K as <-. replace (ae =? 4) with false by lia. replace (len <? 16 - 0) with false by lia. reflexivity. }
    destruct (ae =? 3) eqn:A3; [|discriminate]. injection K as <-. replace (ae =? 4) with false by lia.
    replace (len <? 16 - 8) with false by lia. reflexivity. }
  exists r. split; [auto|]. split.
  - intros rc x ->. revert E. unfold network_prefix, addr_bytes, AE_WILDCARD, AE_IPV4, AE_V4VIAV6, AE_IPV6, AE_IPV6_LOCAL in *.
    change (-1 >=? 0) with false. cbv zeta iota.
    no_if. destruct (ae =? 0). { intros X. injection X as <- _. injection K. auto. }
    destruct (ae =? 1) eqn:A1; cbn [orb].
    { injection K as <-. cbn [Z.gtb Z.compare orb andb Z.eqb]. no_if.
      destruct (rds h j (4 - 0)); cbn [bind]; [|discriminate..]. intros X. injection X as <- _. auto. }
    destruct (ae =? 2) eqn:A2.
    { injection K as <-. replace (ae =? 4) with false by lia.
      no_if. cbn [Z.eqb].
      destruct (rds h j (16 - 0)); cbn [bind]; [|discriminate..]. intros X. injection X as <- _. auto. }
    destruct (ae =? 3) eqn:A3; [|discriminate]. injection K as <-. replace (ae =? 4) with false by lia.
    no_if.
    destruct (rds h j (16 - 8)); cbn [bind]; [|discriminate..]. intros X. injection X as <- _. auto.
  - intros t n u. pose proof (zlen_nonneg _ u) as Nu. rewrite Any by lia.
    eapply np_le; [apply win_head|reflexivity|exact E].
Qed.

Ltac h_rd j a B := let E := fresh "E" a in
  match goal with h : list Z |- _ => destruct (rd_post h j ltac:(assumption) ltac:(lia)) as (a & E & B) end;
  let R := fresh "R" a in
  let k := eval compute in (2 + j) in
  match type of E with rd ?h _ = _ =>
  assert (R : forall t n u, rd (t :: n :: h ++ u) k = Ret a)
    by (intros t n u; apply (rd_le _ 2 h k j (win_head t n h u) ltac:(lia)); exact E) end.
Ltac h_rd16 j a B := let E := fresh "E" a in
  match goal with h : list Z |- _ => destruct (rd16_post h j ltac:(assumption) ltac:(lia) ltac:(lia)) as (a & E & B) end;
  let R := fresh "R" a in
  let k := eval compute in (2 + j) in
  match type of E with rd16 ?h _ = _ =>
  assert (R : forall t n u, rd16 (t :: n :: h ++ u) k = Ret a)
    by (intros t n u; apply (rd16_le _ 2 h k j (win_head t n h u) ltac:(lia)); exact E) end.

Ltac idx := repeat match goal with |- context [0 + ?k] => change (0 + k) with k end.

Lemma nth_rd : forall h j a, rd h j = Ret a -> nth (Z.to_nat j) h 0 = a.
Proof. intros h j a. unfold rd. destruct (_ && _); [|discriminate]. intros E. injection E as <-. auto. Qed.

(** The sub-TLVs after the head *)
Lemma subs_tail : forall St F inv t n h u fs full s i al, @step_ok St F inv -> bytes_ok u -> frames u fs full -> inv s ->
  i = 2 + zlen h -> al = zlen u ->
  subs (F (t :: n :: h ++ u)) (t :: n :: h ++ u) i al s = Ret (sub_fold St F s fs full).
Proof.
  intros St F inv t n h u fs full s i al Fok B Fr Hs -> ->.
  exact (proj1 (subs_frames St F inv Fok u fs full _ _ s Fr (win_tail t n h u) B Hs)).
Qed.

Lemma decided_ack : forall c p h, bytes_ok h -> zlen h = 6 -> decided c p 2 h.
Proof.
  intros c p h B L. h_rd16 2 nonce Bn. h_rd16 4 iv Bi.
  exists unit, (fun _ => other_step), tt, (fun s => match s with None => (p, []) | Some _ => (p, [AAck nonce iv]) end).
  split; [exact plain_other|]. split; [auto|]. split; [auto|]. split; [discriminate|].
  intros u fs full Bu Fr. unfold one.
  change (parse_tlv c ?w 2 0 ?n p) with (p_ack_req w 0 n p). unfold p_ack_req.
  rewrite zlen_app. pose proof (zlen_nonneg _ u). replace (zlen h + zlen u <? 6) with false by lia.
  idx. rewrite Rnonce, Riv. cbn [bind].
  erewrite (subs_tail _ (fun _ => other_step)); [|apply other_step_ok|eauto|eauto|exact I|lia|lia].
  cbn [bind]. destruct (sub_fold _ _ _ _ _); reflexivity.
Qed.

Lemma decided_hello : forall c p h, bytes_ok h -> zlen h = 6 -> decided c p 4 h.
Proof.
  intros c p h B L. h_rd 0 fl Bf. h_rd16 2 sq Bs. h_rd16 4 iv Bi.
  exists (option Z), hello_step, None,
    (fun s => match s with
              | None => (p, [])
              | Some ts => (match ts with Some _ => set_p_hello true p | None => p end,
                            [AHello (bit fl 128) sq iv ts])
              end).
  split; [exact plain_hello|]. split; [auto|]. split; [auto|]. split; [discriminate|].
  intros u fs full Bu Fr. unfold one.
  change (parse_tlv c ?w 4 0 ?n p) with (p_hello_tlv w 0 n p). unfold p_hello_tlv.
  rewrite zlen_app. pose proof (zlen_nonneg _ u). replace (zlen h + zlen u <? 6) with false by lia.
  idx.
  rewrite Rfl, Rsq, Riv. cbn [bind].
  erewrite (subs_tail _ hello_step); [|apply hello_step_ok|eauto|eauto|exact I|lia|lia].
  cbn [bind]. destruct (sub_fold _ _ _ _ _); reflexivity.
Qed.

Lemma known_bytes : forall ae plen om k, byte_ok ae -> prefix_bytes ae plen om = Some k -> known_ae ae = true.
Proof.
  intros ae plen om k [A0 A1]. unfold prefix_bytes, known_ae, AE_IPV6_LOCAL, AE_V4VIAV6. cbv zeta.
  destruct (ae <=? 3) eqn:A; [auto|]. destruct (ae =? 4) eqn:A4; [auto|].
  replace (ae =? 0) with false by lia. replace (ae =? 1) with false by lia.
  replace (ae =? 2) with false by lia. replace (ae =? 3) with false by lia. discriminate.
Qed.

Lemma decided_ihu : forall c p h k, bytes_ok h -> addr_bytes (nth 0 h 0) = Some k -> zlen h = 6 + k ->
  decided c p 5 h.
Proof.
  intros c p h k B K L.
  assert (K0 : 0 <= k).
  { unfold addr_bytes in K. destruct (nth 0 h 0 =? 0); [injection K as <-; lia|].
    destruct (nth 0 h 0 =? 1); [injection K as <-; lia|].
    destruct (nth 0 h 0 =? 2); [injection K as <-; lia|].
    destruct (nth 0 h 0 =? 3); [injection K as <-; lia|discriminate]. }
  h_rd 0 ae Ba. h_rd16 2 tx Bt. h_rd16 4 iv Bi.
  apply nth_rd in Eae. change (Z.to_nat 0) with 0%nat in Eae. rewrite Eae in K.
  assert (Kn : known_ae ae = true).
  { unfold addr_bytes in K. unfold known_ae, AE_IPV6_LOCAL, AE_V4VIAV6.
    destruct (ae <=? 3) eqn:A; [auto|]. destruct Ba.
    replace (ae =? 0) with false in K by lia. replace (ae =? 1) with false in K by lia.
    replace (ae =? 2) with false in K by lia. replace (ae =? 3) with false in K by lia. discriminate. }
  destruct (na_head h ae 6 k B K ltac:(lia) L) as (r & Fr & Rc & N).
  set (ok := match r with
             | None => false
             | Some (_, a) => (ae =? AE_WILDCARD) || existsb (fun l => memcmp l a =? 0) (r_lls c)
             end).
  exists (option (Z * Z)), ihu_step, None,
    (fun s => if ok then
                match s with
                | None => (p, [])
                | Some ts => (match ts with Some (a, b) => set_p_ts a b p | None => p end, [AIhu tx iv])
                end
              else (p, [])).
  split; [exact plain_ihu|]. split; [destruct ok; auto|]. split; [destruct ok; auto|]. split; [discriminate|].
  intros u fs full Bu Fs. unfold one.
  change (parse_tlv c ?w 5 0 ?n p) with (p_ihu c w 0 n p). unfold p_ihu.
  rewrite zlen_app. pose proof (zlen_nonneg _ u). replace (zlen h + zlen u <? 6) with false by lia.
  idx. rewrite Rae. cbn [bind]. rewrite Kn. cbn [negb]. rewrite Rtx, Riv. cbn [bind].
  change 8 with (2 + 6) at 1. rewrite N. cbn [bind]. unfold ok. destruct r as [[rc x]|]; [|reflexivity].
  rewrite (Rc rc x eq_refl). replace (k <? 0) with false by lia.
  destruct ((ae =? AE_WILDCARD) || _); [|reflexivity].
  erewrite (subs_tail _ ihu_step); [|apply ihu_step_ok|eauto|eauto|exact I|lia|lia].
  cbn [bind]. destruct (sub_fold _ _ _ _ _); reflexivity.
Qed.

Lemma decided_request : forall c p h k, bytes_ok h -> prefix_bytes (nth 0 h 0) (nth 1 h 0) 0 = Some k ->
  zlen h = 2 + k -> decided c p 9 h.
Proof.
  intros c p h k B K L.
  assert (K0 : 0 <= k).
  { eapply prefix_bytes_pos; [|eauto]. destruct (nth_in_or_default 1 h 0) as [J|J]; [|lia].
    unfold bytes_ok in B. rewrite Forall_forall in B. apply (B _ J). }
  h_rd 0 ae Ba. h_rd 1 pl Bp.
  apply nth_rd in Eae. change (Z.to_nat 0) with 0%nat in Eae.
  apply nth_rd in Epl. change (Z.to_nat 1) with 1%nat in Epl. rewrite Eae, Epl in K.
  destruct (np_head h ae pl 0 2 None k B Bp ltac:(lia) I K ltac:(lia) L) as (r & Fr & Rc & N).
  exists srcp, (fun pkt => source_step pkt ae), (no_src ae),
    (fun s => match r, s with
              | Some (_, x), Some (src, splen, _) =>
                  if ae =? AE_WILDCARD then
                    if negb (is_default src splen) then (p, []) else (p, [ARequest None])
                  else (p, [ARequest (Some (mkDest x (u8 (pl + (if ae_is_v4 ae then 96 else 0))) src splen))])
              | _, _ => (p, [])
              end).
  split; [apply plain_source|]. split; [destruct r as [[? ?]|]; auto|].
  split; [destruct r as [[? ?]|]; auto|]. split; [discriminate|].
  intros u fs full Bu Fs. unfold one.
  change (parse_tlv c ?w 9 0 ?n p) with (p_request w 0 n p). unfold p_request.
  rewrite zlen_app. pose proof (zlen_nonneg _ u). replace (zlen h + zlen u <? 2) with false by lia.
  idx. rewrite Rae. cbn [bind]. rewrite (known_bytes _ _ _ _ Ba K). cbn [negb]. rewrite Rpl. cbn [bind].
  change 4 with (2 + 2) at 1. rewrite N. cbn [bind]. destruct r as [[rc x]|]; [|reflexivity].
  rewrite (Rc rc x eq_refl). replace (k <? 0) with false by lia. cbv zeta.
  erewrite (subs_tail _ (fun pkt => source_step pkt ae));
    [|apply source_step_ok|eauto|eauto|apply no_src_ok|lia|lia].
  cbn [bind]. destruct (sub_fold _ _ _ _ _) as [[[src splen] b]|]; [|reflexivity].
  destruct (ae =? AE_WILDCARD); [|reflexivity]. destruct (negb _); reflexivity.
Qed.

Lemma decided_mh_request : forall c p h k, bytes_ok h -> prefix_bytes (nth 0 h 0) (nth 1 h 0) 0 = Some k ->
  zlen h = 14 + k -> decided c p 10 h.
Proof.
  intros c p h k B K L.
  assert (K0 : 0 <= k).
  { eapply prefix_bytes_pos; [|eauto]. destruct (nth_in_or_default 1 h 0) as [J|J]; [|lia].
    unfold bytes_ok in B. rewrite Forall_forall in B. apply (B _ J). }
  h_rd 0 ae Ba. h_rd 1 pl Bp. h_rd16 2 sq Bs. h_rd 4 hops Bh.
  destruct (rds_post h 6 8 B ltac:(lia)) as (id & Eid & Bid).
  assert (Rid : forall t n u, rds (t :: n :: h ++ u) 8 8 = Ret id)
    by (intros t n u; apply (rds_le _ 2 h 8 6 8 (win_head t n h u) ltac:(lia)); exact Eid).
  apply nth_rd in Eae. change (Z.to_nat 0) with 0%nat in Eae.
  apply nth_rd in Epl. change (Z.to_nat 1) with 1%nat in Epl. rewrite Eae, Epl in K.
  destruct (np_head h ae pl 0 14 None k B Bp ltac:(lia) I K ltac:(lia) L) as (r & Fr & Rc & N).
  exists srcp, (fun pkt => seqno_source_step pkt ae), (no_src ae),
    (fun s => match r, s with
              | Some (_, x), Some (src, splen, _) =>
                  (p, [ASeqno (mkDest x (u8 (pl + (if ae_is_v4 ae then 96 else 0))) src splen) hops sq id])
              | _, _ => (p, [])
              end).
  split; [apply plain_seqno_source|]. split; [destruct r as [[? ?]|]; auto|].
  split; [destruct r as [[? ?]|]; auto|]. split; [discriminate|].
  intros u fs full Bu Fs. unfold one.
  change (parse_tlv c ?w 10 0 ?n p) with (p_mh_request w 0 n p). unfold p_mh_request.
  rewrite zlen_app. pose proof (zlen_nonneg _ u). replace (zlen h + zlen u <? 14) with false by lia.
  idx. rewrite Rae. cbn [bind]. rewrite (known_bytes _ _ _ _ Ba K). cbn [negb]. rewrite Rpl, Rsq. cbn [bind].
  change 16 with (2 + 14) at 1. rewrite N. cbn [bind]. destruct r as [[rc x]|]; [|reflexivity].
  rewrite (Rc rc x eq_refl). replace (k <? 0) with false by lia. cbv zeta.
  erewrite (subs_tail _ (fun pkt => seqno_source_step pkt ae));
    [|apply seqno_source_step_ok|eauto|eauto|apply no_src_ok|lia|lia].
  cbn [bind]. destruct (sub_fold _ _ _ _ _) as [[[src splen] b]|]; [|reflexivity].
  rewrite Rhops, Rid. reflexivity.
Qed.

Lemma decided_update : forall c p h k, pst_ok p -> bytes_ok h ->
  prefix_bytes (nth 0 h 0) (nth 2 h 0) (nth 3 h 0) = Some k ->
  zlen h = 10 + k -> decided c p 8 h.
Proof.
  intros c p h k P B K L.
  assert (K0 : 0 <= k).
  { eapply prefix_bytes_pos; [|eauto]. destruct (nth_in_or_default 2 h 0) as [J|J]; [|lia].
    unfold bytes_ok in B. rewrite Forall_forall in B. apply (B _ J). }
  h_rd 0 ae Ba. h_rd 1 fl Bf. h_rd 2 pl Bp. h_rd 3 om Bo. h_rd16 4 iv Bi. h_rd16 6 sq Bs. h_rd16 8 me Bm.
  apply nth_rd in Eae. change (Z.to_nat 0) with 0%nat in Eae.
  apply nth_rd in Epl. change (Z.to_nat 2) with 2%nat in Epl.
  apply nth_rd in Eom. change (Z.to_nat 3) with 3%nat in Eom. rewrite Eae, Epl, Eom in K.
  set (dp := if ae =? AE_IPV4 then p_v4 p else if ae =? AE_IPV6 then p_v6 p
             else if ae =? AE_V4VIAV6 then p_46 p else None).
  assert (Dp : dp_ok dp).
  { unfold dp, pst_ok in *. destruct (ae =? AE_IPV4); [tauto|]. destruct (ae =? AE_IPV6); [tauto|].
    destruct (ae =? AE_V4VIAV6); [tauto|exact I]. }
  destruct (np_head h ae pl om 10 dp k B Bp (proj1 Bo) Dp K ltac:(lia) L) as (r & Fr & Rc & N).
  pose proof (known_bytes _ _ _ _ Ba K) as Kn.
  assert (Rr : forall u, (zlen (h ++ u) <? 10) = false).
  { intros u. rewrite zlen_app. pose proof (zlen_nonneg _ u). lia. }
  (* the state after, and whether the sub-TLVs are looked at *)
  destruct ((ae =? AE_V4VIAV6) && negb (r_46 c)) eqn:V46.
  { apply decided_const with (p' := p); [auto|]. intros u Bu.
    change (parse_tlv c ?w 8 0 ?n p) with (p_update c w 0 n p). unfold p_update. rewrite Rr.
    idx. rewrite Rae. cbn [bind]. rewrite Kn, V46. reflexivity. }
  set (r' := if (om =? 0) || match dp with Some _ => true | None => false end then r else None).
  destruct r' as [[rc x]|] eqn:Er'.
  2:{ apply decided_const with (p' := if bit fl 128 then clear_prefixes p else p); [congruence|]. intros u Bu.
      change (parse_tlv c ?w 8 0 ?n p) with (p_update c w 0 n p). unfold p_update. rewrite Rr.
      idx. rewrite Rae. cbn [bind]. rewrite Kn, V46. cbn [negb]. rewrite Rfl, Rpl, Rom, Riv, Rsq, Rme. cbn [bind].
      cbv zeta. fold dp. rewrite zlen_app. change 12 with (2 + 10). rewrite N.
      unfold r' in Er'. destruct ((om =? 0) || _); cbn [bind]; [rewrite Er'; reflexivity|reflexivity]. }
  assert (Er : r = Some (rc, x)) by (unfold r' in Er'; destruct ((om =? 0) || _); [auto|discriminate]).
  assert (Ob : ((om =? 0) || match dp with Some _ => true | None => false end) = true)
    by (unfold r' in Er'; destruct ((om =? 0) || _); [auto|discriminate]).
  pose proof (Rc rc x Er) as Ek. subst rc.
  set (p1 := if bit fl 128 then
               if ae =? AE_IPV4 then set_p_v4 (Some x) p
               else if ae =? AE_IPV6 then set_p_v6 (Some x) p
               else if ae =? AE_V4VIAV6 then set_p_46 (Some x) p else p
             else p).
  set (p2 := if bit fl 64 then
               set_p_id (Some (if ae_is_v4 ae then zeroes 4 ++ firstn 4 (skipn 12 x)
                               else firstn 8 (skipn 8 x))) p1
             else p1).
  set (go := negb ((me <? INFINITY) && match p_id p2 with None => true | Some _ => false end
             && negb (ae =? AE_WILDCARD))).
  set (onh := if ae =? AE_IPV4 then
                     match p_nh4 p2 with
                     | Some n => Some (Some n)
                     | None => if me <? INFINITY then None else Some None
                     end
                   else match p_nh6 p2 with Some n => Some (Some n) | None => Some (Some (r_from c)) end).
  exists srcp, (fun pkt => source_step pkt ae), (no_src ae),
    (fun s => if go then
                match onh, s with
                | Some nh, Some (src, splen, _) =>
                    if ae =? AE_WILDCARD then
                      if me <? 65535 then (p2, []) else if splen >? 0 then (p2, []) else (p2, [AWithdraw])
                    else (p2, [AUpdate (p_id p2) (mkDest x (u8 (pl + (if ae_is_v4 ae then 96 else 0))) src splen)
                                 sq me iv nh])
                | _, _ => (p2, [])
                end
              else (p2, [])).
  split; [apply plain_source|]. split; [destruct go, onh; auto|]. split; [congruence|].
  split.
  { intros _ s. destruct go, onh, s as [[[src splen] b]|]; auto.
    destruct (ae =? AE_WILDCARD); [|auto]. destruct (me <? 65535); [auto|]. destruct (splen >? 0); auto. }
  intros u fs full Bu Fs. unfold one.
  change (parse_tlv c ?w 8 0 ?n p) with (p_update c w 0 n p). unfold p_update. rewrite Rr.
  idx. rewrite Rae. cbn [bind]. rewrite Kn, V46. cbn [negb]. rewrite Rfl, Rpl, Rom, Riv, Rsq, Rme. cbn [bind].
  cbv zeta. fold dp. rewrite Ob. rewrite zlen_app. change 12 with (2 + 10) at 1. rewrite N. cbn [bind].
  rewrite Er. replace (k <? 0) with false by lia. fold p1. fold p2. unfold go.
  destruct ((me <? INFINITY) && _ && negb (ae =? AE_WILDCARD)); [reflexivity|]. cbn [negb].
  fold onh. destruct onh as [nh|]; [|reflexivity].
  erewrite (subs_tail _ (fun pkt => source_step pkt ae));
    [|apply source_step_ok|eauto|eauto|apply no_src_ok|lia|lia].
  cbn [bind]. destruct (sub_fold _ _ _ _ _) as [[[src splen] b]|]; [|reflexivity].
  destruct (ae =? AE_WILDCARD); [|reflexivity]. destruct (me <? 65535); [reflexivity|].
  destruct (splen >? 0); reflexivity.
Qed.

Lemma all_decided : forall c p t h, pst_ok p -> bytes_ok h -> fixed t h = Some (zlen h) -> decided c p t h.
Proof.
  intros c p t h P B. unfold fixed. cbv zeta.
  destruct ((t =? 2) || (t =? 4)) eqn:T1.
  { intros E. injection E as E. destruct (t =? 2) eqn:T2.
    - replace t with 2 by lia. apply decided_ack; auto.
    - replace t with 4 by lia. apply decided_hello; auto. }
  destruct (t =? 5) eqn:T5.
  { replace t with 5 by lia. destruct (addr_bytes _) as [k|] eqn:K; [|discriminate]. intros E. injection E as E.
    eapply decided_ihu; eauto. }
  destruct (t =? 8) eqn:T8.
  { replace t with 8 by lia. destruct (prefix_bytes _ _ _) as [k|] eqn:K; [|discriminate]. intros E. injection E as E.
    eapply decided_update; eauto. }
  destruct (t =? 9) eqn:T9.
  { replace t with 9 by lia. destruct (prefix_bytes _ _ _) as [k|] eqn:K; [|discriminate]. intros E. injection E as E.
    eapply decided_request; eauto. }
  destruct (t =? 10) eqn:T10; [|discriminate].
  replace t with 10 by lia. destruct (prefix_bytes _ _ _) as [k|] eqn:K; [|discriminate]. intros E. injection E as E.
  eapply decided_mh_request; eauto.
Qed.

(** *** What becomes of unknown sub-TLVs *)
Section Unknown.
Variable St : Type.
Variable F : list Z -> St -> Z -> Z -> Z -> pr (option St).
Variable known : Z -> bool.
Hypothesis Pl : plain F known.

Lemma fold_mandatory : forall fs full s t v, Forall (fun f => byte_ok (fst f)) fs ->
  In (t, v) fs -> known t = false -> mandatory t = true -> sub_fold St F s fs full = None.
Proof.
  induction fs as [|[t' v'] fs IH]; intros full s t v B Hin K M; [destruct Hin|]. inversion B; subst.
  cbn [sub_fold]. destruct Hin as [E|Hin].
  - injection E as -> ->. unfold SUBTLV_PADN. unfold mandatory in M. replace (t =? 1) with false by lia.
    rewrite Pl; auto. unfold mandatory. rewrite M. auto.
  - destruct (t' =? SUBTLV_PADN); [eauto|]. destruct (sub1 St F s t' v'); eauto.
Qed.

(** The sub-TLVs that matter *)
Definition meaningful (f : Z * list Z) : bool := known (fst f) || mandatory (fst f).
Lemma fold_optional : known 1 = false -> forall fs full s, Forall (fun f => byte_ok (fst f)) fs ->
  sub_fold St F s fs full = sub_fold St F s (filter meaningful fs) full.
Proof.
  intros K1. induction fs as [|[t v] fs IH]; intros full s B; [auto|]. inversion B; subst.
  cbn [sub_fold filter]. unfold meaningful at 1. cbn [fst].
  destruct (t =? SUBTLV_PADN) eqn:P1.
  - replace t with 1 by (unfold SUBTLV_PADN in P1; lia). rewrite K1. change (mandatory 1) with false.
    cbn [orb]. auto.
  - destruct (known t) eqn:K; cbn [orb].
    + cbn [sub_fold]. rewrite P1. destruct (sub1 St F s t v); auto.
    + rewrite Pl by auto. destruct (mandatory t) eqn:M; cbn [sub_fold]; auto.
      rewrite P1, Pl by auto. rewrite M. auto.
Qed.
End Unknown.

Lemma frames_bytes : forall u fs full, frames u fs full -> bytes_ok u -> Forall (fun f => byte_ok (fst f)) fs.
Proof.
  induction 1 as [|b l e Fr IH|t n v b l e Ht Hn Fr IH|t Ht|t n b Ht Hn]; intros B; auto.
  - inversion B; auto.
  - inversion B as [|? ? Bt B1]; subst. inversion B1 as [|? ? Bn B2]; subst. constructor; [exact Bt|].
    apply IH. apply bytes_ok_app in B2. apply B2.
Qed.

Theorem mandatory_sub : forall c p t h u fs full s v, pst_ok p -> bytes_ok h -> bytes_ok u ->
  fixed t h = Some (zlen h) -> frames u fs full ->
  In (s, v) fs -> known_sub t s = false -> mandatory s = true ->
  snd (one c p t (h ++ u)) = [] /\ (t <> 8 -> fst (one c p t (h ++ u)) = p) /\
  (t = 8 -> fst (one c p t (h ++ u)) = fst (one c p t h)).
Proof.
  intros c p t h u fs full s v P Bh Bu X Fr Hin K M.
  destruct (all_decided c p t h P Bh X) as (St & F & s0 & cont & Pl & C1 & C2 & C3 & H).
  rewrite (H u fs full Bu Fr). rewrite (fold_mandatory St F _ Pl fs full s0 s v (frames_bytes _ _ _ Fr Bu) Hin K M).
  split; [auto|]. split; [auto|]. intros T.
  pose proof (H [] [] true (Forall_nil _) fr_end) as E. rewrite app_nil_r in E. rewrite E.
  symmetry. apply C3. auto.
Qed.

Theorem optional_sub : forall c p t h u u' fs fs' full, pst_ok p -> bytes_ok h -> bytes_ok u -> bytes_ok u' ->
  fixed t h = Some (zlen h) -> frames u fs full -> frames u' fs' full ->
  filter (fun f => known_sub t (fst f) || mandatory (fst f)) fs =
  filter (fun f => known_sub t (fst f) || mandatory (fst f)) fs' ->
  one c p t (h ++ u) = one c p t (h ++ u').
Proof.
  intros c p t h u u' fs fs' full P Bh Bu Bu' X Fr Fr' E.
  destruct (all_decided c p t h P Bh X) as (St & F & s0 & cont & Pl & _ & _ & _ & H).
  rewrite (H u fs full Bu Fr), (H u' fs' full Bu' Fr'). f_equal.
  assert (K1 : known_sub t 1 = false).
  { unfold known_sub. destruct ((t =? 4) || (t =? 5)); [reflexivity|]. destruct (_ || _); reflexivity. }
  rewrite (fold_optional St F _ Pl K1 fs full s0 (frames_bytes _ _ _ Fr Bu)).
  rewrite (fold_optional St F _ Pl K1 fs' full s0 (frames_bytes _ _ _ Fr' Bu')).
  f_equal. exact E.
Qed.

(** Unknown TLV types and padding *)
Lemma one_unknown : forall c p t v, byte_ok t -> t <> 8 -> ~ (2 <= t <= 10) -> one c p t v = (p, []).
Proof.
  intros c p t v B T8 T. unfold one, parse_tlv, MESSAGE_PADN, MESSAGE_ACK_REQ, MESSAGE_ACK, MESSAGE_HELLO,
    MESSAGE_IHU, MESSAGE_ROUTER_ID, MESSAGE_NH, MESSAGE_UPDATE, MESSAGE_REQUEST, MESSAGE_MH_REQUEST.
  replace (t =? 2) with false by lia. replace (t =? 3) with false by lia. replace (t =? 4) with false by lia.
  replace (t =? 5) with false by lia. replace (t =? 6) with false by lia. replace (t =? 7) with false by lia.
  replace (t =? 8) with false by lia. replace (t =? 9) with false by lia. replace (t =? 10) with false by lia.
  destruct (t =? 1); reflexivity.
Qed.
Lemma tlvs_unknown : forall c fs p, Forall (fun f => byte_ok (fst f)) fs ->
  tlvs c p fs = tlvs c p (filter (fun f => (2 <=? fst f) && (fst f <=? 10)) fs).
Proof.
  induction fs as [|[t v] fs IH]; intros p B; [auto|]. inversion B; subst. cbn [tlvs filter fst].
  destruct ((2 <=? t) && (t <=? 10)) eqn:T.
  - cbn [tlvs]. rewrite IH by auto. auto.
  - rewrite one_unknown; [|auto|lia|lia]. cbn [fst snd app]. rewrite IH by auto.
    destruct (tlvs _ _ _); auto.
Qed.

(** *** Packets *)
Lemma one_hello : forall c p t v, addr_ok (r_from c) -> pst_ok p -> bytes_ok (t :: zlen v :: v) ->
  u32_ok (p_us p) /\ u32_ok (p_rx p) -> u32_ok (p_us (fst (one c p t v))) /\ u32_ok (p_rx (fst (one c p t v))).
Proof.
  intros c p t v A P B U. unfold one.
  set (w := t :: zlen v :: v) in *.
  assert (L : zlen w = zlen v + 2) by (unfold w; rewrite !zlen_cons; lia).
  pose proof (zlen_nonneg _ v) as N.
  destruct (Z.eq_dec t 5) as [E|E].
  - subst t. change (parse_tlv c w 5 0 (zlen v) p) with (p_ihu c w 0 (zlen v) p). unfold p_ihu.
    destruct (zlen v <? 6) eqn:L6; [exact U|].
    destruct (rd_post w (0 + 2) B ltac:(lia)) as (ae & E & Ba). rewrite E. cbn [bind].
    destruct (negb (known_ae ae)); [exact U|].
    destruct (rd16_post w (0 + 4) B ltac:(lia) ltac:(lia)) as (tx & E1 & _). rewrite E1. cbn [bind].
    destruct (rd16_post w (0 + 6) B ltac:(lia) ltac:(lia)) as (iv & E2 & _). rewrite E2. cbn [bind].
    unfold network_address.
    destruct (np_post w ae (-1) 0 (0 + 8) None (zlen v - 6) B ltac:(lia) ltac:(lia) ltac:(lia) ltac:(lia) ltac:(lia) I)
      as (r & E3 & Fa). rewrite E3. cbn [bind]. destruct r as [[rc x]|]; [|exact U].
    destruct (rc <? 0) eqn:R; [exact U|]. destruct (_ || _); [|exact U].
    apply np_addr in Fa. destruct Fa as [Ax Rx].
    destruct (both_subs _ ihu_step _ ihu_step_ok w w 0 (0 + 8 + rc) (0 + 8 + rc) (zlen v - 6 - rc) None
                (win_refl w) ltac:(lia) B I ltac:(lia) ltac:(lia)) as (o & E4 & _ & O). rewrite E4. cbn [bind].
    destruct o as [[[a b]|]|]; [exact O|exact U|exact U].
  - assert (X : forall r, parse_tlv c w t 0 (zlen v) p = Ret r -> p_us (fst r) = p_us p /\ p_rx (fst r) = p_rx p).
    { intros r. unfold parse_tlv, MESSAGE_IHU. replace (t =? 5) with false by lia.
      assert (G : forall A (x : pr A) (f : A -> step) r, bind x f = Ret r -> exists a, x = Ret a /\ f a = Ret r).
      { intros T x f r0. destruct x; cbn [bind]; [eauto|discriminate..]. }
      assert (H0 : forall p' r0, ignore p' = Ret r0 -> p_us p' = p_us p /\ p_rx p' = p_rx p ->
                   p_us (fst r0) = p_us p /\ p_rx (fst r0) = p_rx p).
      { intros p' r0 E0 H. injection E0 as <-. exact H. }
      destruct (t =? MESSAGE_PADN); [intros H; apply (H0 _ _ H); auto|].
      destruct (t =? MESSAGE_ACK_REQ).
      { unfold p_ack_req. destruct (_ <? 6); [intros H; apply (H0 _ _ H); auto|].
        intros H. apply G in H. destruct H as (? & _ & H). apply G in H. destruct H as (? & _ & H).
        apply G in H. destruct H as ([?|] & _ & H); [injection H as <-; auto|apply (H0 _ _ H); auto]. }
      destruct (t =? MESSAGE_ACK).
      { unfold p_ack. intros H. apply G in H. destruct H as (? & _ & H). apply (H0 _ _ H); auto. }
      destruct (t =? MESSAGE_HELLO).
      { unfold p_hello_tlv. destruct (_ <? 6); [intros H; apply (H0 _ _ H); auto|].
        intros H. apply G in H. destruct H as (? & _ & H). apply G in H. destruct H as (? & _ & H).
        apply G in H. destruct H as (? & _ & H).
        apply G in H. destruct H as ([[?|]|] & _ & H); try (injection H as <-; auto). }
      destruct (t =? MESSAGE_ROUTER_ID).
      { unfold p_router_id. destruct (_ <? 10); [intros H; apply (H0 _ _ H); auto|].
        intros H. apply G in H. destruct H as (? & _ & H). apply G in H. destruct H as (? & _ & H).
        apply (H0 _ _ H); auto. }
      destruct (t =? MESSAGE_NH).
      { unfold p_nh. destruct (_ <? 2); [intros H; apply (H0 _ _ H); auto|].
        intros H. apply G in H. destruct H as (ae & _ & H). apply G in H. destruct H as (o & _ & H). revert H.
        destruct (negb _); [intros H; apply (H0 _ _ H); auto|]. destruct (ae =? 0); [intros H; apply (H0 _ _ H); auto|].
        destruct o as [[rc x]|]; [|intros H; apply (H0 _ _ H); auto].
        destruct (rc <? 0); [intros H; apply (H0 _ _ H); auto|].
        destruct (ae =? AE_V4VIAV6); [intros H; apply (H0 _ _ H); auto|].
        intros H. apply G in H. destruct H as (? & _ & H). apply (H0 _ _ H).
        destruct (ae =? AE_IPV4); auto. }
      destruct (t =? MESSAGE_UPDATE).
      { unfold p_update. destruct (_ <? 10).
        { intros H. apply G in H. destruct H as ([|] & _ & H); apply (H0 _ _ H); auto. }
        intros H. apply G in H. destruct H as (ae & _ & H). revert H.
        destruct (negb _); [intros H; apply (H0 _ _ H); auto|].
        destruct (_ && _); [intros H; apply (H0 _ _ H); auto|].
        intros H. apply G in H. destruct H as (fl & _ & H). apply G in H. destruct H as (pl & _ & H).
        apply G in H. destruct H as (om & _ & H). apply G in H. destruct H as (iv & _ & H).
        apply G in H. destruct H as (sq & _ & H). apply G in H. destruct H as (me & _ & H). cbv zeta in H.
        apply G in H. destruct H as (o & _ & H). revert H.
        destruct (match o with Some (rc, x) => _ | None => None end) as [[rc x]|];
          [|intros H; apply (H0 _ _ H); destruct (bit fl 128); auto].
        set (p1 := if bit fl 128 then _ else p).
        assert (U1 : p_us p1 = p_us p /\ p_rx p1 = p_rx p).
        { unfold p1. destruct (bit fl 128); auto. destruct (ae =? AE_IPV4); [auto|].
          destruct (ae =? AE_IPV6); [auto|]. destruct (ae =? AE_V4VIAV6); auto. }
        clearbody p1.
        set (p2 := if bit fl 64 then _ else p1).
        assert (U2 : p_us p2 = p_us p /\ p_rx p2 = p_rx p) by (unfold p2; destruct (bit fl 64); auto).
        clearbody p2.
        match goal with |- (if ?b then _ else _) = _ -> _ => destruct b end; [intros H; apply (H0 _ _ H); auto|].
        match goal with |- match ?b with Some _ => _ | None => _ end = _ -> _ => destruct b end;
          [|intros H; apply (H0 _ _ H); auto].
        intros H. apply G in H. destruct H as ([[[src splen] ?]|] & _ & H); [|apply (H0 _ _ H); auto]. revert H.
        destruct (ae =? AE_WILDCARD); [|intros H; injection H as <-; auto].
        destruct (me <? 65535); [intros H; apply (H0 _ _ H); auto|].
        destruct (splen >? 0); [intros H; apply (H0 _ _ H); auto|]. intros H; injection H as <-; auto. }
      destruct (t =? MESSAGE_REQUEST).
      { unfold p_request. destruct (_ <? 2); [intros H; apply (H0 _ _ H); auto|].
        intros H. apply G in H. destruct H as (ae & _ & H). revert H.
        destruct (negb _); [intros H; apply (H0 _ _ H); auto|].
        intros H. apply G in H. destruct H as (pl & _ & H). apply G in H. destruct H as ([[rc x]|] & _ & H);
          [|apply (H0 _ _ H); auto]. revert H.
        destruct (rc <? 0); [intros H; apply (H0 _ _ H); auto|]. cbv zeta.
        intros H. apply G in H. destruct H as ([[[src splen] ?]|] & _ & H); [|apply (H0 _ _ H); auto]. revert H.
        destruct (ae =? AE_WILDCARD); [|intros H; injection H as <-; auto].
        destruct (negb _); [intros H; apply (H0 _ _ H); auto|]. intros H; injection H as <-; auto. }
      destruct (t =? MESSAGE_MH_REQUEST); [|intros H; apply (H0 _ _ H); auto].
      unfold p_mh_request. destruct (_ <? 14); [intros H; apply (H0 _ _ H); auto|].
      intros H. apply G in H. destruct H as (ae & _ & H). revert H.
      destruct (negb _); [intros H; apply (H0 _ _ H); auto|].
      intros H. apply G in H. destruct H as (pl & _ & H). apply G in H. destruct H as (sq & _ & H).
      apply G in H. destruct H as ([[rc x]|] & _ & H); [|apply (H0 _ _ H); auto]. revert H.
      destruct (rc <? 0); [intros H; apply (H0 _ _ H); auto|]. cbv zeta.
      intros H. apply G in H. destruct H as ([[[src splen] ?]|] & _ & H); [|apply (H0 _ _ H); auto].
      apply G in H. destruct H as (? & _ & H). apply G in H. destruct H as (? & _ & H). injection H as <-. auto. }
    destruct (parse_tlv c w t 0 (zlen v) p) as [r| |]; [|exact U..].
    destruct (X r eq_refl) as [-> ->]. exact U.
Qed.

(** The TLVs found in bytes are made of bytes. *)
Lemma frames_bytes2 : forall u fs full, frames u fs full -> bytes_ok u ->
  Forall (fun f => bytes_ok (fst f :: zlen (snd f) :: snd f)) fs.
Proof.
  induction 1 as [|b l e Fr IH|t n v b l e Ht Hn Fr IH|t Ht|t n b Ht Hn]; intros B; auto.
  - inversion B; auto.
  - change (t :: n :: v ++ b) with ((t :: n :: v) ++ b) in B. apply bytes_ok_app in B. destruct B as [B1 B2].
    constructor; [|auto]. cbn [fst snd]. subst n. exact B1.
Qed.

Lemma tlvs_ok : forall c fs p, addr_ok (r_from c) -> pst_ok p ->
  Forall (fun f => bytes_ok (fst f :: zlen (snd f) :: snd f)) fs ->
  u32_ok (p_us p) /\ u32_ok (p_rx p) ->
  Forall act_ok (snd (tlvs c p fs)) /\ u32_ok (p_us (fst (tlvs c p fs))) /\ u32_ok (p_rx (fst (tlvs c p fs))).
Proof.
  induction fs as [|[t v] fs IH]; intros p A P B U; [cbn; auto|]. inversion B as [|? ? B1 B2]; subst.
  cbn [fst snd] in B1. cbn [tlvs fst snd].
  destruct (one_ok c p t v _ 0 A P B1 (win_refl _)) as [_ [O1 O2]].
  destruct (IH (fst (one c p t v)) A O1 B2 (one_hello c p t v A P B1 U)) as (I1 & I2).
  split; [apply Forall_app; auto|exact I2].
Qed.

Theorem parse_actions_ok : forall c pkt acts, addr_ok (r_from c) -> bytes_ok pkt -> 4 <= zlen pkt ->
  parse_packet c pkt = Ret acts -> Forall act_ok acts.
Proof.
  intros c pkt acts A B L E.
  assert (Bb : bytes_ok (body pkt)) by (apply bytes_ok_firstn, bytes_ok_skipn; auto).
  destruct (frames_total (body pkt) Bb) as (fs & full & Fr).
  destruct (parse_packet_frames c pkt fs full A B L Fr) as [E' _]. rewrite E in E'. injection E' as ->.
  destruct (babel_header c pkt); [|constructor].
  destruct (tlvs_ok c fs p0 A p0_ok (frames_bytes2 _ _ _ Fr Bb) ltac:(unfold u32_ok; cbn; lia)) as (T1 & T2).
  apply Forall_app. split; auto. unfold rtt_action. destruct (_ && _); constructor; [exact T2|constructor].
Qed.

Theorem parse_unknown_tlv : forall c pkt pkt' fs fs' full full', addr_ok (r_from c) ->
  bytes_ok pkt -> 4 <= zlen pkt -> bytes_ok pkt' -> 4 <= zlen pkt' -> firstn 2 pkt = firstn 2 pkt' ->
  frames (body pkt) fs full -> frames (body pkt') fs' full' ->
  filter (fun f => (2 <=? fst f) && (fst f <=? 10)) fs =
  filter (fun f => (2 <=? fst f) && (fst f <=? 10)) fs' ->
  parse_packet c pkt = parse_packet c pkt'.
Proof.
  intros c pkt pkt' fs fs' full full' A B L B' L' H2 Fr Fr' E.
  assert (Bb : bytes_ok (body pkt)) by (apply bytes_ok_firstn, bytes_ok_skipn; auto).
  assert (Bb' : bytes_ok (body pkt')) by (apply bytes_ok_firstn, bytes_ok_skipn; auto).
  rewrite (proj1 (parse_packet_frames c pkt fs full A B L Fr)).
  rewrite (proj1 (parse_packet_frames c pkt' fs' full' A B' L' Fr')).
  assert (Eh : babel_header c pkt = babel_header c pkt').
  { unfold babel_header. rewrite <- (nth_firstn _ 2 pkt 0 0), <- (nth_firstn _ 2 pkt 1 0) by lia.
    rewrite H2. rewrite !nth_firstn by lia. auto. }
  rewrite Eh, (tlvs_unknown c fs p0 (frames_bytes _ _ _ Fr Bb)),
    (tlvs_unknown c fs' p0 (frames_bytes _ _ _ Fr' Bb')), E. auto.
Qed.

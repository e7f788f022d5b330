(** L_Buf2.v: every operation on an output buffer preserves what L_Buf.v says. *)
From Verif Require Import Base M_Util S_Util L_Util M_Filter L_Filter M_Types M_Wire S_Wire L_Wire L_Wire2 M_Auth M_Buf S_Buf L_Codec L_Buf.

Lemma not4_unmapped : forall d, dest_wire d -> is4 d = false -> v4mapped (d_prefix d) = false.
Proof.
  intros d (((A & N & Q) & _) & _) H. unfold is4 in H. destruct (d_plen d >=? 96) eqn:G; [exact H|].
  destruct (v4mapped (d_prefix d)) eqn:M; [|auto]. exfalso.
  pose proof (proj1 (v4mapped_bits _ A) M 95 ltac:(lia)) as B.
  rewrite <- Q, normalize_prefix_bits in B by (auto; lia). replace (95 <? d_plen d) with false in B by lia.
  vm_compute in B. discriminate.
Qed.
Lemma common_range : forall n a b, 0 <= common n a b <= Z.of_nat n.
Proof.
  induction n as [|n IH]; intros a b; cbn [common]; [lia|]. destruct a, b; try lia. destruct (_ =? _); [|lia].
  specialize (IH a b). lia.
Qed.
Lemma common_firstn : forall n a b, firstn (Z.to_nat (common n a b)) a = firstn (Z.to_nat (common n a b)) b.
Proof.
  induction n as [|n IH]; intros a b; cbn [common]; [auto|]. destruct a as [|x a], b as [|y b]; try reflexivity.
  destruct (x =? y) eqn:X; [|auto]. apply Z.eqb_eq in X. subst y. pose proof (common_range n a b).
  replace (Z.to_nat (1 + common n a b)) with (S (Z.to_nat (common n a b))) by lia. cbn [firstn]. f_equal. auto.
Qed.

Section Build.
Variable key : Type.
Notation env := (benv key).
Variable v : env.
Notation avail := (avail key v).

(** *** Building a message *)
Lemma put_id : forall l b s, zlen b + zlen l <= v_size v ->
  put key v l (set_e_buf b s) = set_e_buf (b ++ l) s.
Proof. intros l b s H. unfold put, bad_if. cbn [e_buf set_e_buf]. replace (_ >? _) with false by lia. reflexivity. Qed.
Lemma puts_id : forall value off n b s, 0 <= n -> 0 <= off -> off + n <= zlen value -> zlen b + n <= v_size v ->
  puts key v value off n (set_e_buf b s) = set_e_buf (b ++ firstn (Z.to_nat n) (skipn (Z.to_nat off) value)) s.
Proof.
  intros value off n b s N O L H. unfold puts. rewrite put_id.
  - unfold bad_if. replace ((n <? 0) || (off + n >? zlen value)) with false by lia. auto.
  - unfold zlen in *. rewrite firstn_length, skipn_length. lia.
Qed.
Lemma end_id : forall t n b s body, zlen body = n ->
  end_message key v t n (set_e_buf (b ++ t :: n :: body) s) = schedule_flush key v (set_e_buf (b ++ t :: n :: body) s).
Proof.
  intros t n b s body L. unfold end_message. cbn [e_buf set_e_buf]. rewrite zlen_app, !zlen_cons.
  pose proof (zlen_nonneg _ b). pose proof (zlen_nonneg _ body).
  replace (zlen b + (1 + (1 + zlen body)) - n - 2) with (zlen b) by lia.
  replace (zlen b + (1 + (1 + zlen body)) - n - 1) with (zlen b + 1) by lia.
  assert (A0 : at_ (b ++ t :: n :: body) (Z.to_nat (zlen b)) = t).
  { unfold at_. rewrite app_nth2 by (unfold zlen; lia). unfold zlen. rewrite Nat2Z.id, Nat.sub_diag. reflexivity. }
  assert (A1 : at_ (b ++ t :: n :: body) (Z.to_nat (zlen b + 1)) = n).
  { unfold at_. rewrite app_nth2 by (unfold zlen; lia). unfold zlen.
    replace (Z.to_nat (Z.of_nat (length b) + 1) - length b)%nat with 1%nat by lia. reflexivity. }
  rewrite A0, A1, !Z.eqb_refl. replace (zlen b + (1 + (1 + zlen body)) >=? n + 2) with true by lia. reflexivity.
Qed.
(** The middle of a message: [m] writes [body] *)
Definition writes (m : est -> est) (body : list Z) : Prop :=
  forall b s, zlen b + zlen body <= v_size v -> m (set_e_buf b s) = set_e_buf (b ++ body) s.
Lemma writes_put : forall l, writes (put key v l) l.
Proof. intros l b s H. apply put_id. auto. Qed.
Lemma writes_puts : forall value off n l, 0 <= n -> 0 <= off -> off + n <= zlen value ->
  l = firstn (Z.to_nat n) (skipn (Z.to_nat off) value) -> writes (puts key v value off n) l.
Proof.
  intros value off n l N O L -> b s H. apply puts_id; auto.
  unfold zlen in *. rewrite firstn_length, skipn_length in H. lia.
Qed.
Lemma writes_comp : forall m1 m2 l1 l2, writes m1 l1 -> writes m2 l2 -> writes (fun s => m2 (m1 s)) (l1 ++ l2).
Proof.
  intros m1 m2 l1 l2 H1 H2 b s H. rewrite zlen_app in H. pose proof (zlen_nonneg _ l2).
  rewrite H1 by lia. rewrite H2 by (rewrite zlen_app; lia). rewrite app_assoc. auto.
Qed.
Lemma writes_id : writes (fun s => s) [].
Proof. intros b s _. rewrite app_nil_r. auto. Qed.

Variable mac : key -> list Z -> option (list Z).
(** *** Room *)
Lemma space_eq : forall n s, ensure_space key mac v n s = if avail s <? n then flushbuf key mac v s else s.
Proof.
  intros n s. unfold ensure_space, avail, auth_room. destruct (v_key v); cbv zeta.
  - replace (v_size v - zlen (e_buf s) <? n + 48 + 6 + 8) with (v_size v - 62 - zlen (e_buf s) <? n) by lia. auto.
  - replace (v_size v - zlen (e_buf s) <? n) with (v_size v - 0 - zlen (e_buf s) <? n) by lia. auto.
Qed.
Lemma space_id : forall n s, n <= avail s -> ensure_space key mac v n s = s.
Proof. intros n s H. rewrite space_eq. replace (avail s <? n) with false by lia. auto. Qed.

Lemma start_eq : forall t n s, 0 <= n < 256 -> let s1 := ensure_space key mac v (n + 2) s in
  2 <= v_size v - zlen (e_buf s1) ->
  start_message key mac v t n s = set_e_buf (e_buf s1 ++ [t; n]) s1.
Proof.
  intros t n s N s1 H. unfold start_message. fold s1. unfold u8. rewrite Z.mod_small by lia.
  unfold put, bad_if. change (zlen [t; n]) with 2. replace (_ >? _) with false by lia. auto.
Qed.

(** A message is appended to [ensure_space] *)
Lemma build : forall t n m body s, writes m body -> zlen body = n -> n < 256 ->
  let s1 := ensure_space key mac v (n + 2) s in n + 2 <= v_size v - zlen (e_buf s1) ->
  quiet (set_e_buf (e_buf s1 ++ t :: n :: body) s1) (end_message key v t n (m (start_message key mac v t n s))).
Proof.
  intros t n m body s W L N s1 H. pose proof (zlen_nonneg _ body). pose proof (zlen_nonneg _ (e_buf s1)).
  rewrite start_eq by (fold s1; lia). fold s1. rewrite W by (rewrite zlen_app; change (zlen [t; n]) with 2; lia).
  rewrite <- app_assoc. cbn [app]. rewrite end_id by auto. apply quiet_schedule.
Qed.

End Build.

Section Mac.
Variable key : Type.
Variable mac : key -> list Z -> option (list Z).
Notation env := (benv key).
Variable v : env.
Variable c : rctx.
Hypothesis VOK : env_ok key mac v.
Hypothesis FROM : addr_ok (r_from c).
Hypothesis LL : linklocal (r_from c) = true.
Variable own : bool.
Notation binv := (binv key v c own).
Notation avail := (avail key v).
Notation writes := (writes key v).

Lemma binv_avail : forall s E R, binv s E R -> 0 <= avail s /\ zlen (e_buf s) <= v_size v.
Proof.
  intros s E R (E1 & E2 & R1 & R2 & F & _ & _ & _ & C). pose proof (c_avail _ _ _ _ _ _ _ _ C) as A. split; auto.
  unfold avail in A. destruct (auth_room_cases key v); lia.
Qed.

Lemma space_inv : forall n s E R, binv s E R -> let s1 := ensure_space key mac v n s in
  binv s1 E R /\ keeps s s1 /\ (s1 = s \/ fresh s1) /\ (n <= 300 -> n <= avail s1).
Proof.
  intros n s E R B s1. unfold s1. rewrite (space_eq key v mac). destruct (avail s <? n) eqn:A.
  - destruct (flush_ok key mac v c VOK FROM LL own s E R B) as (X1 & X2 & X3). repeat split; auto; try apply X3.
    intros N. unfold avail. destruct X2 as (-> & _). rewrite zlen_nil. destruct (auth_room_cases key v), VOK as [[? ?] _]; lia.
  - repeat split; auto. intros. lia.
Qed.
(** *** Appending a message which the peer understands *)
Definition kept (s s' : est) : Prop :=
  e_sent s' = e_sent s /\ e_bad s' = e_bad s /\ e_index s' = e_index s /\ e_ipv4 s' = e_ipv4 s /\ e_rndb s' = e_rndb s /\
  e_lls s' = e_lls s /\ e_mc s' = e_mc s.
Definition raw1 (f : Z * list Z) : list (Z * list Z) := if is_raw f then [f] else [].

Lemma append_ok : forall s E R t body s' a0, binv s E R -> frame_ok (t, body) ->
  e_buf s' = e_buf s ++ t :: zlen body :: body -> e_hello s' = e_hello s -> kept s s' -> zlen body + 2 <= avail s -> t <> MESSAGE_HELLO ->
  (forall p, coupled s p -> exists p' a, one c p t body = (p', a) /\ coupled s' p' /\ untimed a = a0) ->
  binv s' (E ++ a0) (R ++ raw1 (t, body)).
Proof.
  intros s E R t body s' a0 (E1 & E2 & R1 & R2 & F & -> & -> & Sn & C) Fo B Hh (K1 & K2 & K3 & K4 & K5 & K6 & K7) Av Tn St.
  exists E1, (E2 ++ a0), R1, (R2 ++ raw1 (t, body)), (fun o => F o ++ [(t, body)]).
  split; [rewrite app_assoc; auto|]. split; [rewrite app_assoc; auto|]. split; [rewrite K1; auto|].
  destruct C. constructor.
  - rewrite B, enc_app, enc_one, c_buf. auto.
  - rewrite Hh. apply shape_snoc. auto.
  - intros o To. apply Forall_app. split; [auto|]. constructor; [auto|constructor].
  - intros o To. rewrite tlvs_snoc. cbn [snd]. rewrite untimed_app, c_acts by auto. f_equal.
    destruct (St _ (c_coupled o To)) as (p' & a & -> & _ & X). exact X.
  - intros o. rewrite filter_app, c_raw. reflexivity.
  - intros o To. rewrite tlvs_snoc. cbn [fst]. destruct (St _ (c_coupled o To)) as (p' & a & -> & X & _). exact X.
  - unfold L_Buf.avail in *. rewrite B, zlen_app, !zlen_cons. lia.
  - congruence.
  - rewrite K3. auto.
  - rewrite K4. auto.
  - rewrite K5. auto.
  - rewrite K6. auto.
  - rewrite K7. auto.
  - intros X. apply Forall_app. split; [apply c_hello; congruence|]. constructor; [auto|constructor].
Qed.

(** A Hello *)
Lemma hello_ok : forall s E R s' u sq iv, binv s E R -> e_hello s = -1 ->
  0 <= sq < 65536 -> 0 <= iv < 65536 ->
  e_buf s' = e_buf s ++ enc [(MESSAGE_HELLO, hello_body u sq iv (htail key v None))] -> e_hello s' = zlen (e_buf s) ->
  e_id s' = e_id s -> e_nh s' = e_nh s -> e_prefix s' = e_prefix s -> kept s s' -> 8 + zlen (htail key v None) <= avail s ->
  binv s' (E ++ [AHello u sq iv None]) R.
Proof.
  intros s E R s' u sq iv (E1 & E2 & R1 & R2 & F & -> & -> & Sn & C) H0 Hs Hi B Hh I1 I2 I3 (K1 & K2 & K3 & K4 & K5 & K6 & K7) Av.
  destruct C. destruct c_shape as [[_ Fc]|(pre & post & u' & sq' & iv' & X & _)];
    [|pose proof (zlen_nonneg _ (enc pre)); lia].
  exists E1, (E2 ++ [AHello u sq iv None]), R1, R2,
    (fun o => F None ++ [(MESSAGE_HELLO, hello_body u sq iv (htail key v o))]).
  split; [rewrite app_assoc; auto|]. split; [auto|]. split; [rewrite K1; auto|].
  assert (Lt : forall o, (zlen (htail key v o) = 0 \/ zlen (htail key v o) = 6) /\ bytes_ok (htail key v o)).
  { intros o. unfold htail. destruct (v_ts v); [|split; [auto|constructor]]. destruct o as [t|].
    - split; [auto|]. constructor; [unfold byte_ok; lia|]. constructor; [unfold byte_ok; lia|]. apply be32_ok.
    - split; [auto|]. repeat (constructor; [unfold byte_ok; lia|]). constructor. }
  assert (Lb : forall o, zlen (hello_body u sq iv (htail key v o)) = 6 + zlen (htail key v o)).
  { intros o. unfold hello_body. rewrite !zlen_app. unfold be16. rewrite !zlen_cons, zlen_nil. lia. }
  assert (On : forall o p, t_ok o -> exists ts, one c p MESSAGE_HELLO (hello_body u sq iv (htail key v o)) =
     (match ts with Some _ => set_p_hello true p | None => p end, [AHello u sq iv ts])).
  { intros o p To. unfold htail. destruct (v_ts v).
    - destruct o as [t|]; eexists; apply one_hello_ok; auto; constructor; auto.
    - eexists. apply one_hello_ok; auto. constructor. }
  assert (Cp : forall p p', coupled s p -> (exists ts : option Z, p' = match ts with Some _ => set_p_hello true p | None => p end) -> coupled s' p').
  { intros p p' (X1 & X2 & X3 & X4) (ts & ->). unfold coupled. rewrite I1, I2, I3. destruct ts; repeat split; auto;
    cbn [set_p_hello p_id p_nh4 p_v6]; try apply X2; try apply X3; auto. }
  constructor.
  - rewrite B, enc_app, c_buf. auto.
  - right. exists (F None), [], u, sq, iv. rewrite Hh, c_buf. auto.
  - intros o To. apply Forall_app. split; [apply (c_ok None Logic.I)|]. constructor; [|constructor].
    destruct (Lt o) as [L1 L2]. unfold frame_ok. cbn [fst snd]. rewrite Lb. unfold MESSAGE_HELLO. split; [lia|]. split; [lia|].
    unfold hello_body. rewrite !bytes_ok_app. repeat split; auto; apply be16_ok.
  - intros o To. rewrite tlvs_snoc. cbn [snd]. rewrite untimed_app, (c_acts None Logic.I). f_equal.
    destruct (On o (fst (tlvs c p0 (F None))) To) as (ts & ->). reflexivity.
  - intros o. rewrite filter_app, c_raw. cbn [filter is_raw]. apply app_nil_r.
  - intros o To. rewrite tlvs_snoc. cbn [fst]. eapply Cp; [apply (c_coupled None Logic.I)|].
    destruct (On o (fst (tlvs c p0 (F None))) To) as (ts & ->). exists ts. reflexivity.
  - unfold L_Buf.avail in *. rewrite B, zlen_app, enc_one, !zlen_cons, Lb. destruct (Lt None). lia.
  - congruence.
  - rewrite K3. auto.
  - rewrite K4. auto.
  - rewrite K5. auto.
  - rewrite K6. auto.
  - rewrite K7. auto.
  - rewrite Hh. intros X. pose proof (zlen_nonneg _ (e_buf s)). lia.
Qed.

(** *** Messages that do not touch the compression state *)
Lemma plain_op : forall t n m body s E R a0, binv s E R -> writes m body -> zlen body = n -> n <= 250 -> 0 < t < 256 -> t <> MESSAGE_HELLO ->
  bytes_ok body ->
  (forall p s1, coupled s1 p -> exists p' a, one c p t body = (p', a) /\ coupled s1 p' /\ untimed a = a0) ->
  let s' := end_message key v t n (m (start_message key mac v t n s)) in
  binv s' (E ++ a0) (R ++ raw1 (t, body)) /\ keeps s s'.
Proof.
  intros t n m body s E R a0 B W L N T Tn By St s'.
  destruct (space_inv (n + 2) s E R B) as (X1 & X2 & X3 & X4). set (s1 := ensure_space key mac v (n + 2) s) in *.
  specialize (X4 ltac:(lia)). destruct (binv_avail _ _ _ X1) as [Y1 Y2].
  assert (Q : quiet (set_e_buf (e_buf s1 ++ t :: n :: body) s1) s').
  { apply build; auto; [lia|]. fold s1. unfold avail in X4. destruct (auth_room_cases key v); lia. }
  split.
  - apply (quiet_binv key v c own _ _ _ _ Q). eapply append_ok; [exact X1| | | | | | |].
    + unfold frame_ok. cbn [fst snd]. repeat split; auto; lia.
    + cbn [set_e_buf e_buf]. rewrite L. auto.
    + reflexivity.
    + repeat split.
    + lia.
    + exact Tn.
    + intros p Cp. destruct (St p s1 Cp) as (p' & a & Y). exists p', a. exact Y.
  - destruct Q as (_ & _ & _ & _ & _ & _ & _ & Q8 & Q9 & Q10 & Q11 & _). destruct X2 as (Z1 & Z2 & Z3 & Z4).
    unfold keeps. rewrite Q8, Q9, Q10, Q11. repeat split; auto.
Qed.
End Mac.

(** L_Util.v: proofs about M_Util. *)
From Verif Require Import Base M_Util S_Util.

Ltac dif := repeat match goal with |- context [if ?b then _ else _] => destruct b eqn:? end.
Ltac difh := repeat match goal with
  | |- context [if ?b then _ else _] => destruct b eqn:?
  | H : context [if ?b then _ else _] |- _ => destruct b eqn:? end.

(** ** Sequence numbers *)

Lemma land_32768 : forall x, (Z.land x 32768 =? 0) = (x mod 65536 <? 32768).
Proof.
  intros x.
  assert (H : Z.land x 32768 = if Z.testbit x 15 then 32768 else 0).
  { apply Z.bits_inj'. intros n Hn. rewrite Z.land_spec.
    change 32768 with (2 ^ 15).
    destruct (Z.eq_dec n 15) as [->|Hne].
    - rewrite Z.pow2_bits_true by lia. destruct (Z.testbit x 15) eqn:E.
      + rewrite Z.pow2_bits_true by lia. reflexivity.
      + rewrite Z.bits_0. reflexivity.
    - rewrite Z.pow2_bits_false by lia. rewrite andb_false_r.
      destruct (Z.testbit x 15).
      + rewrite Z.pow2_bits_false by lia. reflexivity.
      + rewrite Z.bits_0. reflexivity. }
  rewrite H. destruct (Z.testbit x 15) eqn:E.
  - apply Z.testbit_true in E; [|lia]. change (2 ^ 15) with 32768 in E. symmetry.
    apply Z.ltb_ge. lia.
  - apply Z.testbit_false in E; [|lia]. change (2 ^ 15) with 32768 in E. symmetry.
    apply Z.ltb_lt. lia.
Qed.

Lemma land_65535 : forall x, Z.land x 65535 = x mod 65536.
Proof. intros. change 65535 with (Z.ones 16). rewrite Z.land_ones by lia. reflexivity. Qed.

Lemma seqno_compare_alt : forall s1 s2, seqno_compare s1 s2 =
  if s1 =? s2 then 0 else if (s2 - s1) mod 65536 <? 32768 then -1 else 1.
Proof.
  intros. unfold seqno_compare. rewrite land_32768.
  destruct (s1 =? s2); auto. destruct (_ <? _); auto.
Qed.

Lemma seqno_compare_circle : forall s1 s2, seqno_ok s1 -> seqno_ok s2 ->
  (seqno_compare s1 s2 = 0 <-> s1 = s2) /\
  (seqno_compare s1 s2 = 1 <-> 1 <= ahead s1 s2 <= 32768) /\
  (seqno_compare s1 s2 = -1 <-> 1 <= ahead s2 s1 <= 32767).
Proof.
  unfold seqno_ok, ahead. intros s1 s2 H1 H2. rewrite seqno_compare_alt.
  destruct (s1 =? s2) eqn:E1; [|destruct (_ <? _) eqn:E2]; lia.
Qed.

Lemma seqno_newer_after_increment : forall s n, seqno_ok s -> 1 <= n <= 32767 ->
  seqno_compare (seqno_plus s n) s = 1 /\ seqno_compare s (seqno_plus s n) = -1.
Proof.
  unfold seqno_ok, seqno_plus. intros. rewrite land_65535, !seqno_compare_alt.
  assert (E1 : ((s + n) mod 65536 =? s) = false) by lia.
  assert (E2 : (s =? (s + n) mod 65536) = false) by lia.
  rewrite E1, E2.
  replace ((s - (s + n) mod 65536) mod 65536) with (65536 - n) by lia.
  replace (((s + n) mod 65536 - s) mod 65536) with n by lia.
  replace (65536 - n <? 32768) with false by lia. replace (n <? 32768) with true by lia. auto.
Qed.

Lemma seqno_compare_antisym : forall s1 s2, seqno_ok s1 -> seqno_ok s2 ->
  ahead s1 s2 <> 32768 -> seqno_compare s2 s1 = - seqno_compare s1 s2.
Proof.
  unfold seqno_ok, ahead. intros. rewrite !seqno_compare_alt.
  dif; lia.
Qed.

Lemma seqno_compare_half : forall s1 s2, seqno_ok s1 -> seqno_ok s2 ->
  ahead s1 s2 = 32768 -> seqno_compare s1 s2 = 1 /\ seqno_compare s2 s1 = 1.
Proof.
  unfold seqno_ok, ahead. intros. rewrite !seqno_compare_alt.
  dif; lia.
Qed.

Lemma seqno_compare_trans : forall s1 s2 s3, seqno_ok s1 -> seqno_ok s2 -> seqno_ok s3 ->
  seqno_compare s1 s2 = 1 -> seqno_compare s2 s3 = 1 ->
  ahead s1 s2 + ahead s2 s3 <= 32767 -> seqno_compare s1 s3 = 1.
Proof.
  unfold seqno_ok, ahead. intros *. intros H1 H2 H3. rewrite !seqno_compare_alt.
  destruct (s1 =? s2) eqn:E1; [lia|].
  destruct (s2 =? s3) eqn:E2; [lia|].
  destruct ((s2 - s1) mod _ <? _) eqn:E3; [lia|].
  destruct ((s3 - s2) mod _ <? _) eqn:E4; [lia|].
  intros. dif; lia.
Qed.

Lemma seqno_compare_shift : forall s1 s2 n, seqno_ok s1 -> seqno_ok s2 ->
  seqno_compare (seqno_plus s1 n) (seqno_plus s2 n) = seqno_compare s1 s2.
Proof.
  unfold seqno_ok, seqno_plus. intros. rewrite !land_65535, !seqno_compare_alt.
  replace ((((s2 + n) mod 65536) - ((s1 + n) mod 65536)) mod 65536)
    with ((s2 - s1) mod 65536) by (rewrite <- Zminus_mod; f_equal; lia).
  dif; try reflexivity; lia.
Qed.

Lemma seqno_minus_spec : forall s1 s2, seqno_ok s1 -> seqno_ok s2 ->
  -32768 <= seqno_minus s1 s2 <= 32767 /\ seqno_plus s2 (seqno_minus s1 s2) = s1.
Proof.
  unfold seqno_ok, seqno_minus, seqno_plus, s16. intros. rewrite !land_65535.
  destruct (_ <? _) eqn:E; split; lia.
Qed.

Lemma seqno_plus_ok : forall s n, seqno_ok (seqno_plus s n).
Proof. intros. unfold seqno_plus, seqno_ok. rewrite land_65535. lia. Qed.

Lemma seqno_minus_plus : forall s n, seqno_ok s -> -32768 <= n <= 32767 ->
  seqno_minus (seqno_plus s n) s = n.
Proof.
  unfold seqno_ok, seqno_minus, seqno_plus, s16. intros. rewrite !land_65535.
  destruct (_ <? _) eqn:E; lia.
Qed.

Lemma seqno_compare_range : forall a b,
  seqno_compare a b = -1 \/ seqno_compare a b = 0 \/ seqno_compare a b = 1.
Proof. intros. rewrite seqno_compare_alt. destruct (_ =? _); auto. destruct (_ <? _); auto. Qed.

(** ** Time *)
Lemma timeval_compare_us : forall a b, tv_ok a -> tv_ok b ->
  timeval_compare a b = match us a ?= us b with Lt => -1 | Eq => 0 | Gt => 1 end.
Proof.
  unfold tv_ok, us, timeval_compare. intros [a1 a2] [b1 b2]; simpl; intros.
  destruct (Z.compare_spec (a1 * 1000000 + a2) (b1 * 1000000 + b2));
  destruct (a1 <? b1) eqn:?; destruct (a1 >? b1) eqn:?; destruct (a2 <? b2) eqn:?;
  destruct (a2 >? b2) eqn:?; try reflexivity; lia.
Qed.

Lemma timeval_add_msec_us : forall t m, tv_ok t -> 0 <= m ->
  tv_ok (timeval_add_msec t m) /\ us (timeval_add_msec t m) = us t + 1000 * m.
Proof.
  unfold tv_ok, us, timeval_add_msec. intros [s u] m; cbn [tv_sec tv_usec]; intros.
  rewrite Z.quot_div_nonneg, Z.rem_mod_nonneg by lia.
  destruct (u + m mod 1000 * 1000 <? 1000000) eqn:E; cbn [tv_sec tv_usec]; split; lia.
Qed.

Lemma timeval_minus_us : forall a b, tv_ok a -> tv_ok b ->
  tv_ok (timeval_minus a b) /\ us (timeval_minus a b) = us a - us b.
Proof.
  unfold tv_ok, us, timeval_minus. intros [a1 a2] [b1 b2]; simpl; intros.
  destruct (a2 >=? b2) eqn:E; simpl; lia.
Qed.

Lemma timeval_minus_msec_spec : forall a b, tv_ok a -> tv_ok b ->
  (us a <= us b -> timeval_minus_msec a b = 0) /\
  (us b <= us a -> tv_sec a - tv_sec b <= 2000000 ->
     us a - us b - 1000 < 1000 * timeval_minus_msec a b < us a - us b + 1000) /\
  (tv_sec a - tv_sec b > 2000000 -> timeval_minus_msec a b = 2000000000) /\
  0 <= timeval_minus_msec a b <= 2000000999.
Proof.
  unfold tv_ok, us, timeval_minus_msec. intros [a1 a2] [b1 b2]; simpl; intros Ha Hb.
  destruct (a1 <? b1) eqn:E1; [repeat split; intros; lia|].
  destruct (a1 - b1 >? 2000000) eqn:E2; [repeat split; intros; lia|].
  destruct (a1 >? b1) eqn:E3.
  - assert (Hq : -1000 < Z.quot (a2 - b2) 1000 < 1000 /\
                 a2 - b2 - 1000 < 1000 * Z.quot (a2 - b2) 1000 < a2 - b2 + 1000 /\
                 (a2 < b2 -> Z.quot (a2-b2) 1000 <= 0) /\ (b2 <= a2 -> 0 <= Z.quot (a2-b2) 1000)).
    { destruct (Z_le_gt_dec b2 a2).
      - rewrite Z.quot_div_nonneg by lia. lia.
      - replace (a2 - b2) with (- (b2 - a2)) by lia. rewrite Z.quot_opp_l by lia.
        rewrite Z.quot_div_nonneg by lia. lia. }
    remember (Z.quot (a2 - b2) 1000) as q. clear Heqq.
    unfold u32. rewrite (Z.mod_small ((a1 - b1) * 1000)) by lia.
    rewrite Z.mod_small by lia. repeat split; intros; lia.
  - destruct (a2 <=? b2) eqn:E4; repeat split; intros; lia.
Qed.

Lemma timeval_min_spec : forall d s, tv_ok d -> tv_ok s ->
  deadline (timeval_min d s) = opt_min (deadline d) (deadline s) /\
  (timeval_min d s = d \/ timeval_min d s = s).
Proof.
  intros d s Hd Hs. unfold timeval_min, deadline.
  destruct (tv_sec s =? 0) eqn:E1.
  - destruct (tv_sec d =? 0); simpl; auto.
  - destruct (tv_sec d =? 0) eqn:E2; simpl.
    + rewrite E1. auto.
    + rewrite (timeval_compare_us d s Hd Hs).
      destruct (Z.compare_spec (us d) (us s)); simpl; rewrite ?E1, ?E2; split; auto; f_equal; lia.
Qed.

Lemma timeval_min_sec_spec : forall d secs r, tv_ok d -> secs <> 0 -> 0 <= r ->
  let m := timeval_min_sec d secs r in
  tv_ok m /\ deadline m <> None /\ tv_sec m <= secs /\
  (forall u, deadline d = Some u -> us m <= u) /\ (m = d \/ tv_sec m = secs).
Proof.
  unfold tv_ok, deadline, us, timeval_min_sec. intros [s u] secs r; simpl; intros.
  destruct (s =? 0) eqn:E1; simpl.
  - destruct (secs =? 0) eqn:E2; [lia|]. repeat split; try lia; try discriminate.
  - destruct (s >? secs) eqn:E2; simpl.
    + destruct (secs =? 0) eqn:E3; [lia|]. repeat split; try lia; try discriminate.
      intros u0 Hu; inversion Hu; subst. lia.
    + rewrite E1. repeat split; try lia; try discriminate. intros u0 Hu; inversion Hu; subst. lia.
      auto.
Qed.

(** ** roughly *)
Lemma roughly_bounds : forall v r, 0 <= r -> 2 <= v ->
  3 * v - 3 <= 4 * roughly v r < 5 * v.
Proof.
  intros. unfold roughly, roughly_pos.
  destruct (v <? 0) eqn:E1; [lia|]. destruct (v <=? 1) eqn:E2; [lia|].
  assert (0 <= r mod (v / 2) < v / 2) by (apply Z.mod_pos_bound; lia).
  remember (r mod (v / 2)) as q. clear Heqq. lia.
Qed.

Lemma roughly_small : forall r, roughly 0 r = 0 /\ roughly 1 r = 1.
Proof. intros. split; reflexivity. Qed.

Lemma roughly_opp : forall v r, 0 <= r -> roughly (- v) r = - roughly v r.
Proof.
  intros. unfold roughly.
  destruct (v <? 0) eqn:E1; destruct (- v <? 0) eqn:E2; try lia.
  - rewrite Z.opp_involutive. lia.
  - assert (v = 0) by lia. subst. reflexivity.
Qed.

Lemma roughly_nonneg : forall v r, 0 <= r -> 0 <= v -> 0 <= roughly v r /\ 4 * roughly v r <= 5 * v.
Proof.
  intros. destruct (Z_le_gt_dec 2 v).
  - pose proof (roughly_bounds v r). lia.
  - assert (v = 0 \/ v = 1) by lia. destruct H1; subst; unfold roughly, roughly_pos; simpl; lia.
Qed.

Lemma roughly_no_overflow : forall v r, Z.abs v <= 715827882 -> 0 <= r ->
  roughly_safe v = true /\ int_ok (roughly v r) = true.
Proof.
  intros. unfold roughly_safe, int_ok. split. lia.
  destruct (Z_le_gt_dec 0 v).
  - pose proof (roughly_nonneg v r H0 l). lia.
  - replace v with (- (- v)) by lia. rewrite roughly_opp by lia.
    pose proof (roughly_nonneg (- v) r H0). lia.
Qed.

(** ** Prefixes *)

Lemma mask_testbit : forall k j, 1 <= k <= 7 -> 0 <= j ->
  Z.testbit (u8 (Z.shiftl 255 (8 - k))) j = ((8 - k <=? j) && (j <? 8)).
Proof.
  intros k j Hk Hj. unfold u8. change 256 with (2 ^ 8).
  destruct (Z.ltb_spec j 8).
  - rewrite Z.mod_pow2_bits_low by lia. rewrite Z.shiftl_spec by lia.
    rewrite andb_true_r. change 255 with (Z.ones 8).
    destruct (Z.leb_spec (8 - k) j).
    + apply Z.ones_spec_low. lia.
    + apply Z.testbit_neg_r. lia.
  - rewrite Z.mod_pow2_bits_high by lia. rewrite andb_false_r. auto.
Qed.

Lemma byte_high_bits : forall b j, byte_ok b -> 8 <= j -> Z.testbit b j = false.
Proof.
  intros b j H Hj. unfold byte_ok in H. destruct (Z.eq_dec b 0) as [->|].
  - apply Z.bits_0.
  - apply Z.bits_above_log2; try lia.
    assert (Z.log2 b < 8) by (apply Z.log2_lt_pow2; lia). lia.
Qed.

Lemma byte_eq_bits : forall a b, byte_ok a -> byte_ok b ->
  (forall j, 0 <= j < 8 -> Z.testbit a j = Z.testbit b j) -> a = b.
Proof.
  intros. apply Z.bits_inj'. intros n Hn. destruct (Z_lt_ge_dec n 8).
  - apply H1. lia.
  - rewrite !byte_high_bits; auto; lia.
Qed.

Lemma land_mask_eq : forall a b k, byte_ok a -> byte_ok b -> 1 <= k <= 7 ->
  (Z.land a (u8 (Z.shiftl 255 (8 - k))) = Z.land b (u8 (Z.shiftl 255 (8 - k))) <->
   forall j, 0 <= j < k -> Z.testbit a (7 - j) = Z.testbit b (7 - j)).
Proof.
  intros a b k Ha Hb Hk. split; intros H.
  - intros j Hj.
    assert (E : Z.testbit (Z.land a (u8 (Z.shiftl 255 (8 - k)))) (7 - j) =
                Z.testbit (Z.land b (u8 (Z.shiftl 255 (8 - k)))) (7 - j)) by (rewrite H; auto).
    rewrite !Z.land_spec, mask_testbit in E by lia.
    replace (8 - k <=? 7 - j) with true in E by lia.
    replace (7 - j <? 8) with true in E by lia.
    simpl in E. rewrite !andb_true_r in E. auto.
  - apply Z.bits_inj'. intros n Hn. rewrite !Z.land_spec, mask_testbit by lia.
    destruct (Z.leb_spec (8 - k) n); simpl; [|rewrite !andb_false_r; auto].
    destruct (Z.ltb_spec n 8); simpl; [|rewrite !andb_false_r; auto].
    rewrite !andb_true_r. replace n with (7 - (7 - n)) by lia. apply H. lia.
Qed.

Lemma same_bits_bytes : forall n a b, bytes_ok a -> bytes_ok b ->
  (n <= length a)%nat -> (n <= length b)%nat ->
  (firstn n a = firstn n b <-> same_bits (8 * Z.of_nat n) a b).
Proof.
  intros n a b Ha Hb La Lb. split; intros H.
  - intros i Hi. unfold abit.
    assert ((Z.to_nat (i / 8) < n)%nat) by lia.
    rewrite <- (nth_firstn _ n a) by lia. rewrite <- (nth_firstn _ n b) by lia.
    rewrite H. auto.
  - apply list_eq_nth.
    + rewrite !firstn_length. lia.
    + intros i Hi. rewrite firstn_length in Hi.
      rewrite !nth_firstn by lia. apply byte_eq_bits.
      * apply at_ok; auto.
      * apply at_ok; auto.
      * intros j Hj. specialize (H (8 * Z.of_nat i + (7 - j))).
        unfold abit in H.
        replace (Z.to_nat ((8 * Z.of_nat i + (7 - j)) / 8)) with i in H by lia.
        replace (7 - (8 * Z.of_nat i + (7 - j)) mod 8) with j in H by lia.
        apply H. lia.
Qed.

Lemma in_prefix_bits : forall a p n, addr_ok a -> addr_ok p -> 0 <= n <= 128 ->
  (in_prefix a p n = true <-> same_bits n a p).
Proof.
  intros a p n [La Ha] [Lp Hp] Hn. unfold in_prefix.
  destruct (n >? 128) eqn:E0; [lia|].
  remember (Z.to_nat (n / 8)) as k.
  assert (Hk : (k <= 16)%nat) by lia.
  unfold memcmp_n.
  assert (Hbytes := same_bits_bytes k a p Ha Hp ltac:(lia) ltac:(lia)).
  destruct (memcmp (firstn k a) (firstn k p) =? 0) eqn:E; simpl.
  - assert (Heq : firstn k a = firstn k p) by (apply memcmp_eq; lia).
    apply Hbytes in Heq.
    destruct (n mod 8 =? 0) eqn:E1.
    + replace (8 * Z.of_nat k) with n in Heq by lia. tauto.
    + rewrite Z.eqb_eq. unfold at_.
      rewrite land_mask_eq; try (apply at_ok; auto); try lia.
      split; intros H.
      * intros i Hi. destruct (Z_lt_ge_dec i (8 * Z.of_nat k)).
        -- apply Heq. lia.
        -- unfold abit. replace (Z.to_nat (i / 8)) with k by lia. apply H. lia.
      * intros j Hj. specialize (H (8 * Z.of_nat k + j)). unfold abit in H.
        replace (Z.to_nat ((8 * Z.of_nat k + j) / 8)) with k in H by lia.
        replace ((8 * Z.of_nat k + j) mod 8) with j in H by lia. apply H. lia.
  - split; intros H; [discriminate|]. exfalso.
    assert (same_bits (8 * Z.of_nat k) a p) by (intros i Hi; apply H; lia).
    apply Hbytes in H0. rewrite H0, memcmp_refl in E. discriminate.
Qed.

Lemma normalize_prefix_ok : forall p n, addr_ok p -> 0 <= n -> addr_ok (normalize_prefix p n).
Proof.
  intros p n [L H] Hn. unfold normalize_prefix.
  destruct (n >=? 128) eqn:E.
  - split; [rewrite firstn_length; lia|apply bytes_ok_firstn; auto].
  - assert (Hb : bytes_ok (firstn (Z.to_nat (n / 8)) p ++ zeroes (16 - Z.to_nat (n / 8)))).
    { apply bytes_ok_app. split; [apply bytes_ok_firstn; auto|apply bytes_ok_repeat0]. }
    assert (Hl : length (firstn (Z.to_nat (n / 8)) p ++ zeroes (16 - Z.to_nat (n / 8))) = 16%nat).
    { rewrite app_length, firstn_length. unfold zeroes. rewrite repeat_length. lia. }
    destruct (n mod 8 =? 0) eqn:E1; simpl; split; auto.
    + rewrite upd_length. auto.
    + apply upd_bytes_ok; auto.
      rewrite Z.land_assoc. change 255 with (Z.ones 8) at 2. rewrite Z.land_ones by lia.
      unfold byte_ok. change (2^8) with 256. lia.
Qed.

Lemma normalize_prefix_bits : forall p n i, addr_ok p -> 0 <= n <= 128 -> 0 <= i < 128 ->
  abit (normalize_prefix p n) i = if i <? n then abit p i else false.
Proof.
  intros p n i [L H] Hn Hi. unfold normalize_prefix.
  destruct (n >=? 128) eqn:E.
  - replace (i <? n) with true by lia. unfold abit. rewrite nth_firstn by lia. auto.
  - remember (Z.to_nat (n / 8)) as k.
    assert (Hnth : forall j, (j < 16)%nat -> nth j (firstn k p ++ zeroes (16 - k)) 0 =
                   if (j <? k)%nat then nth j p 0 else 0).
    { intros j Hj. destruct (j <? k)%nat eqn:E1.
      - rewrite app_nth1 by (rewrite firstn_length; lia). apply nth_firstn. lia.
      - rewrite app_nth2 by (rewrite firstn_length; lia). unfold zeroes. apply nth_repeat. }
    assert (Hlen : length (firstn k p ++ zeroes (16 - k)) = 16%nat).
    { rewrite app_length, firstn_length. unfold zeroes. rewrite repeat_length. lia. }
    unfold abit.
    destruct (n mod 8 =? 0) eqn:E1; cbn [negb].
    + rewrite Hnth by lia. destruct (Z.to_nat (i / 8) <? k)%nat eqn:E2.
      * replace (i <? n) with true by lia. auto.
      * replace (i <? n) with false by lia. apply Z.bits_0.
    + destruct (Nat.eq_dec (Z.to_nat (i / 8)) k) as [Ek|Ek].
      * rewrite Ek. rewrite upd_nth_eq by lia.
        rewrite Z.land_assoc, !Z.land_spec, Z.shiftl_spec by lia.
        change 255 with (Z.ones 8).
        rewrite (Z.ones_spec_low 8 (7 - i mod 8)) by lia. rewrite andb_true_r.
        destruct (i <? n) eqn:E2.
        -- rewrite Z.ones_spec_low by lia. rewrite andb_true_r. unfold at_. auto.
        -- rewrite (Z.testbit_neg_r (Z.ones 8)) by lia. apply andb_false_r.
      * rewrite upd_nth_ne by lia. rewrite Hnth by lia.
        destruct (Z.to_nat (i / 8) <? k)%nat eqn:E2.
        -- replace (i <? n) with true by lia. auto.
        -- replace (i <? n) with false by lia. apply Z.bits_0.
Qed.

Lemma addr_eq_bits : forall a b, addr_ok a -> addr_ok b -> same_bits 128 a b -> a = b.
Proof.
  intros a b [La Ha] [Lb Hb] H.
  assert (firstn 16 a = firstn 16 b) by (apply same_bits_bytes; auto; lia).
  rewrite !firstn_all2 in H0 by lia. auto.
Qed.

Lemma normalize_prefix_idem : forall p n, addr_ok p -> 0 <= n <= 128 ->
  normalize_prefix (normalize_prefix p n) n = normalize_prefix p n.
Proof.
  intros. assert (H1 := normalize_prefix_ok p n H ltac:(lia)).
  apply addr_eq_bits; auto.
  - apply normalize_prefix_ok; auto; lia.
  - intros i Hi. rewrite (normalize_prefix_bits (normalize_prefix p n)) by auto.
    destruct (i <? n) eqn:E; auto. rewrite normalize_prefix_bits by auto. rewrite E. auto.
Qed.

Lemma in_prefix_normalize : forall a p n, addr_ok a -> addr_ok p -> 0 <= n <= 128 ->
  in_prefix a (normalize_prefix p n) n = in_prefix a p n.
Proof.
  intros. apply eq_true_iff_eq.
  rewrite !in_prefix_bits; auto using normalize_prefix_ok; [|apply normalize_prefix_ok; auto; lia].
  unfold same_bits. split; intros Hs i Hi; specialize (Hs i Hi).
  - rewrite normalize_prefix_bits in Hs by (auto; lia). replace (i <? n) with true in Hs by lia. auto.
  - rewrite normalize_prefix_bits by (auto; lia). replace (i <? n) with true by lia. auto.
Qed.

Lemma normalize_eq_iff : forall a b n, addr_ok a -> addr_ok b -> 0 <= n <= 128 ->
  (normalize_prefix a n = normalize_prefix b n <-> same_bits n a b).
Proof.
  intros. split; intros He.
  - intros i Hi.
    assert (abit (normalize_prefix a n) i = abit (normalize_prefix b n) i) by congruence.
    rewrite !normalize_prefix_bits in H2 by (auto; lia).
    replace (i <? n) with true in H2 by lia. auto.
  - apply addr_eq_bits; try (apply normalize_prefix_ok; auto; lia).
    intros i Hi. rewrite !normalize_prefix_bits by auto.
    destruct (i <? n) eqn:E; auto. apply He. lia.
Qed.

(** ** Martians *)

Lemma same_bits_split : forall n k a b, 0 <= k -> 8 * k <= n -> n <= 8 * k + 8 ->
  (same_bits n a b <-> same_bits (8 * k) a b /\
     forall j, 0 <= j < n - 8 * k ->
       Z.testbit (nth (Z.to_nat k) a 0) (7 - j) = Z.testbit (nth (Z.to_nat k) b 0) (7 - j)).
Proof.
  intros n k a b Hk H1 H2. split.
  - intros H. split.
    + intros i Hi. apply H. lia.
    + intros j Hj. specialize (H (8 * k + j)). unfold abit in H.
      replace ((8 * k + j) / 8) with k in H by lia.
      replace ((8 * k + j) mod 8) with j in H by lia. apply H. lia.
  - intros [Ha Hb] i Hi. destruct (Z_lt_ge_dec i (8 * k)).
    + apply Ha. lia.
    + specialize (Hb (i - 8 * k)). unfold abit.
      replace (i / 8) with k by lia. replace (i mod 8) with (i - 8 * k) by lia. apply Hb. lia.
Qed.

Lemma top_bits_land : forall x y k, byte_ok x -> byte_ok y -> 1 <= k <= 7 ->
  ((forall j, 0 <= j < k -> Z.testbit x (7 - j) = Z.testbit y (7 - j)) <->
   Z.land x (u8 (Z.shiftl 255 (8 - k))) = Z.land y (u8 (Z.shiftl 255 (8 - k)))).
Proof. intros. symmetry. apply land_mask_eq; auto. Qed.

Lemma firstn_beq_same : forall n p q, bytes_ok p -> bytes_ok q ->
  (n <= length p)%nat -> (n <= length q)%nat ->
  (firstn n p = firstn n q <-> same_bits (8 * Z.of_nat n) p q).
Proof. intros. apply same_bits_bytes; auto. Qed.

Ltac bytes_solve := repeat (constructor; [unfold byte_ok; lia|]); try constructor.

Lemma martian_spec : forall p n, addr_ok p ->
  (martian_prefix p n = true <->
   exists q m, In (q, m) martians /\ m <= n /\ same_bits m p q).
Proof.
  intros p n [L H].
  do 16 (destruct p as [|? p]; [discriminate|]). destruct p; [|discriminate]. clear L.
  remember [z; z0; z1; z2; z3; z4; z5; z6; z7; z8; z9; z10; z11; z12; z13; z14] as p.
  assert (Hl : length p = 16%nat) by (subst; auto).
  assert (K1 : same_bits 8 p [255;0;0;0;0;0;0;0;0;0;0;0;0;0;0;0] <-> z = 255).
  { change 8 with (8 * Z.of_nat 1). rewrite <- firstn_beq_same; [|auto|bytes_solve|lia|simpl; lia].
    subst p; simpl. split; intros E; [inversion E; auto|subst; auto]. }
  assert (Hz0 : byte_ok z0) by (subst p; inversion H; inversion H3; auto).
  assert (Hz12 : byte_ok z11).
  { change z11 with (at_ [z; z0; z1; z2; z3; z4; z5; z6; z7; z8; z9; z10; z11; z12; z13; z14] 12).
    rewrite <- Heqp. apply at_ok; auto. }
  assert (K2 : same_bits 10 p [254;128;0;0;0;0;0;0;0;0;0;0;0;0;0;0] <-> z = 254 /\ Z.land z0 192 = 128).
  { rewrite (same_bits_split 10 1) by lia. change (8 * 1) with (8 * Z.of_nat 1).
    rewrite <- firstn_beq_same; [|auto|bytes_solve|lia|simpl; lia].
    change (10 - 8 * Z.of_nat 1) with 2.
    rewrite top_bits_land; [|apply at_ok; auto|unfold byte_ok; simpl; lia|lia].
    change (u8 (Z.shiftl 255 (8 - 2))) with 192. subst p; simpl.
    change (Z.land 128 192) with 128.
    split; intros [E F]; split; try (inversion E; subst; auto; fail); subst; auto. }
  assert (K3 : forall x, byte_ok x -> (same_bits 128 p [0;0;0;0;0;0;0;0;0;0;0;0;0;0;0;x] <->
     firstn 15 p = zeroes 15 /\ z14 = x)).
  { intros x Hx. change 128 with (8 * Z.of_nat 16).
    rewrite <- firstn_beq_same; [|auto| |lia|simpl; lia].
    2:{ repeat (constructor; [unfold byte_ok in *; lia|]). constructor. }
    subst p; simpl. unfold zeroes; simpl.
    split; [intros E; inversion E; auto | intros [E F]; inversion E; subst; auto]. }
  assert (K4 : forall a b c d, byte_ok a -> byte_ok b -> byte_ok c -> byte_ok d ->
    (same_bits 96 p (mapped a b c d) <-> v4mapped p = true)).
  { intros. unfold v4mapped, memcmp_n. rewrite Z.eqb_eq, memcmp_0.
    change 96 with (8 * Z.of_nat 12).
    rewrite <- firstn_beq_same; [|auto| |lia|simpl; lia].
    2:{ unfold mapped. repeat (constructor; [unfold byte_ok in *; lia|]). constructor. }
    unfold mapped, v4prefix. simpl. tauto. }
  assert (K5 : forall a, byte_ok a -> (same_bits 104 p (mapped a 0 0 0) <-> v4mapped p = true /\ z11 = a)).
  { intros a Ha. rewrite (same_bits_split 104 12) by lia. change (8 * 12) with 96.
    rewrite K4 by (auto; unfold byte_ok; lia).
    split; intros [E F]; split; auto.
    - apply byte_eq_bits; auto. intros j Hj. specialize (F (7 - j)).
      replace (7 - (7 - j)) with j in F by lia.
      replace (nth (Z.to_nat 12) p 0) with z11 in F by (subst p; auto).
      simpl in F. apply F. lia.
    - intros j Hj. replace (nth (Z.to_nat 12) p 0) with z11 by (subst p; auto). simpl. subst; auto. }
  assert (K6 : same_bits 100 p (mapped 224 0 0 0) <-> v4mapped p = true /\ Z.land z11 240 = 224).
  { rewrite (same_bits_split 100 12) by lia. change (8 * 12) with 96.
    rewrite K4 by (unfold byte_ok; lia). change (100 - 96) with 4.
    rewrite top_bits_land; [|apply at_ok; auto|unfold byte_ok; simpl; lia|lia].
    change (u8 (Z.shiftl 255 (8 - 4))) with 240.
    replace (nth (Z.to_nat 12) p 0) with z11 by (subst p; auto). simpl.
    change (Z.land 224 240) with 224. tauto. }
  assert (K7 : same_bits 128 p (mapped 255 255 255 255) <->
     v4mapped p = true /\ skipn 12 p = [255;255;255;255]).
  { change 128 with (8 * Z.of_nat 16).
    rewrite <- firstn_beq_same; [|auto|unfold mapped; bytes_solve|lia|simpl; lia].
    unfold v4mapped, memcmp_n. rewrite Z.eqb_eq, memcmp_0.
    subst p. unfold mapped; simpl. split.
    - intros E; inversion E; subst; auto.
    - intros [E F]; inversion E; inversion F; subst; auto. }
  assert (Hmart : (exists q m, In (q, m) martians /\ m <= n /\ same_bits m p q) <->
    (8 <= n /\ z = 255) \/ (10 <= n /\ z = 254 /\ Z.land z0 192 = 128) \/
    (128 <= n /\ firstn 15 p = zeroes 15 /\ z14 = 0) \/
    (128 <= n /\ firstn 15 p = zeroes 15 /\ z14 = 1) \/
    (104 <= n /\ v4mapped p = true /\ z11 = 127) \/
    (104 <= n /\ v4mapped p = true /\ z11 = 0) \/
    (100 <= n /\ v4mapped p = true /\ Z.land z11 240 = 224) \/
    (128 <= n /\ v4mapped p = true /\ skipn 12 p = [255;255;255;255])).
  { unfold martians. split.
    - intros (q & m & Hin & Hm & Hs). simpl in Hin.
      destruct Hin as [E|[E|[E|[E|[E|[E|[E|[E|[]]]]]]]]]; inversion E; subst q m.
      + apply K1 in Hs. tauto.
      + apply K2 in Hs. tauto.
      + apply (K3 0) in Hs; [tauto|unfold byte_ok; lia].
      + apply (K3 1) in Hs; [tauto|unfold byte_ok; lia].
      + apply (K5 127) in Hs; [tauto|unfold byte_ok; lia].
      + apply (K5 0) in Hs; [tauto|unfold byte_ok; lia].
      + apply K6 in Hs. tauto.
      + apply K7 in Hs. tauto.
    - intros [[Hn E]|[[Hn E]|[[Hn E]|[[Hn E]|[[Hn E]|[[Hn E]|[[Hn E]|[Hn E]]]]]]]].
      + exists [255;0;0;0;0;0;0;0;0;0;0;0;0;0;0;0], 8. split; [simpl; tauto|]. split; [auto|]. apply K1; auto.
      + exists [254;128;0;0;0;0;0;0;0;0;0;0;0;0;0;0], 10. split; [simpl; tauto|]. split; [auto|]. apply K2; auto.
      + exists (repeat 0 16), 128. split; [simpl; tauto|]. split; [auto|]. apply (K3 0); auto; unfold byte_ok; lia.
      + exists [0;0;0;0;0;0;0;0;0;0;0;0;0;0;0;1], 128. split; [simpl; tauto|]. split; [auto|]. apply (K3 1); auto; unfold byte_ok; lia.
      + exists (mapped 127 0 0 0), 104. split; [simpl; tauto|]. split; [auto|]. apply K5; auto; unfold byte_ok; lia.
      + exists (mapped 0 0 0 0), 104. split; [simpl; tauto|]. split; [auto|]. apply K5; auto; unfold byte_ok; lia.
      + exists (mapped 224 0 0 0), 100. split; [simpl; tauto|]. split; [auto|]. apply K6; auto.
      + exists (mapped 255 255 255 255), 128. split; [simpl; tauto|]. split; [auto|]. apply K7; auto. }
  rewrite Hmart. clear Hmart K1 K2 K3 K4 K5 K6 K7.
  unfold martian_prefix, memcmp_n.
  assert (A0 : at_ p 0 = z) by (subst p; auto).
  assert (A1 : at_ p 1 = z0) by (subst p; auto).
  assert (A12 : at_ p 12 = z11) by (subst p; auto).
  assert (A15 : at_ p 15 = z14) by (subst p; auto).
  rewrite A0, A1, A12, A15.
  change (firstn 15 (zeroes 16)) with (zeroes 15).
  replace (firstn 4 (skipn 12 p)) with (skipn 12 p) by (subst p; auto).
  assert (B1 : (memcmp (firstn 15 p) (zeroes 15) =? 0) = true <-> firstn 15 p = zeroes 15)
    by (rewrite Z.eqb_eq; apply memcmp_0).
  assert (B2 : (memcmp (skipn 12 p) [255; 255; 255; 255] =? 0) = true <-> skipn 12 p = [255; 255; 255; 255])
    by (rewrite Z.eqb_eq; apply memcmp_0).
  rewrite !orb_true_iff, !andb_true_iff, !orb_true_iff, !andb_true_iff, !orb_true_iff, B1, B2.
  rewrite !Z.geb_le, !Z.eqb_eq. split; intros.
  - destruct H0 as [[[?|?]|?]|?]; try tauto.
  - repeat match goal with H : _ \/ _ |- _ => destruct H end; try tauto.
    all: right; split; [split; [lia|tauto]|tauto].
Qed.

(** ** Strings *)
Lemma h2i_spec : forall c, (h2i c < 0 /\ forall v, ~ hexval c v) \/ (0 <= h2i c < 16 /\ hexval c (h2i c)).
Proof.
  intros c. unfold h2i, hexval.
  destruct ((48 <=? c) && (c <=? 57)) eqn:E1; [right; lia|].
  destruct ((97 <=? c) && (c <=? 102)) eqn:E2; [right; lia|].
  destruct ((65 <=? c) && (c <=? 70)) eqn:E3; [right; lia|].
  left; split; [lia|]. intros v Hv. lia.
Qed.

Lemma hexval_fun : forall c v, hexval c v -> h2i c = v /\ 0 <= v < 16.
Proof.
  intros c v. unfold hexval, h2i. intros H.
  destruct ((48 <=? c) && (c <=? 57)) eqn:E1; [lia|].
  destruct ((97 <=? c) && (c <=? 102)) eqn:E2; [lia|].
  destruct ((65 <=? c) && (c <=? 70)) eqn:E3; lia.
Qed.

Lemma fromhex_spec : forall s l, fromhex s = Some l <-> hex_of s l.
Proof.
  intros s l. split.
  - revert l. assert (G : forall n s l, (length s <= n)%nat -> fromhex s = Some l -> hex_of s l).
    { induction n; intros s0 l Hn H.
      - destruct s0; simpl in *; [inversion H; constructor|lia].
      - destruct s0 as [|a [|b t]]; simpl in *; [inversion H; constructor|discriminate|].
        destruct (h2i a <? 0) eqn:Ea; [discriminate|].
        destruct (h2i b <? 0) eqn:Eb; [discriminate|].
        destruct (fromhex t) eqn:Et; [|discriminate]. inversion H; subst.
        rewrite Z.mul_comm. constructor; [| |apply IHn; auto; lia].
        + destruct (h2i_spec a) as [[? ?]|[? ?]]; [lia|auto].
        + destruct (h2i_spec b) as [[? ?]|[? ?]]; [lia|auto]. }
    intros. eapply G; eauto.
  - induction 1; simpl; auto.
    apply hexval_fun in H. apply hexval_fun in H0. destruct H, H0. rewrite H, H0.
    replace (x <? 0) with false by lia. replace (y <? 0) with false by lia.
    rewrite IHhex_of. f_equal. f_equal. lia.
Qed.

Lemma hexdigit_h2i : forall d, 0 <= d < 16 -> h2i (hexdigit d) = d.
Proof.
  intros. unfold hexdigit, h2i. destruct (d <? 10) eqn:E.
  - replace ((48 <=? 48 + d) && (48 + d <=? 57)) with true by lia. lia.
  - replace ((48 <=? 87 + d) && (87 + d <=? 57)) with false by lia.
    replace ((97 <=? 87 + d) && (87 + d <=? 102)) with true by lia. lia.
Qed.

Lemma hexdigit_not_special : forall d, 0 <= d < 16 ->
  isspace_ (hexdigit d) = false /\ (hexdigit d =? 43) = false /\ (hexdigit d =? 45) = false.
Proof. intros. unfold hexdigit, isspace_. destruct (d <? 10) eqn:E; lia. Qed.

Lemma scan_hhx_hex2 : forall b rest, byte_ok b -> scan_hhx (hex2 b ++ rest) = Some (b, rest).
Proof.
  intros b rest Hb. unfold byte_ok in Hb. unfold scan_hhx, hex2. simpl.
  destruct (hexdigit_not_special (b / 16)) as (A & B & C); [lia|]. rewrite A, B, C. simpl.
  rewrite !hexdigit_h2i by lia.
  replace (b / 16 <? 0) with false by lia. replace (b mod 16 <? 0) with false by lia.
  f_equal. f_equal. lia.
Qed.

Lemma parse_format_eui64 : forall e, id_ok e -> parse_eui64 (format_eui64 e) = Some e.
Proof.
  intros e [L H].
  do 8 (destruct e as [|? e]; [discriminate|]). destruct e; [|discriminate].
  assert (G : forall i, byte_ok (nth i [z; z0; z1; z2; z3; z4; z5; z6] 0)) by (intros; apply (at_ok _ _ H)).
  unfold parse_eui64.
  assert (E : scan_list 58 8 (format_eui64 [z; z0; z1; z2; z3; z4; z5; z6]) = [z; z0; z1; z2; z3; z4; z5; z6]).
  { cbn [format_eui64 scan_list].
    rewrite scan_hhx_hex2 by apply (G 0%nat). rewrite Z.eqb_refl.
    rewrite scan_hhx_hex2 by apply (G 1%nat). rewrite Z.eqb_refl.
    rewrite scan_hhx_hex2 by apply (G 2%nat). rewrite Z.eqb_refl.
    rewrite scan_hhx_hex2 by apply (G 3%nat). rewrite Z.eqb_refl.
    rewrite scan_hhx_hex2 by apply (G 4%nat). rewrite Z.eqb_refl.
    rewrite scan_hhx_hex2 by apply (G 5%nat). rewrite Z.eqb_refl.
    rewrite scan_hhx_hex2 by apply (G 6%nat). rewrite Z.eqb_refl.
    rewrite <- (app_nil_r (hex2 z6)).
    rewrite scan_hhx_hex2 by apply (G 7%nat). auto. }
  rewrite E. reflexivity.
Qed.

(** A MAC-48 written "xx:xx:xx:xx:xx:xx" becomes an EUI-64 by inserting FF:FE. *)
Lemma parse_mac48 : forall e, length e = 6%nat -> bytes_ok e ->
  parse_eui64 (format_eui64 e) = Some (firstn 3 e ++ [255; 254] ++ skipn 3 e).
Proof.
  intros e L H.
  do 6 (destruct e as [|? e]; [discriminate|]). destruct e; [|discriminate].
  assert (G : forall i, byte_ok (nth i [z; z0; z1; z2; z3; z4] 0)) by (intros; apply (at_ok _ _ H)).
  unfold parse_eui64.
  assert (E : forall k, (k = 6 \/ k = 8)%nat -> scan_list 58 k (format_eui64 [z; z0; z1; z2; z3; z4]) = [z; z0; z1; z2; z3; z4]).
  { intros k [Hk|Hk]; subst k; cbn [format_eui64 scan_list];
    (rewrite scan_hhx_hex2 by apply (G 0%nat); rewrite Z.eqb_refl;
    rewrite scan_hhx_hex2 by apply (G 1%nat); rewrite Z.eqb_refl;
    rewrite scan_hhx_hex2 by apply (G 2%nat); rewrite Z.eqb_refl;
    rewrite scan_hhx_hex2 by apply (G 3%nat); rewrite Z.eqb_refl;
    rewrite scan_hhx_hex2 by apply (G 4%nat); rewrite Z.eqb_refl;
    rewrite <- (app_nil_r (hex2 z4));
    rewrite scan_hhx_hex2 by apply (G 5%nat); auto). }
  assert (E45 : scan_list 45 8 (format_eui64 [z; z0; z1; z2; z3; z4]) = [z]).
  { cbn [format_eui64 scan_list]. rewrite scan_hhx_hex2 by apply (G 0%nat). reflexivity. }
  rewrite (E 8%nat) by auto. rewrite E45. rewrite (E 6%nat) by auto. reflexivity.
Qed.

(** decimal *)
Lemma dec_fuel_app : forall f v acc, dec_fuel f v acc = dec_fuel f v [] ++ acc.
Proof.
  induction f; simpl; intros; auto.
  destruct (v / 10 =? 0); auto.
  rewrite (IHf _ (_ :: acc)), (IHf _ [_]). rewrite <- app_assoc. auto.
Qed.

Lemma digits_u32_app : forall a b acc n,
  Forall (fun c => isdigit_ c = true) a ->
  digits_u32 (a ++ b) acc n =
  digits_u32 b (fold_left (fun x c => u32 (x * 10 + c - 48)) a acc) (n + length a).
Proof.
  induction a; simpl; intros.
  - rewrite Nat.add_0_r. auto.
  - inversion H; subst. rewrite H2. rewrite IHa by auto. f_equal. lia.
Qed.

Lemma dec_fuel_digits : forall f v, 0 <= v -> Forall (fun c => isdigit_ c = true) (dec_fuel f v []).
Proof.
  induction f; simpl; intros; auto.
  destruct (v / 10 =? 0).
  - constructor; auto. unfold isdigit_. lia.
  - rewrite dec_fuel_app. apply Forall_app. split; [apply IHf; lia|].
    constructor; auto. unfold isdigit_. lia.
Qed.

Lemma dec_fuel_value : forall f v, 0 <= v < 10 ^ Z.of_nat f -> v < 4294967296 -> (0 < f)%nat ->
  fold_left (fun x c => u32 (x * 10 + c - 48)) (dec_fuel f v []) 0 = v.
Proof.
  induction f; simpl dec_fuel; intros v Hv Hb Hf; [lia|].
  destruct (v / 10 =? 0) eqn:E.
  - simpl. unfold u32. lia.
  - rewrite dec_fuel_app, fold_left_app.
    assert (0 < f)%nat.
    { destruct f; [simpl in Hv; lia|lia]. }
    rewrite IHf.
    + simpl. unfold u32. lia.
    + rewrite Nat2Z.inj_succ, Z.pow_succ_r in Hv by lia. lia.
    + lia.
    + auto.
Qed.

Lemma dec_fuel_nonempty : forall f v, (0 < f)%nat -> dec_fuel f v [] <> [].
Proof.
  destruct f; simpl; intros; [lia|]. destruct (v / 10 =? 0); [discriminate|].
  rewrite dec_fuel_app. intro E. apply app_eq_nil in E. destruct E. discriminate.
Qed.

Lemma skip_blanks_digit : forall s, Forall (fun c => isdigit_ c = true) s -> forall t, s <> [] ->
  skip_blanks (s ++ t) = s ++ t.
Proof.
  intros s H t Hs. destruct s; [congruence|]. inversion H; subst.
  simpl. unfold isblank_. unfold isdigit_ in H2.
  replace ((z =? 32) || (z =? 9)) with false by lia. auto.
Qed.

Lemma parse_format_thousands : forall v, 0 <= v < 2147483648 ->
  parse_thousands (format_thousands v) = v.
Proof.
  intros v Hv. unfold parse_thousands, format_thousands, dec.
  assert (Hd : Forall (fun c => isdigit_ c = true) (dec_fuel 10 (v / 1000) [])) by (apply dec_fuel_digits; lia).
  rewrite skip_blanks_digit; auto; [|apply dec_fuel_nonempty; lia].
  rewrite digits_u32_app by auto. rewrite dec_fuel_value by (simpl; lia).
  assert (H3 : dec3 (v mod 1000) = dec3 (v mod 1000) ++ []) by (rewrite app_nil_r; auto).
  cbn [digits_u32]. change (isdigit_ 46) with false. cbv iota.
  rewrite H3. rewrite digits_u32_app.
  2:{ unfold dec3. repeat constructor; unfold isdigit_; lia. }
  unfold dec3. cbn [length Nat.add digits_u32 fold_left].
  change (3 <? 3)%nat with false. cbv iota. cbn [skip_blanks].
  assert (E : u32 (u32 (u32 (0 * 10 + (48 + (v mod 1000) / 100) - 48) * 10 +
     (48 + (v mod 1000) / 10 mod 10) - 48) * 10 + (48 + (v mod 1000) mod 10) - 48) = v mod 1000).
  { unfold u32.
    assert (0 <= v mod 1000 < 1000) by lia. remember (v mod 1000) as w. clear Heqw.
    assert (0 <= w / 100 < 10) by lia.
    rewrite (Z.mod_small (0 * 10 + (48 + w / 100) - 48)) by lia.
    assert (0 <= w / 10 mod 10 < 10) by lia. assert (0 <= w mod 10 < 10) by lia.
    rewrite (Z.mod_small (_ * 10 + (48 + w / 10 mod 10) - 48)) by lia.
    rewrite Z.mod_small by lia. lia. }
  rewrite E. unfold s32, u32.
  rewrite (Z.mod_small (v / 1000 * 1000)) by lia.
  replace (v / 1000 * 1000 + v mod 1000) with v by lia.
  rewrite Z.mod_small by lia. replace (v <? 2147483648) with true by lia. auto.
Qed.

Lemma thousands_wrap : exists s, Forall (fun c => 48 <= c <= 57) s /\
  0 <= parse_thousands s /\ parse_thousands s <> 1000 * decval s.
Proof.
  exists [52;50;57;52;57;54;55;50;57;54]. split; [repeat constructor; lia|].
  vm_compute. split; discriminate.
Qed.

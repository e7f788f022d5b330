(** P_Util.v: property theorems C01, C02, C03 (jitter), C04, C05 (martian test), C06. *)
From Verif Require Import Base M_Util S_Util L_Util.

(** C01 *)
Theorem C01_seqno_compare_circle : forall s1 s2, seqno_ok s1 -> seqno_ok s2 ->
  (seqno_compare s1 s2 = 0 <-> s1 = s2) /\
  (seqno_compare s1 s2 = 1 <-> 1 <= ahead s1 s2 <= 32768) /\
  (seqno_compare s1 s2 = -1 <-> 1 <= ahead s2 s1 <= 32767).
Proof. exact seqno_compare_circle. Qed.
Print Assumptions C01_seqno_compare_circle.
Example C01_ex1 : seqno_ok 2 /\ seqno_ok 65533 /\ seqno_compare 2 65533 = 1.
Proof. unfold seqno_ok. repeat split; try lia; reflexivity. Qed.

Theorem C01_newer_after_increment : forall s n, seqno_ok s -> 1 <= n <= 32767 ->
  seqno_compare (seqno_plus s n) s = 1 /\ seqno_compare s (seqno_plus s n) = -1.
Proof. exact seqno_newer_after_increment. Qed.
Print Assumptions C01_newer_after_increment.
Example C01_ex2 : seqno_plus 65535 1 = 0 /\ seqno_compare 0 65535 = 1.
Proof. split; reflexivity. Qed.

Theorem C01_antisymmetric : forall s1 s2, seqno_ok s1 -> seqno_ok s2 ->
  ahead s1 s2 <> 32768 -> seqno_compare s2 s1 = - seqno_compare s1 s2.
Proof. exact seqno_compare_antisym. Qed.
Print Assumptions C01_antisymmetric.
Example C01_ex3 : ahead 10 65000 <> 32768 /\ seqno_compare 10 65000 = 1.
Proof. split; [discriminate|reflexivity]. Qed.

(** The exception is real: at distance 32768 each is "newer" than the other. *)
Theorem C01_opposite_points : forall s1 s2, seqno_ok s1 -> seqno_ok s2 ->
  ahead s1 s2 = 32768 -> seqno_compare s1 s2 = 1 /\ seqno_compare s2 s1 = 1.
Proof. exact seqno_compare_half. Qed.
Print Assumptions C01_opposite_points.
Example C01_ex4 : ahead 40000 7232 = 32768.
Proof. reflexivity. Qed.

Theorem C01_transitive_within_half : forall s1 s2 s3,
  seqno_ok s1 -> seqno_ok s2 -> seqno_ok s3 ->
  seqno_compare s1 s2 = 1 -> seqno_compare s2 s3 = 1 ->
  ahead s1 s2 + ahead s2 s3 <= 32767 -> seqno_compare s1 s3 = 1.
Proof. exact seqno_compare_trans. Qed.
Print Assumptions C01_transitive_within_half.
Example C01_ex5 : seqno_compare 20 65530 = 1 /\ seqno_compare 65530 65000 = 1 /\
  ahead 20 65530 + ahead 65530 65000 <= 32767.
Proof. repeat split; try reflexivity. vm_compute. discriminate. Qed.

Theorem C01_translation_invariant : forall s1 s2 n, seqno_ok s1 -> seqno_ok s2 ->
  seqno_compare (seqno_plus s1 n) (seqno_plus s2 n) = seqno_compare s1 s2.
Proof. exact seqno_compare_shift. Qed.
Print Assumptions C01_translation_invariant.
Example C01_ex5b : seqno_compare (seqno_plus 5 65534) (seqno_plus 3 65534) = 1.
Proof. reflexivity. Qed.

Theorem C01_minus_plus_inverse : forall s1 s2 n, seqno_ok s1 -> seqno_ok s2 ->
  (-32768 <= seqno_minus s1 s2 <= 32767 /\ seqno_plus s2 (seqno_minus s1 s2) = s1) /\
  (-32768 <= n <= 32767 -> seqno_minus (seqno_plus s1 n) s1 = n).
Proof.
  exact (fun s1 s2 n H1 H2 => conj (seqno_minus_spec s1 s2 H1 H2) (seqno_minus_plus s1 n H1)).
Qed.
Print Assumptions C01_minus_plus_inverse.
Example C01_ex6 : seqno_minus 3 65534 = 5 /\ seqno_plus 65534 5 = 3.
Proof. split; reflexivity. Qed.

(** C02 *)
Theorem C02_compare : forall a b, tv_ok a -> tv_ok b ->
  timeval_compare a b = match us a ?= us b with Lt => -1 | Eq => 0 | Gt => 1 end.
Proof. exact timeval_compare_us. Qed.
Print Assumptions C02_compare.
Example C02_ex1 : tv_ok (mkTv 5 999999) /\ tv_ok (mkTv 6 0) /\
  timeval_compare (mkTv 5 999999) (mkTv 6 0) = -1.
Proof. unfold tv_ok; simpl. repeat split; try lia; reflexivity. Qed.

Theorem C02_add_msec : forall t m, tv_ok t -> 0 <= m ->
  tv_ok (timeval_add_msec t m) /\ us (timeval_add_msec t m) = us t + 1000 * m.
Proof. exact timeval_add_msec_us. Qed.
Print Assumptions C02_add_msec.
Example C02_ex2 : timeval_add_msec (mkTv 7 700000) 1400 = mkTv 9 100000.
Proof. reflexivity. Qed.

Theorem C02_minus : forall a b, tv_ok a -> tv_ok b ->
  tv_ok (timeval_minus a b) /\ us (timeval_minus a b) = us a - us b.
Proof. exact timeval_minus_us. Qed.
Print Assumptions C02_minus.
Example C02_ex3 : timeval_minus (mkTv 9 100000) (mkTv 7 700000) = mkTv 1 400000.
Proof. reflexivity. Qed.

Theorem C02_minus_msec : forall a b, tv_ok a -> tv_ok b ->
  (us a <= us b -> timeval_minus_msec a b = 0) /\
  (us b <= us a -> tv_sec a - tv_sec b <= 2000000 ->
     us a - us b - 1000 < 1000 * timeval_minus_msec a b < us a - us b + 1000) /\
  (tv_sec a - tv_sec b > 2000000 -> timeval_minus_msec a b = 2000000000) /\
  0 <= timeval_minus_msec a b <= 2000000999.
Proof. exact timeval_minus_msec_spec. Qed.
Print Assumptions C02_minus_msec.
Example C02_ex4 : timeval_minus_msec (mkTv 9 100000) (mkTv 7 700000) = 1400.
Proof. reflexivity. Qed.

Theorem C02_min : forall d s, tv_ok d -> tv_ok s ->
  deadline (timeval_min d s) = opt_min (deadline d) (deadline s) /\
  (timeval_min d s = d \/ timeval_min d s = s).
Proof. exact timeval_min_spec. Qed.
Print Assumptions C02_min.
Example C02_ex5 : deadline (timeval_min (mkTv 8 1) (mkTv 7 9)) = Some 7000009.
Proof. reflexivity. Qed.

Theorem C02_min_sec : forall d secs r, tv_ok d -> secs <> 0 -> 0 <= r ->
  let m := timeval_min_sec d secs r in
  tv_ok m /\ deadline m <> None /\ tv_sec m <= secs /\
  (forall u, deadline d = Some u -> us m <= u) /\ (m = d \/ tv_sec m = secs).
Proof. exact timeval_min_sec_spec. Qed.
Print Assumptions C02_min_sec.
Example C02_ex6 : timeval_min_sec (mkTv 8 1) 7 123456789 = mkTv 7 456789.
Proof. reflexivity. Qed.

(** C03: jitter *)
Theorem C03_jitter_bounds : forall v r, 0 <= r -> 2 <= v ->
  3 * v - 3 <= 4 * roughly v r < 5 * v.
Proof. exact roughly_bounds. Qed.
Print Assumptions C03_jitter_bounds.
Example C03_ex1 : roughly 4000 999 = 3999 /\ roughly 4000 1999 = 4999.
Proof. split; reflexivity. Qed.

Theorem C03_jitter_sign_and_small : forall v r, 0 <= r ->
  roughly (- v) r = - roughly v r /\ roughly 0 r = 0 /\ roughly 1 r = 1.
Proof. exact (fun v r H => conj (roughly_opp v r H) (roughly_small r)). Qed.
Print Assumptions C03_jitter_sign_and_small.
Example C03_ex2 : roughly (-10) 3 = -10.
Proof. reflexivity. Qed.

Theorem C03_jitter_no_overflow : forall v r, Z.abs v <= 715827882 -> 0 <= r ->
  roughly_safe v = true /\ int_ok (roughly v r) = true.
Proof. exact roughly_no_overflow. Qed.
Print Assumptions C03_jitter_no_overflow.
Example C03_ex3 : Z.abs 655350 <= 715827882.
Proof. lia. Qed.

(** C04 *)
Theorem C04_in_prefix_bitwise : forall a p n, addr_ok a -> addr_ok p -> 0 <= n <= 128 ->
  (in_prefix a p n = true <-> same_bits n a p).
Proof. exact in_prefix_bits. Qed.
Print Assumptions C04_in_prefix_bitwise.
Example C04_ex1 :
  in_prefix [32;1;13;184;0;0;0;0;0;0;0;0;0;0;0;1] [32;1;13;176;0;0;0;0;0;0;0;0;0;0;0;0] 28 = true /\
  in_prefix [32;1;13;184;0;0;0;0;0;0;0;0;0;0;0;1] [32;1;13;176;0;0;0;0;0;0;0;0;0;0;0;0] 29 = false.
Proof. split; reflexivity. Qed.

Theorem C04_normalize_bitwise : forall p n i, addr_ok p -> 0 <= n <= 128 -> 0 <= i < 128 ->
  abit (normalize_prefix p n) i = if i <? n then abit p i else false.
Proof. exact normalize_prefix_bits. Qed.
Print Assumptions C04_normalize_bitwise.
Example C04_ex2 :
  normalize_prefix [32;1;13;255;255;0;0;0;0;0;0;0;0;0;0;1] 28 = [32;1;13;240;0;0;0;0;0;0;0;0;0;0;0;0].
Proof. reflexivity. Qed.

Theorem C04_normalize_idempotent : forall p n, addr_ok p -> 0 <= n <= 128 ->
  addr_ok (normalize_prefix p n) /\
  normalize_prefix (normalize_prefix p n) n = normalize_prefix p n.
Proof.
  exact (fun p n H H' => conj (normalize_prefix_ok p n H (proj1 H')) (normalize_prefix_idem p n H H')).
Qed.
Print Assumptions C04_normalize_idempotent.
Example C04_ex3 : addr_ok [32;1;13;255;255;0;0;0;0;0;0;0;0;0;0;1].
Proof. split; auto. repeat constructor; unfold byte_ok; lia. Qed.

Theorem C04_normalize_keeps_containment : forall a p n, addr_ok a -> addr_ok p -> 0 <= n <= 128 ->
  in_prefix a (normalize_prefix p n) n = in_prefix a p n.
Proof. exact in_prefix_normalize. Qed.
Print Assumptions C04_normalize_keeps_containment.

Theorem C04_normal_forms_equal_iff_same_bits : forall a b n, addr_ok a -> addr_ok b -> 0 <= n <= 128 ->
  (normalize_prefix a n = normalize_prefix b n <-> same_bits n a b).
Proof. exact normalize_eq_iff. Qed.
Print Assumptions C04_normal_forms_equal_iff_same_bits.

(** C05: the test itself; its effect on the tables is in P_Route and P_Xroute *)
Theorem C05_martian_exactly_reserved : forall p n, addr_ok p ->
  (martian_prefix p n = true <->
   exists q m, In (q, m) martians /\ m <= n /\ same_bits m p q).
Proof. exact martian_spec. Qed.
Print Assumptions C05_martian_exactly_reserved.
Example C05_ex1 : martian_prefix (mapped 127 0 0 1) 128 = true /\ martian_prefix (mapped 10 0 0 0) 104 = false /\
  martian_prefix (mapped 0 0 0 0) 96 = false.
Proof. repeat split; reflexivity. Qed.

(** C06 *)
Theorem C06_eui64_roundtrip : forall e, id_ok e -> parse_eui64 (format_eui64 e) = Some e.
Proof. exact parse_format_eui64. Qed.
Print Assumptions C06_eui64_roundtrip.
Example C06_ex1 : id_ok [2;17;34;255;254;51;68;171].
Proof. split; auto. repeat constructor; unfold byte_ok; lia. Qed.

Theorem C06_mac48_expansion : forall e, length e = 6%nat -> bytes_ok e ->
  parse_eui64 (format_eui64 e) = Some (firstn 3 e ++ [255; 254] ++ skipn 3 e).
Proof. exact parse_mac48. Qed.
Print Assumptions C06_mac48_expansion.
Example C06_ex2 : parse_eui64 (format_eui64 [2;17;34;51;68;171]) = Some [2;17;34;255;254;51;68;171].
Proof. reflexivity. Qed.

Theorem C06_hex_exact : forall s l, fromhex s = Some l <-> hex_of s l.
Proof. exact fromhex_spec. Qed.
Print Assumptions C06_hex_exact.
Example C06_ex3 : fromhex [48; 65; 102; 70] = Some [10; 255] /\ fromhex [48; 71] = None /\ fromhex [48] = None.
Proof. repeat split; reflexivity. Qed.

Theorem C06_thousands_roundtrip : forall v, 0 <= v < 2147483648 ->
  parse_thousands (format_thousands v) = v.
Proof. exact parse_format_thousands. Qed.
Print Assumptions C06_thousands_roundtrip.
Example C06_ex4 : format_thousands 42133 = [52;50;46;49;51;51].
Proof. reflexivity. Qed.

(** The claim "a decimal that is accepted has its exact value" fails: an integral
    part of 2^32 or more wraps silently ("4294967296" parses as 0). *)
Theorem C06_thousands_exact_refuted : exists s, Forall (fun c => 48 <= c <= 57) s /\
  0 <= parse_thousands s /\ parse_thousands s <> 1000 * decval s.
Proof. exact thousands_wrap. Qed.
Print Assumptions C06_thousands_exact_refuted.

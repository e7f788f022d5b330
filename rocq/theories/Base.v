(** Base.v: C integers as Z, byte lists, memcmp.  Helper definitions shared by
    the model.  C types: [unsigned char] is 0..255, [unsigned short] 0..65535,
    [int]/[unsigned] 32 bits, as on every platform babeld supports. *)
From Coq Require Export ZArith List Bool Lia.
From Coq Require Export ZifyBool ZifyNat.
Export ListNotations.
Open Scope Z_scope.

Ltac Zify.zify_post_hook ::= Z.div_mod_to_equations.

Global Arguments Z.mul : simpl never.
Global Arguments Z.add : simpl never.
Global Arguments Z.sub : simpl never.
Global Arguments Z.div : simpl never.
Global Arguments Z.modulo : simpl never.
Global Arguments Z.quot : simpl never.
Global Arguments Z.rem : simpl never.
Global Arguments Z.pow : simpl never.
Global Arguments Z.of_nat : simpl never.
Global Arguments Z.to_nat : simpl never.

(** ** Conversions between C integer types (modular, C11 6.3.1.3) *)
Definition u8 (x : Z) : Z := x mod 256.
Definition u16 (x : Z) : Z := x mod 65536.
Definition u32 (x : Z) : Z := x mod 4294967296.
Definition s16 (x : Z) : Z :=
  let y := x mod 65536 in if y <? 32768 then y else y - 65536.
Definition s32 (x : Z) : Z :=
  let y := x mod 4294967296 in if y <? 2147483648 then y else y - 4294967296.

(** Range of C's [int]; leaving it in signed arithmetic is undefined behaviour. *)
Definition int_ok (x : Z) : bool := (-2147483648 <=? x) && (x <=? 2147483647).

(** babeld.h:23 *)
Definition INFINITY : Z := 65535.

(** ** Bytes and byte strings *)
Definition byte_ok (b : Z) : Prop := 0 <= b < 256.
Definition bytes_ok (l : list Z) : Prop := Forall byte_ok l.
Definition addr_ok (a : list Z) : Prop := length a = 16%nat /\ bytes_ok a.
Definition id_ok (a : list Z) : Prop := length a = 8%nat /\ bytes_ok a.

(** Byte [i] of an array; 0 when outside (only used where the index is in range,
    or where the length is fixed). *)
Definition at_ (l : list Z) (i : nat) : Z := nth i l 0.

(** memcmp on equal-length arrays: sign of the first difference. *)
Fixpoint memcmp (a b : list Z) : Z :=
  match a, b with
  | [], [] => 0
  | [], _ :: _ => -1
  | _ :: _, [] => 1
  | x :: a', y :: b' => if x <? y then -1 else if y <? x then 1 else memcmp a' b'
  end.

(** memcmp(a, b, n) *)
Definition memcmp_n (n : nat) (a b : list Z) : Z := memcmp (firstn n a) (firstn n b).

Definition beq (a b : list Z) : bool := memcmp a b =? 0.
Definition beq_n (n : nat) (a b : list Z) : bool := memcmp_n n a b =? 0.

Definition zeroes (n : nat) : list Z := repeat 0 n.

(** Big-endian fields: DO_HTONS, DO_NTOHS, DO_HTONL, DO_NTOHL, util.h:23-38 *)
Definition be16 (x : Z) : list Z := [x / 256 mod 256; x mod 256].
Definition be32 (x : Z) : list Z :=
  [x / 16777216 mod 256; x / 65536 mod 256; x / 256 mod 256; x mod 256].
Definition un16 (a b : Z) : Z := a * 256 + b.
Definition un32 (a b c d : Z) : Z := a * 16777216 + b * 65536 + c * 256 + d.

(** list update *)
Fixpoint upd {A} (i : nat) (x : A) (l : list A) : list A :=
  match l, i with
  | [], _ => []
  | _ :: t, O => x :: t
  | h :: t, S j => h :: upd j x t
  end.

(** ** Lemmas *)

Lemma memcmp_refl : forall a, memcmp a a = 0.
Proof. induction a; simpl; auto. rewrite Z.ltb_irrefl. auto. Qed.

Lemma memcmp_eq : forall a b, memcmp a b = 0 -> a = b.
Proof.
  induction a; destruct b; simpl; intros H; try lia; auto.
  destruct (a <? z) eqn:E1; try lia. destruct (z <? a) eqn:E2; try lia.
  f_equal; auto; lia.
Qed.

Lemma memcmp_0 : forall a b, memcmp a b = 0 <-> a = b.
Proof. split; intros; subst; auto using memcmp_eq, memcmp_refl. Qed.

Lemma memcmp_range : forall a b, memcmp a b = -1 \/ memcmp a b = 0 \/ memcmp a b = 1.
Proof.
  induction a; destruct b; simpl; auto.
  destruct (a <? z); auto. destruct (z <? a); auto.
Qed.

Lemma memcmp_antisym : forall a b, memcmp b a = - memcmp a b.
Proof.
  induction a; destruct b; simpl; auto.
  destruct (a <? z) eqn:E1; destruct (z <? a) eqn:E2; auto; lia.
Qed.

Lemma memcmp_trans_lt : forall a b c, memcmp a b < 0 -> memcmp b c < 0 -> memcmp a c < 0.
Proof.
  induction a; destruct b; destruct c; simpl; intros H1 H2; try lia.
  destruct (a <? z) eqn:E1; destruct (z <? z0) eqn:E2;
  destruct (a <? z0) eqn:E3; destruct (z <? a) eqn:E4;
  destruct (z0 <? z) eqn:E5; destruct (z0 <? a) eqn:E6; try lia; eauto.
Qed.

Lemma beq_true : forall a b, beq a b = true <-> a = b.
Proof. intros. unfold beq. rewrite Z.eqb_eq. apply memcmp_0. Qed.

Lemma beq_refl : forall a, beq a a = true.
Proof. intros. apply beq_true. auto. Qed.

Lemma beq_false : forall a b, beq a b = false <-> a <> b.
Proof.
  intros. split; intros H.
  - intro E. apply beq_true in E. congruence.
  - destruct (beq a b) eqn:E; auto. apply beq_true in E. contradiction.
Qed.

Lemma beq_sym : forall a b, beq a b = beq b a.
Proof.
  intros. destruct (beq a b) eqn:E; symmetry.
  - apply beq_true in E. subst. apply beq_refl.
  - apply beq_false in E. apply beq_false. auto.
Qed.

Lemma beq_n_true : forall n a b, beq_n n a b = true <-> firstn n a = firstn n b.
Proof. intros. unfold beq_n, memcmp_n. rewrite Z.eqb_eq. apply memcmp_0. Qed.

Lemma be16_un16 : forall x, 0 <= x < 65536 -> un16 (at_ (be16 x) 0) (at_ (be16 x) 1) = x.
Proof. intros. unfold un16, be16, at_. simpl. lia. Qed.

Lemma un16_be16 : forall a b, byte_ok a -> byte_ok b -> be16 (un16 a b) = [a; b].
Proof. unfold byte_ok, un16, be16. intros. repeat (f_equal; try lia). Qed.

Lemma be32_un32 : forall x, 0 <= x < 4294967296 ->
  un32 (at_ (be32 x) 0) (at_ (be32 x) 1) (at_ (be32 x) 2) (at_ (be32 x) 3) = x.
Proof. intros. unfold un32, be32, at_. simpl. lia. Qed.

Lemma be16_ok : forall x, bytes_ok (be16 x).
Proof. intros. unfold be16. repeat constructor; unfold byte_ok; lia. Qed.

Lemma be32_ok : forall x, bytes_ok (be32 x).
Proof. intros. unfold be32. repeat constructor; unfold byte_ok; lia. Qed.

Lemma be16_len : forall x, length (be16 x) = 2%nat.
Proof. reflexivity. Qed.
Lemma be32_len : forall x, length (be32 x) = 4%nat.
Proof. reflexivity. Qed.

Lemma u16_id : forall x, 0 <= x < 65536 -> u16 x = x.
Proof. unfold u16. intros. lia. Qed.
Lemma u16_range : forall x, 0 <= u16 x < 65536.
Proof. unfold u16. intros. lia. Qed.
Lemma u8_range : forall x, 0 <= u8 x < 256.
Proof. unfold u8. intros. lia. Qed.
Lemma u32_range : forall x, 0 <= u32 x < 4294967296.
Proof. unfold u32. intros. lia. Qed.

Lemma bytes_ok_app : forall a b, bytes_ok (a ++ b) <-> bytes_ok a /\ bytes_ok b.
Proof. intros. apply Forall_app. Qed.

Lemma bytes_ok_firstn : forall n a, bytes_ok a -> bytes_ok (firstn n a).
Proof.
  unfold bytes_ok. intros. rewrite <- (firstn_skipn n a) in H.
  apply Forall_app in H. tauto.
Qed.
Lemma bytes_ok_skipn : forall n a, bytes_ok a -> bytes_ok (skipn n a).
Proof.
  unfold bytes_ok. intros. rewrite <- (firstn_skipn n a) in H.
  apply Forall_app in H. tauto.
Qed.

Lemma bytes_ok_repeat0 : forall n, bytes_ok (repeat 0 n).
Proof. induction n; constructor; auto. unfold byte_ok; lia. Qed.

Lemma at_ok : forall l i, bytes_ok l -> byte_ok (at_ l i).
Proof.
  intros. unfold at_. destruct (Nat.lt_ge_cases i (length l)).
  - unfold bytes_ok in H. rewrite Forall_forall in H. apply H. apply nth_In. auto.
  - rewrite nth_overflow by lia. unfold byte_ok; lia.
Qed.

Lemma upd_length : forall A i (x : A) l, length (upd i x l) = length l.
Proof. induction i; destruct l; simpl; auto. Qed.

Lemma upd_nth_eq : forall A i (x : A) l d, (i < length l)%nat -> nth i (upd i x l) d = x.
Proof. induction i; destruct l; simpl; intros; try lia; auto. apply IHi. lia. Qed.

Lemma upd_nth_ne : forall A i j (x : A) l d, i <> j -> nth j (upd i x l) d = nth j l d.
Proof.
  induction i; destruct l; simpl; intros; auto.
  - destruct j; auto. lia.
  - destruct j; auto.
Qed.

Lemma upd_nth_error_eq : forall A i (x : A) l,
  (i < length l)%nat -> nth_error (upd i x l) i = Some x.
Proof. induction i; destruct l; simpl; intros; try lia; auto. apply IHi; lia. Qed.

Lemma upd_nth_error_ne : forall A i j (x : A) l,
  i <> j -> nth_error (upd i x l) j = nth_error l j.
Proof.
  induction i; destruct l; simpl; intros; auto.
  - destruct j; auto. lia.
  - destruct j; simpl; auto.
Qed.

Lemma nth_firstn : forall A n (l : list A) i d, (i < n)%nat -> nth i (firstn n l) d = nth i l d.
Proof.
  induction n; intros; try lia. destruct l; simpl; auto. destruct i; auto. apply IHn; lia.
Qed.

Lemma nth_skipn : forall A n (l : list A) i d, nth i (skipn n l) d = nth (n + i) l d.
Proof.
  induction n; simpl; intros; auto. destruct l; [destruct i; auto | apply IHn].
Qed.

Lemma list_eq_nth : forall (a b : list Z),
  length a = length b -> (forall i, (i < length a)%nat -> nth i a 0 = nth i b 0) -> a = b.
Proof. intros. apply nth_ext with (d:=0) (d':=0); auto. Qed.

Lemma upd_bytes_ok : forall i x l, byte_ok x -> bytes_ok l -> bytes_ok (upd i x l).
Proof.
  unfold bytes_ok. induction i; destruct l; simpl; intros; auto; inversion H0; subst; constructor; auto.
Qed.

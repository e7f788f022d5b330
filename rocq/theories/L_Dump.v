(** L_Dump.v: the lines printed to control sockets are read as they are meant. *)
From Coq Require Import String.
From Verif Require Import Base M_Config M_Util S_Util L_Util M_Filter S_Filter M_Source M_Types M_State M_Neigh S_Neigh L_Neigh M_Table S_World M_Dump S_Dump.
Close Scope string_scope.
Open Scope Z_scope.

(** ** Pieces *)
Lemma split_one : forall s w, ~ In s w -> split s w = [w].
Proof.
  induction w as [|c w IH]; intros N; auto. cbn [split]. assert (c <> s) by (intros ->; apply N; simpl; auto).
  replace (c =? s) with false by lia. rewrite IH; auto. intros H'. apply N. simpl. auto.
Qed.
Lemma split_cons : forall s w l, ~ In s w -> split s (w ++ s :: l) = w :: split s l.
Proof.
  induction w as [|c w IH]; intros l N; cbn [split app].
  - rewrite Z.eqb_refl. reflexivity.
  - assert (c <> s) by (intros ->; apply N; simpl; auto). replace (c =? s) with false by lia.
    rewrite IH; auto. intros H'. apply N. simpl. auto.
Qed.
Lemma split_nonempty : forall s l, split s l <> [].
Proof. intros s [|c l]; cbn [split]; [discriminate|]. destruct (c =? s); [discriminate|]. destruct (split s l); discriminate. Qed.
Lemma split_inj : forall s a b, split s a = split s b -> a = b.
Proof.
  induction a as [|c a IH]; intros [|d b] E; auto; cbn [split] in E.
  - destruct (d =? s); [|destruct (split s b) eqn:S; [exact (False_ind _ (split_nonempty _ _ S))|discriminate]].
    injection E as E. symmetry in E. exact (False_ind _ (split_nonempty _ _ E)).
  - destruct (c =? s); [|destruct (split s a) eqn:S; [exact (False_ind _ (split_nonempty _ _ S))|discriminate]].
    injection E as E. exact (False_ind _ (split_nonempty _ _ E)).
  - destruct (c =? s) eqn:C, (d =? s) eqn:D.
    + injection E as E. f_equal; [lia|auto].
    + destruct (split s b) eqn:S; [exact (False_ind _ (split_nonempty _ _ S))|discriminate].
    + destruct (split s a) eqn:S; [exact (False_ind _ (split_nonempty _ _ S))|discriminate].
    + destruct (split s a) as [|x xs] eqn:Sa; [exact (False_ind _ (split_nonempty _ _ Sa))|].
      destruct (split s b) as [|y ys] eqn:Sb; [exact (False_ind _ (split_nonempty _ _ Sb))|].
      injection E as E1 E2 E3. subst d y ys. f_equal. apply IH. congruence.
Qed.

(** ** Numbers *)
Definition dval (c : Z) : Z := if c <=? 57 then c - 48 else c - 87.
Lemma digit_val : forall base c v, digit base c v -> v = dval c.
Proof. intros base c v ([(A & B)|(A & B)] & _); unfold dval; destruct (c <=? 57) eqn:E; lia. Qed.
Lemma number_val : forall base t v, number base t v -> v = fold_left (fun x c => x * base + dval c) t 0.
Proof.
  intros base t v H. induction H as [c v D|t x c v N IH D].
  - cbn. rewrite <- (digit_val _ _ _ D). lia.
  - rewrite fold_left_app. cbn. rewrite <- IH, <- (digit_val _ _ _ D). reflexivity.
Qed.
Lemma number_det : forall base t v v', number base t v -> number base t v' -> v = v'.
Proof. intros base t v v' A B. apply number_val in A, B. congruence. Qed.
Lemma number_chars : forall base t v c, number base t v -> In c t -> 48 <= c <= 57 \/ 97 <= c <= 102.
Proof.
  intros base t v c N. induction N as [x v D|t x y v N IH D].
  - intros [<-|[]]. destruct D as ([(A & _)|(A & _)] & _); lia.
  - intros H. apply in_app_or in H. destruct H as [H|[<-|[]]]; auto. destruct D as ([(A & _)|(A & _)] & _); lia.
Qed.
Lemma number_dec_chars : forall t v c, number 10 t v -> In c t -> 48 <= c <= 57.
Proof.
  intros t v c N. induction N as [x v D|t x y v N IH D].
  - intros [<-|[]]. destruct D as ([(A & B)|(A & B)] & C); lia.
  - intros H. apply in_app_or in H. destruct H as [H|[<-|[]]]; auto. destruct D as ([(A & B)|(A & B)] & C); lia.
Qed.
Lemma number_ne : forall base t v, number base t v -> t <> [].
Proof. intros base t v [c x D|t' x c y N D]; [discriminate|]. intros E. apply app_eq_nil in E. destruct E. discriminate. Qed.
Lemma digit10 : forall d, 0 <= d < 10 -> digit 10 (48 + d) d.
Proof. intros. split; [left; lia|lia]. Qed.
Lemma digit16 : forall d, 0 <= d < 16 -> digit 16 (hexdigit d) d.
Proof. intros d H. unfold hexdigit. destruct (d <? 10) eqn:E; (split; [lia|lia]). Qed.

Lemma dec_number : forall f v, (0 < f)%nat -> 0 <= v < 10 ^ Z.of_nat f ->
  number 10 (dec_fuel f v []) v /\ (length (dec_fuel f v []) <= f)%nat.
Proof.
  induction f as [|f IH]; intros v Hf Hv; [lia|]. cbn [dec_fuel].
  pose proof (Z.mod_pos_bound v 10 ltac:(lia)) as Mb. pose proof (Z.div_mod v 10 ltac:(lia)) as Dm.
  destruct (v / 10 =? 0) eqn:E.
  - assert (v / 10 = 0) by lia. split; [|simpl; lia]. replace v with (v mod 10) at 2 by lia. apply num1. apply digit10. lia.
  - rewrite dec_fuel_app. destruct f as [|f].
    { exfalso. change (10 ^ Z.of_nat 1) with 10 in Hv. pose proof (Z.div_small v 10). lia. }
    destruct (IH (v / 10)) as (N & L); [lia| |].
    { split; [apply Z.div_pos; lia|]. apply Z.div_lt_upper_bound; [lia|].
      replace (Z.of_nat (S (S f))) with (Z.of_nat (S f) + 1) in Hv by lia. rewrite Z.pow_add_r in Hv by lia. lia. }
    split; [|rewrite app_length; simpl; simpl in L; lia].
    replace v with (v / 10 * 10 + v mod 10) at 3 by lia. apply numS; auto. apply digit10. lia.
Qed.
Lemma hex_fuel_app : forall f v acc, hex_fuel f v acc = hex_fuel f v [] ++ acc.
Proof.
  induction f as [|f IH]; intros v acc; cbn [hex_fuel]; auto. destruct (v / 16 =? 0); auto.
  rewrite (IH _ (_ :: acc)), (IH _ [_]), <- app_assoc. reflexivity.
Qed.
Lemma hex_number : forall f v, (0 < f)%nat -> 0 <= v < 16 ^ Z.of_nat f ->
  number 16 (hex_fuel f v []) v /\ (length (hex_fuel f v []) <= f)%nat.
Proof.
  induction f as [|f IH]; intros v Hf Hv; [lia|]. cbn [hex_fuel].
  pose proof (Z.mod_pos_bound v 16 ltac:(lia)) as Mb. pose proof (Z.div_mod v 16 ltac:(lia)) as Dm.
  destruct (v / 16 =? 0) eqn:E.
  - assert (v / 16 = 0) by lia. split; [|simpl; lia]. replace v with (v mod 16) at 2 by lia. apply num1. apply digit16. lia.
  - rewrite hex_fuel_app. destruct f as [|f].
    { exfalso. change (16 ^ Z.of_nat 1) with 16 in Hv. pose proof (Z.div_small v 16). lia. }
    destruct (IH (v / 16)) as (N & L); [lia| |].
    { split; [apply Z.div_pos; lia|]. apply Z.div_lt_upper_bound; [lia|].
      replace (Z.of_nat (S (S f))) with (Z.of_nat (S f) + 1) in Hv by lia. rewrite Z.pow_add_r in Hv by lia. lia. }
    split; [|rewrite app_length; simpl; simpl in L; lia].
    replace v with (v / 16 * 16 + v mod 16) at 3 by lia. apply numS; auto. apply digit16. lia.
Qed.

(** Tokens: texts without blanks and newlines, and their length *)
Definition token (n : nat) (t : list Z) : Prop := (length t <= n)%nat /\ forall c, In c t -> c <> 10 /\ c <> 32.
Lemma number_token : forall base t v n, number base t v -> (length t <= n)%nat -> token n t.
Proof. intros base t v n N L. split; auto. intros c Hc. pose proof (number_chars _ _ _ _ N Hc). lia. Qed.
Lemma dec_text : forall v, 0 <= v < 4294967296 -> number 10 (dec v) v /\ token 10 (dec v).
Proof.
  intros v Hv. destruct (dec_number 10 v) as (N & L); [lia|simpl; lia|]. split; [exact N|]. eapply number_token; eauto.
Qed.
Lemma hex_text : forall v, 0 <= v < 18446744073709551616 -> number 16 (hex v) v /\ token 16 (hex v).
Proof.
  intros v Hv. destruct (hex_number 16 v) as (N & L); [lia|simpl; lia|]. split; [exact N|]. eapply number_token; eauto.
Qed.
Lemma hex2_text : forall b, byte_ok b -> number 16 (hex2 b) b /\ length (hex2 b) = 2%nat.
Proof.
  intros b Hb. unfold byte_ok in Hb. split; auto. unfold hex2.
  pose proof (Z.mod_pos_bound b 16 ltac:(lia)) as Mb. pose proof (Z.div_mod b 16 ltac:(lia)) as Dm.
  replace b with (b / 16 * 16 + b mod 16) at 3 by lia. apply (numS 16 [hexdigit (b / 16)]).
  - apply num1. apply digit16. lia.
  - apply digit16. lia.
Qed.
Lemma hex4_text : forall v, 0 <= v < 65536 -> number 16 (hex4 v) v /\ token 4 (hex4 v).
Proof.
  intros v Hv. unfold hex4, hex2. cbn [app]. set (a := v / 256). set (b := v mod 256).
  pose proof (Z.mod_pos_bound v 256 ltac:(lia)). pose proof (Z.div_mod v 256 ltac:(lia)).
  assert (0 <= a < 256) by (unfold a; lia). fold b in H. fold a b in H0.
  pose proof (Z.mod_pos_bound a 16 ltac:(lia)). pose proof (Z.div_mod a 16 ltac:(lia)).
  pose proof (Z.mod_pos_bound b 16 ltac:(lia)). pose proof (Z.div_mod b 16 ltac:(lia)).
  assert (N : number 16 [hexdigit (a / 16); hexdigit (a mod 16); hexdigit (b / 16); hexdigit (b mod 16)]
     (((a / 16 * 16 + a mod 16) * 16 + b / 16) * 16 + b mod 16)).
  { apply (numS 16 [_; _; _]); [apply (numS 16 [_; _]); [apply (numS 16 [_])|]|].
    - apply num1. apply digit16. lia.
    - apply digit16. lia.
    - apply digit16. lia.
    - apply digit16. lia. }
  replace (((a / 16 * 16 + a mod 16) * 16 + b / 16) * 16 + b mod 16) with v in N by lia.
  split; [exact N|]. eapply number_token; eauto.
Qed.

(** ** Addresses *)
Lemma dotted_text : forall b1 b2 b3 b4, bytes_ok [b1; b2; b3; b4] ->
  v4_text (dotted [b1; b2; b3; b4]) [b1; b2; b3; b4] /\ (length (dotted [b1; b2; b3; b4]) <= 15)%nat /\
  forall c, In c (dotted [b1; b2; b3; b4]) -> c = 46 \/ 48 <= c <= 57.
Proof.
  intros b1 b2 b3 b4 H. unfold bytes_ok in H. rewrite Forall_forall in H. unfold byte_ok in H.
  assert (D : forall b, In b [b1; b2; b3; b4] -> number 10 (dec b) b /\ (length (dec b) <= 3)%nat /\ ~ In 46 (dec b)).
  { intros b Hb. specialize (H b Hb). destruct (dec_text b) as (N & _); [lia|]. split; [exact N|]. split.
    - assert (Q : forall n, (n < 256)%nat -> (length (dec (Z.of_nat n)) <= 3)%nat).
      { intros n Hn. assert (In n (seq 0 256)) by (apply in_seq; lia).
        assert (F : forallb (fun n => Nat.leb (length (dec (Z.of_nat n))) 3) (seq 0 256) = true) by (vm_compute; reflexivity).
        rewrite forallb_forall in F. apply Nat.leb_le. apply F. auto. }
      replace b with (Z.of_nat (Z.to_nat b)) by lia. apply Q. lia.
    - intros X. pose proof (number_dec_chars _ _ _ N X). lia. }
  destruct (D b1 ltac:(simpl; auto)) as (N1 & L1 & X1). destruct (D b2 ltac:(simpl; auto)) as (N2 & L2 & X2).
  destruct (D b3 ltac:(simpl; auto)) as (N3 & L3 & X3). destruct (D b4 ltac:(simpl; auto)) as (N4 & L4 & X4).
  cbn [dotted]. split; [|split].
  - unfold v4_text. rewrite !split_cons by auto. rewrite split_one by auto. repeat constructor; auto.
  - rewrite !app_length. cbn [length]. rewrite !app_length. cbn [length]. rewrite !app_length. cbn [length]. lia.
  - intros c Hc. rewrite !in_app_iff in Hc. cbn [In] in Hc. rewrite !in_app_iff in Hc. cbn [In] in Hc. rewrite !in_app_iff in Hc. cbn [In] in Hc.
    decompose [or] Hc; auto; right; first [apply (number_dec_chars _ _ _ N1); assumption|apply (number_dec_chars _ _ _ N2); assumption|
      apply (number_dec_chars _ _ _ N3); assumption|apply (number_dec_chars _ _ _ N4); assumption].
Qed.
Lemma v4mapped_addr : forall a, addr_ok a -> v4mapped a = true ->
  exists b1 b2 b3 b4, a = mapped b1 b2 b3 b4 /\ skipn 12 a = [b1; b2; b3; b4] /\ bytes_ok [b1; b2; b3; b4].
Proof.
  intros a (L & B) V. do 16 (destruct a as [|? a]; [discriminate L|]). destruct a; [|discriminate L].
  exists z11, z12, z13, z14. unfold v4mapped in V. apply Z.eqb_eq in V.
  assert (E : firstn 12 [z; z0; z1; z2; z3; z4; z5; z6; z7; z8; z9; z10; z11; z12; z13; z14] = firstn 12 v4prefix).
  { unfold memcmp_n in V. apply memcmp_0 in V. exact V. }
  cbn in E. injection E. intros. subst. split; [reflexivity|]. split; [reflexivity|].
  unfold bytes_ok in *. rewrite !Forall_cons_iff in B. rewrite !Forall_cons_iff. intuition.
Qed.

Lemma addr_txt : forall nt a, ntop_ok nt -> addr_ok a -> addr_text nt (format_address nt a) a /\ token 45 (format_address nt a).
Proof.
  intros nt a Hn Ha. unfold format_address. destruct (v4mapped a) eqn:V.
  - destruct (v4mapped_addr a Ha V) as (b1 & b2 & b3 & b4 & E & S & B). rewrite S.
    destruct (dotted_text b1 b2 b3 b4 B) as (T & L & C). split; [left; exists b1, b2, b3, b4; auto|].
    split; [lia|]. intros c Hc. specialize (C c Hc). lia.
  - destruct (Hn a Ha) as (L & _ & C & _). split; [right; split; [|reflexivity]; intros b1 b2 b3 b4 ->; discriminate V|]. split; [exact L|]. intros c Hc. destruct (C c Hc) as (? & ? & _). auto.
Qed.
Lemma dec3_len : forall v, 0 <= v < 1000 -> number 10 (dec v) v /\ (length (dec v) <= 3)%nat.
Proof.
  intros v Hv. destruct (dec_text v) as (N & _); [lia|]. split; auto.
  assert (Q : forall n, (n < 1000)%nat -> (length (dec (Z.of_nat n)) <= 3)%nat).
  { intros n Hn. assert (In n (seq 0 1000)) by (apply in_seq; lia).
    assert (F : forallb (fun n => Nat.leb (length (dec (Z.of_nat n))) 3) (seq 0 1000) = true) by (vm_compute; reflexivity).
    rewrite forallb_forall in F. apply Nat.leb_le. apply F. auto. }
  replace v with (Z.of_nat (Z.to_nat v)) by lia. apply Q. lia.
Qed.
Lemma prefix_txt : forall nt p l, ntop_ok nt -> addr_ok p -> 0 <= l <= 128 ->
  prefix_text nt (format_prefix nt p l) p l /\ token 49 (format_prefix nt p l) /\ ~ In 45 (format_prefix nt p l).
Proof.
  intros nt p l Hn Hp Hl. unfold format_prefix. destruct ((l >=? 96) && v4mapped p) eqn:V.
  - apply andb_prop in V. destruct V as (V1 & V2). destruct (v4mapped_addr p Hp V2) as (b1 & b2 & b3 & b4 & E & S & B). rewrite S.
    destruct (dotted_text b1 b2 b3 b4 B) as (T & L & C). destruct (dec3_len (l - 96)) as (N & L3); [lia|].
    split; [|split].
    + exists (dotted [b1; b2; b3; b4]), (dec (l - 96)), (l - 96). split; [|split; [exact N|]].
      * rewrite split_cons, split_one; auto; intros X; [pose proof (number_dec_chars _ _ _ N X)|pose proof (C _ X)]; lia.
      * left. exists b1, b2, b3, b4. split; [exact E|]. split; [exact T|lia].
    + split; [rewrite app_length; cbn [length]; lia|]. intros c Hc. apply in_app_or in Hc. destruct Hc as [Hc|[<-|Hc]]; [|lia|].
      * specialize (C c Hc). lia.
      * pose proof (number_dec_chars _ _ _ N Hc). lia.
    + intros Hc. apply in_app_or in Hc. destruct Hc as [Hc|[Hc|Hc]]; [|lia|].
      * specialize (C _ Hc). lia.
      * pose proof (number_dec_chars _ _ _ N Hc). lia.
  - destruct (Hn p Hp) as (L & _ & C & _). destruct (dec3_len l) as (N & L3); [lia|].
    split; [|split].
    + exists (nt p), (dec l), l. split; [|split; [exact N|right; split; [|auto]]].
      2:{ intros b1 b2 b3 b4 ->. change (v4mapped (mapped b1 b2 b3 b4)) with true in V. lia. }
      rewrite split_cons, split_one; auto; intros X; [pose proof (number_dec_chars _ _ _ N X)|pose proof (C _ X)]; lia.
    + split; [rewrite app_length; cbn [length]; lia|]. intros c Hc. apply in_app_or in Hc. destruct Hc as [Hc|[<-|Hc]]; [|lia|].
      * specialize (C c Hc). lia.
      * pose proof (number_dec_chars _ _ _ N Hc). lia.
    + intros Hc. apply in_app_or in Hc. destruct Hc as [Hc|[Hc|Hc]]; [|lia|].
      * specialize (C _ Hc). lia.
      * pose proof (number_dec_chars _ _ _ N Hc). lia.
Qed.
Lemma eui_txt : forall e, e <> [] -> bytes_ok e -> eui_text (format_eui64 e) e /\ token (3 * length e - 1) (format_eui64 e).
Proof.
  induction e as [|b e IH]; intros Ne B; [congruence|]. unfold bytes_ok in B. rewrite Forall_cons_iff in B. destruct B as (B1 & B2).
  destruct (hex2_text b B1) as (N & L).
  assert (Nc : ~ In 58 (hex2 b)) by (intros X; pose proof (number_chars _ _ _ _ N X); lia).
  destruct e as [|b' e].
  - cbn [format_eui64]. split; [unfold eui_text; rewrite split_one by auto; repeat constructor; auto|].
    eapply number_token; [exact N|]. rewrite L. simpl. lia.
  - change (format_eui64 (b :: b' :: e)) with (hex2 b ++ 58 :: format_eui64 (b' :: e)).
    destruct IH as (T & (Tl & Tc)); [discriminate|exact B2|]. split.
    + unfold eui_text. rewrite split_cons by auto. constructor; auto.
    + split.
      * rewrite app_length. cbn [length] in *. rewrite L. lia.
      * intros c Hc. apply in_app_or in Hc. destruct Hc as [Hc|[<-|Hc]]; [|lia|auto]. pose proof (number_chars _ _ _ _ N Hc). lia.
Qed.
Lemma thousands_txt : forall v, 0 <= v < 4294967296 -> thousandths (format_thousands v) v /\ token 14 (format_thousands v).
Proof.
  intros v Hv. unfold format_thousands.
  pose proof (Z.mod_pos_bound v 1000 ltac:(lia)) as Mb. pose proof (Z.div_mod v 1000 ltac:(lia)) as Dm.
  destruct (dec_text (v / 1000)) as (N1 & (L1 & C1)); [lia|]. set (m := v mod 1000) in *.
  assert (N2 : number 10 (dec3 m) m).
  { unfold dec3. pose proof (Z.mod_pos_bound m 10 ltac:(lia)). pose proof (Z.div_mod m 10 ltac:(lia)).
    pose proof (Z.mod_pos_bound (m / 10) 10 ltac:(lia)). pose proof (Z.div_mod (m / 10) 10 ltac:(lia)).
    assert (E : m / 100 = m / 10 / 10) by (rewrite Z.div_div by lia; reflexivity).
    replace m with ((m / 100 * 10 + m / 10 mod 10) * 10 + m mod 10) at 4 by lia.
    apply (numS 10 [_; _]); [apply (numS 10 [_])|].
    - apply num1. apply digit10. lia.
    - apply digit10. lia.
    - apply digit10. lia. }
  split.
  - exists (dec (v / 1000)), (dec3 m), (v / 1000), m. split; [|split; [reflexivity|]]; [|split; [exact N1|split; [exact N2|lia]]].
    rewrite split_cons, split_one; auto; intros X; [pose proof (number_dec_chars _ _ _ N2 X)|pose proof (number_dec_chars _ _ _ N1 X)]; lia.
  - split; [rewrite app_length; cbn [length]; unfold dec3; cbn [length]; lia|].
    intros c Hc. apply in_app_or in Hc. destruct Hc as [Hc|[<-|Hc]]; [auto|lia|]. pose proof (number_dec_chars _ _ _ N2 Hc). lia.
Qed.

(** ** Lines *)
Fixpoint join (ws : list (list Z)) : list Z :=
  match ws with [] => [] | [w] => w | w :: ws' => w ++ 32 :: join ws' end.
Lemma split_join : forall ws, ws <> [] -> Forall (fun w => ~ In 32 w) ws -> split 32 (join ws) = ws.
Proof.
  induction ws as [|w ws IH]; intros Ne F; [congruence|]. rewrite Forall_cons_iff in F. destruct F as (F1 & F2).
  destruct ws as [|w' ws]; [apply split_one; auto|]. change (join (w :: w' :: ws)) with (w ++ 32 :: join (w' :: ws)).
  rewrite split_cons by auto. f_equal. apply IH; [discriminate|auto].
Qed.
Lemma join_chars : forall ws c, In c (join ws) -> c = 32 \/ exists w, In w ws /\ In c w.
Proof.
  induction ws as [|w ws IH]; intros c H; [destruct H|]. destruct ws as [|w' ws]; [right; exists w; simpl; auto|].
  change (join (w :: w' :: ws)) with (w ++ 32 :: join (w' :: ws)) in H. apply in_app_or in H.
  destruct H as [H|[H|H]]; [right; exists w; simpl; auto|auto|]. destruct (IH c H) as [X|(x & Hx & X)]; auto.
  right. exists x. split; [right; exact Hx|exact X].
Qed.
Fixpoint total (ws : list (list Z)) : nat := match ws with [] => 0 | w :: ws' => S (length w) + total ws' end.
Lemma join_length : forall ws, (length (join ws) <= total ws)%nat.
Proof.
  induction ws as [|w ws IH]; [simpl; lia|]. destruct ws as [|w' ws]; [simpl; lia|].
  change (join (w :: w' :: ws)) with (w ++ 32 :: join (w' :: ws)). rewrite app_length. cbn [length total] in *. lia.
Qed.

(** A line: its text without the newline says [it]; it fits in the buffer. *)
Definition line_ok (nt : list Z -> list Z) (kind line : list Z) (it : item) : Prop :=
  exists body, line = body ++ [10] /\ says nt kind body it /\ ~ In 10 body /\ (length line < 512)%nat.
Lemma line_join : forall nt kind line it ws, line = join ws ++ [10] -> ws <> [] ->
  Forall (fun w => exists n, token n w) ws -> (total ws < 511)%nat ->
  (split 32 (join ws) = ws -> says nt kind (join ws) it) -> line_ok nt kind line it.
Proof.
  intros nt kind line it ws E Ne F L S. exists (join ws). split; [exact E|].
  rewrite Forall_forall in F. split; [apply S; apply split_join; auto|].
  - apply Forall_forall. intros w Hw X. destruct (F w Hw) as (n & _ & C). destruct (C _ X). congruence.
  - split.
    + intros X. apply join_chars in X. destruct X as [X|(w & Hw & X)]; [discriminate X|]. destruct (F w Hw) as (n & _ & C). destruct (C _ X). congruence.
    + rewrite E, app_length. pose proof (join_length ws). cbn [length]. lia.
Qed.
Lemma kind_token : forall k, token 6 (local_kind k).
Proof.
  intros k. unfold local_kind. assert (H : forall t, Nat.leb (length t) 6 = true -> forallb (fun c => negb (c =? 10) && negb (c =? 32)) t = true -> token 6 t).
  { intros t L F. split; [apply Nat.leb_le; exact L|]. intros c Hc. rewrite forallb_forall in F. specialize (F c Hc). lia. }
  destruct (k =? _); [apply H; reflexivity|]. destruct (k =? _); [apply H; reflexivity|]. destruct (k =? _); apply H; reflexivity.
Qed.
Lemma lit_token : forall t, forallb (fun c => negb (c =? 10) && negb (c =? 32)) t = true -> token (length t) t.
Proof. intros t F. split; [lia|]. intros c Hc. rewrite forallb_forall in F. specialize (F c Hc). lia. Qed.
Ltac lits := repeat match goal with |- context [str ?s] => let v := eval vm_compute in (str s) in change (str s) with v end.
Ltac toks := repeat constructor; first [eexists; eassumption|eexists; apply lit_token; reflexivity].

Lemma name_token : forall s, name_ok s -> token 15 s.
Proof. intros s (_ & L & C). split; auto. Qed.
Lemma rt_line_ok : forall nt nm i n r k, ntop_ok nt -> name_ok (nm (if_id i)) -> addr_ok (n_addr n) ->
  dest_ok (dest_of r) -> id_ok (k_id (r_src r)) -> 0 <= r_ptr r < 18446744073709551616 -> route_rng r ->
  line_ok nt (local_kind k) (rt_line nt nm i n r k)
    (IRt (r_ptr r) (dest_of r) (r_installed r) (k_id (r_src r)) (metric_of r) (r_refmetric r) (n_addr n) (nm (if_id i))).
Proof.
  intros nt nm i n r k Hn Nm An (D1 & D2 & D3 & D4) (Il & Ib) P Rg. unfold route_rng, u16_ok in Rg.
  pose proof (kind_token k) as Tk. pose proof (name_token _ Nm) as Tn. destruct (addr_txt nt _ Hn An) as (A & Ta).
  destruct (prefix_txt nt _ _ Hn D1 D2) as (Pd & Td & _). destruct (prefix_txt nt _ _ Hn D3 D4) as (Ps & Ts & _).
  cbn [dest_of dest_of_key d_prefix d_plen d_src d_splen] in Pd, Td, Ps, Ts.
  destruct (eui_txt (k_id (r_src r))) as (Eu & Te); [intros E; rewrite E in Il; discriminate|exact Ib|]. rewrite Il in Te.
  destruct (hex_text _ P) as (Hx & Tp).
  destruct (dec_text (route_metric r)) as (Nmt & Tm). { unfold route_metric, INFINITY. lia. }
  destruct (dec_text (r_refmetric r)) as (Nr & Tr); [lia|].
  set (y := if r_installed r then str "yes" else str "no").
  assert (Ty : token 3 y) by (unfold y; destruct (r_installed r); (split; [simpl; lia|]; intros c Hc; cbn in Hc; lia)).
  eapply (line_join _ _ _ _ [local_kind k; str "route"; hex (r_ptr r); str "prefix"; format_prefix nt (k_prefix (r_src r)) (k_plen (r_src r));
    str "from"; format_prefix nt (k_src (r_src r)) (k_splen (r_src r)); str "installed"; y; str "id"; format_eui64 (k_id (r_src r));
    str "metric"; dec (route_metric r); str "refmetric"; dec (r_refmetric r); str "via"; format_address nt (n_addr n); str "if"; nm (if_id i)]).
  - unfold rt_line. fold y. lits. cbn [join]. rewrite <- !app_assoc. cbn [app]. rewrite <- ?app_assoc. cbn [app].
    repeat (f_equal; rewrite <- ?app_assoc; cbn [app]).
  - discriminate.
  - lits. toks.
  - destruct Tk as (Lk & _), Tn as (Ln & _), Ta as (La & _), Td as (Ld & _), Ts as (Ls & _), Te as (Le & _), Tp as (Lp & _), Tm as (Lm & _), Tr as (Lr & _), Ty as (Ly & _).
    lits. cbn [total length]. cbn in Le. lia.
  - intros E. cbn [says]. rewrite E. do 8 eexists. split; [reflexivity|]. cbn [dest_of dest_of_key d_prefix d_plen d_src d_splen].
    repeat (split; [solve [eassumption|reflexivity]|]). exact A.
Qed.

Lemma xr_line_ok : forall nt x k, ntop_ok nt -> dest_ok (x_dest x) -> 0 <= x_metric x < 65536 ->
  line_ok nt (local_kind k) (xr_line nt x k) (IXr (x_dest x) (x_metric x)).
Proof.
  intros nt x k Hn (D1 & D2 & D3 & D4) M. pose proof (kind_token k) as Tk.
  destruct (prefix_txt nt _ _ Hn D1 D2) as (Pd & Td & Nd). destruct (prefix_txt nt _ _ Hn D3 D4) as (Ps & Ts & Ns).
  destruct (dec_text (x_metric x)) as (Nm & Tm); [lia|]. unfold xr_line.
  set (a := format_prefix nt (d_prefix (x_dest x)) (d_plen (x_dest x))) in *.
  set (b := format_prefix nt (d_src (x_dest x)) (d_splen (x_dest x))) in *.
  assert (Tj : token 99 (a ++ 45 :: b)).
  { destruct Td as (La & Ca), Ts as (Lb & Cb). split; [rewrite app_length; cbn [length]; lia|].
    intros c Hc. apply in_app_or in Hc. destruct Hc as [Hc|[<-|Hc]]; [auto|lia|auto]. }
  eapply (line_join _ _ _ _ [local_kind k; str "xroute"; a ++ 45 :: b; str "prefix"; a; str "from"; b; str "metric"; dec (x_metric x)]).
  - lits. cbn [join]. rewrite <- !app_assoc. cbn [app]. rewrite <- ?app_assoc. cbn [app].
    repeat (f_equal; rewrite <- ?app_assoc; cbn [app]).
  - discriminate.
  - lits. toks.
  - destruct Tk as (Lk & _), Td as (Ld & _), Ts as (Ls & _), Tm as (Lm & _), Tj as (Lj & _). lits. cbn [total length]. lia.
  - intros E. cbn [says]. rewrite E. do 4 eexists. split; [reflexivity|].
    split; [|repeat (split; [eassumption|]); exact Nm]. rewrite split_cons, split_one; auto.
Qed.

Lemma if_line_ok : forall nt nm i k, ntop_ok nt -> name_ok (nm (if_id i)) -> (forall a, In a (if_ll i) -> addr_ok a) ->
  (forall a, if_ipv4 i = Some a -> length a = 4%nat /\ bytes_ok a) ->
  line_ok nt (local_kind k) (if_line nt nm i k)
    (IIf (nm (if_id i)) (if if_up i then Some (match if_ll i with [] => None | a :: _ => Some a end, if_ipv4 i) else None)).
Proof.
  intros nt nm i k Hn Nm Hl Hv. pose proof (kind_token k) as Tk. pose proof (name_token _ Nm) as Tn. unfold if_line.
  assert (Lk := proj1 Tk). assert (Ln := proj1 Tn).
  destruct (if_up i).
  2:{ eapply (line_join _ _ _ _ [local_kind k; str "interface"; nm (if_id i); str "up"; str "false"]).
      - lits. cbn [join]. rewrite <- !app_assoc. cbn [app]. repeat (f_equal; rewrite <- ?app_assoc; cbn [app]).
      - discriminate.
      - lits. toks.
      - lits. cbn [total length]. lia.
      - intros E. cbn [says]. exact E. }
  set (l1 := match if_ll i with [] => [] | a :: _ => [str "ipv6"; format_address nt a] end).
  set (l2 := match if_ipv4 i with None => [] | Some a => [str "ipv4"; dotted a] end).
  assert (V : forall a, if_ipv4 i = Some a -> v4_text (dotted a) a /\ token 45 (dotted a)).
  { intros a Ea. destruct (Hv a Ea) as (L4 & B). destruct a as [|b1 [|b2 [|b3 [|b4 [|? ?]]]]]; try discriminate L4.
    destruct (dotted_text b1 b2 b3 b4 B) as (T & L & C). split; [exact T|]. split; [lia|]. intros c Hc. specialize (C c Hc). lia. }
  assert (A : forall a, In a (if_ll i) -> addr_text nt (format_address nt a) a /\ token 45 (format_address nt a)).
  { intros a Ha. apply addr_txt; auto. }
  eapply (line_join _ _ _ _ ([local_kind k; str "interface"; nm (if_id i); str "up"; str "true"] ++ l1 ++ l2)).
  - unfold l1, l2. lits. destruct (if_ll i), (if_ipv4 i); cbn [app join]; rewrite <- ?app_assoc; cbn [app];
    repeat (f_equal; rewrite <- ?app_assoc; cbn [app]).
  - discriminate.
  - unfold l1, l2. lits. destruct (if_ll i) as [|a la]; [|pose proof (proj2 (A a (or_introl eq_refl)))];
    (destruct (if_ipv4 i) as [v|]; [pose proof (proj2 (V v eq_refl))|]); cbn [app]; toks.
  - unfold l1, l2. lits. destruct (if_ll i) as [|a la]; [|pose proof (proj1 (proj2 (A a (or_introl eq_refl))))];
    (destruct (if_ipv4 i) as [v|]; [pose proof (proj1 (proj2 (V v eq_refl)))|]); cbn [app total length]; lia.
  - intros E. cbn [says]. rewrite E. exists l1, l2. split; [reflexivity|]. unfold l1, l2. split.
    + destruct (if_ll i) as [|a la]; auto. eexists. split; [reflexivity|]. apply A. left; auto.
    + destruct (if_ipv4 i) as [v|]; auto. eexists. split; [reflexivity|]. apply V; auto.
Qed.

Lemma nb_line_ok : forall nt nm now i n k, ntop_ok nt -> name_ok (nm (if_id i)) -> addr_ok (n_addr n) ->
  0 <= n_id n < 18446744073709551616 -> iface_ok i -> neigh_ok n ->
  line_ok nt (local_kind k) (nb_line nt nm now i n k)
    (INb (n_id n) (n_addr n) (nm (if_id i)) (h_reach (n_hello n)) (h_reach (n_uhello n)) (neighbour_rxcost now i n) (n_txcost n)
      (if valid_rtt now n then Some (n_rtt n, rttcost now i n) else None) (neighbour_cost now i n)).
Proof.
  intros nt nm now i n k Hn Nm An P Io No. pose proof (kind_token k) as Tk. pose proof (name_token _ Nm) as Tn.
  destruct (addr_txt nt _ Hn An) as (A & Ta). destruct (hex_text _ P) as (Hx & Tp).
  pose proof (rxcost_range now i n Io No) as Rx. pose proof (rttcost_range now i n Io No) as Rc.
  pose proof (proj1 (cost_in now i n (fun _ => Io) No)) as Co. unfold INFINITY in *.
  destruct No as ((R1 & _) & (R2 & _) & Tx & _ & _ & Rt & _).
  destruct (hex4_text (h_reach (n_hello n))) as (N1 & T1); [lia|]. destruct (hex4_text (h_reach (n_uhello n))) as (N2 & T2); [lia|].
  destruct (dec_text (neighbour_rxcost now i n)) as (N3 & T3); [lia|]. destruct (dec_text (n_txcost n)) as (N4 & T4); [lia|].
  destruct (dec_text (neighbour_cost now i n)) as (N5 & T5); [lia|]. destruct (dec_text (rttcost now i n)) as (N6 & T6); [lia|].
  destruct (thousands_txt (n_rtt n) Rt) as (N7 & T7).
  set (l := if valid_rtt now n then [str "rtt"; format_thousands (n_rtt n); str "rttcost"; dec (rttcost now i n)] else []).
  assert (Lk := proj1 Tk). assert (Ln := proj1 Tn). assert (La := proj1 Ta). assert (Lp := proj1 Tp).
  assert (L1 := proj1 T1). assert (L2 := proj1 T2). assert (L3 := proj1 T3). assert (L4 := proj1 T4).
  assert (L5 := proj1 T5). assert (L6 := proj1 T6). assert (L7 := proj1 T7).
  eapply (line_join _ _ _ _ ([local_kind k; str "neighbour"; hex (n_id n); str "address"; format_address nt (n_addr n); str "if"; nm (if_id i);
    str "reach"; hex4 (h_reach (n_hello n)); str "ureach"; hex4 (h_reach (n_uhello n)); str "rxcost"; dec (neighbour_rxcost now i n);
    str "txcost"; dec (n_txcost n)] ++ l ++ [str "cost"; dec (neighbour_cost now i n)])).
  - unfold nb_line, l. fold (rttcost now i n). destruct (valid_rtt now n).
    + replace (_ >=? 64) with false by (symmetry; rewrite !app_length; cbn [length str]; lits; cbn [length]; lia).
      lits. cbn [app join]. rewrite <- !app_assoc. cbn [app]. repeat (f_equal; rewrite <- ?app_assoc; cbn [app]).
    + lits. cbn [app join]. rewrite <- ?app_assoc. cbn [app]. repeat (f_equal; rewrite <- ?app_assoc; cbn [app]).
  - discriminate.
  - unfold l. lits. destruct (valid_rtt now n); cbn [app]; toks.
  - unfold l. lits. destruct (valid_rtt now n); cbn [app total length]; lia.
  - intros E. cbn [says]. rewrite E. do 8 eexists. split; [reflexivity|]. repeat (split; [eassumption|]).
    unfold l. destruct (valid_rtt now n); auto. do 2 eexists. split; [reflexivity|]. auto.
Qed.

(** ** A line cannot be read in two ways *)
Lemma Forall2_number_det : forall base ts a b, Forall2 (number base) ts a -> Forall2 (number base) ts b -> a = b.
Proof.
  induction ts; intros a' b' A B; inversion A; inversion B; subst; auto. f_equal; eauto using number_det.
Qed.
Lemma split_chars : forall s l c, In c l -> c = s \/ exists w, In w (split s l) /\ In c w.
Proof.
  induction l as [|x l IH]; intros c [].
  - subst x. cbn [split]. destruct (c =? s) eqn:E; [left; lia|]. right.
    destruct (split s l) as [|w ws]; [exists [c]|exists (c :: w)]; simpl; auto.
  - destruct (IH c H) as [->|(w & Hw & Hc)]; auto. right. cbn [split]. destruct (x =? s); [exists w; simpl; auto|].
    destruct (split s l) as [|v ws]; [destruct Hw|]. destruct Hw as [->|Hw]; [exists (x :: w); simpl; auto|exists w; simpl; auto].
Qed.
Lemma v4_chars : forall t a c, v4_text t a -> In c t -> c = 46 \/ 48 <= c <= 57.
Proof.
  intros t a c V Hc. destruct (split_chars 46 t c Hc) as [->|(w & Hw & Hc')]; auto. right. unfold v4_text in V.
  revert w Hw Hc'. induction V; intros w [].
  - subst. intros Hc'. exact (number_dec_chars _ _ _ H Hc').
  - intros. eauto.
Qed.
Lemma v4_not_nt : forall nt t a b, ntop_ok nt -> addr_ok b -> v4_text t a -> t = nt b -> False.
Proof. intros nt t a b Hn Hb V E. destruct (Hn b Hb) as (_ & C & _). rewrite <- E in C. pose proof (v4_chars _ _ _ V C). lia. Qed.
Lemma addr_det : forall nt t a b, ntop_ok nt -> addr_ok a -> addr_ok b -> addr_text nt t a -> addr_text nt t b -> a = b.
Proof.
  intros nt t a b Hn Ha Hb [(a1 & a2 & a3 & a4 & Ea & Va)|(_ & Ea)] [(b1 & b2 & b3 & b4 & Eb & Vb)|(_ & Eb)].
  - pose proof (Forall2_number_det _ _ _ _ Va Vb) as E. congruence.
  - exfalso. exact (v4_not_nt nt _ _ b Hn Hb Va Eb).
  - exfalso. exact (v4_not_nt nt _ _ a Hn Ha Vb Ea).
  - destruct (Hn b Hb) as (_ & _ & _ & I). apply I; congruence.
Qed.
Lemma prefix_det : forall nt t a b k l, ntop_ok nt -> addr_ok a -> addr_ok b -> prefix_text nt t a k -> prefix_text nt t b l -> a = b /\ k = l.
Proof.
  intros nt t a b k l Hn Ha Hb (ta & na & ka & Sa & Na & Pa) (tb & nb & kb & Sb & Nb & Pb).
  rewrite Sa in Sb. injection Sb as <- <-. pose proof (number_det _ _ _ _ Na Nb) as <-.
  destruct Pa as [(a1 & a2 & a3 & a4 & Ea & Va & Ka)|(_ & Ea & Ka)]; destruct Pb as [(b1 & b2 & b3 & b4 & Eb & Vb & Kb)|(_ & Eb & Kb)].
  - pose proof (Forall2_number_det _ _ _ _ Va Vb) as E. split; congruence.
  - exfalso. exact (v4_not_nt nt _ _ b Hn Hb Va Eb).
  - exfalso. exact (v4_not_nt nt _ _ a Hn Ha Vb Ea).
  - split; [|congruence]. destruct (Hn b Hb) as (_ & _ & _ & I). apply I; congruence.
Qed.
Lemma thousandths_det : forall t v v', thousandths t v -> thousandths t v' -> v = v'.
Proof.
  intros t v v' (a & b & x & y & S & _ & Nx & Ny & E) (a' & b' & x' & y' & S' & _ & Nx' & Ny' & E').
  rewrite S in S'. injection S' as <- <-. pose proof (number_det _ _ _ _ Nx Nx'). pose proof (number_det _ _ _ _ Ny Ny'). congruence.
Qed.
Lemma dest_eq : forall d d' : dest, d_prefix d = d_prefix d' /\ d_plen d = d_plen d' -> d_src d = d_src d' /\ d_splen d = d_splen d' -> d = d'.
Proof. intros [] [] (A & B) (C & D). cbn in *. congruence. Qed.

Definition keyword (it : item) : list Z :=
  match it with IIf _ _ => str "interface" | INb _ _ _ _ _ _ _ _ _ => str "neighbour" | IXr _ _ => str "xroute" | IRt _ _ _ _ _ _ _ _ => str "route" end.
Lemma says_head : forall nt k line it, says nt k line it -> exists l, split 32 line = k :: keyword it :: l.
Proof.
  intros nt k line it H. destruct it as [name [(ll & v4)|]| | |]; cbn [says keyword] in *.
  - destruct H as (l1 & l2 & E & _). rewrite E. eexists. reflexivity.
  - rewrite H. eexists. reflexivity.
  - destruct H as (? & ? & ? & ? & ? & ? & ? & ? & E & _). rewrite E. eexists. reflexivity.
  - destruct H as (? & ? & ? & ? & E & _). rewrite E. eexists. reflexivity.
  - destruct H as (? & ? & ? & ? & ? & ? & ? & ? & E & _). rewrite E. eexists. reflexivity.
Qed.
Lemma says_det : forall nt k k' line it it', ntop_ok nt -> item_ok it -> item_ok it' ->
  says nt k line it -> says nt k' line it' -> k = k' /\ it = it'.
Proof.
  intros nt k k' line it it' Hn O O' H H'.
  destruct (says_head _ _ _ _ H) as (l & E). destruct (says_head _ _ _ _ H') as (l' & E').
  assert (K : k = k' /\ keyword it = keyword it') by (rewrite E in E'; injection E' as -> ? _; auto). clear l l' E E'.
  destruct K as (-> & K). split; auto.
  destruct it as [nm up|ptr addr ifn re ur rx tx rtt cost|d m|ptr d ins id m n via ifn],
    it' as [nm' up'|ptr' addr' ifn' re' ur' rx' tx' rtt' cost'|d' m'|ptr' d' ins' id' m' n' via' ifn']; try discriminate K; clear K.
  - destruct up as [(ll & v4)|], up' as [(ll' & v4')|]; cbn [says] in H, H'.
    + destruct H as (l1 & l2 & E & A & B), H' as (l1' & l2' & E' & A' & B'). rewrite E in E'. cbn [app] in E'. injection E' as En El.
      destruct ll as [a|], ll' as [a'|], v4 as [v|], v4' as [v'|];
        repeat match goal with H : exists _, _ /\ _ |- _ => destruct H as (? & -> & ?) | H : _ = [] |- _ => subst end;
        cbn [app] in El; try discriminate El; try (injection El as El); subst; try discriminate; cbn [item_ok] in O, O'.
      * assert (a = a') by (eapply addr_det; eauto). assert (v = v') by (eapply Forall2_number_det; eauto). congruence.
      * assert (a = a') by (eapply addr_det; eauto). congruence.
      * assert (v = v') by (eapply Forall2_number_det; eauto). congruence.
      * reflexivity.
    + destruct H as (l1 & l2 & E & _). rewrite E in H'. cbn [app] in H'. discriminate H'.
    + destruct H' as (l1 & l2 & E & _). rewrite E in H. cbn [app] in H. discriminate H.
    + rewrite H in H'. injection H' as ->. reflexivity.
  - cbn [says item_ok] in *. destruct H as (p & a & r1 & r2 & r3 & r4 & l & c & E & Np & Na & N1 & N2 & N3 & N4 & Nc & R).
    destruct H' as (p' & a' & r1' & r2' & r3' & r4' & l' & c' & E' & Np' & Na' & N1' & N2' & N3' & N4' & Nc' & R').
    rewrite E in E'. cbn [app] in E'. injection E' as <- <- -> <- <- <- <- El.
    assert (C : l = l' /\ c = c').
    { destruct rtt as [(x & y)|], rtt' as [(x' & y')|];
        repeat match goal with H : exists _ _, _ /\ _ |- _ => destruct H as (? & ? & -> & ?) | H : _ = [] |- _ => subst end;
        cbn [app] in El; try discriminate El; injection El as ->; subst; auto. }
    destruct C as (<- & <-).
    assert (Rr : rtt = rtt').
    { destruct rtt as [(x & y)|], rtt' as [(x' & y')|]; auto.
      - destruct R as (s & t & -> & T1 & T2), R' as (s' & t' & Es & T1' & T2'). injection Es as <- <-.
        pose proof (thousandths_det _ _ _ T1 T1'). pose proof (number_det _ _ _ _ T2 T2'). congruence.
      - destruct R as (s & t & -> & _). discriminate R'.
      - destruct R' as (s & t & -> & _). discriminate R. }
    pose proof (addr_det _ _ _ _ Hn O O' Na Na').
    pose proof (number_det _ _ _ _ Np Np'). pose proof (number_det _ _ _ _ N1 N1'). pose proof (number_det _ _ _ _ N2 N2').
    pose proof (number_det _ _ _ _ N3 N3'). pose proof (number_det _ _ _ _ N4 N4'). pose proof (number_det _ _ _ _ Nc Nc'). congruence.
  - cbn [says item_ok] in *. destruct H as (x & p & s & y & E & _ & Pp & Ps & Pm), H' as (x' & p' & s' & y' & E' & _ & Pp' & Ps' & Pm').
    rewrite E in E'. injection E' as <- <- <- <-. destruct O as (O1 & O2), O' as (O1' & O2').
    pose proof (dest_eq d d' (prefix_det _ _ _ _ _ _ Hn O1 O1' Pp Pp') (prefix_det _ _ _ _ _ _ Hn O2 O2' Ps Ps')).
    pose proof (number_det _ _ _ _ Pm Pm'). congruence.
  - cbn [says item_ok] in *. destruct H as (p & a & s & y & e & x & z & v & E & Np & Pa & Ps & Y & Eu & Nx & Nz & V).
    destruct H' as (p' & a' & s' & y' & e' & x' & z' & v' & E' & Np' & Pa' & Ps' & Y' & Eu' & Nx' & Nz' & V').
    rewrite E in E'. injection E' as <- <- <- <- <- <- <- <- ->. destruct O as (O1 & O2 & O3), O' as (O1' & O2' & O3').
    pose proof (dest_eq d d' (prefix_det _ _ _ _ _ _ Hn O1 O1' Pa Pa') (prefix_det _ _ _ _ _ _ Hn O2 O2' Ps Ps')).
    pose proof (addr_det _ _ _ _ Hn O3 O3' V V'). pose proof (number_det _ _ _ _ Np Np'). pose proof (number_det _ _ _ _ Nx Nx').
    pose proof (number_det _ _ _ _ Nz Nz'). pose proof (Forall2_number_det _ _ _ _ Eu Eu').
    assert (ins = ins') by (rewrite Y in Y'; destruct ins, ins'; auto; discriminate Y'). congruence.
Qed.

(** ** Writing *)
Lemma wt_spec : forall ws fuel l t ok t', (length l <= fuel)%nat -> t_shut t = false -> write_timeout ws fuel l t = (ok, t') ->
  exists m, t_sent t' = t_sent t ++ firstn m l /\ t_shut t' = false /\ (if ok then m = length l else (m < length l)%nat).
Proof.
  induction fuel as [|fuel IH]; intros l t ok t' Hf Hs E.
  - destruct l; [|simpl in Hf; lia]. cbn in E. injection E as <- <-. exists 0%nat. rewrite app_nil_r. auto.
  - destruct l as [|c l]; [cbn in E; injection E as <- <-; exists 0%nat; rewrite app_nil_r; auto|].
    cbn [write_timeout] in E. rewrite Hs in E. set (n := Z.min (ws (t_k t)) (Z.of_nat (length (c :: l)))) in *.
    destruct (n >? 0) eqn:P.
    2:{ injection E as <- <-. exists 0%nat. cbn [firstn t_sent t_shut length]. rewrite app_nil_r. split; [reflexivity|]. split; [auto|lia]. }
    assert (Nb : (1 <= Z.to_nat n <= length (c :: l))%nat) by (unfold n in *; lia).
    apply IH in E; cbn [t_shut t_sent]; auto; [|rewrite skipn_length; cbn [length] in *; lia].
    destruct E as (m & Es & Et & Em). cbn [t_sent] in Es. exists (Z.to_nat n + m)%nat. rewrite Es, <- app_assoc. split; [|split; [exact Et|]].
    + f_equal. rewrite <- (firstn_skipn (Z.to_nat n) (c :: l)) at 3. rewrite firstn_app, firstn_length.
      replace (Z.to_nat n + m - Nat.min (Z.to_nat n) (length (c :: l)))%nat with m by lia.
      rewrite (firstn_all2 (firstn (Z.to_nat n) (c :: l))); [reflexivity|]. rewrite firstn_length. lia.
    + rewrite skipn_length in Em. destruct ok; lia.
Qed.
Lemma wt_all : forall ws fuel l t, (forall k, 0 < ws k) -> (length l <= fuel)%nat -> t_shut t = false -> fst (write_timeout ws fuel l t) = true.
Proof.
  induction fuel as [|fuel IH]; intros l t Hw Hf Hs; [destruct l; [reflexivity|simpl in Hf; lia]|].
  destruct l as [|c l]; [reflexivity|]. cbn [write_timeout]. rewrite Hs. specialize (Hw (t_k t)) as Hk.
  set (n := Z.min (ws (t_k t)) (Z.of_nat (length (c :: l)))). assert (1 <= n) by (unfold n; cbn [length]; lia).
  replace (n >? 0) with true by lia. apply IH; auto. rewrite skipn_length. cbn [length] in *. lia.
Qed.
Lemma wt_shut : forall ws fuel l t, t_shut t = true -> t_sent (snd (write_timeout ws fuel l t)) = t_sent t /\ t_shut (snd (write_timeout ws fuel l t)) = true.
Proof. intros ws [|f] [|c l] t H; cbn [write_timeout]; rewrite ?H; cbn; auto. Qed.
Lemma puts_shut : forall ws ls t, t_shut t = true ->
  t_sent (fold_left (fun t l => put ws l t) ls t) = t_sent t /\ t_shut (fold_left (fun t l => put ws l t) ls t) = true.
Proof.
  induction ls as [|l ls IH]; intros t H; auto. cbn [fold_left].
  assert (P : t_sent (put ws l t) = t_sent t /\ t_shut (put ws l t) = true).
  { unfold put. destruct (_ >=? 512); auto. pose proof (wt_shut ws (length l) l t H) as (A & B).
    destruct (write_timeout ws (length l) l t) as (ok & t1). cbn in A, B. destruct ok; auto. }
  destruct P as (P1 & P2). destruct (IH _ P2) as (A & B). rewrite A, P1. auto.
Qed.
Lemma puts_spec : forall ws ls t, t_shut t = false -> Forall (fun l => (length l < 512)%nat) ls ->
  let t' := fold_left (fun t l => put ws l t) ls t in
  exists m, t_sent t' = t_sent t ++ firstn m (concat ls) /\
    (t_shut t' = false -> (length (concat ls) <= m)%nat) /\ (t_shut t' = true -> (m < length (concat ls))%nat).
Proof.
  induction ls as [|l ls IH]; intros t Hs F.
  - exists 0%nat. cbn. rewrite app_nil_r. split; auto. split; [lia|congruence].
  - rewrite Forall_cons_iff in F. destruct F as (F1 & F2). cbn [fold_left concat].
    assert (U : put ws l t = let '(ok, t1) := write_timeout ws (length l) l t in if ok then t1 else mkTx (t_sent t1) true (t_k t1))
      by (unfold put; replace (_ >=? 512) with false by lia; reflexivity). rewrite U. clear U.
    destruct (write_timeout ws (length l) l t) as (ok & t1) eqn:E. destruct (wt_spec _ _ _ _ _ _ (le_n _) Hs E) as (m & S1 & Sh & M).
    destruct ok.
    + subst m. rewrite firstn_all in S1. destruct (IH t1 Sh F2) as (m & S2 & A & B). exists (length l + m)%nat.
      split; [|rewrite app_length; split; intros X; [apply A in X|apply B in X]; lia].
      cbn zeta in S2. rewrite S2, S1, <- app_assoc. f_equal. rewrite firstn_app.
      rewrite (firstn_all2 l) by lia. f_equal. f_equal. lia.
    + set (t2 := mkTx (t_sent t1) true (t_k t1)). destruct (puts_shut ws ls t2 eq_refl) as (P1 & P2). exists m. rewrite P1, P2. cbn [t2 t_sent].
      split; [|split; [discriminate|intros _; rewrite app_length; lia]]. rewrite S1. f_equal.
      rewrite firstn_app. replace (m - length l)%nat with 0%nat by lia. cbn. rewrite app_nil_r. reflexivity.
Qed.
Lemma puts_all : forall ws ls t, (forall k, 0 < ws k) -> t_shut t = false -> Forall (fun l => (length l < 512)%nat) ls ->
  t_shut (fold_left (fun t l => put ws l t) ls t) = false.
Proof.
  induction ls as [|l ls IH]; intros t Hw Hs F; auto. rewrite Forall_cons_iff in F. destruct F as (F1 & F2). cbn [fold_left].
  apply IH; auto. unfold put. replace (_ >=? 512) with false by lia. pose proof (wt_all ws (length l) l t Hw (le_n _) Hs) as A.
  destruct (write_timeout ws (length l) l t) as (ok & t1) eqn:E. cbn in A. subst ok. destruct (wt_spec _ _ _ _ _ _ (le_n _) Hs E) as (m & _ & Sh & _). exact Sh.
Qed.

(** ** The whole text *)
Lemma split_lines : forall bs, Forall (fun b => ~ In 10 b) bs -> split 10 (concat (map (fun b => b ++ [10]) bs)) = bs ++ [[]].
Proof.
  induction bs as [|b bs IH]; intros F; [reflexivity|]. rewrite Forall_cons_iff in F. destruct F as (F1 & F2).
  cbn [map concat app]. rewrite <- app_assoc. cbn [app]. rewrite split_cons by auto. f_equal. auto.
Qed.
Lemma lines_read : forall nt kind lines items, Forall2 (line_ok nt kind) lines items ->
  exists bodies, lines = map (fun b => b ++ [10]) bodies /\ split 10 (concat lines) = bodies ++ [[]] /\
    Forall2 (says nt kind) bodies items /\ Forall (fun l => (length l < 512)%nat) lines.
Proof.
  intros nt kind lines items F. assert (X : exists bodies, lines = map (fun b => b ++ [10]) bodies /\ Forall (fun b => ~ In 10 b) bodies /\
    Forall2 (says nt kind) bodies items /\ Forall (fun l => (length l < 512)%nat) lines).
  { induction F as [|l it ls its (b & E & S & N & L) F IH]; [exists []; repeat split; auto|].
    destruct IH as (bs & -> & A & B & C). exists (b :: bs). cbn [map]. rewrite <- E. auto. }
  destruct X as (bs & -> & A & B & C). exists bs. repeat split; auto. apply split_lines. auto.
Qed.

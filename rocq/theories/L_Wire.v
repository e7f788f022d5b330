(** L_Wire.v: the parser of packets reads inside the packet, ends, and looks at one
    TLV at a time. *)
From Verif Require Import Base M_Util M_Filter S_Util L_Util M_Wire S_Wire.

(** ** Framing is total *)
Lemma frames_total : forall b, bytes_ok b -> exists l e, frames b l e.
Proof.
  intros b. remember (length b) as n eqn:E. revert b E.
  induction n as [n IH] using lt_wf_ind. intros b E B.
  destruct b as [|t b]; [do 2 eexists; constructor|].
  inversion B as [|? ? Bt Bb]; subst.
  destruct (Z.eq_dec t 0) as [->|Ht].
  - destruct (IH (length b) ltac:(cbn; lia) b eq_refl Bb) as (l & e & F).
    do 2 eexists. constructor. eauto.
  - destruct b as [|k b]; [do 2 eexists; apply fr_short1; auto|].
    inversion Bb as [|? ? Bk Bb']; subst.
    destruct (Z_lt_le_dec (Z.of_nat (length b)) k) as [L|L].
    + do 2 eexists. apply fr_short2; auto.
    + assert (L' : (Z.to_nat k <= length b)%nat) by (unfold byte_ok in Bk; lia).
      destruct (IH (length (skipn (Z.to_nat k) b)) ltac:(cbn; rewrite skipn_length; lia)
                  (skipn (Z.to_nat k) b) eq_refl (bytes_ok_skipn _ _ Bb')) as (l & e & F).
      exists ((t, firstn (Z.to_nat k) b) :: l), e.
      rewrite <- (firstn_skipn (Z.to_nat k) b) at 1. apply fr_tlv; auto.
      rewrite firstn_length. unfold byte_ok in Bk. lia.
Qed.

(** ** Refinement: what a computation gives on a part of the packet it also gives on
    the whole packet *)
Definition le_pr {A} (x y : pr A) : Prop := forall v, x = Ret v -> y = Ret v.

Lemma le_refl : forall A (x : pr A), le_pr x x.
Proof. unfold le_pr. auto. Qed.
Lemma le_bind : forall A B (x y : pr A) (f g : A -> pr B),
  le_pr x y -> (forall a, le_pr (f a) (g a)) -> le_pr (bind x f) (bind y g).
Proof.
  unfold le_pr, bind. intros A B x y f g L M v E. destruct x as [a| |]; try discriminate.
  rewrite (L a eq_refl). auto.
Qed.

(** [win pkt m w]: [w] is found in [pkt] at index [m]. *)
Definition win (pkt : list Z) (m : Z) (w : list Z) : Prop :=
  exists a c, pkt = a ++ w ++ c /\ m = zlen a.

Lemma zlen_app : forall A (a b : list A), zlen (a ++ b) = zlen a + zlen b.
Proof. intros. unfold zlen. rewrite app_length. lia. Qed.
Lemma zlen_cons : forall A (x : A) l, zlen (x :: l) = 1 + zlen l.
Proof. intros. unfold zlen. cbn [length]. lia. Qed.
Lemma zlen_nil : forall A, zlen (@nil A) = 0.
Proof. reflexivity. Qed.
Lemma zlen_nonneg : forall A (l : list A), 0 <= zlen l.
Proof. intros. unfold zlen. lia. Qed.

Lemma rd_le : forall pkt m w i j, win pkt m w -> i = m + j -> le_pr (rd w j) (rd pkt i).
Proof.
  intros pkt m w i j (a & c & -> & ->) -> v E. unfold rd in *.
  destruct ((0 <=? j) && (j <? zlen w)) eqn:G; [|discriminate]. injection E as <-.
  apply andb_prop in G. destruct G as [G1 G2]. rewrite !zlen_app.
  pose proof (zlen_nonneg _ a). pose proof (zlen_nonneg _ c).
  replace ((0 <=? zlen a + j) && (zlen a + j <? zlen a + (zlen w + zlen c))) with true
    by (symmetry; apply andb_true_intro; split; lia).
  f_equal. unfold zlen in *. rewrite app_nth2 by lia. rewrite app_nth1 by lia. f_equal. lia.
Qed.

Lemma rds_le : forall pkt m w i j n, win pkt m w -> i = m + j -> le_pr (rds w j n) (rds pkt i n).
Proof.
  intros pkt m w i j n (a & c & -> & ->) -> v E. unfold rds in *.
  destruct (n <=? 0) eqn:N; auto.
  destruct ((0 <=? j) && (j + n <=? zlen w)) eqn:G; [|discriminate]. injection E as <-.
  apply andb_prop in G. destruct G as [G1 G2]. rewrite !zlen_app.
  pose proof (zlen_nonneg _ a). pose proof (zlen_nonneg _ c).
  replace ((0 <=? zlen a + j) && (zlen a + j + n <=? zlen a + (zlen w + zlen c))) with true
    by (symmetry; apply andb_true_intro; split; lia).
  f_equal. unfold zlen in *.
  rewrite skipn_app. rewrite skipn_all2 by lia. cbn [app].
  replace (Z.to_nat (Z.of_nat (length a) + j) - length a)%nat with (Z.to_nat j) by lia.
  rewrite skipn_app. rewrite firstn_app.
  replace (Z.to_nat n - length (skipn (Z.to_nat j) w))%nat with 0%nat by (rewrite skipn_length; lia).
  cbn [firstn]. rewrite app_nil_r. reflexivity.
Qed.

Ltac le_tac :=
  repeat first
    [ apply le_refl
    | eapply rd_le; [eassumption | lia]
    | eapply rds_le; [eassumption | lia]
    | apply le_bind; [| intro]
    | match goal with
      | |- le_pr (match ?x with _ => _ end) _ => destruct x
      end ].

Lemma rd16_le : forall pkt m w i j, win pkt m w -> i = m + j -> le_pr (rd16 w j) (rd16 pkt i).
Proof. intros. unfold rd16. le_tac. Qed.
Lemma rd32_le : forall pkt m w i j, win pkt m w -> i = m + j -> le_pr (rd32 w j) (rd32 pkt i).
Proof. intros. unfold rd32. le_tac. Qed.

Lemma np_le : forall pkt m w i j ae plen om dp len, win pkt m w -> i = m + j ->
  le_pr (network_prefix w ae plen om j dp len) (network_prefix pkt ae plen om i dp len).
Proof. intros. unfold network_prefix. cbv zeta. le_tac. Qed.

(** ** Success with a postcondition *)
Definition post {A} (x : pr A) (P : A -> Prop) : Prop := exists v, x = Ret v /\ P v.

Lemma post_ret : forall A (v : A) (P : A -> Prop), P v -> post (Ret v) P.
Proof. intros. exists v. auto. Qed.
Lemma post_bind : forall A B (x : pr A) (f : A -> pr B) (P : A -> Prop) (Q : B -> Prop),
  post x P -> (forall a, P a -> post (f a) Q) -> post (bind x f) Q.
Proof. intros A B x f P Q (v & -> & Pv) H. cbn. auto. Qed.
Lemma post_weaken : forall A (x : pr A) (P Q : A -> Prop), post x P -> (forall v, P v -> Q v) -> post x Q.
Proof. intros A x P Q (v & E & Pv) H. exists v. auto. Qed.

Lemma rd_post : forall pkt i, bytes_ok pkt -> 0 <= i < zlen pkt -> post (rd pkt i) byte_ok.
Proof.
  intros pkt i B H. unfold rd.
  replace ((0 <=? i) && (i <? zlen pkt)) with true by (symmetry; apply andb_true_intro; split; lia).
  apply post_ret. apply (at_ok pkt (Z.to_nat i) B).
Qed.
Lemma rds_post : forall pkt i n, bytes_ok pkt -> (0 < n -> 0 <= i /\ i + n <= zlen pkt) ->
  post (rds pkt i n) (fun l => bytes_ok l /\ zlen l = Z.max 0 n).
Proof.
  intros pkt i n B H. unfold rds. destruct (n <=? 0) eqn:N.
  - apply post_ret. split; [constructor|]. rewrite zlen_nil. lia.
  - replace ((0 <=? i) && (i + n <=? zlen pkt)) with true by (symmetry; apply andb_true_intro; split; lia).
    apply post_ret. split; [apply bytes_ok_firstn, bytes_ok_skipn; auto|].
    unfold zlen in *. rewrite firstn_length, skipn_length. lia.
Qed.
Lemma rd16_post : forall pkt i, bytes_ok pkt -> 0 <= i -> i + 1 < zlen pkt ->
  post (rd16 pkt i) (fun v => 0 <= v < 65536).
Proof.
  intros. unfold rd16. eapply post_bind; [apply rd_post; auto; lia|]. intros a Ha.
  eapply post_bind; [apply rd_post; auto; lia|]. intros b Hb. apply post_ret.
  unfold un16, byte_ok in *. lia.
Qed.
Lemma rd32_post : forall pkt i, bytes_ok pkt -> 0 <= i -> i + 3 < zlen pkt ->
  post (rd32 pkt i) (fun v => 0 <= v < 4294967296).
Proof.
  intros. unfold rd32.
  do 4 (eapply post_bind; [apply rd_post; auto; lia|]; intros).
  apply post_ret. unfold un32, byte_ok in *. lia.
Qed.

(** ** Prefixes *)
Lemma pad16_ok : forall l, bytes_ok l -> addr_ok (pad16 l).
Proof.
  intros l B. unfold pad16, zeroes. split.
  - rewrite firstn_length, app_length, repeat_length. lia.
  - apply bytes_ok_firstn. apply bytes_ok_app. split; auto. apply bytes_ok_repeat0.
Qed.
Lemma firstn_upd : forall A k i (x : A) l, (k <= i)%nat -> firstn k (upd i x l) = firstn k l.
Proof.
  induction k as [|k IH]; intros i x l H; auto. destruct i; [lia|]. destruct l; auto.
  cbn [upd firstn]. f_equal. apply IH. lia.
Qed.
Lemma firstn_firstn_le : forall A k n (l : list A), (k <= n)%nat -> firstn k (firstn n l) = firstn k l.
Proof. intros. rewrite firstn_firstn. f_equal. lia. Qed.
Lemma normalize_firstn : forall k p n, addr_ok p -> 8 * Z.of_nat k <= n -> (k <= 16)%nat ->
  firstn k (normalize_prefix p n) = firstn k p.
Proof.
  intros k p n [L B] H K. unfold normalize_prefix. destruct (n >=? 128) eqn:N.
  - rewrite firstn_firstn_le by lia. auto.
  - assert (Q : (k <= Z.to_nat (n / 8))%nat) by lia.
    assert (F : firstn k (firstn (Z.to_nat (n / 8)) p ++ zeroes (16 - Z.to_nat (n / 8))) = firstn k p).
    { rewrite firstn_app. rewrite firstn_firstn_le by auto.
      rewrite firstn_length. replace (k - _)%nat with 0%nat by lia.
      cbn [firstn]. apply app_nil_r. }
    cbv zeta. destruct (negb (n mod 8 =? 0)); auto. rewrite firstn_upd by auto. auto.
Qed.
Lemma v4mapped_firstn : forall a, v4mapped a = true <-> firstn 12 a = firstn 12 v4prefix.
Proof. intros. unfold v4mapped, memcmp_n. rewrite Z.eqb_eq. apply memcmp_0. Qed.
Lemma v4mapped_normalize : forall p n, addr_ok p -> 96 <= n -> v4mapped (normalize_prefix p n) = v4mapped p.
Proof.
  intros p n A N. unfold v4mapped, memcmp_n. rewrite normalize_firstn; auto; lia.
Qed.
Lemma pad16_app : forall a b, (length a <= 16)%nat -> firstn (length a) (pad16 (a ++ b)) = a.
Proof.
  intros a b H. unfold pad16. rewrite firstn_firstn_le by auto.
  rewrite <- app_assoc. rewrite firstn_app, Nat.sub_diag. cbn [firstn]. rewrite app_nil_r.
  apply firstn_all.
Qed.
Lemma v4mapped_byte0 : forall a, at_ a 0 <> 0 -> v4mapped a = false.
Proof.
  intros a H. destruct (v4mapped a) eqn:E; auto. exfalso. apply H.
  apply v4mapped_firstn in E. destruct a as [|x a]; cbn in *; [discriminate|]. congruence.
Qed.

(** The length to which network_prefix normalises. *)
Definition np_len (ae plen : Z) : Z := if plen <? 0 then 128 else if ae_is_v4 ae then plen + 96 else plen.

(** What network_prefix gives. *)
Definition np_facts (ae plen len : Z) (r : option (Z * list Z)) : Prop :=
  match r with
  | None => True
  | Some (rc, x) =>
      rc <= len /\ addr_ok x /\
      (0 <= rc -> np_len ae plen <= 128 /\ normalize_prefix x (np_len ae plen) = x /\
        (ae_is_v4 ae = true -> v4mapped x = true) /\
        ((ae = 0 \/ ae = 3) -> v4mapped x = false))
  end.

Lemma norm_facts : forall l n, bytes_ok l -> 0 <= n <= 128 ->
  addr_ok (normalize_prefix (pad16 l) n) /\
  normalize_prefix (normalize_prefix (pad16 l) n) n = normalize_prefix (pad16 l) n.
Proof.
  intros l n B N. pose proof (pad16_ok l B) as P. split.
  - apply normalize_prefix_ok; auto. lia.
  - apply normalize_prefix_idem; auto.
Qed.

Lemma bytes_ok_v4 : forall n, bytes_ok (firstn n v4prefix).
Proof.
  intros. apply bytes_ok_firstn. unfold v4prefix, bytes_ok. repeat constructor; unfold byte_ok; lia.
Qed.
Lemma bytes_ok_ll : forall n, bytes_ok (firstn n llprefix).
Proof.
  intros. apply bytes_ok_firstn. unfold llprefix, bytes_ok. repeat constructor; unfold byte_ok; lia.
Qed.

Definition dp_ok (dp : option (list Z)) : Prop := match dp with Some q => addr_ok q | None => True end.

Lemma np_post : forall pkt ae plen om p dp len, bytes_ok pkt -> 0 <= p -> p + len <= zlen pkt -> 0 <= len ->
  -1 <= plen <= 255 -> 0 <= om -> dp_ok dp ->
  post (network_prefix pkt ae plen om p dp len) (np_facts ae plen len).
Proof.
  intros pkt ae plen om p dp len B Hp Hl Hl0 Hpl Hom Hdp. unfold network_prefix.
  fold (np_len ae plen).
  set (pb := if plen >=? 0 then (plen + 7) / 8 else if ae =? 1 then 4 else 16).
  assert (PB : 0 <= pb) by (unfold pb; destruct (plen >=? 0) eqn:G; [lia|destruct (ae =? 1); lia]).
  cbv zeta. destruct (pb >? 16) eqn:P16; [apply post_ret; exact I|].
  assert (PL : plen <= 128) by (unfold pb in P16; destruct (plen >=? 0) eqn:G; lia).
  unfold AE_WILDCARD, AE_IPV4, AE_V4VIAV6, AE_IPV6, AE_IPV6_LOCAL.
  destruct (ae =? 0) eqn:A0.
  { apply post_ret. assert (N : 0 <= np_len ae plen <= 128).
    { unfold np_len, ae_is_v4. replace ae with 0 by lia. cbn. destruct (plen <? 0) eqn:G; lia. }
    destruct (norm_facts [] _ (Forall_nil _) N) as [F1 F2].
    cbn [np_facts]. split; [lia|]. split; [exact F1|]. intros _. split; [lia|]. split; [exact F2|].
    split; [unfold ae_is_v4; lia|]. intros _.
    set (n := np_len ae plen) in *. clearbody n. clear - N.
    unfold normalize_prefix. destruct (n >=? 128) eqn:G; [reflexivity|]. cbv zeta.
    change (pad16 []) with (zeroes 16).
    assert (Z0 : forall k, (k <= 16)%nat -> firstn k (zeroes 16) ++ zeroes (16 - k) = zeroes 16).
    { intros k K. do 17 (destruct k as [|k]; [reflexivity|]). lia. }
    rewrite Z0 by lia. 
    assert (A : forall k, at_ (pad16 []) k = 0)
      by (intros k; change (pad16 []) with (repeat 0 16); apply nth_repeat).
    unfold zeroes. change [0; 0; 0; 0; 0; 0; 0; 0; 0; 0; 0; 0; 0; 0; 0; 0] with (pad16 []).
    rewrite A, Z.land_0_l.
    destruct (negb (n mod 8 =? 0)); [|reflexivity].
    assert (U : forall k, upd k 0 (repeat 0 16) = repeat 0 16).
    { intros k. do 17 (destruct k as [|k]; [reflexivity|]). reflexivity. }
    rewrite U. reflexivity. }
  destruct ((ae =? 1) || (ae =? 4)) eqn:A14.
  { assert (V4 : ae_is_v4 ae = true) by (unfold ae_is_v4; auto).
    destruct ((om >? 4) || (pb >? 4) || (pb >? om) && (len <? pb - om)) eqn:G; [apply post_ret; exact I|].
    assert (PB4 : om <= 4 /\ pb <= 4 /\ (om < pb -> pb - om <= len)) by lia.
    assert (N : 96 <= np_len ae plen <= 128).
    { unfold np_len. rewrite V4. destruct (plen <? 0) eqn:H; [lia|].
      unfold pb in PB4. destruct (plen >=? 0) eqn:H2; lia. }
    assert (C : forall base b, firstn 12 base = firstn 12 v4prefix -> bytes_ok base -> bytes_ok b ->
              np_facts ae plen len (Some (pb - om, normalize_prefix (pad16 (base ++ b)) (np_len ae plen)))).
    { intros base b Fb Bb Bb'.
      destruct (norm_facts (base ++ b) (np_len ae plen)) as [F1 F2];
        [apply bytes_ok_app; auto|lia|].
      cbn [np_facts]. split; [lia|]. split; [exact F1|]. intros _. split; [lia|]. split; [exact F2|].
      split; [|lia]. intros _. rewrite v4mapped_normalize; [|apply pad16_ok, bytes_ok_app; auto|lia].
      apply v4mapped_firstn.
      assert (Lb : (12 <= length base)%nat).
      { pose proof (firstn_length 12 base) as X. rewrite Fb in X. change (length (firstn 12 v4prefix)) with 12%nat in X. lia. }
      unfold pad16. rewrite firstn_firstn_le by lia. rewrite <- app_assoc, firstn_app.
      replace (12 - length base)%nat with 0%nat by lia. cbn [firstn]. rewrite app_nil_r. exact Fb. }
    destruct (om =? 0) eqn:O0.
    - eapply post_bind; [apply rds_post; [auto|lia]|]. intros b [Bb _]. apply post_ret.
      apply C; auto. apply bytes_ok_v4.
    - destruct dp as [q|]; [|apply post_ret; exact I].
      destruct (v4mapped q) eqn:Q; [|apply post_ret; exact I].
      eapply post_bind; [apply rds_post; [auto|lia]|]. intros b [Bb _]. apply post_ret.
      apply C; auto.
      + apply v4mapped_firstn in Q. rewrite <- Q. apply firstn_firstn_le. lia.
      + apply bytes_ok_firstn. apply Hdp. }
  destruct (ae =? 2) eqn:A2.
  { assert (V4 : ae_is_v4 ae = false) by (unfold ae_is_v4; lia).
    destruct ((om >? 16) || (pb >? om) && (len <? pb - om)) eqn:G; [apply post_ret; exact I|].
    assert (N : 0 <= np_len ae plen <= 128).
    { unfold np_len. rewrite V4. destruct (plen <? 0) eqn:H; lia. }
    assert (C : forall base b, bytes_ok base -> bytes_ok b ->
              np_facts ae plen len (Some (pb - om, normalize_prefix (pad16 (base ++ b)) (np_len ae plen)))).
    { intros base b Bb Bb'.
      destruct (norm_facts (base ++ b) (np_len ae plen)) as [F1 F2];
        [apply bytes_ok_app; auto|lia|].
      cbn [np_facts]. split; [lia|]. split; [exact F1|]. intros _. split; [lia|]. split; [exact F2|].
      split; [congruence|lia]. }
    destruct (om =? 0) eqn:O0.
    - eapply post_bind; [apply rds_post; [auto|lia]|]. intros b [Bb _]. apply post_ret.
      apply (C [] b); auto. constructor.
    - destruct dp as [q|]; [|apply post_ret; exact I].
      destruct (v4mapped q) eqn:Q; [apply post_ret; exact I|].
      eapply post_bind; [apply rds_post; [auto|lia]|]. intros b [Bb _]. apply post_ret.
      apply C; auto. apply bytes_ok_firstn. apply Hdp. }
  destruct (ae =? 3) eqn:A3; [|apply post_ret; exact I].
  assert (V4 : ae_is_v4 ae = false) by (unfold ae_is_v4; lia).
  destruct ((pb >? 8) && (len <? pb - 8)) eqn:G; [apply post_ret; exact I|].
  assert (N : 0 <= np_len ae plen <= 128).
  { unfold np_len. rewrite V4. destruct (plen <? 0) eqn:H; lia. }
  eapply post_bind; [apply rds_post; [auto|lia]|]. intros b [Bb Lb]. apply post_ret.
  destruct (norm_facts (firstn 8 llprefix ++ b) (np_len ae plen)) as [F1 F2];
    [apply bytes_ok_app; split; auto; apply bytes_ok_ll|lia|].
  cbn [np_facts]. split; [lia|]. split; [exact F1|]. intros R. split; [lia|]. split; [exact F2|].
  split; [congruence|]. intros _.
  assert (NL : 8 <= np_len ae plen).
  { unfold np_len. rewrite V4. destruct (plen <? 0) eqn:H; [lia|].
    unfold pb in R. destruct (plen >=? 0) eqn:H2; lia. }
  apply v4mapped_byte0.
  assert (F : firstn 1 (normalize_prefix (pad16 (firstn 8 llprefix ++ b)) (np_len ae plen)) = [254]).
  { rewrite normalize_firstn; [reflexivity| |lia|lia].
    apply pad16_ok, bytes_ok_app; split; auto; apply bytes_ok_ll. }
  unfold at_. rewrite <- (nth_firstn _ 1 _ 0 0) by lia. rewrite F. cbn. lia.
Qed.

(** ** Sub-TLVs *)
Lemma win_refl : forall w, win w 0 w.
Proof. intros. exists [], []. rewrite app_nil_r. auto. Qed.
Lemma win_app : forall pkt m a v c, win pkt m (a ++ v ++ c) -> win pkt (m + zlen a) v.
Proof.
  intros pkt m a v c (x & y & -> & ->). exists (x ++ a), (c ++ y). split.
  - rewrite <- !app_assoc. auto.
  - rewrite zlen_app. auto.
Qed.
Lemma rd_win : forall pkt m w j, win pkt m w -> 0 <= j < zlen w -> rd pkt (m + j) = Ret (nth (Z.to_nat j) w 0).
Proof.
  intros pkt m w j W J. apply (rd_le pkt m w (m + j) j W eq_refl).
  unfold rd. replace ((0 <=? j) && (j <? zlen w)) with true by (symmetry; apply andb_true_intro; split; lia). auto.
Qed.

(** ** The same result in a window and in the packet, with a postcondition *)
Definition both {A} (x y : pr A) (P : A -> Prop) : Prop := exists v, x = Ret v /\ y = Ret v /\ P v.
Lemma both_of : forall A (x y : pr A) P, le_pr x y -> post x P -> both x y P.
Proof. intros A x y P L (v & E & Pv). exists v. auto. Qed.
Lemma both_ret : forall A (v : A) (P : A -> Prop), P v -> both (Ret v) (Ret v) P.
Proof. intros. exists v. auto. Qed.
Lemma both_bind : forall A B (x y : pr A) (f g : A -> pr B) P Q,
  both x y P -> (forall a, P a -> both (f a) (g a) Q) -> both (bind x f) (bind y g) Q.
Proof. intros A B x y f g P Q (v & -> & -> & Pv) H. cbn. auto. Qed.
Lemma both_rd : forall pkt m w i j, win pkt m w -> i = m + j -> bytes_ok w -> 0 <= j < zlen w ->
  both (rd w j) (rd pkt i) byte_ok.
Proof. intros. apply both_of; [eapply rd_le; eauto|apply rd_post; auto]. Qed.
Lemma both_rds : forall pkt m w i j n, win pkt m w -> i = m + j -> bytes_ok w ->
  (0 < n -> 0 <= j /\ j + n <= zlen w) ->
  both (rds w j n) (rds pkt i n) (fun l => bytes_ok l /\ zlen l = Z.max 0 n).
Proof. intros. apply both_of; [eapply rds_le; eauto|apply rds_post; auto]. Qed.
Lemma both_rd16 : forall pkt m w i j, win pkt m w -> i = m + j -> bytes_ok w -> 0 <= j -> j + 1 < zlen w ->
  both (rd16 w j) (rd16 pkt i) (fun v => 0 <= v < 65536).
Proof. intros. apply both_of; [eapply rd16_le; eauto|apply rd16_post; auto]. Qed.
Lemma both_rd32 : forall pkt m w i j, win pkt m w -> i = m + j -> bytes_ok w -> 0 <= j -> j + 3 < zlen w ->
  both (rd32 w j) (rd32 pkt i) (fun v => 0 <= v < 4294967296).
Proof. intros. apply both_of; [eapply rd32_le; eauto|apply rd32_post; auto]. Qed.
Lemma both_np : forall pkt m w i j ae plen om dp len, win pkt m w -> i = m + j -> bytes_ok w ->
  0 <= j -> j + len <= zlen w -> 0 <= len -> -1 <= plen <= 255 -> 0 <= om -> dp_ok dp ->
  both (network_prefix w ae plen om j dp len) (network_prefix pkt ae plen om i dp len) (np_facts ae plen len).
Proof. intros. apply both_of; [eapply np_le; eauto|apply np_post; auto]. Qed.

(** Steps of the sub-TLV loops *)
Definition opt_post {A} (P : A -> Prop) (r : option A) : Prop :=
  match r with Some s => P s | None => True end.
Definition step_ok {St} (F : list Z -> St -> Z -> Z -> Z -> pr (option St)) (inv : St -> Prop) : Prop :=
  forall pkt m v s t, win pkt m v -> bytes_ok v -> inv s ->
  both (F v s t 0 (zlen v)) (F pkt s t m (zlen v)) (opt_post inv).

Section SubLoop.
Variable St : Type.
Variable F : list Z -> St -> Z -> Z -> Z -> pr (option St).
Variable inv : St -> Prop.
Definition sub1 (s : St) (t : Z) (v : list Z) : option St :=
  match F v s t 0 (zlen v) with Ret r => r | _ => None end.
Fixpoint sub_fold (s : St) (fs : list (Z * list Z)) (full : bool) : option St :=
  match fs with
  | [] => if full then Some s else None
  | (t, v) :: fs =>
      if t =? SUBTLV_PADN then sub_fold s fs full
      else match sub1 s t v with None => None | Some s' => sub_fold s' fs full end
  end.
Hypothesis Fok : step_ok F inv.

Lemma sub_loop_frames : forall b fs full, frames b fs full ->
  forall pkt off b0 f s, win pkt off (b0 ++ b) -> bytes_ok b -> inv s -> (length b < f)%nat ->
  sub_loop (F pkt) pkt off (zlen b0 + zlen b) f (zlen b0) s = Ret (sub_fold s fs full) /\
  (match sub_fold s fs full with Some s' => inv s' | None => True end).
Proof.
  induction 1 as [|b l e Fr IH|t n v b l e Ht Hn Fr IH|t Ht|t n b Ht Hn];
    intros pkt off b0 f s W B I Lf; (destruct f as [|f]; [lia|]); cbn [sub_loop sub_fold].
  - rewrite zlen_nil. replace (zlen b0 <? zlen b0 + 0) with false by lia. auto.
  - rewrite zlen_cons. pose proof (zlen_nonneg _ b) as Nb. pose proof (zlen_nonneg _ b0) as Nb0.
    replace (zlen b0 <? zlen b0 + (1 + zlen b)) with true by lia.
    rewrite (rd_win _ _ _ _ W) by (rewrite zlen_app, zlen_cons; lia).
    cbn [bind]. replace (nth (Z.to_nat (zlen b0)) (b0 ++ 0 :: b) 0) with 0
      by (unfold zlen; rewrite Nat2Z.id, nth_middle; auto).
    unfold SUBTLV_PAD1. cbn [Z.eqb].
    inversion B; subst.
    specialize (IH pkt off (b0 ++ [0]) f s). rewrite zlen_app, zlen_cons, zlen_nil in IH.
    replace (zlen b0 + (1 + zlen b)) with (zlen b0 + (1 + 0) + zlen b) by lia.
    replace (zlen b0 + 1) with (zlen b0 + (1 + 0)) by lia.
    apply IH; auto. { rewrite <- app_assoc. auto. } cbn in Lf. lia.
  - pose proof (zlen_nonneg _ b) as Nb. pose proof (zlen_nonneg _ b0) as Nb0.
    pose proof (zlen_nonneg _ v) as Nv. change (Z.of_nat (length v)) with (zlen v) in Hn.
    rewrite !zlen_cons, zlen_app.
    replace (zlen b0 <? zlen b0 + (1 + (1 + (zlen v + zlen b)))) with true by lia.
    rewrite (rd_win _ _ _ _ W) by (rewrite zlen_app, !zlen_cons, zlen_app; lia).
    cbn [bind]. replace (nth (Z.to_nat (zlen b0)) (b0 ++ t :: n :: v ++ b) 0) with t
      by (unfold zlen; rewrite Nat2Z.id, nth_middle; auto).
    unfold SUBTLV_PAD1. replace (t =? 0) with false by lia.
    replace (zlen b0 + 2 >? zlen b0 + (1 + (1 + (zlen v + zlen b)))) with false by lia.
    replace (off + zlen b0 + 1) with (off + (zlen b0 + 1)) by lia.
    rewrite (rd_win _ _ _ _ W) by (rewrite zlen_app, !zlen_cons, zlen_app; lia).
    cbn [bind]. replace (nth (Z.to_nat (zlen b0 + 1)) (b0 ++ t :: n :: v ++ b) 0) with n
      by (unfold zlen; rewrite app_nth2 by lia;
          replace (Z.to_nat (Z.of_nat (length b0) + 1) - length b0)%nat with 1%nat by lia; auto).
    replace (zlen b0 + n + 2 >? zlen b0 + (1 + (1 + (zlen v + zlen b)))) with false by lia.
    inversion B as [|? ? Bt B1]; subst. inversion B1 as [|? ? Bn B2]; subst.
    apply bytes_ok_app in B2. destruct B2 as [Bv Bb].
    assert (W' : win pkt off ((b0 ++ t :: zlen v :: v) ++ b)) by (rewrite <- app_assoc; cbn [app]; auto).
    assert (E1 : zlen b0 + (1 + (1 + (zlen v + zlen b))) = zlen (b0 ++ t :: zlen v :: v) + zlen b)
      by (rewrite zlen_app, !zlen_cons; lia).
    assert (E2 : zlen b0 + zlen v + 2 = zlen (b0 ++ t :: zlen v :: v))
      by (rewrite zlen_app, !zlen_cons; lia).
    assert (L' : (length b < f)%nat) by (cbn [length] in Lf; rewrite app_length in Lf; lia).
    rewrite E1, E2. unfold SUBTLV_PADN. destruct (t =? 1) eqn:P1.
    + apply IH; auto.
    + assert (Wv : win pkt (off + zlen b0 + 2) v).
      { replace (off + zlen b0 + 2) with (off + zlen (b0 ++ [t; zlen v]))
          by (rewrite zlen_app, !zlen_cons, zlen_nil; lia).
        apply win_app with (c := b). rewrite <- app_assoc. cbn [app]. auto. }
      destruct (Fok pkt _ v s t Wv Bv I) as (r & Er & Er' & Ir). unfold sub1. rewrite Er, Er'.
      cbn [bind].
      destruct r as [s'|]; auto.
  - rewrite zlen_cons, zlen_nil.
    pose proof (zlen_nonneg _ b0) as Nb0.
    replace (zlen b0 <? zlen b0 + (1 + 0)) with true by lia.
    rewrite (rd_win _ _ _ _ W) by (rewrite zlen_app, zlen_cons, zlen_nil; lia).
    cbn [bind]. replace (nth (Z.to_nat (zlen b0)) (b0 ++ [t]) 0) with t
      by (unfold zlen; rewrite Nat2Z.id, nth_middle; auto).
    unfold SUBTLV_PAD1. replace (t =? 0) with false by lia.
    replace (zlen b0 + 2 >? zlen b0 + (1 + 0)) with true by lia. auto.
  - change (Z.of_nat (length b)) with (zlen b) in Hn.
    pose proof (zlen_nonneg _ b) as Nb. pose proof (zlen_nonneg _ b0) as Nb0.
    rewrite !zlen_cons.
    replace (zlen b0 <? zlen b0 + (1 + (1 + zlen b))) with true by lia.
    rewrite (rd_win _ _ _ _ W) by (rewrite zlen_app, !zlen_cons; lia).
    cbn [bind]. replace (nth (Z.to_nat (zlen b0)) (b0 ++ t :: n :: b) 0) with t
      by (unfold zlen; rewrite Nat2Z.id, nth_middle; auto).
    unfold SUBTLV_PAD1. replace (t =? 0) with false by lia.
    replace (zlen b0 + 2 >? zlen b0 + (1 + (1 + zlen b))) with false by lia.
    replace (off + zlen b0 + 1) with (off + (zlen b0 + 1)) by lia.
    rewrite (rd_win _ _ _ _ W) by (rewrite zlen_app, !zlen_cons; lia).
    cbn [bind]. replace (nth (Z.to_nat (zlen b0 + 1)) (b0 ++ t :: n :: b) 0) with n
      by (unfold zlen; rewrite app_nth2 by lia;
          replace (Z.to_nat (Z.of_nat (length b0) + 1) - length b0)%nat with 1%nat by lia; auto).
    replace (zlen b0 + n + 2 >? zlen b0 + (1 + (1 + zlen b))) with true by lia. auto.
Qed.

Lemma subs_frames : forall b fs full pkt off s, frames b fs full -> win pkt off b -> bytes_ok b -> inv s ->
  subs (F pkt) pkt off (zlen b) s = Ret (sub_fold s fs full) /\
  (match sub_fold s fs full with Some s' => inv s' | None => True end).
Proof.
  intros b fs full pkt off s Fr W B I. unfold subs.
  exact (sub_loop_frames b fs full Fr pkt off [] (S (Z.to_nat (zlen b))) s W B I
           ltac:(unfold zlen; lia)).
Qed.

(** In a window, the same result as on the window alone. *)
Lemma both_subs : forall w pkt m i j alen s, win pkt m w -> i = m + j -> bytes_ok w -> inv s ->
  0 <= j -> j + alen <= zlen w ->
  both (subs (F w) w j alen s) (subs (F pkt) pkt i alen s) (opt_post inv).
Proof.
  intros w pkt m i off alen s W -> B I O L. destruct (Z_le_gt_dec alen 0) as [N|N].
  - exists (Some s). unfold subs, sub_loop. replace (0 <? alen) with false by lia. auto.
  - set (b := firstn (Z.to_nat alen) (skipn (Z.to_nat off) w)).
    assert (Lb : alen = zlen b).
    { unfold b, zlen in *. rewrite firstn_length, skipn_length. lia. }
    assert (Ww : w = firstn (Z.to_nat off) w ++ b ++ skipn (Z.to_nat alen) (skipn (Z.to_nat off) w)).
    { unfold b. rewrite firstn_skipn, firstn_skipn. auto. }
    assert (Lo : off = zlen (firstn (Z.to_nat off) w)).
    { unfold zlen in *. rewrite firstn_length. lia. }
    assert (Bb : bytes_ok b) by (apply bytes_ok_firstn, bytes_ok_skipn; auto).
    destruct (frames_total b Bb) as (fs & full & Fr).
    assert (W1 : win w off b).
    { rewrite Lo. replace (zlen (firstn (Z.to_nat off) w)) with (0 + zlen (firstn (Z.to_nat off) w)) by lia.
      apply win_app with (c := skipn (Z.to_nat alen) (skipn (Z.to_nat off) w)).
      rewrite <- Ww. apply win_refl. }
    assert (W2 : win pkt (m + off) b).
    { rewrite Lo. apply win_app with (c := skipn (Z.to_nat alen) (skipn (Z.to_nat off) w)).
      rewrite <- Ww. auto. }
    rewrite Lb.
    destruct (subs_frames b fs full w off s Fr W1 Bb I) as [E1 I1].
    destruct (subs_frames b fs full pkt (m + off) s Fr W2 Bb I) as [E2 _].
    exists (sub_fold s fs full). auto.
Qed.
End SubLoop.

(** *** What the sub-TLV parsers return *)
Definition src_ok (ae : Z) (s : srcp) : Prop :=
  let '(p, l, b) := s in
  addr_ok p /\ 0 <= l <= 128 /\ normalize_prefix p l = p /\
  (ae_is_v4 ae = true -> v4mapped p = true /\ 96 <= l) /\
  ((ae = 0 \/ ae = 3) -> v4mapped p = false) /\
  (b = false -> (p, l, b) = no_src ae).
(** for Updates and Requests *)
Definition src_ok1 (ae : Z) (s : srcp) : Prop :=
  src_ok ae s /\ (snd s = true -> snd (fst s) <> (if ae_is_v4 ae then 96 else 0)).

Lemma no_src_ok : forall ae, src_ok1 ae (no_src ae).
Proof.
  intros ae. unfold no_src. destruct (ae_is_v4 ae) eqn:V; split; cbn [src_ok fst snd]; try discriminate.
  - repeat split; try lia; try discriminate; try (unfold bytes_ok; repeat constructor; unfold byte_ok; lia).
    + intros [-> | ->]; discriminate.
    + intros _. unfold no_src. rewrite V. reflexivity.
  - repeat split; try lia; try discriminate; try (unfold bytes_ok; repeat constructor; unfold byte_ok; lia).
    all: try congruence.
    intros _. unfold no_src. rewrite V. reflexivity.
Qed.

Lemma np_source : forall ae l len rc p b, np_facts ae l len (Some (rc, p)) -> 0 <= rc -> byte_ok l ->
  src_ok ae (p, u8 (if ae_is_v4 ae then l + 96 else l), b) \/ b = false.
Proof.
  intros ae l len rc p b (H1 & H2 & H3) R Bl. destruct b; [left|auto].
  destruct (H3 R) as (N1 & N2 & N3 & N4). unfold np_len in *. unfold byte_ok in Bl.
  replace (l <? 0) with false in * by lia.
  assert (U : u8 (if ae_is_v4 ae then l + 96 else l) = if ae_is_v4 ae then l + 96 else l).
  { unfold u8. destruct (ae_is_v4 ae); lia. }
  rewrite U. cbn [src_ok]. repeat split; try apply H2; auto; try discriminate.
  all: try (destruct (ae_is_v4 ae) eqn:V; lia).
Qed.

Lemma source_step_ok : forall ae, step_ok (fun pkt => source_step pkt ae) (src_ok1 ae).
Proof.
  intros ae pkt m v s t W B Hs. unfold source_step.
  destruct (t =? SUBTLV_SOURCE_PREFIX).
  2:{ unfold unknown_sub. apply both_ret. destruct (bit t 128); cbn; auto. }
  destruct (zlen v <? 1) eqn:L1; [apply both_ret; exact I|].
  eapply both_bind; [eapply both_rd; eauto; lia|]. intros l Bl.
  destruct (l =? 0) eqn:L0; [apply both_ret; exact I|].
  destruct (snd s); [apply both_ret; exact I|].
  eapply both_bind; [eapply both_np; eauto; unfold byte_ok in *; try lia; exact I|].
  intros [[rc p]|] Fa; [|apply both_ret; exact I].
  destruct (rc <? 0) eqn:R; [apply both_ret; exact I|].
  apply both_ret. cbn [opt_post]. split.
  - destruct (np_source _ _ _ _ _ true Fa ltac:(lia) Bl) as [X|X]; [exact X|discriminate].
  - intros _. cbn [fst snd]. destruct Fa as (_ & _ & F3). destruct (F3 ltac:(lia)) as (N1 & _).
    unfold np_len, byte_ok, u8 in *. replace (l <? 0) with false in * by lia.
    destruct (ae_is_v4 ae); lia.
Qed.

Lemma seqno_source_step_ok : forall ae, step_ok (fun pkt => seqno_source_step pkt ae) (src_ok ae).
Proof.
  intros ae pkt m v s t W B Hs. unfold seqno_source_step.
  destruct (t =? SUBTLV_SOURCE_PREFIX).
  2:{ unfold unknown_sub. apply both_ret. destruct (bit t 128); cbn; auto. }
  destruct (zlen v <? 1) eqn:L1; [apply both_ret; exact I|].
  eapply both_bind; [eapply both_rd; eauto; lia|]. intros l Bl.
  eapply both_bind; [eapply both_np; eauto; unfold byte_ok in *; try lia; exact I|].
  intros [[rc p]|] Fa; [|apply both_ret; exact I].
  destruct (rc <? 0) eqn:R; [apply both_ret; exact I|].
  apply both_ret. cbn [opt_post].
  destruct (np_source _ _ _ _ _ true Fa ltac:(lia) Bl) as [X|X]; [exact X|discriminate].
Qed.

Definition u32_ok (x : Z) : Prop := 0 <= x < 4294967296.
Lemma hello_step_ok : step_ok hello_step (fun s => match s with Some v => u32_ok v | None => True end).
Proof.
  intros pkt m v s t W B Hs. unfold hello_step.
  destruct (t =? SUBTLV_TIMESTAMP).
  2:{ unfold unknown_sub. apply both_ret. destruct (bit t 128); cbn; auto. }
  destruct (zlen v >=? 4) eqn:L1; [|apply both_ret; exact Hs].
  eapply both_bind; [eapply both_rd32; eauto; lia|]. intros l Bl. apply both_ret. exact Bl.
Qed.
Lemma ihu_step_ok : step_ok ihu_step (fun s => match s with Some (a, b) => u32_ok a /\ u32_ok b | None => True end).
Proof.
  intros pkt m v s t W B Hs. unfold ihu_step.
  destruct (t =? SUBTLV_TIMESTAMP).
  2:{ unfold unknown_sub. apply both_ret. destruct (bit t 128); cbn; auto. }
  destruct (zlen v >=? 8) eqn:L1; [|apply both_ret; exact Hs].
  eapply both_bind; [eapply both_rd32; eauto; lia|]. intros l Bl.
  eapply both_bind; [eapply both_rd32; eauto; lia|]. intros l' Bl'. apply both_ret. split; auto.
Qed.
Lemma other_step_ok : step_ok (fun _ => other_step) (fun _ => True).
Proof.
  intros pkt m v s t W B Hs. unfold other_step, unknown_sub. apply both_ret. destruct (bit t 128); exact I.
Qed.

(** ** TLVs *)
Definition oid_ok (o : option (list Z)) : Prop := match o with Some i => id_ok i | None => True end.
Definition pst_ok (p : pst) : Prop :=
  oid_ok (p_id p) /\ dp_ok (p_v4 p) /\ dp_ok (p_v6 p) /\ dp_ok (p_46 p) /\ dp_ok (p_nh4 p) /\ dp_ok (p_nh6 p).
Definition u16b (x : Z) : Prop := 0 <= x < 65536.

Definition act_ok (a : action) : Prop :=
  match a with
  | AAck n i => u16b n /\ u16b i
  | AHello _ q i ts => u16b q /\ u16b i /\ match ts with Some v => u32_ok v | None => True end
  | AIhu c i => u16b c /\ u16b i
  | AWithdraw => True
  | AUpdate id d q m i nh => oid_ok id /\ dest_ok d /\ u16b q /\ u16b m /\ u16b i /\ dp_ok nh /\
      (m < 65535 -> id <> None /\ nh <> None)
  | ARequest None => True
  | ARequest (Some d) => dest_ok d
  | ASeqno d h q id => dest_ok d /\ byte_ok h /\ u16b q /\ id_ok id
  | ARtt a b => u32_ok a /\ u32_ok b
  end.
Definition res_ok (r : pst * list action) : Prop := pst_ok (fst r) /\ Forall act_ok (snd r).

Lemma both_ignore : forall p, pst_ok p -> both (ignore p) (ignore p) res_ok.
Proof. intros. apply both_ret. split; [auto|constructor]. Qed.
Lemma both_act : forall p a, pst_ok p -> act_ok a -> both (Ret (p, [a])) (Ret (p, [a])) res_ok.
Proof. intros. apply both_ret. split; [auto|constructor; [auto|constructor]]. Qed.

Definition handler_ok (h : list Z -> Z -> Z -> pst -> step) : Prop :=
  forall pkt m w len p, win pkt m w -> bytes_ok w -> zlen w = len + 2 -> 0 <= len -> pst_ok p ->
  both (h w 0 len p) (h pkt m len p) res_ok.

Ltac b_rd := eapply both_bind; [eapply both_rd; eauto; lia|]; intros ? ?.
Ltac b_subs F H := eapply both_bind;
  [eapply (both_subs _ F _ H); [eassumption|lia|assumption|first [exact I|apply no_src_ok]|lia|lia]|].
Ltac b_rd16 := eapply both_bind; [eapply both_rd16; eauto; lia|]; intros ? ?.

Lemma p_ack_req_ok : handler_ok p_ack_req.
Proof.
  intros pkt m w len p W B L L0 P. unfold p_ack_req.
  destruct (len <? 6) eqn:L6; [apply both_ignore; auto|].
  b_rd16. b_rd16.
  b_subs (fun _ : list Z => other_step) other_step_ok.
  intros [s|] Hs; [|apply both_ignore; auto]. apply both_act; auto. split; auto.
Qed.

Lemma p_ack_ok : handler_ok p_ack.
Proof.
  intros pkt m w len p W B L L0 P. unfold p_ack.
  eapply both_bind; [|intros; apply both_ignore; auto].
  destruct (Z_le_gt_dec (len - 2) 0) as [N|N].
  - exists (Some tt). unfold subs, sub_loop. replace (0 <? len - 2) with false by lia.
    split; [|split]; auto. instantiate (1 := fun _ => True). exact I.
  - destruct (both_subs _ (fun _ : list Z => other_step) _ other_step_ok w pkt m (m + 4) (0 + 4) (len - 2) tt W
                ltac:(lia) B I ltac:(lia) ltac:(lia)) as (v & E1 & E2 & _).
    exists v. auto.
Qed.

Lemma p_hello_ok : handler_ok p_hello_tlv.
Proof.
  intros pkt m w len p W B L L0 P. unfold p_hello_tlv.
  destruct (len <? 6) eqn:L6; [apply both_ignore; auto|].
  b_rd. b_rd16. b_rd16.
  b_subs hello_step hello_step_ok.
  intros [s|] Hs; [|apply both_ignore; auto]. apply both_act.
  - destruct s; auto.
  - cbn [act_ok]. split; auto.
Qed.

Lemma np_addr : forall ae plen len rc x, np_facts ae plen len (Some (rc, x)) -> addr_ok x /\ rc <= len.
Proof. intros ae plen len rc x (H1 & H2 & _). auto. Qed.

Lemma p_ihu_ok : forall c, handler_ok (p_ihu c).
Proof.
  intros c pkt m w len p W B L L0 P. unfold p_ihu.
  destruct (len <? 6) eqn:L6; [apply both_ignore; auto|].
  b_rd. destruct (negb (known_ae a)); [apply both_ignore; auto|].
  b_rd16. b_rd16. unfold network_address.
  eapply both_bind; [eapply both_np; eauto; try lia; exact I|].
  intros [[rc x]|] Fa; [|apply both_ignore; auto]. apply np_addr in Fa. destruct Fa as [Ax Rx].
  destruct (rc <? 0) eqn:R; [apply both_ignore; auto|].
  destruct ((a =? AE_WILDCARD) || _); [|apply both_ignore; auto].
  b_subs ihu_step ihu_step_ok.
  intros [s|] Hs; [|apply both_ignore; auto]. apply both_act.
  - destruct s as [[? ?]|]; auto.
  - split; auto.
Qed.

Lemma p_router_id_ok : handler_ok p_router_id.
Proof.
  intros pkt m w len p W B L L0 P. unfold p_router_id.
  destruct (len <? 10) eqn:L6; [apply both_ignore; destruct P; split; cbn; tauto|].
  eapply both_bind; [eapply both_rds; eauto; lia|]. intros id [Bi Li].
  b_subs (fun _ : list Z => other_step) other_step_ok.
  intros _ _. apply both_ignore. destruct P. split; cbn; [|tauto].
  split; auto. unfold zlen in Li. lia.
Qed.

Lemma p_nh_ok : handler_ok p_nh.
Proof.
  intros pkt m w len p W B L L0 P. unfold p_nh.
  assert (P' : pst_ok (set_p_nh4 None (set_p_nh6 None p))) by (unfold pst_ok in *; cbn; tauto).
  destruct (len <? 2) eqn:L6; [apply both_ignore; auto|].
  b_rd. unfold network_address.
  eapply both_bind; [eapply both_np; eauto; try lia; exact I|].
  intros r Fa. destruct (negb (known_ae a)); [apply both_ignore; auto|].
  destruct (a =? 0); [apply both_ignore; auto|].
  destruct r as [[rc x]|]; [|apply both_ignore; auto].
  apply np_addr in Fa. destruct Fa as [Ax Rx].
  destruct (rc <? 0) eqn:R; [apply both_ignore; auto|].
  destruct (a =? AE_V4VIAV6); [apply both_ignore; auto|].
  b_subs (fun _ : list Z => other_step) other_step_ok.
  intros _ _. apply both_ignore. unfold pst_ok in *. destruct (a =? AE_IPV4); cbn; tauto.
Qed.

Lemma wire_dest_of : forall ae plen0 len rc x src splen b,
  np_facts ae plen0 len (Some (rc, x)) -> 0 <= rc -> byte_ok plen0 -> src_ok ae (src, splen, b) ->
  known_ae ae = true -> 0 <= ae ->
  dest_ok (mkDest x (u8 (plen0 + (if ae_is_v4 ae then 96 else 0))) src splen).
Proof.
  intros ae plen0 len rc x src splen b (H1 & H2 & H3) R Bp (S1 & S2 & S3 & S4 & S5 & S6) K A0.
  destruct (H3 R) as (N1 & N2 & N3 & N4). unfold np_len, byte_ok in *.
  replace (plen0 <? 0) with false in * by lia.
  assert (U : u8 (plen0 + (if ae_is_v4 ae then 96 else 0)) = if ae_is_v4 ae then plen0 + 96 else plen0).
  { unfold u8. destruct (ae_is_v4 ae); lia. }
  rewrite U. split; cbn [d_prefix d_plen d_src d_splen]; split; auto; split; auto.
  destruct (ae_is_v4 ae); lia.
Qed.

Lemma skipn_ok : forall k n x, addr_ok x -> (k + n <= 16)%nat ->
  bytes_ok (firstn n (skipn k x)) /\ length (firstn n (skipn k x)) = n.
Proof.
  intros k n x [L B] H. split; [apply bytes_ok_firstn, bytes_ok_skipn; auto|].
  rewrite firstn_length, skipn_length. lia.
Qed.

Lemma p_update_ok : forall c, addr_ok (r_from c) -> handler_ok (p_update c).
Proof.
  intros c Fc pkt m w len p W B L L0 P. unfold p_update.
  assert (Pc : pst_ok (clear_prefixes p)) by (unfold pst_ok in *; cbn; tauto).
  destruct (len <? 10) eqn:L10.
  { eapply both_bind with (P := fun _ => True).
    - destruct (len <? 2) eqn:L2; [apply both_ret; auto|].
      eapply both_bind; [eapply both_rd; eauto; lia|]. intros. apply both_ret. auto.
    - intros [|] _; apply both_ignore; auto. }
  b_rd. rename a into ae, H into Bae.
  destruct (negb (known_ae ae)) eqn:K; [apply both_ignore; auto|]. apply negb_false_iff in K.
  destruct ((ae =? AE_V4VIAV6) && negb (r_46 c)); [apply both_ignore; auto|].
  b_rd. rename a into fl, H into Bfl. b_rd. rename a into plen0, H into Bpl.
  b_rd. rename a into om, H into Bom.
  b_rd16. rename a into iv, H into Biv. b_rd16. rename a into sq, H into Bsq.
  b_rd16. rename a into me, H into Bme.
  cbv zeta.
  set (dp := if ae =? AE_IPV4 then p_v4 p else if ae =? AE_IPV6 then p_v6 p
             else if ae =? AE_V4VIAV6 then p_46 p else None).
  assert (Dp : dp_ok dp).
  { unfold dp, pst_ok in *. destruct (ae =? AE_IPV4); [tauto|]. destruct (ae =? AE_IPV6); [tauto|].
    destruct (ae =? AE_V4VIAV6); [tauto|exact I]. }
  eapply both_bind with (P := np_facts ae plen0 (len - 10)).
  { destruct ((om =? 0) || _); [|apply both_ret; exact I].
    eapply both_np; eauto; unfold byte_ok in *; lia. }
  intros r Fa.
  assert (Pi : both (ignore (if bit fl 128 then clear_prefixes p else p))
                    (ignore (if bit fl 128 then clear_prefixes p else p)) res_ok)
    by (apply both_ignore; destruct (bit fl 128); auto).
  destruct r as [[rc x]|]; [|exact Pi].
  destruct (rc <? 0) eqn:R; [exact Pi|].
  destruct (np_addr _ _ _ _ _ Fa) as [Ax Rx].
  set (p1 := if bit fl 128 then
               if ae =? AE_IPV4 then set_p_v4 (Some x) p
               else if ae =? AE_IPV6 then set_p_v6 (Some x) p
               else if ae =? AE_V4VIAV6 then set_p_46 (Some x) p else p
             else p).
  set (p2 := if bit fl 64 then
               set_p_id (Some (if ae_is_v4 ae then zeroes 4 ++ firstn 4 (skipn 12 x)
                               else firstn 8 (skipn 8 x))) p1
             else p1).
  assert (P1 : pst_ok p1).
  { unfold p1, pst_ok in *. destruct (bit fl 128); auto. destruct (ae =? AE_IPV4); [cbn; tauto|].
    destruct (ae =? AE_IPV6); [cbn; tauto|]. destruct (ae =? AE_V4VIAV6); cbn; tauto. }
  assert (P2 : pst_ok p2).
  { unfold p2. destruct (bit fl 64); auto. unfold pst_ok in *. split; [|cbn; tauto].
    cbn [oid_ok p_id set_p_id]. destruct (ae_is_v4 ae).
    - destruct (skipn_ok 12 4 x Ax ltac:(lia)) as [S1 S2]. split.
      + unfold zeroes. rewrite app_length, S2. reflexivity.
      + apply bytes_ok_app. split; auto. apply bytes_ok_repeat0.
    - destruct (skipn_ok 8 8 x Ax ltac:(lia)) as [S1 S2]. split; auto. }
  clearbody p1 p2. clear p1 P1 Pi Pc.
  destruct ((me <? INFINITY) && _ && negb (ae =? AE_WILDCARD)) eqn:NoId; [apply both_ignore; auto|].
  assert (Nh : forall nh, (if ae =? AE_IPV4 then
                     match p_nh4 p2 with
                     | Some n => Some (Some n)
                     | None => if me <? INFINITY then None else Some None
                     end
                   else match p_nh6 p2 with Some n => Some (Some n) | None => Some (Some (r_from c)) end) = Some nh ->
             dp_ok nh /\ (me < 65535 -> nh <> None)).
  { intros nh. unfold pst_ok in P2. unfold INFINITY.
    destruct (ae =? AE_IPV4).
    - destruct (p_nh4 p2); [intros E; injection E as <-; split; [tauto|discriminate]|].
      destruct (me <? 65535) eqn:E; [discriminate|]. intros X. injection X as <-. split; [exact I|lia].
    - destruct (p_nh6 p2); intros X; injection X as <-; split; try discriminate; try tauto; auto. }
  match type of Nh with forall nh, ?e = Some nh -> _ => destruct e as [nh|] end; [|apply both_ignore; auto].
  destruct (Nh nh eq_refl) as [Nh1 Nh2].
  b_subs (fun pkt => source_step pkt ae) (source_step_ok ae).
  intros [[[src splen] b]|] Hs; [|apply both_ignore; auto].
  destruct (ae =? AE_WILDCARD) eqn:Aw.
  { destruct (me <? 65535); [apply both_ignore; auto|]. destruct (splen >? 0); [apply both_ignore; auto|].
    apply both_act; auto. exact I. }
  apply both_act; auto. cbn [act_ok]. split; [apply P2|]. split.
  { eapply wire_dest_of; eauto; unfold byte_ok in *; try lia. exact (proj1 Hs). }
  split; [exact Bsq|]. split; [exact Bme|]. split; [exact Biv|]. split; [exact Nh1|].
  intros M. split; auto. intros Ei. rewrite Ei in NoId.
  unfold INFINITY in NoId. replace (me <? 65535) with true in NoId by lia. cbn [andb negb] in NoId.
  discriminate.
Qed.

Lemma p_request_ok : handler_ok p_request.
Proof.
  intros pkt m w len p W B L L0 P. unfold p_request.
  destruct (len <? 2) eqn:L6; [apply both_ignore; auto|].
  b_rd. rename a into ae, H into Bae.
  destruct (negb (known_ae ae)) eqn:K; [apply both_ignore; auto|]. apply negb_false_iff in K.
  b_rd. rename a into plen0, H into Bpl.
  eapply both_bind; [eapply both_np; eauto; unfold byte_ok in *; try lia; exact I|].
  intros [[rc x]|] Fa; [|apply both_ignore; auto].
  destruct (rc <? 0) eqn:R; [apply both_ignore; auto|].
  destruct (np_addr _ _ _ _ _ Fa) as [Ax Rx].
  cbv zeta.
  b_subs (fun pkt => source_step pkt ae) (source_step_ok ae).
  intros [[[src splen] b]|] Hs; [|apply both_ignore; auto].
  destruct (ae =? AE_WILDCARD).
  - destruct (negb (is_default src splen)); [apply both_ignore; auto|apply both_act; auto; exact I].
  - apply both_act; auto. eapply wire_dest_of; eauto; unfold byte_ok in *; try lia. exact (proj1 Hs).
Qed.

Lemma p_mh_request_ok : handler_ok p_mh_request.
Proof.
  intros pkt m w len p W B L L0 P. unfold p_mh_request.
  destruct (len <? 14) eqn:L6; [apply both_ignore; auto|].
  b_rd. rename a into ae, H into Bae.
  destruct (negb (known_ae ae)) eqn:K; [apply both_ignore; auto|]. apply negb_false_iff in K.
  b_rd. rename a into plen0, H into Bpl. b_rd16. rename a into sq, H into Bsq.
  eapply both_bind; [eapply both_np; eauto; unfold byte_ok in *; try lia; exact I|].
  intros [[rc x]|] Fa; [|apply both_ignore; auto].
  destruct (rc <? 0) eqn:R; [apply both_ignore; auto|].
  destruct (np_addr _ _ _ _ _ Fa) as [Ax Rx].
  b_subs (fun pkt => seqno_source_step pkt ae) (seqno_source_step_ok ae).
  intros [[[src splen] b]|] Hs; [|apply both_ignore; auto].
  b_rd. rename a into hops, H into Bh.
  eapply both_bind; [eapply both_rds; eauto; lia|]. intros id [Bi Li].
  apply both_act; auto. split; [|split; [auto|split; [auto|split; auto; unfold zlen in Li; lia]]].
  eapply wire_dest_of; eauto; unfold byte_ok in *; lia.
Qed.

Lemma parse_tlv_ok : forall c t, addr_ok (r_from c) -> handler_ok (fun pkt m len p => parse_tlv c pkt t m len p).
Proof.
  intros c t Fc pkt m w len p W B L L0 P. unfold parse_tlv.
  destruct (t =? MESSAGE_PADN); [apply both_ignore; auto|].
  destruct (t =? MESSAGE_ACK_REQ); [apply p_ack_req_ok; auto|].
  destruct (t =? MESSAGE_ACK); [apply p_ack_ok; auto|].
  destruct (t =? MESSAGE_HELLO); [apply p_hello_ok; auto|].
  destruct (t =? MESSAGE_IHU); [apply p_ihu_ok; auto|].
  destruct (t =? MESSAGE_ROUTER_ID); [apply p_router_id_ok; auto|].
  destruct (t =? MESSAGE_NH); [apply p_nh_ok; auto|].
  destruct (t =? MESSAGE_UPDATE); [apply p_update_ok; auto|].
  destruct (t =? MESSAGE_REQUEST); [apply p_request_ok; auto|].
  destruct (t =? MESSAGE_MH_REQUEST); [apply p_mh_request_ok; auto|].
  apply both_ignore; auto.
Qed.

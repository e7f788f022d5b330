(** L_Keys.v: counts of the users of keys. *)
From Coq Require Import String.
From Verif Require Import Base M_Util M_Filter M_Config S_Config L_Config L_Config2 L_Config3 L_Config4 M_Keys.
Close Scope string_scope.
Open Scope Z_scope.

(** How many interfaces use the [i]-th key. *)
Fixpoint users (i : nat) (l : list (list Z * option nat)) : Z :=
  match l with
  | [] => 0
  | (_, Some j) :: l' => if (j =? i)%nat then 1 + users i l' else users i l'
  | (_, None) :: l' => users i l'
  end.
Definition uses1 (i : nat) (k : option nat) : Z := match k with Some j => if (j =? i)%nat then 1 else 0 | None => 0 end.
Lemma users_cons : forall i n k l, users i ((n, k) :: l) = uses1 i k + users i l.
Proof. intros i n [j|] l; simpl; [destruct (j =? i)%nat|]; lia. Qed.
Lemma users_pos : forall i l, 0 <= users i l.
Proof. induction l as [|(n, k) l IH]; [easy|]. rewrite users_cons. unfold uses1. destruct k as [j|]; [destruct (j =? i)%nat|]; lia. Qed.
Lemma users_app : forall i a b, users i (a ++ b) = users i a + users i b.
Proof. induction a as [|(n, k) a IH]; intros b; [easy|]. cbn [app]. rewrite !users_cons, IH. lia. Qed.
Lemma users_flush : forall i n l, users i (flush_if n l) <= users i l.
Proof.
  induction l as [|(m, k) l IH]; [easy|]. cbn [flush_if]. rewrite users_cons.
  assert (0 <= uses1 i k) by (unfold uses1; destruct k as [j|]; [destruct (j =? i)%nat|]; lia).
  destruct (beq m n); [lia|]. rewrite users_cons. lia.
Qed.

Definition ref_at (g : cfg) (i : nat) : option Z := match nth_error (g_keys g) i with Some k => Some (k_ref k) | None => None end.
Definition table_ok (g : cfg) : Prop := Forall (fun k => 0 <= k_ref k <= 65535) (g_keys g).
Record kinv (s : kst) : Prop := mkKi {
  ki_tab : table_ok (p_cfg (ks_p s));
  ki_use : forall n i, In (n, Some i) (ks_ifs s) -> (i < length (g_keys (p_cfg (ks_p s))))%nat;
  ki_cnt : g_abort (p_cfg (ks_p s)) = false -> forall i r, ref_at (p_cfg (ks_p s)) i = Some r -> users i (ks_ifs s) <= r }.

Lemma grow_len : forall g g', grow g g' -> (length (g_keys g) <= length (g_keys g'))%nat.
Proof.
  intros g g' (A & _). destruct (le_lt_dec (length (g_keys g)) (length (g_keys g'))) as [H|H]; [easy|].
  destruct (nth_error (g_keys g) (length (g_keys g'))) as [k|] eqn:E; [|apply nth_error_None in E; lia].
  destruct (A _ _ E) as (k' & E' & _). assert (nth_error (g_keys g') (length (g_keys g')) <> None) by congruence.
  apply nth_error_Some in H0. lia.
Qed.
Lemma grow_ki : forall p p' l, kinv (mkKs p l) -> grow (p_cfg p) (p_cfg p') -> kinv (mkKs p' l).
Proof.
  intros p p' l [T U C] G. pose proof (grow_len _ _ G) as Ln. destruct G as (G1 & G2 & G3 & _). split; cbn [ks_p ks_ifs] in *.
  - now apply G2.
  - intros n i Hi. specialize (U n i Hi). lia.
  - intros Ab i r Hr. assert (Ab' : g_abort (p_cfg p) = false). { destruct (g_abort (p_cfg p)); [rewrite G3 in Ab; easy|easy]. }
    specialize (C Ab' i). unfold ref_at in *. destruct (nth_error (g_keys (p_cfg p)) i) as [k|] eqn:E.
    + destruct (G1 _ _ E) as (k' & E' & _ & L). rewrite E' in Hr. injection Hr as <-. specialize (C _ eq_refl). lia.
    + assert (users i l = 0) as ->. 2:{ destruct (nth_error (g_keys (p_cfg p')) i) as [k'|] eqn:E'; [|discriminate Hr].
        injection Hr as <-. pose proof (nth_In_P _ _ _ _ _ (G2 T) E') as Q. cbn in Q. lia. }
      apply nth_error_None in E. clear -U E. induction l as [|(n, k) l IH]; [easy|]. rewrite users_cons.
      rewrite IH by (intros m j Hj; apply (U m j); now right). unfold uses1. destruct k as [j|]; [|lia].
      specialize (U n j (or_introl eq_refl)). destruct (Nat.eqb_spec j i); lia.
Qed.

(** What retaining and releasing do to the counts. *)
Lemma retain_ref : forall j g, (j < length (g_keys g))%nat -> table_ok g ->
  (table_ok (retain_key j g) /\ length (g_keys (retain_key j g)) = length (g_keys g)) /\
  (g_abort (retain_key j g) = true /\ (g_abort g = true \/ exists k, nth_error (g_keys g) j = Some k /\ k_ref k = 65535) \/
   g_abort (retain_key j g) = g_abort g /\ forall i, ref_at (retain_key j g) i =
      match ref_at g i with Some r => Some (r + if (j =? i)%nat then 1 else 0) | None => None end).
Proof.
  intros j g L T. unfold retain_key. destruct (nth_error (g_keys g) j) as [k|] eqn:E; [|apply nth_error_None in E; lia].
  pose proof (nth_In_P _ _ _ _ _ T E) as Q. cbn in Q.
  destruct (Z.ltb_spec (k_ref k) 65535).
  - split; [split|].
    + unfold table_ok. cbn [set_keys g_keys]. apply Forall_upd; [easy|cbn; lia].
    + cbn [set_keys g_keys]. rewrite app_length, firstn_length_le by lia. cbn [length]. rewrite skipn_length. lia.
    + right. split; [easy|]. intros i. unfold ref_at. cbn [set_keys g_keys]. rewrite (nth_upd _ _ _ _ _ E).
      rewrite (Nat.eqb_sym j i). destruct (Nat.eqb_spec i j) as [->|N].
      * now rewrite E.
      * destruct (nth_error (g_keys g) i); [|easy]. f_equal. lia.
  - split; [easy|]. left. split; [easy|]. right. exists k. split; [easy|lia].
Qed.
Lemma release_ref : forall j g, (j < length (g_keys g))%nat -> table_ok g ->
  (table_ok (release_key j g) /\ length (g_keys (release_key j g)) = length (g_keys g)) /\
  (g_abort (release_key j g) = true /\ (g_abort g = true \/ ref_at g j = Some 0) \/
   g_abort (release_key j g) = g_abort g /\ forall i, ref_at (release_key j g) i =
      match ref_at g i with Some r => Some (r - if (j =? i)%nat then 1 else 0) | None => None end).
Proof.
  intros j g L T. unfold release_key. destruct (nth_error (g_keys g) j) as [k|] eqn:E; [|apply nth_error_None in E; lia].
  pose proof (nth_In_P _ _ _ _ _ T E) as Q. cbn in Q.
  destruct (Z.gtb_spec (k_ref k) 0).
  - split; [split|].
    + unfold table_ok. cbn [set_keys g_keys]. apply Forall_upd; [easy|cbn; lia].
    + cbn [set_keys g_keys]. rewrite app_length, firstn_length_le by lia. cbn [length]. rewrite skipn_length. lia.
    + right. split; [easy|]. intros i. unfold ref_at. cbn [set_keys g_keys]. rewrite (nth_upd _ _ _ _ _ E).
      rewrite (Nat.eqb_sym j i). destruct (Nat.eqb_spec i j) as [->|N].
      * now rewrite E.
      * destruct (nth_error (g_keys g) i); [|easy]. f_equal. lia.
  - split; [easy|]. left. split; [easy|]. right. unfold ref_at. rewrite E. f_equal. lia.
Qed.
Lemma okeq_iff : forall a b, okeq a b = true <-> a = b.
Proof.
  intros [x|] [y|]; simpl; split; intros H; try easy.
  - now apply Nat.eqb_eq in H as ->.
  - injection H as ->. apply Nat.eqb_refl.
Qed.
Definition valid_k (k : option nat) (g : cfg) : Prop := match k with Some j => (j < length (g_keys g))%nat | None => True end.
Lemma if_key_ref : forall ck old g, valid_k ck g -> valid_k old g -> table_ok g ->
  (forall i, old = Some i -> g_abort g = false -> exists r, ref_at g i = Some r /\ 0 < r) ->
  let '(k', g') := if_key ck old g in
  (table_ok g' /\ length (g_keys g') = length (g_keys g)) /\ k' = ck /\
  (g_abort g' = true /\ (g_abort g = true \/ exists j r, ck = Some j /\ ref_at g j = Some r /\ r >= 65535) \/
   g_abort g' = g_abort g /\ forall i, ref_at g' i =
      match ref_at g i with Some r => Some (r - uses1 i old + uses1 i ck) | None => None end).
Proof.
  intros ck old g V1 V2 T P. unfold if_key. destruct (okeq ck old) eqn:E.
  { apply okeq_iff in E. subst old. split; [easy|]. split; [easy|]. right. split; [easy|]. intros i. destruct (ref_at g i); [f_equal; lia|easy]. }
  set (g1 := match old with Some i => release_key i g | None => g end).
  assert (A : (table_ok g1 /\ length (g_keys g1) = length (g_keys g)) /\ (g_abort g1 = true /\ g_abort g = true \/
    g_abort g1 = g_abort g /\ forall i, ref_at g1 i = match ref_at g i with Some r => Some (r - uses1 i old) | None => None end)).
  { unfold g1. destruct old as [j|].
    - destruct (release_ref j g V2 T) as (A1 & A2). split; [exact A1|]. destruct A2 as [(A2 & A3)|A2].
      + left. split; [easy|]. destruct A3 as [A3|A3]; [easy|]. destruct (g_abort g) eqn:Eg; [easy|].
        destruct (P j eq_refl eq_refl) as (r & E1 & E2). rewrite E1 in A3. injection A3 as ->. lia.
      + now right.
    - split; [easy|]. right. split; [easy|]. intros i. destruct (ref_at g i); [f_equal; unfold uses1; lia|easy]. }
  destruct A as ((A1 & A2) & A3). destruct ck as [j|].
  - assert (Vj : (j < length (g_keys g1))%nat) by (rewrite A2; exact V1).
    destruct (retain_ref j g1 Vj A1) as ((B1 & B2) & B3). split; [split; [easy|congruence]|]. split; [easy|].
    destruct B3 as [(B3 & B4)|(B3 & B4)].
    + left. split; [easy|]. destruct A3 as [(A3 & A4)|(A3 & A4)]; [now left|].
      destruct B4 as [B4|(k & B4 & B5)]; [left; congruence|]. right.
      specialize (A4 j). unfold ref_at at 1 in A4. rewrite B4 in A4. destruct (ref_at g j) as [r|] eqn:Er; [|discriminate A4].
      injection A4 as A4. exists j, r. split; [easy|]. split; [easy|]. pose proof A4. 
      assert (0 <= uses1 j old) by (unfold uses1; destruct old as [x|]; [destruct (x =? j)%nat|]; lia). lia.
    + destruct A3 as [(A3 & A4)|(A3 & A4)].
      * left. split; [congruence|now left].
      * right. split; [congruence|]. intros i. rewrite B4, A4. destruct (ref_at g i); [|easy]. reflexivity.
  - split; [easy|]. split; [easy|]. destruct A3 as [(A3 & A4)|(A3 & A4)]; [left; auto|]. right. split; [easy|].
    intros i. rewrite A4. destruct (ref_at g i); [f_equal; unfold uses1; lia|easy].
Qed.
Lemma up_if_ref : forall name ck l g, valid_k ck g -> (forall n k, In (n, k) l -> valid_k k g) -> table_ok g ->
  (forall n i, In (n, Some i) l -> g_abort g = false -> exists r, ref_at g i = Some r /\ 0 < r) ->
  let '(l', g') := up_if name ck l g in
  (table_ok g' /\ length (g_keys g') = length (g_keys g)) /\ (forall n k, In (n, k) l' -> valid_k k g') /\
  (g_abort g' = true /\ (g_abort g = true \/ exists j r, ck = Some j /\ ref_at g j = Some r /\ r >= 65535) \/
   g_abort g' = g_abort g /\ forall i, ref_at g' i =
      match ref_at g i with Some r => Some (r - users i l + users i l') | None => None end).
Proof.
  induction l as [|(n, k) l IH]; intros g V1 V2 T P; cbn [up_if].
  { split; [easy|]. split; [easy|]. right. split; [easy|]. intros i. destruct (ref_at g i); [f_equal; simpl; lia|easy]. }
  destruct (beq n name).
  - pose proof (if_key_ref ck k g V1 (V2 n k (or_introl eq_refl)) T) as Q.
    destruct (if_key ck k g) as (k', g'). destruct Q as ((Q1 & Q2) & -> & Q3).
    { intros i -> A. apply (P n i); [now left|easy]. }
    split; [easy|]. split.
    { intros m x [X|X]; [injection X as <- <-; unfold valid_k in *; destruct ck; [now rewrite Q2|easy]|].
      pose proof (V2 m x (or_intror X)) as Y. unfold valid_k in *. destruct x; [now rewrite Q2|easy]. }
    destruct Q3 as [Q3|(Q3 & Q4)]; [now left|]. right. split; [easy|]. intros i. rewrite Q4. destruct (ref_at g i); [|easy].
    f_equal. rewrite !users_cons. lia.
  - pose proof (IH g V1) as Q. destruct (up_if name ck l g) as (l', g').
    destruct Q as ((Q1 & Q2) & Q0 & Q3).
    { intros m x X. apply (V2 m x). now right. } { easy. } { intros m i X. apply (P m i). now right. }
    split; [easy|]. split.
    { intros m x [X|X]; [injection X as <- <-|now apply (Q0 m x)].
      pose proof (V2 n k (or_introl eq_refl)) as Y. unfold valid_k in *. destruct k; [now rewrite Q2|easy]. }
    destruct Q3 as [Q3|(Q3 & Q4)]; [now left|]. right. split; [easy|]. intros i. rewrite Q4. destruct (ref_at g i); [|easy].
    f_equal. rewrite !users_cons. lia.
Qed.
Lemma users_in : forall n i l, In (n, Some i) l -> 0 < users i l.
Proof.
  induction l as [|(m, k) l IH]; intros H; [easy|]. rewrite users_cons. pose proof (users_pos i l).
  destruct H as [H|H].
  - injection H as <- ->. unfold uses1. rewrite Nat.eqb_refl. lia.
  - specialize (IH H). unfold uses1. destruct k as [j|]; [destruct (j =? i)%nat|]; lia.
Qed.
Lemma kinv_pos : forall s n i, kinv s -> In (n, Some i) (ks_ifs s) -> g_abort (p_cfg (ks_p s)) = false ->
  exists r, ref_at (p_cfg (ks_p s)) i = Some r /\ 0 < r.
Proof.
  intros s n i [T U C] H A. specialize (U n i H). pose proof (users_in _ _ _ H).
  unfold ref_at in *. destruct (nth_error (g_keys (p_cfg (ks_p s))) i) as [k|] eqn:E; [|apply nth_error_None in E; lia].
  exists (k_ref k). split; [easy|]. specialize (C A i (k_ref k)). rewrite E in C. specialize (C eq_refl). lia.
Qed.
Lemma kinv_valid : forall s n k, kinv s -> In (n, k) (ks_ifs s) -> valid_k k (p_cfg (ks_p s)).
Proof. intros s n [i|] [T U C] H; [apply (U n i H)|easy]. Qed.
Lemma kinv_step : forall e ev s, kinv s -> kallowed ev s -> kinv (kstep e ev s).
Proof.
  intros e [l|l|n|n ck|n] s H A; destruct s as [p l0]; cbn [kstep ks_p ks_ifs].
  - eapply grow_ki; [exact H|apply from_string_grow].
  - eapply grow_ki; [exact H|apply from_file_grow].
  - unfold new_if. destruct (existsb _ l0); [exact H|]. destruct H as [T U C]. split; cbn [ks_p ks_ifs] in *; [easy| |].
    + intros m i X. apply in_app_or in X. destruct X as [X|[X|[]]]; [eauto|discriminate X].
    + intros Ab i r Hr. rewrite users_app. specialize (C Ab i r Hr). simpl. lia.
  - pose proof (up_if_ref n ck l0 (p_cfg p)) as Q. destruct (up_if n ck l0 (p_cfg p)) as (l', g').
    destruct Q as ((Q1 & Q2) & Q3 & Q4).
    + exact A.
    + intros m k X. exact (kinv_valid _ _ _ H X).
    + apply H.
    + intros m i X Y. exact (kinv_pos _ _ _ H X Y).
    + split; cbn [ks_p ks_ifs set_cfg p_cfg].
      * easy.
      * intros m i X. apply (Q3 m (Some i) X).
      * intros Ab i r Hr. destruct Q4 as [(Q4 & _)|(Q4 & Q5)]; [congruence|]. rewrite Q5 in Hr.
        destruct (ref_at (p_cfg p) i) as [r0|] eqn:Er; [|discriminate Hr]. injection Hr as <-.
        pose proof (ki_cnt _ H) as C. cbn [ks_p ks_ifs] in C. rewrite <- Q4 in C. specialize (C Ab i r0 Er). lia.
  - destruct H as [T U C]. split; cbn [ks_p ks_ifs] in *; [easy| |].
    + intros m i X. apply (U m i). clear -X. induction l0 as [|(a, b) l0 IH]; [easy|]. cbn [flush_if] in X.
      destruct (beq a n); [now right|]. destruct X as [X|X]; [now left|right; auto].
    + intros Ab i r Hr. specialize (C Ab i r Hr). pose proof (users_flush i n l0). lia.
Qed.
Lemma kinv_reach : forall e s, kreach e s -> kinv s.
Proof.
  induction 1 as [p A B|s ev _ IH A]; [|now apply kinv_step].
  split; cbn [ks_p ks_ifs].
  - unfold table_ok. rewrite A. constructor.
  - easy.
  - intros _ i r Hr. unfold ref_at in Hr. rewrite A in Hr. destruct i; discriminate Hr.
Qed.

(** Aborting: only when a count has reached its largest value. *)
Lemma kstep_abort : forall e ev s, kinv s -> kallowed ev s -> g_abort (p_cfg (ks_p s)) = false ->
  g_abort (p_cfg (ks_p (kstep e ev s))) = true ->
  exists i r, (ref_at (p_cfg (ks_p s)) i = Some r \/ ref_at (p_cfg (ks_p (kstep e ev s))) i = Some r) /\ 65535 <= r.
Proof.
  assert (G : forall g g', grow g g' -> g_abort g = false -> g_abort g' = true -> exists i r, ref_at g' i = Some r /\ 65535 <= r).
  { intros g g' (_ & _ & _ & G) A B. destruct (G B) as [Q|(i & k & E & L)]; [congruence|]. exists i, (k_ref k). unfold ref_at. now rewrite E. }
  intros e [l|l|n|n ck|n] s H A F T; destruct s as [p l0]; cbn [kstep ks_p ks_ifs] in *.
  - destruct (G _ _ (from_string_grow e l p) F T) as (i & r & E & L). exists i, r. auto.
  - destruct (G _ _ (from_file_grow e l p) F T) as (i & r & E & L). exists i, r. auto.
  - congruence.
  - pose proof (up_if_ref n ck l0 (p_cfg p)) as Q. destruct (up_if n ck l0 (p_cfg p)) as (l', g').
    destruct Q as ((Q1 & Q2) & Q3 & Q4).
    + exact A.
    + intros m k X. exact (kinv_valid _ _ _ H X).
    + apply H.
    + intros m i X Y. exact (kinv_pos _ _ _ H X Y).
    + cbn [ks_p set_cfg p_cfg] in T. destruct Q4 as [(_ & [Q4|(j & r & _ & E & L)])|(Q4 & _)]; [congruence| |congruence].
      exists j, r. split; [now left|lia].
  - congruence.
Qed.
(** Keys stay. *)
Lemma up_if_ids : forall n ck l g, map k_id (g_keys (snd (up_if n ck l g))) = map k_id (g_keys g).
Proof.
  assert (R : forall i g, map k_id (g_keys (retain_key i g)) = map k_id (g_keys g)).
  { intros i g. unfold retain_key. destruct (nth_error (g_keys g) i) as [k|] eqn:E; [|easy].
    destruct (_ <? _); [|easy]. cbn [set_keys g_keys]. eapply nth_split_map; [exact E|easy]. }
  assert (L : forall i g, map k_id (g_keys (release_key i g)) = map k_id (g_keys g)).
  { intros i g. unfold release_key. destruct (nth_error (g_keys g) i) as [k|] eqn:E; [|easy].
    destruct (_ >? _); [|easy]. cbn [set_keys g_keys]. eapply nth_split_map; [exact E|easy]. }
  intros n ck. induction l as [|(m, k) l IH]; intros g; [easy|]. cbn [up_if]. destruct (beq m n).
  - unfold if_key. destruct (okeq ck k); [easy|]. destruct ck as [j|]; cbn [snd]; [rewrite R|]; destruct k; cbn; auto.
  - specialize (IH g). destruct (up_if n ck l g). exact IH.
Qed.
Lemma kstep_ids : forall e ev s i k, nth_error (g_keys (p_cfg (ks_p s))) i = Some k ->
  exists k', nth_error (g_keys (p_cfg (ks_p (kstep e ev s)))) i = Some k' /\ k_id k' = k_id k.
Proof.
  intros e [l|l|n|n ck|n] [p l0] i k E; cbn [kstep ks_p ks_ifs] in *; try (exists k; auto; fail).
  - destruct (from_string_grow e l p) as (G & _). destruct (G _ _ E) as (k' & A & B & _). eauto.
  - destruct (from_file_grow e l p) as (G & _). destruct (G _ _ E) as (k' & A & B & _). eauto.
  - pose proof (up_if_ids n ck l0 (p_cfg p)) as Q. destruct (up_if n ck l0 (p_cfg p)) as (l', g'). cbn [snd ks_p set_cfg p_cfg] in *.
    apply (f_equal (fun x => nth_error x i)) in Q. rewrite !nth_error_map, E in Q.
    destruct (nth_error (g_keys g') i) as [k'|]; [|discriminate Q]. injection Q as Q. eauto.
Qed.
(** Redefining a key over and over. *)
Lemma add_key_again : forall id ty v g k, g_keys g = [k] -> k_id k = id ->
  if k_ref k <? 65535 then g_keys (add_key id ty v g) = [mkKey id ty v (k_ref k + 1)] /\ g_abort (add_key id ty v g) = g_abort g
  else g_abort (add_key id ty v g) = true.
Proof.
  intros id ty v g k E I. unfold add_key, find_key. rewrite E. cbn [index_key]. rewrite I, beq_refl.
  unfold retain_key. rewrite E. cbn [nth_error]. destruct (k_ref k <? 65535) eqn:L.
  - cbn [set_keys g_keys firstn skipn app nth_error k_id k_ref]. rewrite I. easy.
  - cbn [set_abort g_keys]. rewrite E. easy.
Qed.
Lemma add_key_many : forall id ty v g n, g_keys g = [] -> g_abort g = false -> Z.of_nat n <= 65535 ->
  g_keys (Nat.iter (S n) (add_key id ty v) g) = [mkKey id ty v (Z.of_nat n)] /\ g_abort (Nat.iter (S n) (add_key id ty v) g) = false.
Proof.
  intros id ty v g n E A. induction n as [|n IH]; intros H.
  - cbn [Nat.iter nat_rect]. unfold add_key, find_key. rewrite E. cbn [index_key set_keys g_keys app]. rewrite E. easy.
  - destruct IH as (I1 & I2); [lia|]. change (Nat.iter (S (S n)) (add_key id ty v) g) with (add_key id ty v (Nat.iter (S n) (add_key id ty v) g)).
    pose proof (add_key_again id ty v _ _ I1 eq_refl) as Q. cbn [k_ref] in Q.
    destruct (Z.ltb_spec (Z.of_nat n) 65535); [|lia]. destruct Q as (Q1 & Q2). rewrite Q1, Q2. split; [|easy]. repeat f_equal. lia.
Qed.

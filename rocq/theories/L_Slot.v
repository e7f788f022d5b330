(** L_Slot.v: binary search on a sorted list is search. *)
From Verif Require Import Base M_Slot.
From Coq Require Import Sorting.Sorted.

Section Search.
Context {A : Type}.
Variable c : A -> Z.

(** The comparison results along the list: positive, then at most one zero,
    then negative. *)
Definition mono (l : list A) : Prop :=
  forall i j x y, (i < j)%nat -> nth_error l i = Some x -> nth_error l j = Some y ->
    c x <= 0 -> c y < 0.

Lemma bs_loop_spec : forall d l, mono l ->
  forall fuel p g, 0 <= p -> g < Z.of_nat (length l) -> p <= g ->
    (Z.of_nat fuel >= g - p + 1) ->
    (forall i x, (Z.of_nat i < p) -> nth_error l i = Some x -> c x > 0) ->
    (forall i x, (Z.of_nat i > g) -> nth_error l i = Some x -> c x < 0) ->
    match bs_loop fuel (fun m => c (nth (Z.to_nat m) l d)) p g with
    | Found i => 0 <= i < Z.of_nat (length l) /\
                 exists x, nth_error l (Z.to_nat i) = Some x /\ c x = 0
    | NotFound n => 0 <= n <= Z.of_nat (length l) /\
         (forall i x, (Z.of_nat i < n) -> nth_error l i = Some x -> c x > 0) /\
         (forall i x, (Z.of_nat i >= n) -> nth_error l i = Some x -> c x < 0)
    end.
Proof.
  intros d l Hm. induction fuel; intros p g Hp Hg Hpg Hf Hlo Hhi; [lia|].
  cbn [bs_loop].
  set (m := (p + g) / 2) in *.
  assert (Hmr : p <= m <= g) by (unfold m; lia).
  assert (Hin : (Z.to_nat m < length l)%nat) by lia.
  destruct (nth_error l (Z.to_nat m)) as [x|] eqn:Ex;
    [|apply nth_error_None in Ex; lia].
  rewrite (nth_error_nth l (Z.to_nat m) d Ex).
  destruct (c x =? 0) eqn:Ec.
  { split; [lia|]. exists x. split; auto. lia. }
  destruct (c x <? 0) eqn:El.
  - destruct (p <=? m - 1) eqn:Eg.
    + apply IHfuel; auto; try lia.
      intros i y Hi Hy.
      destruct (Z.eq_dec (Z.of_nat i) m) as [e|ne].
      * assert (i = Z.to_nat m) by lia. subst i. rewrite Ex in Hy. inversion Hy; subst. lia.
      * apply (Hm (Z.to_nat m) i x y); auto; lia.
    + split; [lia|]. split; [auto|].
      intros i y Hi Hy.
      destruct (Z.eq_dec (Z.of_nat i) m) as [e|ne].
      * assert (i = Z.to_nat m) by lia. subst i. rewrite Ex in Hy. inversion Hy; subst. lia.
      * apply (Hm (Z.to_nat m) i x y); auto; lia.
  - assert (Hlo' : forall i y, Z.of_nat i < m + 1 -> nth_error l i = Some y -> c y > 0).
    { intros i y Hi Hy.
      destruct (Z.eq_dec (Z.of_nat i) m) as [e|ne].
      - assert (i = Z.to_nat m) by lia. subst i. rewrite Ex in Hy. inversion Hy; subst. lia.
      - destruct (Z_gt_le_dec (c y) 0) as [G|L]; auto.
        pose proof (Hm i (Z.to_nat m) y x ltac:(lia) Hy Ex L). lia. }
    destruct (m + 1 <=? g) eqn:Eg.
    + apply IHfuel; auto; lia.
    + split; [lia|]. split; auto. intros i y Hi Hy. apply (Hhi i y); auto. lia.
Qed.

Lemma find_slot_spec : forall d l, mono l ->
  match find_slot c d l with
  | Found i => 0 <= i < Z.of_nat (length l) /\
               exists x, nth_error l (Z.to_nat i) = Some x /\ c x = 0
  | NotFound n => 0 <= n <= Z.of_nat (length l) /\
       (forall i x, (Z.of_nat i < n) -> nth_error l i = Some x -> c x > 0) /\
       (forall i x, (Z.of_nat i >= n) -> nth_error l i = Some x -> c x < 0)
  end.
Proof.
  intros d l Hm. unfold find_slot.
  destruct (Z.of_nat (length l) <? 1) eqn:E.
  - destruct l; [|simpl in E; lia]. split; [simpl; lia|].
    split; intros i x Hi Hx; destruct i; discriminate.
  - apply bs_loop_spec; auto; try lia.
    intros i x Hi Hx. assert (i < length l)%nat by (apply nth_error_Some; congruence). lia.
Qed.

Lemma find_slot_notfound : forall d l n, mono l -> find_slot c d l = NotFound n ->
  forall x, In x l -> c x <> 0.
Proof.
  intros d l n Hm E x Hx. pose proof (find_slot_spec d l Hm) as S. rewrite E in S.
  destruct S as (_ & A1 & A2). apply In_nth_error in Hx. destruct Hx as [i Hi].
  destruct (Z_lt_ge_dec (Z.of_nat i) n); [pose proof (A1 _ _ l0 Hi)|pose proof (A2 _ _ g Hi)]; lia.
Qed.

Lemma find_slot_found_iff : forall d l i, mono l ->
  (find_slot c d l = Found i <->
   0 <= i /\ exists x, nth_error l (Z.to_nat i) = Some x /\ c x = 0).
Proof.
  intros d l i Hm. pose proof (find_slot_spec d l Hm) as S.
  split.
  - intros E. rewrite E in S. destruct S as (B & x & H1 & H2). split; [lia|]. eauto.
  - intros (B & x & H1 & H2). destruct (find_slot c d l) as [j|n] eqn:E.
    + destruct S as (B' & y & G1 & G2). f_equal.
      destruct (Z.lt_trichotomy i j) as [L|[L|L]]; auto.
      * pose proof (Hm (Z.to_nat i) (Z.to_nat j) x y ltac:(lia) H1 G1). lia.
      * pose proof (Hm (Z.to_nat j) (Z.to_nat i) y x ltac:(lia) G1 H1). lia.
    + exfalso. apply (find_slot_notfound d l n Hm E x); auto.
      eapply nth_error_In; eauto.
Qed.
End Search.

(** Insertion and removal as splits *)
Lemma insert_at_split : forall A (x : A) l1 l2,
  insert_at (Z.of_nat (length l1)) x (l1 ++ l2) = l1 ++ x :: l2.
Proof.
  intros. unfold insert_at. rewrite Nat2Z.id.
  rewrite firstn_app, skipn_app, Nat.sub_diag, firstn_all, skipn_all. simpl.
  rewrite app_nil_r. auto.
Qed.

Lemma remove_at_split : forall A (x : A) l1 l2,
  remove_at (Z.of_nat (length l1)) (l1 ++ x :: l2) = l1 ++ l2.
Proof.
  intros. unfold remove_at. rewrite Nat2Z.id.
  rewrite firstn_app, Nat.sub_diag, firstn_all, skipn_app, firstn_O, app_nil_r. f_equal.
  replace (S (length l1) - length l1)%nat with 1%nat by lia.
  rewrite skipn_all2 by lia. reflexivity.
Qed.

Lemma split_at : forall A n (l : list A), 0 <= n <= Z.of_nat (length l) ->
  exists l1 l2, l = l1 ++ l2 /\ n = Z.of_nat (length l1).
Proof.
  intros. exists (firstn (Z.to_nat n) l), (skipn (Z.to_nat n) l).
  rewrite firstn_skipn. split; auto. rewrite firstn_length. lia.
Qed.

Lemma nth_error_split_Z : forall A i (l : list A) x, nth_error l (Z.to_nat i) = Some x -> 0 <= i ->
  exists l1 l2, l = l1 ++ x :: l2 /\ i = Z.of_nat (length l1).
Proof.
  intros. destruct (nth_error_split l (Z.to_nat i) H) as (l1 & l2 & E & L).
  exists l1, l2. split; auto. lia.
Qed.

(** ** Sorted lists by a key and a total order given by a comparison function *)
Section Order.
Context {K : Type}.
Variable kcmp : K -> K -> Z.
Hypothesis kcmp_eq : forall a b, kcmp a b = 0 -> a = b.
Hypothesis kcmp_refl : forall a, kcmp a a = 0.
Hypothesis kcmp_anti : forall a b, kcmp a b < 0 <-> kcmp b a > 0.
Hypothesis kcmp_trans : forall a b d, kcmp a b < 0 -> kcmp b d < 0 -> kcmp a d < 0.

Context {A : Type}.
Variable key : A -> K.

Definition klt (x y : A) : Prop := kcmp (key x) (key y) < 0.
Definition ksorted (l : list A) : Prop := StronglySorted klt l.

Lemma klt_irrefl : forall x, ~ klt x x.
Proof. unfold klt. intros x H. rewrite kcmp_refl in H. lia. Qed.

Lemma klt_trans : forall x y z, klt x y -> klt y z -> klt x z.
Proof. unfold klt. intros. eapply kcmp_trans; eauto. Qed.

Lemma sorted_app_iff : forall l1 l2, ksorted (l1 ++ l2) <->
  ksorted l1 /\ ksorted l2 /\ (forall x y, In x l1 -> In y l2 -> klt x y).
Proof.
  unfold ksorted. induction l1; simpl; intros l2.
  - split; [intros; repeat split; auto; try constructor; contradiction|tauto].
  - split.
    + intros H. inversion H; subst. apply IHl1 in H2. destruct H2 as (S1 & S2 & C).
      rewrite Forall_forall in H3. repeat split; auto.
      * constructor; auto. apply Forall_forall. intros. apply H3. apply in_or_app; auto.
      * intros x y [->|Hx] Hy; auto. apply H3. apply in_or_app; auto.
    + intros (S1 & S2 & C). inversion S1; subst. constructor.
      * apply IHl1. repeat split; auto.
      * rewrite Forall_forall in *. intros x Hx. apply in_app_or in Hx. destruct Hx; auto.
Qed.

Lemma sorted_cons_iff : forall x l, ksorted (x :: l) <->
  ksorted l /\ (forall y, In y l -> klt x y).
Proof.
  intros. unfold ksorted. split.
  - intros H. inversion H; subst. rewrite Forall_forall in H3. auto.
  - intros (S & C). constructor; auto. apply Forall_forall. auto.
Qed.

Lemma sorted_mono : forall k l, ksorted l -> mono (fun x => kcmp k (key x)) l.
Proof.
  intros k l S i j x y Hij Hx Hy Hc.
  destruct (nth_error_split l i Hx) as (l1 & l2 & E & L). subst l.
  apply sorted_app_iff in S. destruct S as (_ & S & _).
  apply sorted_cons_iff in S. destruct S as (_ & C).
  rewrite nth_error_app2 in Hy by lia.
  destruct (j - length l1)%nat eqn:En; [lia|]. simpl in Hy.
  assert (Hxy : klt x y) by (apply C; eapply nth_error_In; eauto).
  unfold klt in Hxy. destruct (Z.eq_dec (kcmp k (key x)) 0) as [e|ne].
  - apply kcmp_eq in e. subst k. auto.
  - eapply kcmp_trans; [|exact Hxy]. lia.
Qed.

Lemma sorted_key_inj : forall l x y, ksorted l -> In x l -> In y l -> key x = key y -> x = y.
Proof.
  induction l; simpl; intros x y S Hx Hy E; [contradiction|].
  apply sorted_cons_iff in S. destruct S as (S & C).
  destruct Hx as [->|Hx], Hy as [->|Hy]; auto.
  - pose proof (C _ Hy) as G. unfold klt in G. rewrite E, kcmp_refl in G. lia.
  - pose proof (C _ Hx) as G. unfold klt in G. rewrite E, kcmp_refl in G. lia.
Qed.

Lemma sorted_NoDup_key : forall l, ksorted l -> NoDup (map key l).
Proof.
  induction l; simpl; intros S; constructor.
  - apply sorted_cons_iff in S. destruct S as (S & C).
    intro H. apply in_map_iff in H. destruct H as (y & E & Hy).
    pose proof (C _ Hy) as G. unfold klt in G. rewrite E, kcmp_refl in G. lia.
  - apply sorted_cons_iff in S. tauto.
Qed.

Lemma sorted_insert : forall l n x, ksorted l ->
  (0 <= n <= Z.of_nat (length l)) ->
  (forall i y, (Z.of_nat i < n) -> nth_error l i = Some y -> kcmp (key x) (key y) > 0) ->
  (forall i y, (Z.of_nat i >= n) -> nth_error l i = Some y -> kcmp (key x) (key y) < 0) ->
  ksorted (insert_at n x l).
Proof.
  intros l n x S B L G. destruct (split_at _ n l B) as (l1 & l2 & E & En). subst l n.
  rewrite insert_at_split. apply sorted_app_iff in S. destruct S as (S1 & S2 & C).
  apply sorted_app_iff. split; [auto|]. split.
  - apply sorted_cons_iff. split; auto. intros y Hy. apply In_nth_error in Hy. destruct Hy as [j Hj].
    apply (G (length l1 + j)%nat); [lia|]. rewrite nth_error_app2 by lia.
    replace (length l1 + j - length l1)%nat with j by lia. auto.
  - intros a b Ha [->|Hb]; auto.
    apply In_nth_error in Ha. destruct Ha as [j Hj].
    assert (j < length l1)%nat by (apply nth_error_Some; congruence).
    unfold klt. apply kcmp_anti. apply (L j); [lia|]. rewrite nth_error_app1; auto.
Qed.

Lemma sorted_filter : forall f l, ksorted l -> ksorted (filter f l).
Proof.
  induction l; simpl; intros S; auto.
  apply sorted_cons_iff in S. destruct S as (S & C).
  destruct (f a); auto. apply sorted_cons_iff. split; auto.
  intros y Hy. apply filter_In in Hy. apply C. tauto.
Qed.

Lemma sorted_map : forall (f : A -> A) l, (forall x, In x l -> key (f x) = key x) ->
  ksorted l -> ksorted (map f l).
Proof.
  induction l; simpl; intros H S; auto.
  apply sorted_cons_iff in S. destruct S as (S & C).
  apply sorted_cons_iff. split; auto.
  intros y Hy. apply in_map_iff in Hy. destruct Hy as (z & <- & Hz).
  unfold klt. rewrite (H a), (H z) by auto. apply C. auto.
Qed.

Lemma sorted_remove : forall l1 x l2, ksorted (l1 ++ x :: l2) -> ksorted (l1 ++ l2).
Proof.
  intros. apply sorted_app_iff in H. destruct H as (S1 & S2 & C).
  apply sorted_cons_iff in S2. destruct S2 as (S2 & C2).
  apply sorted_app_iff. split; [auto|]. split; [auto|]. intros. apply C; simpl; auto.
Qed.

(** Search for a key in a sorted table *)
Lemma find_key_found : forall d k l i, ksorted l ->
  find_slot (fun x => kcmp k (key x)) d l = Found i ->
  exists l1 x l2, l = l1 ++ x :: l2 /\ i = Z.of_nat (length l1) /\ key x = k.
Proof.
  intros d k l i S E.
  apply find_slot_found_iff in E; [|apply sorted_mono; auto].
  destruct E as (B & x & H1 & H2). destruct (nth_error_split_Z _ _ _ _ H1 B) as (l1 & l2 & E1 & E2).
  exists l1, x, l2. repeat split; auto. symmetry. apply kcmp_eq. auto.
Qed.

Lemma find_key_in : forall d l1 x l2, ksorted (l1 ++ x :: l2) ->
  find_slot (fun y => kcmp (key x) (key y)) d (l1 ++ x :: l2) = Found (Z.of_nat (length l1)).
Proof.
  intros. apply find_slot_found_iff; [apply sorted_mono; auto|]. split; [lia|].
  exists x. rewrite Nat2Z.id, nth_error_app2, Nat.sub_diag by lia. simpl. auto.
Qed.

Lemma find_key_notfound : forall d k l n, ksorted l ->
  find_slot (fun x => kcmp k (key x)) d l = NotFound n ->
  (0 <= n <= Z.of_nat (length l)) /\ (forall x, In x l -> key x <> k) /\
  (forall x, key x = k -> ksorted (insert_at n x l)).
Proof.
  intros d k l n S E.
  pose proof (find_slot_spec (fun x => kcmp k (key x)) d l (sorted_mono k l S)) as P.
  rewrite E in P. destruct P as (B & L & G). split; [lia|]. split.
  - intros x Hx Ek. apply (find_slot_notfound _ d l n (sorted_mono k l S) E x Hx).
    rewrite Ek. apply kcmp_refl.
  - intros x Ek. subst k. apply sorted_insert; auto.
Qed.
End Order.

(** L_Config.v: the configuration lexer and parser. *)
From Coq Require Import String.
From Verif Require Import Base M_Util M_Filter M_Config S_Config.
Close Scope string_scope.
Open Scope Z_scope.

Lemma text_pos : forall c r, 0 <= c -> text c r = c :: r.
Proof. intros. unfold text. destruct (Z.ltb_spec c 0); [lia|easy]. Qed.
Lemma text_end : forall r, text (-1) r = [].
Proof. easy. Qed.
Lemma lex_gnc1 : forall r, Forall (fun x => 0 <= x) r ->
  lex_ok (fst (gnc1 r)) (snd (gnc1 r)) /\ text (fst (gnc1 r)) (snd (gnc1 r)) = r.
Proof.
  intros [|x r] H; simpl.
  - split; [split; auto|easy].
  - inversion H; subst. split; [split; auto|now apply text_pos].
Qed.

Lemma escaped_app : forall a b, escaped a -> escaped b -> escaped (a ++ b).
Proof. intros a b A B. induction A; simpl; [easy|now constructor..]. Qed.
Lemma escaped_no : forall l, ~ In 10 l -> escaped l.
Proof.
  induction l as [|x l IH]; simpl; [constructor|]. intros H. constructor; [intuition|]. apply IH. intuition.
Qed.

Lemma ws_iff : forall c, ws c = true <-> blank c.
Proof.
  intros c. unfold ws, blank. rewrite !orb_true_iff, !Z.eqb_eq. tauto.
Qed.

Lemma skip_ws_spec : forall r c, lex_ok c r -> let '(c', r') := skip_ws c r in
  lex_ok c' r' /\ ws c' = false /\ exists l, text c r = l ++ text c' r' /\ Forall blank l.
Proof.
  induction r as [|x r IH]; intros c [C R]; cbn [skip_ws].
  - destruct (ws c) eqn:W.
    + split; [split; auto|]. split; [easy|]. exists [c]. rewrite text_pos.
      * split; [easy|]. constructor; [now apply ws_iff|constructor].
      * unfold ws in W. rewrite !orb_true_iff, !Z.eqb_eq in W. lia.
    + split; [now split|]. split; [easy|]. now exists [].
  - destruct (ws c) eqn:W.
    + inversion R; subst. specialize (IH x (conj (or_intror H1) H2)).
      destruct (skip_ws x r) as (c', r'). destruct IH as (A & B & l & E & F).
      split; [easy|]. split; [easy|]. exists (c :: l). rewrite text_pos.
      * rewrite text_pos in E by lia. rewrite E. split; [easy|]. constructor; [now apply ws_iff|easy].
      * unfold ws in W. rewrite !orb_true_iff, !Z.eqb_eq in W. lia.
    + split; [now split|]. split; [easy|]. now exists [].
Qed.
Lemma blank_no : forall l, Forall blank l -> ~ In 10 l.
Proof.
  intros l H K. rewrite Forall_forall in H. specialize (H _ K). unfold blank in H. lia.
Qed.

Lemma to_eol_spec : forall r c, lex_ok c r -> let '(c', r') := to_eol c r in
  lex_ok c' r' /\ exists l, ~ In 10 l /\
    (text c r = l ++ 10 :: text c' r' \/ text c r = l /\ text c' r' = []).
Proof.
  induction r as [|x r IH]; intros c [C R]; cbn [to_eol].
  - destruct (Z.eqb_spec c 10) as [->|N]; cbn [orb].
    + split; [split; auto|]. exists []. split; [easy|]. now left.
    + destruct (Z.ltb_spec c 0).
      * split; [now split|]. exists []. split; [easy|]. right. unfold text. destruct (Z.ltb_spec c 0); [easy|lia].
      * split; [split; auto|]. exists [c]. split; [now intros [->|[]]|]. right. rewrite text_pos by lia. easy.
  - inversion R; subst.
    destruct (Z.eqb_spec c 10) as [->|N]; cbn [orb].
    + split; [now split; [right|]|]. exists []. split; [easy|]. left. rewrite !text_pos by lia. easy.
    + destruct (Z.ltb_spec c 0).
      * split; [now split|]. exists []. split; [easy|]. right. unfold text. destruct (Z.ltb_spec c 0); [easy|lia].
      * specialize (IH x (conj (or_intror H1) H2)). destruct (to_eol x r) as (c', r').
        destruct IH as (A & l & B & E). split; [easy|]. exists (c :: l).
        split; [intros [->|K]; [lia|easy]|]. rewrite (text_pos c) by lia. rewrite text_pos in E by lia.
        destruct E as [E|[E F]]; [left|right]; rewrite E; easy.
Qed.

(** ** Consumption *)
(** The text between two states of the parser. *)
Definition eats (c : Z) (p : pst) (c' : Z) (p' : pst) : Prop :=
  lex_ok c' (p_in p') /\ exists l, text c (p_in p) = l ++ text c' (p_in p') /\ escaped l.
Definition ends (c : Z) (p : pst) (c' : Z) (p' : pst) : Prop :=
  lex_ok c' (p_in p') /\ exists l, text c (p_in p) = l ++ text c' (p_in p') /\ one_line l (text c' (p_in p')).
Lemma eats_refl : forall c p, lex_ok c (p_in p) -> eats c p c p.
Proof. intros. split; [easy|]. exists []. split; [easy|constructor]. Qed.
Lemma eats_in : forall c p c' p' p2, eats c p c' p' -> p_in p2 = p_in p' -> eats c p c' p2.
Proof. unfold eats. intros. now rewrite H0. Qed.
Lemma eats_from : forall c p c' p' p2, eats c p c' p' -> p_in p2 = p_in p -> eats c p2 c' p'.
Proof. unfold eats. intros. now rewrite H0. Qed.
Lemma ends_in : forall c p c' p' p2, ends c p c' p' -> p_in p2 = p_in p' -> ends c p c' p2.
Proof. unfold ends. intros. now rewrite H0. Qed.
Lemma ends_from : forall c p c' p' p2, ends c p c' p' -> p_in p2 = p_in p -> ends c p2 c' p'.
Proof. unfold ends. intros. now rewrite H0. Qed.
Lemma eats_trans : forall c p c1 p1 c2 p2, eats c p c1 p1 -> eats c1 p1 c2 p2 -> eats c p c2 p2.
Proof.
  intros c p c1 p1 c2 p2 (_ & l & E & F) (L & l' & E' & F'). split; [easy|].
  exists (l ++ l'). rewrite E, E', app_assoc. split; [easy|]. now apply escaped_app.
Qed.
Lemma eats_ends : forall c p c1 p1 c2 p2, eats c p c1 p1 -> ends c1 p1 c2 p2 -> ends c p c2 p2.
Proof.
  intros c p c1 p1 c2 p2 (_ & l & E & F) (L & l' & E' & l0 & F' & G). split; [easy|].
  exists (l ++ l'). rewrite E, E', app_assoc. split; [easy|]. exists (l ++ l0).
  split; [now apply escaped_app|]. destruct G as [->|[-> G]]; [left; now rewrite app_assoc|now right].
Qed.
Lemma skip_ws_eats : forall c p, lex_ok c (p_in p) ->
  let '(c', r') := skip_ws c (p_in p) in eats c p c' (set_in r' p) /\ ws c' = false.
Proof.
  intros c p L. pose proof (skip_ws_spec _ _ L) as H. destruct (skip_ws c (p_in p)) as (c', r').
  destruct H as (A & W & l & E & B). split; [|easy]. split; [easy|]. exists l. split; [easy|].
  now apply escaped_no, blank_no.
Qed.
Lemma to_eol_ends : forall c p, lex_ok c (p_in p) ->
  let '(c', r') := to_eol c (p_in p) in ends c p c' (set_in r' p).
Proof.
  intros c p L. pose proof (to_eol_spec _ _ L) as H. destruct (to_eol c (p_in p)) as (c', r').
  destruct H as (A & l & N & E). split; [easy|]. destruct E as [E|[E F]].
  - exists (l ++ [10]). cbn [p_in set_in]. rewrite E, <- app_assoc. split; [easy|]. exists l.
    split; [now apply escaped_no|]. now left.
  - exists l. cbn [p_in set_in]. rewrite E, F, app_nil_r. split; [easy|]. exists l. split; [now apply escaped_no|]. now right.
Qed.

Lemma word_loop_spec : forall r c i, 0 <= c -> c <> 10 -> Forall (fun x => 0 <= x) r -> 0 <= i ->
  let '(c', r', w) := word_loop c r i in
  c' = -2 \/
  (lex_ok c' r' /\ ws c' || eol c' = true /\ text c r = w ++ text c' r' /\ ~ In 10 w /\ w <> [] /\
   i + Z.of_nat (length w) <= 255).
Proof.
  induction r as [|x r IH]; intros c i C N R I0; cbn [word_loop].
  - destruct (Z.geb_spec i 255); [now left|]. right. split; [split; auto|]. split; [easy|].
    rewrite text_pos by easy. split; [easy|]. split; [now intros [->|[]]|]. split; [easy|]. cbn [length]. lia.
  - destruct (Z.geb_spec i 255); [now left|]. inversion R; subst. rewrite (text_pos c) by easy.
    destruct (ws x || eol x) eqn:D.
    + right. split; [split; auto|]. split; [easy|]. rewrite text_pos by easy. split; [easy|].
      split; [now intros [->|[]]|]. split; [easy|]. cbn [length]. lia.
    + assert (Nx : x <> 10). { intros ->. discriminate D. }
      specialize (IH x (i + 1) H2 Nx H3 ltac:(lia)). destruct (word_loop x r (i + 1)) as ((c', r'), w).
      destruct IH as [->|(A & B & E & G & W & K)]; [now left|]. right.
      rewrite text_pos in E by easy. split; [easy|]. split; [easy|]. rewrite E. split; [easy|].
      split; [intros [->|Q]; easy|]. split; [easy|]. cbn [length]. lia.
Qed.
Lemma cstr_len : forall l, (length (cstr l) <= length l)%nat.
Proof. induction l as [|x l IH]; simpl; [easy|]. destruct (x =? 0); simpl; lia. Qed.
Lemma string_loop_spec : forall fuel c r i, lex_ok c r -> 0 <= i ->
  match string_loop fuel c r i with
  | None => True
  | Some (c', r', w) => lex_ok c' r' /\ i + Z.of_nat (length w) <= 255 /\
      exists l, text c r = l ++ text c' r' /\ escaped l
  end.
Proof.
  induction fuel as [|fuel IH]; intros c r i L I0; cbn [string_loop]; [easy|].
  destruct ((i >=? 255) || (c =? 10)) eqn:D; [easy|]. apply orb_false_iff in D. destruct D as [D1 D2].
  rewrite Z.geb_leb, Z.leb_gt in D1. apply Z.eqb_neq in D2.
  destruct L as [C R]. pose proof (lex_gnc1 _ R) as (G1 & G2).
  destruct (Z.eqb_spec c 34) as [->|N].
  - destruct (gnc1 r) as (c1, r1). cbn [fst snd] in *. split; [easy|]. split; [cbn [length]; lia|].
    exists [34]. rewrite text_pos by lia. rewrite G2. split; [easy|]. now apply escaped_no; intros [K|[]].
  - assert (Q : exists l, (let '(c1, r1) := if c =? 92 then gnc1 r else (c, r) in
        lex_ok c1 r1 /\ text c r = l ++ text c1 r1 /\
        (l = [92] \/ l = [] /\ c1 <> 10))).
    { destruct (Z.eqb_spec c 92) as [->|M].
      - exists [92]. destruct (gnc1 r) as (c1, r1). cbn [fst snd] in *. split; [easy|]. rewrite G2. auto.
      - exists []. split; [now split|]. auto. }
    destruct Q as (l & Q). destruct (if c =? 92 then gnc1 r else (c, r)) as (c1, r1).
    destruct Q as ([C1 R1] & E & Q). destruct (Z.ltb_spec c1 0) as [Z1|Z1]; [easy|].
    pose proof (lex_gnc1 _ R1) as (G3 & G4). destruct (gnc1 r1) as (c2, r2). cbn [fst snd] in *.
    specialize (IH c2 r2 (i + 1) G3 ltac:(lia)).
    destruct (string_loop fuel c2 r2 (i + 1)) as [((c3, r3), w)|]; [|easy].
    destruct IH as (A & B & l3 & E3 & F3). split; [easy|]. split; [cbn [length]; lia|].
    exists (l ++ c1 :: l3). rewrite E, (text_pos c1) by easy. rewrite <- G4, E3, <- app_assoc. split; [easy|].
    destruct Q as [->|[-> M]]; simpl.
    + destruct (Z.eq_dec c1 10) as [->|M].
      * now constructor.
      * constructor; [lia|]. now constructor.
    + now constructor.
Qed.

Lemma getword_spec : forall c p, lex_ok c (p_in p) ->
  match getword c p with
  | Bad p' => p_live p' = p_live p /\ p_nxt p' = p_nxt p /\ p_bad p' = p_bad p /\ p_stuck p' = p_stuck p /\ p_cfg p' = p_cfg p
  | Good c' (t, s) p' => eats c p c' p' /\ (length s <= 255)%nat /\ (length (text c' (p_in p')) < length (text c (p_in p)))%nat /\
      t = p_nxt p /\ p_live p' = t :: p_live p /\ p_nxt p' = t + 1 /\ p_bad p' = p_bad p /\ p_stuck p' = p_stuck p /\ p_cfg p' = p_cfg p
  end.
Proof.
  intros c p L. unfold getword. pose proof (skip_ws_eats _ _ L) as K.
  destruct (skip_ws c (p_in p)) as (c0, r0). destruct K as (K & W).
  destruct (eol c0 || (c0 =? 34)) eqn:D; [now repeat split|].
  apply orb_false_iff in D. destruct D as (D & Q). unfold eol in D. rewrite !orb_false_iff in D.
  destruct D as ((D1 & D2) & D3). apply Z.ltb_ge in D1. apply Z.eqb_neq in D2.
  pose proof K as (K1 & l0 & E0 & F0). cbn [p_in set_in] in K1, E0.
  pose proof (word_loop_spec r0 c0 0 D1 D2 (proj2 K1) ltac:(lia)) as H.
  destruct (word_loop c0 r0 0) as ((c', r'), w).
  destruct H as [->|(A & B & E & N & Ne & H)]; [now repeat split|].
  assert (C' : (c' <? -1) = false). { apply Z.ltb_ge. destruct A as ([[-> _]|Hc] & _); lia. }
  rewrite C'. cbn [alloct p_live p_nxt p_bad p_stuck p_cfg p_in set_in].
  split; [|split; [|split; [|now repeat split]]].
  - eapply eats_trans; [exact K|]. split; [easy|]. exists w. split; [easy|]. now apply escaped_no.
  - pose proof (cstr_len w). lia.
  - rewrite E0, E, !app_length. destruct w; [easy|]. cbn [length]. lia.
Qed.
Lemma getstring_spec : forall c p, lex_ok c (p_in p) ->
  match getstring c p with
  | Bad p' => p_live p' = p_live p /\ p_nxt p' = p_nxt p /\ p_bad p' = p_bad p /\ p_stuck p' = p_stuck p /\ p_cfg p' = p_cfg p
  | Good c' (t, s) p' => eats c p c' p' /\ (length s <= 255)%nat /\ (length (text c' (p_in p')) <= length (text c (p_in p)))%nat /\
      t = p_nxt p /\ p_live p' = t :: p_live p /\ p_nxt p' = t + 1 /\ p_bad p' = p_bad p /\ p_stuck p' = p_stuck p /\ p_cfg p' = p_cfg p
  end.
Proof.
  intros c p L. unfold getstring. pose proof (skip_ws_eats _ _ L) as K.
  destruct (skip_ws c (p_in p)) as (c0, r0). destruct K as (K & W).
  destruct (eol c0) eqn:D; [now repeat split|].
  pose proof K as (K1 & l0 & E0 & F0). cbn [p_in set_in] in K1, E0.
  assert (Hc0 : 0 <= c0). { unfold eol in D. rewrite !orb_false_iff in D. apply Z.ltb_ge. tauto. }
  destruct (Z.eqb_spec c0 34) as [->|N]; cbn [negb].
  - pose proof (lex_gnc1 _ (proj2 K1)) as (G1 & G2). destruct (gnc1 r0) as (c1, r1). cbn [fst snd] in *.
    pose proof (string_loop_spec 256 c1 r1 0 G1 ltac:(lia)) as H.
    destruct (string_loop 256 c1 r1 0) as [((c', r'), w)|]; [|now repeat split].
    destruct H as (A & B & l & E & F). cbn [alloct p_live p_nxt p_bad p_stuck p_cfg p_in set_in].
    split; [|split; [|split; [|now repeat split]]].
    + eapply eats_trans; [exact K|]. split; [easy|]. exists (34 :: l). cbn [p_in set_in].
      rewrite text_pos by lia. rewrite <- G2, E. split; [easy|]. now constructor.
    + pose proof (cstr_len w). lia.
    + rewrite E0, (text_pos 34) by easy. rewrite <- G2, E, !app_length. cbn [length]. rewrite app_length. lia.
  - pose proof (getword_spec c0 (set_in r0 p) K1) as H. destruct (getword c0 (set_in r0 p)) as [p'|c' (t, s) p'].
    + exact H.
    + destruct H as (A & B & C & T). split; [now eapply eats_trans; [exact K|]|]. split; [easy|].
      split; [|exact T]. cbn [p_in set_in] in C. rewrite E0, app_length. lia.
Qed.

(** ** The heap *)
(** Between two states: the strings live before are live after, nothing was misused. *)
Record hgood (p p' : pst) : Prop := mkHg {
  hg_ok : heap_ok p'; hg_bad : p_bad p' = p_bad p; hg_stuck : p_stuck p' = p_stuck p;
  hg_incl : incl (p_live p) (p_live p'); hg_nxt : p_nxt p <= p_nxt p' }.
Lemma hgood_refl : forall p, heap_ok p -> hgood p p.
Proof. intros. split; auto using incl_refl. lia. Qed.
Lemma hgood_trans : forall a b c, hgood a b -> hgood b c -> hgood a c.
Proof. intros a b c [] []. split; [easy|congruence|congruence|eapply incl_tran; eauto|lia]. Qed.
(** Same but for the input and the configuration. *)
Definition hsame (p p' : pst) : Prop :=
  p_live p' = p_live p /\ p_nxt p' = p_nxt p /\ p_bad p' = p_bad p /\ p_stuck p' = p_stuck p.
Lemma hsame_good : forall p p' q, hsame p p' -> hgood q p -> hgood q p'.
Proof.
  intros p p' q (A & B & C & D) [[N F] Hb Hs Hi Hn].
  split; [split; [now rewrite A|now rewrite A, B]|congruence|congruence|now rewrite A|lia].
Qed.
Lemma hsame_in : forall p r, hsame p (set_in r p). Proof. easy. Qed.
Lemma hsame_cfg : forall p g, hsame p (set_cfg g p). Proof. easy. Qed.
Lemma is_live_iff : forall t p, is_live t p = true <-> In t (p_live p).
Proof.
  intros. unfold is_live. rewrite existsb_exists. split.
  - intros (x & H & E). apply Z.eqb_eq in E. now subst.
  - intros H. exists t. split; [easy|apply Z.eqb_refl].
Qed.
Lemma uset_live : forall t p, In t (p_live p) -> uset t p = p.
Proof. intros t p H. unfold uset. apply is_live_iff in H. now rewrite H. Qed.
Lemma freet_cfg : forall t p, p_cfg (freet t p) = p_cfg p.
Proof. intros [t|] p; simpl; [destruct (is_live t p)|]; easy. Qed.
Lemma freet_in : forall t p, p_in (freet t p) = p_in p.
Proof. intros [t|] p; simpl; [destruct (is_live t p)|]; easy. Qed.
Lemma uset_cfg : forall t p, p_cfg (uset t p) = p_cfg p.
Proof. intros t p. unfold uset. destruct (is_live t p); easy. Qed.
Lemma uset_in : forall t p, p_in (uset t p) = p_in p.
Proof. intros t p. unfold uset. destruct (is_live t p); easy. Qed.
(** Freeing a live string that the caller did not have. *)
Lemma freet_good : forall p0 p t, hgood p0 p -> In t (p_live p) -> ~ In t (p_live p0) ->
  hgood p0 (freet (Some t) p) /\ (forall x, In x (p_live p) -> x <> t -> In x (p_live (freet (Some t) p))).
Proof.
  intros p0 p t [[N F] Hb Hs Hi Hn] L M. unfold freet. pose proof L as L'. apply is_live_iff in L'. rewrite L'.
  split.
  - split; simpl; [split; simpl| | | |]; auto.
    + now apply NoDup_filter.
    + rewrite Forall_forall in *. intros x Hx. apply filter_In in Hx. now apply F.
    + intros x Hx. apply filter_In. split; [now apply Hi|]. apply negb_true_iff, Z.eqb_neq. intros ->. easy.
  - intros x Hx Nx. simpl. apply filter_In. split; [easy|]. now apply negb_true_iff, Z.eqb_neq.
Qed.
Global Arguments freet : simpl never.
Global Arguments uset : simpl never.
Definition own (o : option Z) (p0 p : pst) : Prop :=
  match o with Some t => In t (p_live p) /\ ~ In t (p_live p0) | None => True end.
Lemma freeo_good : forall o p0 p, hgood p0 p -> own o p0 p -> hgood p0 (freet o p).
Proof. intros [t|] p0 p H O; [|easy]. destruct O. now apply freet_good. Qed.

(** A new string. *)
Lemma new_good : forall p0 p p1 t, hgood p0 p -> t = p_nxt p -> p_live p1 = t :: p_live p ->
  p_nxt p1 = t + 1 -> p_bad p1 = p_bad p -> p_stuck p1 = p_stuck p ->
  hgood p0 p1 /\ In t (p_live p1) /\ ~ In t (p_live p0) /\ ~ In t (p_live p) /\ incl (p_live p) (p_live p1).
Proof.
  intros p0 p p1 t [[N F] Hb Hs Hi Hn] T A B C D.
  assert (Q : ~ In t (p_live p)). { intros K. rewrite Forall_forall in F. specialize (F _ K). lia. }
  rewrite A. split; [|split; [now left|split; [|split; [easy|now intros x; right]]]].
  - split; [split; rewrite ?A, ?B| | | |]; try congruence.
    + now constructor.
    + constructor; [lia|]. rewrite Forall_forall in *. intros x Hx. specialize (F _ Hx). lia.
    + rewrite A. intros x Hx. right. auto.
    + rewrite B. lia.
  - intros K. apply Q. auto.
Qed.

(** What a function that reads a value does. *)
Definition reads {A} (c : Z) (p : pst) (r : res A) : Prop :=
  match r with
  | Bad p' => hgood p p' /\ p_cfg p' = p_cfg p
  | Good c' _ p' => hgood p p' /\ p_cfg p' = p_cfg p /\ eats c p c' p' /\
      (length (text c' (p_in p')) <= length (text c (p_in p)))%nat
  end.
Lemma getconv_reads : forall A (f : list Z -> option A) c p, lex_ok c (p_in p) -> heap_ok p -> reads c p (getconv f c p).
Proof.
  intros A f c p L H. unfold getconv. pose proof (getword_spec c p L) as G.
  destruct (getword c p) as [p'|c' (t, s) p'].
  - destruct G as (G1 & G2 & G3 & G4 & G5). split; [|easy]. eapply hsame_good; [|now apply hgood_refl]. easy.
  - destruct G as (E & S & K & G1 & G2 & G3 & G4 & G5 & G6).
    destruct (new_good p p p' t (hgood_refl _ H) G1 G2 G3 G4 G5) as (N1 & N2 & N3 & N4 & N5).
    rewrite uset_live by easy. destruct (freet_good p p' t N1 N2 N3) as (F1 & _).
    destruct (f s); simpl.
    + split; [easy|]. rewrite freet_cfg, freet_in. split; [easy|].
      split; [eapply eats_in; [exact E|apply freet_in]|lia].
    + split; [easy|]. now rewrite freet_cfg.
Qed.
Lemma with_val_reads : forall A B (r : res A) (k : A -> option B) c p, reads c p r -> reads c p (with_val r k).
Proof.
  intros A B [p'|c' v p'] k c p H; simpl in *; [easy|]. destruct (k v); simpl; tauto.
Qed.
Lemma good_reads : forall A (a : A) c p, lex_ok c (p_in p) -> heap_ok p -> reads c p (Good c a p).
Proof. intros. split; [now apply hgood_refl|]. split; [easy|]. split; [now apply eats_refl|easy]. Qed.
Lemma bad_reads : forall A c p, heap_ok p -> reads c p (@Bad A p).
Proof. intros. split; [now apply hgood_refl|easy]. Qed.

(** ** Filters *)
Lemma filter_kw_reads : forall e s c f ifn p, lex_ok c (p_in p) -> heap_ok p ->
  reads c p (filter_kw e s c f ifn p) /\
  match filter_kw e s c f ifn p with
  | Good _ (_, ifn') p' => ifn' = ifn \/ own ifn' p p'
  | Bad _ => True
  end.
Proof.
  intros e s c f ifn p L H. unfold filter_kw. cbv zeta.
  repeat match goal with |- _ (if ?b then _ else _) /\ _ => destruct b end.
  all: try (split; [first [apply with_val_reads, getconv_reads; easy | apply good_reads; easy | apply bad_reads; easy]|]).
  all: try solve [simpl; auto].
  all: try match goal with |- match with_val ?r _ with _ => _ end =>
      destruct r as [p'|c' v p']; [exact Logic.I|]; simpl;
      repeat match goal with |- context [let '(_, _) := ?x in _] => destruct x end end.
  all: try (unfold join_af; repeat match goal with |- context [if ?b then _ else _] => destruct b end; simpl; auto; fail).
  (* the interface name *)
  pose proof (getstring_spec c p L) as G. destruct (getstring c p) as [p'|c' (t, name) p']; simpl.
  - split; [|easy]. destruct G as (G1 & G2 & G3 & G4 & G5). split; [|easy]. eapply hsame_good; [|now apply hgood_refl]. easy.
  - destruct G as (E & S & K & G1 & G2 & G3 & G4 & G5 & G6).
    destruct (new_good p p p' t (hgood_refl _ H) G1 G2 G3 G4 G5) as (N1 & N2 & N3 & N4 & N5).
    split; [split; [easy|]; split; [easy|]; split; [easy|lia]|]. now right.
Qed.

(** What a function that reads the rest of a line does; [p0] is where its caller started. *)
Definition parses {A} (c : Z) (p0 p : pst) (r : res A) : Prop :=
  match r with
  | Bad p' => hgood p0 p' /\ p_cfg p' = p_cfg p0
  | Good c' _ p' => hgood p0 p' /\ p_cfg p' = p_cfg p0 /\ ends c p c' p'
  end.
Lemma hgood_own : forall o p0 p p', own o p0 p -> hgood p p' -> own o p0 p'.
Proof. intros [t|] p0 p p' O H; [|easy]. destruct O as [A B]. split; [|easy]. now apply (hg_incl _ _ H). Qed.
Lemma own_trans : forall o p0 p p', hgood p0 p -> own o p p' -> own o p0 p'.
Proof. intros [t|] p0 p p' H O; [|easy]. destruct O as [A B]. split; [easy|]. intros K. apply B. now apply (hg_incl _ _ H). Qed.
Lemma own_free : forall o t p0 p, own o p0 p -> In t (p_live p) -> o <> Some t -> own o p0 (freet (Some t) p).
Proof.
  intros [x|] t p0 p O H N; [|easy]. destruct O as [A B]. split; [|easy]. unfold freet.
  apply is_live_iff in H. rewrite H. simpl. apply filter_In. split; [easy|].
  apply negb_true_iff, Z.eqb_neq. congruence.
Qed.
(** The start of each round of the three loops. *)
Lemma round_start : forall c p p0, lex_ok c (p_in p) -> hgood p0 p ->
  let '(c', r) := skip_ws c (p_in p) in
  let p1 := set_in r p in
  eats c p c' p1 /\ lex_ok c' (p_in p1) /\ hgood p0 p1 /\
  (length (text c' (p_in p1)) <= length (text c (p_in p)))%nat /\
  (let '(c2, r2) := to_eol c' r in ends c p c2 (set_in r2 p1)).
Proof.
  intros c p p0 L H. pose proof (skip_ws_eats _ _ L) as K. destruct (skip_ws c (p_in p)) as (c', r).
  destruct K as (K & _). cbv zeta. split; [easy|]. split; [apply K|].
  split; [now eapply hsame_good; [|exact H]|]. split.
  - destruct K as (_ & l & E & _). rewrite E, app_length. lia.
  - pose proof (to_eol_ends c' (set_in r p) (proj1 K)) as Q. cbn [p_in set_in] in Q.
    destruct (to_eol c' r) as (c2, r2). eapply eats_ends; [exact K|exact Q].
Qed.
Lemma ends_end : forall A c p0 p c1 r1 (a : A), hgood p0 p -> p_cfg p = p_cfg p0 ->
  ends c p c1 (set_in r1 p) -> parses c p0 p (Good c1 a (set_in r1 p)).
Proof. intros. split; [now eapply hsame_good; [|eassumption]|]. easy. Qed.
Lemma parses_from : forall A c p0 p c1 p1 (r : res A), eats c p c1 p1 -> parses c1 p0 p1 r -> parses c p0 p r.
Proof.
  intros A c p0 p c1 p1 [p'|c' a p'] E H; [exact H|]. destruct H as (H1 & H2 & H3).
  split; [easy|]. split; [easy|]. eapply eats_ends; eauto.
Qed.
Lemma eats_ok : forall c p c' p', eats c p c' p' -> lex_ok c' (p_in p').
Proof. now intros c p c' p' []. Qed.
Lemma eats_len : forall c p c' p', eats c p c' p' -> (length (text c' (p_in p')) <= length (text c (p_in p)))%nat.
Proof. intros c p c' p' (_ & l & E & _). rewrite E, app_length. lia. Qed.

Lemma filter_loop_parses : forall e fuel c f ifn p p0, lex_ok c (p_in p) -> hgood p0 p -> own ifn p0 p ->
  p_cfg p = p_cfg p0 -> (length (text c (p_in p)) < fuel)%nat ->
  parses c p0 p (filter_loop e fuel c f ifn p).
Proof.
  induction fuel as [|fuel IH]; intros c f ifn p p0 L H O G F; [lia|]. cbn [filter_loop].
  pose proof (round_start c p p0 L H) as R. destruct (skip_ws c (p_in p)) as (c1, r1). cbv zeta in R.
  destruct R as (R1 & R2 & R3 & R4 & R5).
  destruct (eol c1).
  { destruct (to_eol c1 r1) as (c2, r2). split; [now eapply hsame_good; [|exact H]|]. split; [easy|exact R5]. }
  pose proof (getword_spec c1 (set_in r1 p) R2) as W.
  destruct (getword c1 (set_in r1 p)) as [p2|c2 (t, s) p2].
  { destruct W as (W1 & W2 & W3 & W4 & W5). split; [|now rewrite freet_cfg, W5].
    apply freeo_good; [now eapply hsame_good; [|exact R3]|]. destruct ifn; [|easy]. simpl in O |- *. now rewrite W1. }
  destruct W as (E & _ & K & W1 & W2 & W3 & W4 & W5 & W6).
  destruct (new_good p0 _ p2 t R3 W1 W2 W3 W4 W5) as (N1 & N2 & N3 & N4 & N5).
  rewrite uset_live by easy.
  assert (N6 : forall o, own o p0 (set_in r1 p) -> own o p0 p2 /\ o <> Some t).
  { intros [x|]; [|easy]. intros [A B]. split; [split; [now apply N5|easy]|]. intros Q. injection Q as ->. easy. }
  destruct (N6 ifn O) as (O2 & Ot).
  destruct (filter_kw_reads e s c2 f ifn p2 (eats_ok _ _ _ _ E) (hg_ok _ _ N1)) as (Q & Qi).
  destruct (filter_kw e s c2 f ifn p2) as [p3|c3 (f3, ifn3) p3].
  - destruct Q as (Q1 & Q2). destruct (freet_good p0 p3 t (hgood_trans _ _ _ N1 Q1)) as (F1 & F2); [now apply (hg_incl _ _ Q1)|easy|].
    split; [|rewrite !freet_cfg, Q2, W6; exact G]. apply freeo_good; [easy|]. apply own_free; [exact (hgood_own _ _ _ _ O2 Q1)| |easy].
    now apply (hg_incl _ _ Q1).
  - destruct Q as (Q1 & Q2 & Q3 & Q4).
    assert (Lt : In t (p_live p3)) by now apply (hg_incl _ _ Q1).
    destruct (freet_good p0 p3 t (hgood_trans _ _ _ N1 Q1) Lt N3) as (F1 & F2).
    assert (T : eats c p c3 (freet (Some t) p3)).
    { eapply eats_trans; [exact R1|]. eapply eats_trans; [exact E|]. eapply eats_in; [exact Q3|apply freet_in]. }
    eapply parses_from; [exact T|]. apply IH; [apply (eats_ok _ _ _ _ T)|easy| | |].
    + assert (J : own ifn3 p0 p3 /\ ifn3 <> Some t).
      { destruct Qi as [->|Qi]; [split; [exact (hgood_own _ _ _ _ O2 Q1)|easy]|].
        split; [exact (own_trans _ _ _ _ N1 Qi)|]. destruct ifn3; [|easy]. destruct Qi as [_ Qi]. congruence. }
      destruct J. now apply own_free.
    + rewrite freet_cfg, Q2, W6. exact G.
    + rewrite freet_in. lia.
Qed.
Lemma with_cfg_parses : forall A B (r : res A) (k : A -> B) c p0 p, parses c p0 p r -> parses c p0 p (with_cfg r k).
Proof. intros A B [p'|c' v p'] k c p0 p H; exact H. Qed.
Lemma fuel_enough : forall c p, (length (text c (p_in p)) < S (S (length (p_in p))))%nat.
Proof. intros. unfold text. destruct (c <? 0); simpl; lia. Qed.
Lemma parse_filter_parses : forall e c p, lex_ok c (p_in p) -> heap_ok p -> parses c p p (parse_filter e c p).
Proof.
  intros. apply with_cfg_parses, filter_loop_parses; auto using hgood_refl, fuel_enough. exact Logic.I.
Qed.

(** ** Keys *)
Lemma key_kw_reads : forall s c k p, lex_ok c (p_in p) -> heap_ok p ->
  reads c p (key_kw s c k p) /\
  match key_kw s c k p with
  | Good _ k' p' => idptr k' = idptr k \/ own (idptr k') p p'
  | Bad _ => True
  end.
Proof.
  intros s c k p L H. unfold key_kw, with_cfg.
  destruct (beq s (str "id")).
  - pose proof (getword_spec c p L) as G. destruct (getword c p) as [p'|c' (t, name) p']; simpl.
    + split; [|easy]. destruct G as (G1 & G2 & G3 & G4 & G5). split; [|easy]. eapply hsame_good; [|now apply hgood_refl]. easy.
    + destruct G as (E & Sh & K & G1 & G2 & G3 & G4 & G5 & G6).
      destruct (new_good p p p' t (hgood_refl _ H) G1 G2 G3 G4 G5) as (N1 & N2 & N3 & N4 & N5).
      split; [split; [easy|]; split; [easy|]; split; [easy|lia]|]. now right.
  - destruct (beq s (str "type")); [|destruct (beq s (str "value"))].
    1,2: split; [now apply with_val_reads, getconv_reads|];
      match goal with |- match with_val ?r _ with _ => _ end => destruct r end; simpl; auto.
    split; [now apply bad_reads|easy].
Qed.
Lemma key_loop_parses : forall fuel c k p p0, lex_ok c (p_in p) -> hgood p0 p -> own (idptr k) p0 p ->
  p_cfg p = p_cfg p0 -> (length (text c (p_in p)) < fuel)%nat ->
  parses c p0 p (key_loop fuel c k p) /\
  match key_loop fuel c k p with Good _ k' p' => own (idptr k') p0 p' | Bad _ => True end.
Proof.
  induction fuel as [|fuel IH]; intros c k p p0 L H O G F; [lia|]. cbn [key_loop].
  pose proof (round_start c p p0 L H) as R. destruct (skip_ws c (p_in p)) as (c1, r1). cbv zeta in R.
  destruct R as (R1 & R2 & R3 & R4 & R5).
  destruct (eol c1).
  { destruct (to_eol c1 r1) as (c2, r2). split; [|exact O]. split; [now eapply hsame_good; [|exact H]|]. split; [easy|exact R5]. }
  pose proof (getword_spec c1 (set_in r1 p) R2) as W.
  destruct (getword c1 (set_in r1 p)) as [p2|c2 (t, s) p2].
  { destruct W as (W1 & W2 & W3 & W4 & W5). split; [|easy]. split; [|now rewrite freet_cfg, W5].
    apply freeo_good; [now eapply hsame_good; [|exact R3]|]. destruct (idptr k); [|easy]. simpl in O |- *. now rewrite W1. }
  destruct W as (E & _ & K & W1 & W2 & W3 & W4 & W5 & W6).
  destruct (new_good p0 _ p2 t R3 W1 W2 W3 W4 W5) as (N1 & N2 & N3 & N4 & N5).
  rewrite uset_live by easy.
  assert (N6 : forall o, own o p0 (set_in r1 p) -> own o p0 p2 /\ o <> Some t).
  { intros [x|]; [|easy]. intros [A B]. split; [split; [now apply N5|easy]|]. intros Q. injection Q as ->. easy. }
  destruct (N6 (idptr k) O) as (O2 & Ot).
  destruct (key_kw_reads s c2 k p2 (eats_ok _ _ _ _ E) (hg_ok _ _ N1)) as (Q & Qi).
  destruct (key_kw s c2 k p2) as [p3|c3 k3 p3].
  - destruct Q as (Q1 & Q2). destruct (freet_good p0 p3 t (hgood_trans _ _ _ N1 Q1)) as (F1 & F2); [now apply (hg_incl _ _ Q1)|easy|].
    split; [|easy]. split; [|rewrite !freet_cfg, Q2, W6; exact G]. apply freeo_good; [easy|]. apply own_free; [exact (hgood_own _ _ _ _ O2 Q1)| |easy].
    now apply (hg_incl _ _ Q1).
  - destruct Q as (Q1 & Q2 & Q3 & Q4).
    assert (Lt : In t (p_live p3)) by now apply (hg_incl _ _ Q1).
    destruct (freet_good p0 p3 t (hgood_trans _ _ _ N1 Q1) Lt N3) as (F1 & F2).
    assert (T : eats c p c3 (freet (Some t) p3)).
    { eapply eats_trans; [exact R1|]. eapply eats_trans; [exact E|]. eapply eats_in; [exact Q3|apply freet_in]. }
    assert (J : own (idptr k3) p0 p3 /\ idptr k3 <> Some t).
    { destruct Qi as [->|Qi]; [split; [exact (hgood_own _ _ _ _ O2 Q1)|easy]|].
      split; [exact (own_trans _ _ _ _ N1 Qi)|]. destruct (idptr k3); [|easy]. destruct Qi as [_ Qi]. congruence. }
    edestruct (IH c3 k3 (freet (Some t) p3) p0) as (I1 & I2).
    + apply (eats_ok _ _ _ _ T).
    + easy.
    + destruct J. now apply own_free.
    + rewrite freet_cfg, Q2, W6. exact G.
    + rewrite freet_in. lia.
    + split; [|exact I2]. eapply parses_from; [exact T|exact I1].
Qed.
Lemma parse_key_parses : forall c p, lex_ok c (p_in p) -> heap_ok p -> parses c p p (parse_key c p).
Proof.
  intros c p L H. unfold parse_key.
  destruct (key_loop_parses (S (S (length (p_in p)))) c (mkKp None 0 []) p p) as (A & B); auto using hgood_refl, fuel_enough.
  { exact Logic.I. }
  destruct (key_loop (S (S (length (p_in p)))) c (mkKp None 0 []) p) as [p'|c' k p']; [exact A|].
  destruct A as (A1 & A2 & A3). destruct (finish_key k); [now split|].
  split; [now apply freeo_good|now rewrite freet_cfg].
Qed.

(** ** Interfaces *)
Lemma le_refl2 : forall ks, Forall2 (fun k k' => k_ref k <= k_ref k') ks ks.
Proof. induction ks; constructor; [lia|easy]. Qed.
Lemma refs_refl : forall g, refs_only g g.
Proof. intros. unfold refs_only. repeat (split; [reflexivity|]). apply le_refl2. Qed.
Lemma le_trans2 : forall a b, Forall2 (fun k k' => k_ref k <= k_ref k') a b -> forall c, Forall2 (fun k k' => k_ref k <= k_ref k') b c ->
  Forall2 (fun k k' => k_ref k <= k_ref k') a c.
Proof. induction 1; intros c K; inversion K; subst; constructor; [lia|auto]. Qed.
Lemma refs_trans : forall a b c, refs_only a b -> refs_only b c -> refs_only a c.
Proof.
  unfold refs_only. intros a b c A B. destruct A as (A1 & A2 & A3 & A4 & A5 & A6 & A7 & A8 & A9 & A10 & A11).
  destruct B as (B1 & B2 & B3 & B4 & B5 & B6 & B7 & B8 & B9 & B10 & B11).
  repeat (split; [congruence|]). eapply le_trans2; eauto.
Qed.
Lemma nth_split_le : forall l i x y, nth_error l i = Some x -> k_ref x <= k_ref y ->
  Forall2 (fun k k' => k_ref k <= k_ref k') l (firstn i l ++ y :: skipn (S i) l).
Proof.
  induction l as [|z l IH]; intros [|i] x y E Q; try discriminate E.
  - injection E as ->. cbn. constructor; [easy|apply le_refl2].
  - cbn in E. cbn [firstn app skipn]. constructor; [lia|]. apply (IH i x y E Q).
Qed.
Lemma nth_split_map : forall A B (f : A -> B) l i x y, nth_error l i = Some x -> f y = f x ->
  map f (firstn i l ++ y :: skipn (S i) l) = map f l.
Proof.
  intros A B f l. induction l as [|z l IH]; intros [|i] x y E Q; try discriminate E; simpl in *.
  - injection E as ->. now rewrite Q.
  - f_equal. now apply IH with x.
Qed.
Lemma retain_refs : forall i g, refs_only g (retain_key i g).
Proof.
  intros i g. unfold retain_key. destruct (nth_error (g_keys g) i) as [k|] eqn:E; [|apply refs_refl].
  destruct (k_ref k <? 65535); unfold refs_only; cbn [set_keys set_abort g_final g_write g_in g_out g_redist g_inst g_ifs g_default g_log g_keys];
    repeat (split; [reflexivity|]); [split|apply le_refl2].
  - eapply nth_split_map; [exact E|reflexivity].
  - eapply nth_split_le; [exact E|]. simpl. lia.
Qed.
Lemma find_key_refs : forall id g, refs_only g (snd (find_key id g)).
Proof.
  intros. unfold find_key. destruct (index_key id (g_keys g)); simpl; [apply retain_refs|apply refs_refl].
Qed.

Definition reads_if {A} (c : Z) (p : pst) (r : res A) : Prop :=
  match r with
  | Bad p' => hgood p p' /\ refs_only (p_cfg p) (p_cfg p')
  | Good c' _ p' => hgood p p' /\ refs_only (p_cfg p) (p_cfg p') /\ eats c p c' p'
  end.
Lemma reads_reads_if : forall A c p (r : res A), reads c p r -> reads_if c p r.
Proof. intros A c p [p'|c' a p'] H; unfold reads, reads_if in *; destruct H as (H1 & H2); [|destruct H2 as (H2 & H3 & _)]; rewrite H2; auto using refs_refl. Qed.
Lemma if_kw_reads : forall s c ic p, lex_ok c (p_in p) -> heap_ok p -> reads_if c p (if_kw s c ic p).
Proof.
  intros s c ic p L H. unfold if_kw. cbv zeta.
  repeat match goal with |- reads_if _ _ (if ?b then _ else _) => destruct b end.
  all: try (apply reads_reads_if, with_val_reads, getconv_reads; easy).
  2: { split; [now apply hgood_refl|apply refs_refl]. }
  pose proof (getword_spec c p L) as G. destruct (getword c p) as [p'|c' (t, id) p'].
  - destruct G as (G1 & G2 & G3 & G4 & G5). split; [|rewrite G5; apply refs_refl].
    eapply hsame_good; [|now apply hgood_refl]. easy.
  - destruct G as (E & _ & K & G1 & G2 & G3 & G4 & G5 & G6).
    destruct (new_good p p p' t (hgood_refl _ H) G1 G2 G3 G4 G5) as (N1 & N2 & N3 & N4 & N5).
    rewrite uset_live by easy. pose proof (find_key_refs id (p_cfg p')) as Q.
    destruct (find_key id (p_cfg p')) as (o, g). cbn [snd] in Q. rewrite G6 in Q.
    destruct (freet_good p (set_cfg g p') t) as (F1 & _); [now eapply hsame_good; [|exact N1]|easy|easy|].
    destruct o; simpl.
    + split; [easy|]. rewrite freet_cfg. split; [easy|]. eapply eats_in; [exact E|now rewrite freet_in].
    + split; [easy|]. now rewrite freet_cfg.
Qed.
Lemma word_loop_long : forall r c i, fst (fst (word_loop c r i)) = -2 -> Forall (fun x => 0 <= x) r -> 255 <= i + Z.of_nat (length r).
Proof.
  induction r as [|x r IH]; intros c i E R; cbn [word_loop] in E.
  - destruct (Z.geb_spec i 255); [cbn [length]; lia|discriminate E].
  - destruct (Z.geb_spec i 255); [lia|]. inversion R; subst.
    destruct (ws x || eol x); cbn [fst] in E; [lia|].
    specialize (IH x (i + 1)). destruct (word_loop x r (i + 1)) as ((c', r'), w). cbn [fst] in *.
    specialize (IH E H3). cbn [length]. lia.
Qed.
(** A word can be unreadable only when it starts with a quote or is long. *)
Lemma getword_bad : forall c p p', lex_ok c (p_in p) -> ws c = false -> eol c = false -> getword c p = Bad p' ->
  In 34 (text c (p_in p)) \/ (255 < length (text c (p_in p)))%nat.
Proof.
  intros c p p' L W D. unfold getword. assert (Hs : skip_ws c (p_in p) = (c, p_in p)).
  { destruct (p_in p); cbn [skip_ws]; now rewrite W. }
  rewrite Hs, D. cbn [orb]. assert (C : 0 <= c). { unfold eol in D. rewrite !orb_false_iff in D. apply Z.ltb_ge. tauto. }
  rewrite text_pos by easy. destruct (Z.eqb_spec c 34) as [->|N]; [intros _; left; now left|].
  pose proof (word_loop_long (p_in p) c 0) as Q. pose proof (word_loop_spec (p_in p) c 0 C) as Q2.
  destruct (word_loop c (p_in p) 0) as ((c', r'), w). cbn [fst] in Q.
  destruct (Z.ltb_spec c' (-1)) as [K|K]; [|intros X; discriminate X]. intros _. right.
  destruct Q2 as [->|(A & _)].
  - unfold eol in D. rewrite !orb_false_iff in D. destruct D as ((_ & D) & _). now apply Z.eqb_neq.
  - apply L.
  - lia.
  - specialize (Q eq_refl (proj2 L)). cbn [length]. lia.
  - destruct A as ([[-> _]|A] & _); lia.
Qed.

(** Like [hgood], without the claim that nothing was misused. *)
Record hweak (p p' : pst) : Prop := mkHw {
  hw_ok : heap_ok p'; hw_stuck : p_stuck p' = p_stuck p; hw_incl : incl (p_live p) (p_live p'); hw_nxt : p_nxt p <= p_nxt p' }.
Lemma hgood_weak : forall p p', hgood p p' -> hweak p p'.
Proof. intros p p' []. now split. Qed.
Lemma hweak_trans : forall a b c, hweak a b -> hweak b c -> hweak a c.
Proof. intros a b c [] []. split; [easy|congruence|eapply incl_tran; eauto|lia]. Qed.
Lemma free_weak : forall t p0 p, hweak p0 p -> ~ In t (p_live p0) -> hweak p0 (freet (Some t) p).
Proof.
  intros t p0 p [[N F] Hs Hi Hn] M. unfold freet. destruct (is_live t p); [|now split].
  split; simpl; [split; simpl|..]; auto.
  + now apply NoDup_filter.
  + rewrite Forall_forall in *. intros x Hx. apply filter_In in Hx. now apply F.
  + intros x Hx. apply filter_In. split; [now apply Hi|]. apply negb_true_iff, Z.eqb_neq. intros ->. easy.
Qed.

(** An interface line: [q] says that the line has neither quotes nor 256 characters. *)
Definition plain (l : list Z) : Prop := ~ In 34 l /\ (length l <= 255)%nat.
Definition parses_if {A} (c : Z) (p0 p : pst) (r : res A) : Prop :=
  match r with
  | Bad p' => hweak p0 p' /\ refs_only (p_cfg p0) (p_cfg p') /\ (plain (text c (p_in p)) -> p_bad p' = p_bad p0)
  | Good c' _ p' => hgood p0 p' /\ refs_only (p_cfg p0) (p_cfg p') /\ ends c p c' p'
  end.
Lemma plain_eats : forall c p c' p', eats c p c' p' -> plain (text c (p_in p)) -> plain (text c' (p_in p')).
Proof.
  intros c p c' p' (_ & l & E & _) [A B]. rewrite E in A, B. rewrite app_length in B. split; [|lia].
  intros K. apply A. apply in_or_app. now right.
Qed.
Lemma parses_if_from : forall A c p0 p c1 p1 (r : res A), eats c p c1 p1 -> parses_if c1 p0 p1 r -> parses_if c p0 p r.
Proof.
  intros A c p0 p c1 p1 [p'|c' a p'] E H.
  - destruct H as (H1 & H2 & H3). split; [easy|]. split; [easy|]. intros P. apply H3. now eapply plain_eats; eauto.
  - destruct H as (H1 & H2 & H3). split; [easy|]. split; [easy|]. eapply eats_ends; eauto.
Qed.
Lemma ifconf_loop_parses : forall fuel c tok name ic p p0, lex_ok c (p_in p) -> hgood p0 p -> own name p0 p ->
  (forall t, tok = Some t -> ~ In t (p_live p0)) -> (forall t, tok = Some t -> name <> Some t) ->
  refs_only (p_cfg p0) (p_cfg p) -> (length (text c (p_in p)) < fuel)%nat ->
  parses_if c p0 p (ifconf_loop fuel c tok name ic p) /\
  match ifconf_loop fuel c tok name ic p with Good _ _ p' => own name p0 p' | Bad _ => True end.
Proof.
  induction fuel as [|fuel IH]; intros c tok name ic p p0 L H O T1 T2 G F; [lia|]. cbn [ifconf_loop].
  pose proof (round_start c p p0 L H) as R. pose proof (skip_ws_eats c p L) as Wk.
  destruct (skip_ws c (p_in p)) as (c1, r1). cbv zeta in R. destruct Wk as (_ & Wk).
  destruct R as (R1 & R2 & R3 & R4 & R5).
  destruct (eol c1) eqn:D.
  { destruct (to_eol c1 r1) as (c2, r2). split; [|exact O]. split; [now eapply hsame_good; [|exact H]|]. split; [easy|exact R5]. }
  pose proof (getword_spec c1 (set_in r1 p) R2) as W.
  destruct (getword c1 (set_in r1 p)) as [p2|c2 (t, s) p2] eqn:Eg.
  { destruct W as (W1 & W2 & W3 & W4 & W5). split; [|easy].
    assert (Hg : hgood p0 p2) by now eapply hsame_good; [|exact R3].
    split; [|split].
    - assert (Hw : hweak p0 (freet tok p2)). { destruct tok as [x|]; [|now apply hgood_weak]. apply free_weak; [now apply hgood_weak|auto]. }
      destruct name as [x|]; [|easy]. apply free_weak; [easy|apply O].
    - rewrite !freet_cfg, W5. exact G.
    - intros P. exfalso. pose proof (plain_eats _ _ _ _ R1 P) as (P1 & P2).
      destruct (getword_bad _ _ _ R2 Wk D Eg); [easy|lia]. }
  destruct W as (E & _ & K & W1 & W2 & W3 & W4 & W5 & W6).
  destruct (new_good p0 _ p2 t R3 W1 W2 W3 W4 W5) as (N1 & N2 & N3 & N4 & N5).
  rewrite uset_live by easy.
  assert (N6 : forall o, own o p0 (set_in r1 p) -> own o p0 p2 /\ o <> Some t).
  { intros [x|]; [|easy]. intros [A B]. split; [split; [now apply N5|easy]|]. intros Q. injection Q as ->. easy. }
  destruct (N6 name O) as (O2 & Ot).
  pose proof (if_kw_reads s c2 ic p2 (eats_ok _ _ _ _ E) (hg_ok _ _ N1)) as Q.
  destruct (if_kw s c2 ic p2) as [p3|c3 ic3 p3].
  - destruct Q as (Q1 & Q2). split; [|easy].
    destruct (freet_good p0 p3 t (hgood_trans _ _ _ N1 Q1)) as (F1 & F2); [now apply (hg_incl _ _ Q1)|easy|].
    assert (Hg : hgood p0 (freet name (freet (Some t) p3))).
    { apply freeo_good; [easy|]. apply own_free; [exact (hgood_own _ _ _ _ O2 Q1)| |easy]. now apply (hg_incl _ _ Q1). }
    split; [now apply hgood_weak|]. split; [|now intros; apply Hg].
    rewrite !freet_cfg. eapply refs_trans; [exact G|]. rewrite W6 in Q2. exact Q2.
  - destruct Q as (Q1 & Q2 & Q3).
    assert (Lt : In t (p_live p3)) by now apply (hg_incl _ _ Q1).
    destruct (freet_good p0 p3 t (hgood_trans _ _ _ N1 Q1) Lt N3) as (F1 & F2).
    assert (T : eats c p c3 (freet (Some t) p3)).
    { eapply eats_trans; [exact R1|]. eapply eats_trans; [exact E|]. eapply eats_in; [exact Q3|apply freet_in]. }
    edestruct (IH c3 (Some t) name ic3 (freet (Some t) p3) p0) as (I1 & I2).
    + apply (eats_ok _ _ _ _ T).
    + easy.
    + apply own_free; [exact (hgood_own _ _ _ _ O2 Q1)|easy|easy].
    + now intros x X; injection X as <-.
    + now intros x X; injection X as <-.
    + rewrite freet_cfg. eapply refs_trans; [exact G|]. rewrite W6 in Q2. exact Q2.
    + apply eats_len in Q3. rewrite freet_in. lia.
    + split; [|exact I2]. eapply parses_if_from; [exact T|exact I1].
Qed.

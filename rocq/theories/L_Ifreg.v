(** L_Ifreg.v: proofs about the table of interfaces and their configurations (M_Ifreg.v). *)
From Verif Require Import Base M_Config M_Ifreg S_Ifreg L_Line2.
From Coq Require Import Lia.

(** ** The heap *)
Lemma deref_snoc : forall h p c q, deref h p = None -> deref (h ++ [(p, c)]) q = if q =? p then Some c else deref h q.
Proof.
  unfold deref. induction h as [|[k v] h IH]; intros p c q H; cbn [app find fst] in *.
  - rewrite (Z.eqb_sym p q). destruct (q =? p); reflexivity.
  - destruct (Z.eqb_spec k p) as [E|N]; [discriminate H|].
    destruct (Z.eqb_spec k q) as [E'|N'].
    + subst k. destruct (Z.eqb_spec q p); [contradiction|reflexivity].
    + apply IH. exact H.
Qed.
Lemma deref_store : forall h p c q, deref (store p c h) q = if q =? p then (match deref h p with Some _ => Some c | None => None end) else deref h q.
Proof.
  unfold deref, store. induction h as [|[k v] h IH]; intros p c q; cbn [map find fst].
  - destruct (q =? p); reflexivity.
  - destruct (Z.eqb_spec k p) as [E|N]; cbn [fst].
    + subst k. rewrite (Z.eqb_sym p q). destruct (Z.eqb_spec q p) as [E|N]; [reflexivity|].
      rewrite IH. destruct (Z.eqb_spec q p); [contradiction|reflexivity].
    + destruct (Z.eqb_spec k q) as [E'|N'].
      * subst k. destruct (Z.eqb_spec q p); [contradiction|reflexivity].
      * rewrite IH. reflexivity.
Qed.
Lemma deref_free : forall h p q, deref (filter (fun x => negb (fst x =? p)) h) q = if q =? p then None else deref h q.
Proof.
  unfold deref. induction h as [|[k v] h IH]; intros p q; cbn [filter find fst].
  - destruct (q =? p); reflexivity.
  - destruct (Z.eqb_spec k p) as [E|N]; cbn [negb].
    + subst k. rewrite IH. destruct (Z.eqb_spec q p) as [E|N]; [reflexivity|].
      destruct (Z.eqb_spec p q); [congruence|reflexivity].
    + cbn [find fst]. destruct (Z.eqb_spec k q) as [E'|N']; [|apply IH].
      subst k. destruct (Z.eqb_spec q p); [contradiction|reflexivity].
Qed.
Lemma deref_in : forall h p c, deref h p = Some c -> In p (map fst h).
Proof.
  unfold deref. intros h p c H. destruct (find _ h) as [[k v]|] eqn:E; [|discriminate H].
  apply find_some in E. destruct E as (E1 & E2). cbn in E2. apply Z.eqb_eq in E2. subst k. apply in_map_iff. exists (p, v). auto.
Qed.
Lemma in_deref : forall h p, In p (map fst h) -> exists c, deref h p = Some c.
Proof.
  unfold deref. intros h p H. apply in_map_iff in H. destruct H as ((k & v) & E & H). cbn in E. subst k.
  destruct (find (fun x => fst x =? p) h) as [[k w]|] eqn:F; eauto.
  apply (find_none _ _ F) in H. cbn in H. rewrite Z.eqb_refl in H. discriminate H.
Qed.
Lemma store_keys : forall p c h, map fst (store p c h) = map fst h.
Proof.
  unfold store. induction h as [|[k v] h IH]; cbn; auto. rewrite IH. destruct (Z.eqb_spec k p); cbn; congruence.
Qed.
Lemma NoDup_filter_fst : forall p (h : list (Z * ifconf)), NoDup (map fst h) -> NoDup (map fst (filter (fun x => negb (fst x =? p)) h)).
Proof.
  induction h as [|[k v] h IH]; cbn [filter map fst]; intro H; auto. inversion H as [|x y Hn Hd]; subst.
  destruct (negb (k =? p)); auto. cbn [map fst]. constructor; auto.
  intro A. apply Hn. apply in_map_iff in A. destruct A as (z & E & A). apply filter_In in A. apply in_map_iff. exists z. tauto.
Qed.

(** ** What an object says *)
Definition says (c : ifconf) (ls : list ifconf) : Prop :=
  length (ic_vals c) = 17%nat /\ (forall i, nth i (ic_vals c) 0 = value_in i ls) /\ ic_key c = key_in ls.
Lemma value_app : forall i a b, value_in i (a ++ b) = if value_in i a =? 0 then value_in i b else value_in i a.
Proof.
  induction a as [|c a IH]; intro b; cbn [app value_in]; [reflexivity|].
  destruct (nth i (ic_vals c) 0 =? 0) eqn:E; [apply IH|]. rewrite E. reflexivity.
Qed.
Lemma key_app : forall a b, key_in (a ++ b) = match key_in a with Some k => Some k | None => key_in b end.
Proof. induction a as [|c a IH]; intro b; cbn [app key_in]; [reflexivity|]. destruct (ic_key c); auto. Qed.
Lemma says_one : forall c, length (ic_vals c) = 17%nat -> says c [c].
Proof.
  intros c H. split; [exact H|]. cbn [value_in key_in]. split.
  - intro i. destruct (Z.eqb_spec (nth i (ic_vals c) 0) 0); auto.
  - destruct (ic_key c); auto.
Qed.
Lemma says_merge : forall d a b la lb, says a la -> says b lb -> says (merge_ifconf d a b) (la ++ lb).
Proof.
  intros d a b la lb (A1 & A2 & A3) (B1 & B2 & B3). unfold says, merge_ifconf. cbn [ic_vals ic_key]. split; [|split].
  - rewrite merge_len by congruence. exact A1.
  - intro i. rewrite merge_nth by congruence. rewrite value_app, <- A2, <- B2. reflexivity.
  - rewrite key_app, <- A3, <- B3. reflexivity.
Qed.

(** ** The walks *)
Lemma walk_spec : forall h name l, (forall q, In q l -> exists c, deref h q = Some c) ->
  match walk h name l with
  | (Some q, b) => b = false /\ In q l /\ exists c, deref h q = Some c /\ ic_name c = name
  | (None, b) => b = false /\ forall q c, In q l -> deref h q = Some c -> ic_name c <> name
  end.
Proof.
  induction l as [|q l IH]; intro H; cbn [walk].
  - split; [reflexivity|]. intros q c [].
  - destruct (H q (or_introl eq_refl)) as (c & Ec). rewrite Ec. destruct (beq (ic_name c) name) eqn:E.
    + apply beq_true in E. split; [reflexivity|]. split; [left; reflexivity|]. exists c. auto.
    + assert (Hq : forall x, In x l -> exists d, deref h x = Some d) by (intros x Hx; apply H; right; exact Hx).
      specialize (IH Hq). destruct (walk h name l) as [[x|] b].
      * destruct IH as (I1 & I2 & I3). split; auto. split; auto. right. exact I2.
      * destruct IH as (I1 & I2). split; auto. intros x d [Ex|Hx] Ed; [|eauto].
        subst x. rewrite Ed in Ec. injection Ec as ->. intro K. apply beq_true in K. congruence.
Qed.
Lemma unlink_spec : forall h p l, NoDup l -> (forall q, In q l -> exists c, deref h q = Some c) ->
  match unlink h p l with
  | (Some m, b) => b = false /\ In p l /\ ~ In p m /\ NoDup m /\ forall q, In q m <-> In q l /\ q <> p
  | (None, b) => b = false /\ ~ In p l
  end.
Proof.
  induction l as [|q l IH]; intros N H; cbn [unlink].
  - split; auto.
  - inversion N as [|x y Hn Hd]; subst. destruct (Z.eqb_spec q p) as [E|Ne].
    + subst q. split; auto. split; [left; reflexivity|]. split; [exact Hn|]. split; [exact Hd|].
      intro q. split.
      * intro A. split; [right; exact A|]. intro K. subst q. contradiction.
      * intros [[A|A] B]; [congruence|exact A].
    + destruct (H q (or_introl eq_refl)) as (c & Ec). rewrite Ec.
      assert (Hq : forall x, In x l -> exists d, deref h x = Some d) by (intros x Hx; apply H; right; exact Hx).
      specialize (IH Hd Hq). destruct (unlink h p l) as [[m|] b].
      * destruct IH as (I1 & I2 & I3 & I4 & I5). split; [exact I1|]. split; [right; exact I2|]. split; [|split].
        -- intros [A|A]; [congruence|contradiction].
        -- constructor; auto. intro A. apply I5 in A. tauto.
        -- intro x. split.
           ++ intros [A|A]; [subst x; split; [left; reflexivity|exact Ne]|]. apply I5 in A. split; [right|]; tauto.
           ++ intros [[A|A] B]; [left; exact A|]. right. apply I5. tauto.
      * destruct IH as (I1 & I2). split; [exact I1|]. intros [A|A]; [congruence|contradiction].
Qed.
Lemma take_spec : forall n l, NoDup (map fst l) ->
  match take_if n l with
  | None => ~ In n (map fst l)
  | Some (c, m) => In (n, c) l /\ ~ In n (map fst m) /\ NoDup (map fst m) /\ (forall x, In x m <-> In x l /\ fst x <> n) /\
                   map fst m = filter (fun k => negb (beq k n)) (map fst l)
  end.
Proof.
  induction l as [|[k v] l IH]; intro N; cbn [take_if map fst] in *; [intros []|].
  inversion N as [|x y Hn Hd]; subst. destruct (beq k n) eqn:E.
  - apply beq_true in E. subst k. split; [left; reflexivity|]. split; [exact Hn|]. split; [exact Hd|]. split.
    + intros [k w]. split.
      * intro A. split; [right; exact A|]. cbn. intro K. subst k. apply Hn. apply in_map_iff. exists (n, w). auto.
      * intros [[A|A] B]; [injection A as <- <-; cbn in B; congruence|exact A].
    + cbn [filter]. rewrite beq_refl. cbn [negb]. clear - Hn.
      induction (map fst l) as [|k ks IH]; cbn [filter]; [reflexivity|]. destruct (beq k n) eqn:E.
      * apply beq_true in E. subst k. exfalso. apply Hn. left. reflexivity.
      * cbn [negb]. f_equal. apply IH. intro A. apply Hn. right. exact A.
  - assert (Ne : k <> n) by (intro K; subst k; rewrite beq_refl in E; discriminate E).
    specialize (IH Hd). destruct (take_if n l) as [[c m]|].
    + destruct IH as (I1 & I2 & I3 & I4 & I5). cbn [map fst filter]. rewrite E. cbn [negb].
      split; [right; exact I1|]. split; [|split; [|split]].
      * intros [A|A]; [congruence|contradiction].
      * constructor; auto. intro A. apply Hn. apply in_map_iff in A. destruct A as (x & Ex & A). apply I4 in A.
        apply in_map_iff. exists x. tauto.
      * intro x. split.
        -- intros [A|A]; [subst x; split; [left; reflexivity|exact Ne]|]. apply I4 in A. split; [right|]; tauto.
        -- intros [[A|A] B]; [left; exact A|]. right. apply I4. tauto.
      * f_equal. exact I5.
    + intros [A|A]; [congruence|contradiction].
Qed.
Lemma known_app : forall a b acc, known (a ++ b) acc = known b (known a acc).
Proof. induction a as [|[n|n] a IH]; intros b acc; cbn [app known]; auto. Qed.

(** ** Histories *)
Definition names (h : list rop) : list (list Z) := nodup (list_eq_dec Z.eq_dec) (if_names h).
Lemma kept_named : forall n h, kept n h <> [] -> In n (if_names h).
Proof.
  unfold if_names. induction h as [|o h IH]; cbn [kept flat_map]; intro H; [congruence|].
  apply in_or_app. destruct o.
  - destruct (beq (ic_name c) n) eqn:E; [|right; auto]. apply beq_true in E. left. left. exact E.
  - right; auto.
  - congruence.
  - right; auto.
  - right. destruct (beq name n); [|auto]. destruct (stands n h) as [[]|]; auto; congruence.
Qed.
Lemma before_stands : forall n h, Forall before_start h -> stands n h = None.
Proof.
  induction 1 as [|o h Ho F IH]; cbn [stands]; auto. rewrite IH.
  assert (St : started h = false).
  { unfold started. clear - F. induction F as [|x l P F IH]; cbn; auto. rewrite IH. destruct x; cbn in *; tauto. }
  destruct o; cbn in Ho; try tauto. rewrite St, andb_false_r. reflexivity.
Qed.
Lemma before_started : forall h, Forall before_start h -> started h = false.
Proof. unfold started. induction 1 as [|x l P F IH]; cbn; auto. rewrite IH. destruct x; cbn in *; tauto. Qed.
Lemma before_kept : forall n h, Forall before_start h -> existsb (is_if n) h = match kept n h with [] => false | _ => true end.
Proof.
  induction 1 as [|o h Ho F IH]; cbn [existsb kept]; auto. destruct o; cbn in Ho; try tauto; cbn [is_if]; auto.
  - destruct (beq (ic_name c) n); auto.
  - rewrite IH, (before_stands n h F). cbn. destruct (beq name n); reflexivity.
Qed.
Lemma history_tail : forall o h, history (o :: h) -> history h /\ full o /\
  (o = RStart -> Forall before_start h) /\ ((exists n, o = RArg n) -> started h = true) /\ (started h = true -> o <> RStart).
Proof.
  intros o h (F & H). inversion F as [|x y Fo Fh]; subst. destruct H as [B|(a & b & E & B & A)].
  - inversion B as [|x y Bo Bh]; subst. split; [split; [exact Fh|left; exact Bh]|]. split; [exact Fo|].
    split; [intro K; subst o; destruct Bo|]. split.
    + intros (n & K). subst o. destruct Bo.
    + intro K. rewrite (before_started _ Bh) in K. discriminate K.
  - destruct a as [|x a]; cbn [app] in E; injection E as -> ->.
    + split; [split; [exact Fh|left; exact B]|]. split; [exact Fo|]. split; [auto|]. split.
      * intros (n & K). discriminate K.
      * intro K. rewrite (before_started _ B) in K. discriminate K.
    + inversion A as [|y z Ay Az]; subst. split; [split; [exact Fh|right; exists a, b; auto]|]. split; [exact Fo|].
      split; [intro K; congruence|]. split; [|intros _; exact Ay].
      intros _. unfold started. rewrite existsb_app. cbn. apply orb_true_r.
Qed.

(** ** The invariant *)
Record Inv (h : list rop) (r : reg) : Prop := {
  v_bad : r_bad r = false;
  v_final : r_final r = started h;
  v_fresh : forall p c, deref (r_heap r) p = Some c -> p < r_next r;
  v_nd : NoDup (map fst (r_heap r));
  v_lnd : NoDup (r_list r);
  v_list : forall q, In q (r_list r) ->
    exists c, deref (r_heap r) q = Some c /\ says c (kept (ic_name c) h) /\ kept (ic_name c) h <> [];
  v_names : forall q1 q2 c1 c2, In q1 (r_list r) -> In q2 (r_list r) -> deref (r_heap r) q1 = Some c1 ->
    deref (r_heap r) q2 = Some c2 -> ic_name c1 = ic_name c2 -> q1 = q2;
  v_kept : forall n, kept n h <> [] -> exists q c, In q (r_list r) /\ deref (r_heap r) q = Some c /\ ic_name c = n;
  v_def : match r_def r with
          | None => defaults h = []
          | Some d => exists c, deref (r_heap r) d = Some c /\ says c (defaults h) /\ ~ In d (r_list r) /\ defaults h <> []
          end;
  v_ifnd : NoDup (map fst (r_ifs r));
  v_ifs : forall n cp, In (n, cp) (r_ifs r) ->
    match stands n h with
    | Some FromFile => exists p c, cp = Some p /\ deref (r_heap r) p = Some c /\ says c (configured_lines n h) /\
                         ic_name c = n /\ ~ In p (r_list r) /\ r_def r <> Some p
    | Some FromLine => exists p c, cp = Some p /\ In p (r_list r) /\ deref (r_heap r) p = Some c /\ ic_name c = n
    | Some (FromArgs true) => cp = r_def r /\ cp <> None
    | Some (FromArgs false) => cp = None
    | None => False
    end;
  v_all : forall n, stands n h <> None -> In n (map fst (r_ifs r));
  v_notes : known (r_notes r) [] = map fst (r_ifs r);
  v_mem : exists F, (length F <= length (names h))%nat /\ (started h = false -> F = []) /\
    forall p c, deref (r_heap r) p = Some c -> r_def r = Some p \/ In p (r_list r) \/ In p F }.

Lemma inv0 : Inv [] reg0.
Proof.
  constructor; cbn; auto; try (constructor; fail); try (intros; discriminate); try tauto.
  exists []. cbn. split; [lia|]. split; [reflexivity|]. intros; discriminate.
Qed.

(** ** Steps *)
Lemma names_mono : forall o h, (length (names h) <= length (names (o :: h)))%nat.
Proof.
  intros. unfold names. apply NoDup_incl_length; [apply NoDup_nodup|]. intros x Hx. apply nodup_In in Hx. apply nodup_In.
  unfold if_names in *. cbn [flat_map]. apply in_or_app. right. exact Hx.
Qed.
Lemma fresh_none : forall h r, Inv h r -> deref (r_heap r) (r_next r) = None.
Proof.
  intros h r I. destruct (deref (r_heap r) (r_next r)) eqn:E; [|reflexivity]. apply (v_fresh _ _ I) in E. lia.
Qed.
Lemma snoc_nd : forall (h : list (Z * ifconf)) p c, deref h p = None -> NoDup (map fst h) -> NoDup (map fst (h ++ [(p, c)])).
Proof.
  intros h p c H N. rewrite map_app. cbn. clear - H N. assert (A : ~ In p (map fst h)).
  { intro K. apply in_deref in K. destruct K as (x & K). congruence. } clear H.
  induction (map fst h) as [|k ks IH]; cbn.
  - constructor; [intros []|constructor].
  - inversion N; subst. constructor.
    + intro K. apply in_app_or in K. destruct K as [K|[K|[]]]; [contradiction|]. subst k. apply A. left. reflexivity.
    + apply IH; auto. intro K. apply A. right. exact K.
Qed.
Lemma merge_free : forall h r c t ct, Inv h r -> deref (r_heap r) t = Some ct ->
  exists h', free_conf (r_next r) (merge_obj t (r_next r) t (snd (alloc c r))) =
      mkReg h' (r_next r + 1) (r_list r) (r_def r) (r_ifs r) (r_final r) (r_notes r) (r_bad r) /\
    (forall q, deref h' q = if q =? t then Some (merge_ifconf ct c ct) else deref (r_heap r) q) /\
    NoDup (map fst h').
Proof.
  intros h r c t ct I Ht. pose proof (fresh_none _ _ I) as Fr.
  assert (Ne : t <> r_next r) by (intro K; rewrite K in Ht; congruence).
  assert (D : forall q, deref (r_heap r ++ [(r_next r, c)]) q = if q =? r_next r then Some c else deref (r_heap r) q)
    by (intro q; apply deref_snoc; exact Fr).
  unfold merge_obj, alloc. cbn [snd r_heap]. rewrite !D.
  destruct (Z.eqb_spec t (r_next r)); [contradiction|]. rewrite Z.eqb_refl, Ht.
  set (m := merge_ifconf ct c ct).
  assert (D2 : forall q, deref (store t m (r_heap r ++ [(r_next r, c)])) q = if q =? t then Some m else deref (r_heap r ++ [(r_next r, c)]) q).
  { intro q. rewrite deref_store, D. destruct (Z.eqb_spec t (r_next r)); [contradiction|]. rewrite Ht. reflexivity. }
  unfold free_conf, dead, set_bad, set_heap. cbn [r_heap r_next r_list r_def r_ifs r_final r_notes r_bad].
  rewrite D2, D, Z.eqb_refl. destruct (Z.eqb_spec (r_next r) t); [congruence|]. rewrite !orb_false_r.
  eexists. split; [reflexivity|]. split.
  - intro q. rewrite deref_free, D2, D. destruct (Z.eqb_spec q (r_next r)) as [E|N]; [|destruct (q =? t); reflexivity].
    subst q. destruct (Z.eqb_spec (r_next r) t); [congruence|]. symmetry. exact Fr.
  - apply NoDup_filter_fst. rewrite store_keys. apply snoc_nd; [exact Fr|]. apply (v_nd _ _ I).
Qed.

Lemma stands_same : forall n o h, match o with RDef _ => True | _ => False end -> stands n (o :: h) = stands n h.
Proof. intros n o h H. destruct o; try destruct H. cbn. destruct (stands n h); reflexivity. Qed.

Lemma inv_def : forall h r c, Inv h r -> full (RDef c) -> Inv (RDef c :: h) (do_default c r).
Proof.
  intros h r c I Fc. pose proof (fresh_none _ _ I) as Fr. pose proof (v_def _ _ I) as Vd.
  unfold do_default. destruct (alloc c r) as [p r1] eqn:Al.
  assert (E1 : r1 = snd (alloc c r)) by (rewrite Al; reflexivity). assert (Ep : p = r_next r) by (unfold alloc in Al; congruence). subst p.
  assert (Ed : r_def r1 = r_def r) by (rewrite E1; reflexivity). rewrite Ed.
  assert (St : forall n, stands n (RDef c :: h) = stands n h) by (intro n; apply stands_same; exact Logic.I).
  destruct (r_def r) as [d|] eqn:Rd.
  - destruct Vd as (cd & Hd & Sd & Nd & Dn). rewrite E1. destruct (merge_free h r c d cd I Hd) as (h' & E & D & Nk). rewrite E.
    assert (Dl : forall q, In q (r_list r) -> deref h' q = deref (r_heap r) q).
    { intros q Hq. rewrite D. destruct (Z.eqb_spec q d); [subst q; contradiction|reflexivity]. }
    constructor; cbn [r_heap r_next r_list r_def r_ifs r_final r_notes r_bad]; try rewrite Rd.
    + apply (v_bad _ _ I).
    + rewrite (v_final _ _ I). reflexivity.
    + intros q x Hq. rewrite D in Hq. destruct (Z.eqb_spec q d).
      * subst q. apply (v_fresh _ _ I) in Hd. lia.
      * apply (v_fresh _ _ I) in Hq. lia.
    + exact Nk.
    + apply (v_lnd _ _ I).
    + intros q Hq. rewrite Dl by exact Hq. apply (v_list _ _ I q Hq).
    + intros q1 q2 c1 c2 H1 H2. rewrite !Dl by assumption. apply (v_names _ _ I); assumption.
    + intros n Hn. destruct (v_kept _ _ I n Hn) as (q & x & A & B & C). exists q, x. rewrite Dl by exact A. auto.
    + exists (merge_ifconf cd c cd). rewrite D, Z.eqb_refl. split; [reflexivity|]. cbn [defaults]. split; [|split; [exact Nd|discriminate]].
      apply (says_merge cd c cd [c] (defaults h)); [apply says_one; exact Fc|exact Sd].
    + apply (v_ifnd _ _ I).
    + intros n cp Hn. pose proof (v_ifs _ _ I n cp Hn) as V. rewrite Rd in V. rewrite St. cbn [configured_lines].
      destruct (stands n h) as [[|[]|]|]; auto.
      * destruct V as (p & x & V1 & V2 & V3 & V4 & V5 & V6). exists p, x. rewrite D. destruct (Z.eqb_spec p d); [congruence|]. auto 8.
      * destruct V as (p & x & V1 & V2 & V3 & V4). exists p, x. rewrite Dl by exact V2. auto.
    + intros n Hn. rewrite St in Hn. apply (v_all _ _ I n Hn).
    + apply (v_notes _ _ I).
    + destruct (v_mem _ _ I) as (F & F1 & F0 & F2). exists F. split; [pose proof (names_mono (RDef c) h); lia|split; [exact F0|]].
      rewrite Rd in F2. intros q x Hq. rewrite D in Hq. destruct (Z.eqb_spec q d); [left; congruence|]. eapply F2; eauto.
  - rewrite E1. cbn [snd alloc]. unfold set_def. cbn [r_heap r_next r_list r_def r_ifs r_final r_notes r_bad].
    assert (D : forall q, deref (r_heap r ++ [(r_next r, c)]) q = if q =? r_next r then Some c else deref (r_heap r) q)
      by (intro q; apply deref_snoc; exact Fr).
    assert (Do : forall q x, deref (r_heap r) q = Some x -> deref (r_heap r ++ [(r_next r, c)]) q = Some x).
    { intros q x Hq. rewrite D. destruct (Z.eqb_spec q (r_next r)); [congruence|exact Hq]. }
    assert (Nl : ~ In (r_next r) (r_list r)).
    { intro K. destruct (v_list _ _ I _ K) as (x & K2 & _). congruence. }
    assert (Dl : forall q, In q (r_list r) -> deref (r_heap r ++ [(r_next r, c)]) q = deref (r_heap r) q).
    { intros q Hq. rewrite D. destruct (Z.eqb_spec q (r_next r)); [subst q; contradiction|reflexivity]. }
    constructor; cbn [r_heap r_next r_list r_def r_ifs r_final r_notes r_bad].
    + apply (v_bad _ _ I).
    + rewrite (v_final _ _ I). reflexivity.
    + intros q x Hq. rewrite D in Hq. destruct (Z.eqb_spec q (r_next r)); [lia|]. apply (v_fresh _ _ I) in Hq. lia.
    + apply snoc_nd; [exact Fr|apply (v_nd _ _ I)].
    + apply (v_lnd _ _ I).
    + intros q Hq. rewrite Dl by exact Hq. apply (v_list _ _ I q Hq).
    + intros q1 q2 c1 c2 H1 H2. rewrite !Dl by assumption. apply (v_names _ _ I); assumption.
    + intros n Hn. destruct (v_kept _ _ I n Hn) as (q & x & A & B & C). exists q, x. rewrite Dl by exact A. auto.
    + exists c. rewrite D, Z.eqb_refl. split; [reflexivity|]. cbn [defaults]. rewrite Vd. split; [apply says_one; exact Fc|].
      split; [exact Nl|discriminate].
    + apply (v_ifnd _ _ I).
    + intros n cp Hn. pose proof (v_ifs _ _ I n cp Hn) as V. rewrite Rd in V. rewrite St. cbn [configured_lines].
      destruct (stands n h) as [[|[]|]|]; auto.
      * destruct V as (p & x & V1 & V2 & V3 & V4 & V5 & V6). exists p, x. split; [exact V1|]. split; [apply Do; exact V2|].
        split; [exact V3|]. split; [exact V4|]. split; [exact V5|]. intro K. injection K as K. subst p. congruence.
      * destruct V as (V1 & V2). congruence.
      * destruct V as (p & x & V1 & V2 & V3 & V4). exists p, x. rewrite Dl by exact V2. auto.
    + intros n Hn. rewrite St in Hn. apply (v_all _ _ I n Hn).
    + apply (v_notes _ _ I).
    + destruct (v_mem _ _ I) as (F & F1 & F0 & F2). exists F. split; [pose proof (names_mono (RDef c) h); lia|split; [exact F0|]].
      rewrite Rd in F2. intros q x Hq. rewrite D in Hq. destruct (Z.eqb_spec q (r_next r)); [left; congruence|].
      destruct (F2 _ _ Hq) as [K|[K|K]]; [discriminate K|auto|auto].
Qed.

Lemma exist_name : forall n (l : list (list Z * option Z)), existsb (fun x => beq (fst x) n) l = true <-> In n (map fst l).
Proof.
  intros. rewrite existsb_exists, in_map_iff. split.
  - intros (x & H & E). apply beq_true in E. exists x. auto.
  - intros (x & E & H). exists x. split; auto. rewrite E. apply beq_refl.
Qed.
Lemma NoDup_snoc : forall {A} (l : list A) x, NoDup l -> ~ In x l -> NoDup (l ++ [x]).
Proof.
  induction l as [|y l IH]; intros x N H; cbn.
  - constructor; [intros []|constructor].
  - inversion N; subst. constructor.
    + intro K. apply in_app_or in K. destruct K as [K|[K|[]]]; [contradiction|]. subst y. apply H. left. reflexivity.
    + apply IH; auto. intro K. apply H. right. exact K.
Qed.

Lemma inv_if_common : forall h r c t ct h' list',
  Inv h r -> ic_name ct = ic_name c -> says ct (c :: kept (ic_name c) h) ->
  (forall q, deref h' q = if q =? t then Some ct else deref (r_heap r) q) -> NoDup (map fst h') -> t <= r_next r ->
  NoDup list' -> (forall q, In q list' <-> In q (r_list r) \/ q = t) ->
  (forall q x, In q (r_list r) -> deref (r_heap r) q = Some x -> (ic_name x = ic_name c <-> q = t)) ->
  (In t (r_list r) \/ deref (r_heap r) t = None) ->
  let r' := mkReg h' (r_next r + 1) list' (r_def r) (r_ifs r) (r_final r) (r_notes r) (r_bad r) in
  Inv (RIf c :: h) (if r_final r then add_interface (ic_name c) (Some t) r' else r').
Proof.
  intros h r c t ct h' list' I Nm Sy D Nk Tn Ln Li Un Wh r'.
  assert (Td : r_def r <> Some t).
  { intro K. pose proof (v_def _ _ I) as Vd. rewrite K in Vd. destruct Vd as (x & V1 & V2 & V3 & V4).
    destruct Wh as [W|W]; [contradiction|congruence]. }
  assert (Inl : forall q, In q (r_list r) -> q <> t -> exists x, deref (r_heap r) q = Some x /\ ic_name x <> ic_name c /\
            says x (kept (ic_name x) h) /\ kept (ic_name x) h <> []).
  { intros q Hq Ne. destruct (v_list _ _ I q Hq) as (x & X1 & X2 & X3). exists x. split; [exact X1|]. split; auto.
    intro K. apply Ne. apply (Un q x Hq X1). exact K. }
  assert (Fp : forall p x, deref (r_heap r) p = Some x -> ~ In p (r_list r) -> p <> t).
  { intros p x Hp Np K. subst p. destruct Wh; [contradiction|congruence]. }
  set (res := if r_final r then add_interface (ic_name c) (Some t) r' else r').
  assert (R1 : r_heap res = h' /\ r_next res = r_next r + 1 /\ r_list res = list' /\ r_def res = r_def r /\ r_final res = r_final r /\
               r_bad res = r_bad r).
  { subst res. unfold add_interface. destruct (r_final r); [|cbn; auto 8]. destruct (existsb _ _); cbn; auto 8. }
  destruct R1 as (R1 & R2 & R3 & R4 & R5 & R6).
  assert (Kp : forall n, kept n (RIf c :: h) = if beq (ic_name c) n then c :: kept n h else kept n h) by reflexivity.
  assert (Ifs : (r_ifs res = r_ifs r /\ r_notes res = r_notes r /\ forall n, stands n (RIf c :: h) = stands n h) \/
                (r_ifs res = r_ifs r ++ [(ic_name c, Some t)] /\ r_notes res = r_notes r ++ [NAdd (ic_name c)] /\
                 ~ In (ic_name c) (map fst (r_ifs r)) /\
                 forall n, stands n (RIf c :: h) = if beq (ic_name c) n then Some FromLine else stands n h)).
  { subst res. unfold add_interface. destruct (r_final r) eqn:Fi.
    - subst r'. cbn [r_ifs]. destruct (existsb (fun x => beq (fst x) (ic_name c)) (r_ifs r)) eqn:Ex.
      + left. cbn. split; [reflexivity|]. split; [reflexivity|]. intro n. cbn [stands].
        apply exist_name in Ex. destruct (stands n h) eqn:Sn; auto.
        destruct (beq (ic_name c) n) eqn:E; auto. apply beq_true in E. exfalso.
        apply in_map_iff in Ex. destruct Ex as ((k & v) & E1 & E2). cbn in E1. subst k.
        pose proof (v_ifs _ _ I _ _ E2) as V. rewrite E, Sn in V. exact V.
      + right. cbn [r_ifs r_notes].
        assert (Ab : ~ In (ic_name c) (map fst (r_ifs r))) by (intro K; apply exist_name in K; congruence).
        split; [reflexivity|]. split; [reflexivity|]. split; [exact Ab|]. intro n. cbn [stands].
        rewrite <- (v_final _ _ I), Fi, andb_true_r.
        destruct (stands n h) as [x|] eqn:Sn; auto.
        * destruct (beq (ic_name c) n) eqn:E; auto. apply beq_true in E. exfalso. apply Ab. rewrite E. apply (v_all _ _ I). congruence.
    - left. subst r'. cbn. split; [reflexivity|]. split; [reflexivity|]. intro n. rewrite <- (v_final _ _ I), Fi, andb_false_r.
      destruct (stands n h); reflexivity. }
  assert (Old : forall n cp, In (n, cp) (r_ifs r) ->
    match stands n h with
    | Some FromFile => exists p x, cp = Some p /\ deref h' p = Some x /\ says x (configured_lines n (RIf c :: h)) /\
                         ic_name x = n /\ ~ In p list' /\ r_def r <> Some p
    | Some FromLine => exists p x, cp = Some p /\ In p list' /\ deref h' p = Some x /\ ic_name x = n
    | Some (FromArgs true) => cp = r_def r /\ cp <> None
    | Some (FromArgs false) => cp = None
    | None => False
    end).
  { intros n cp Hn. pose proof (v_ifs _ _ I n cp Hn) as V. destruct (stands n h) as [[|[]|]|]; auto.
    - destruct V as (p & x & V1 & V2 & V3 & V4 & V5 & V6). pose proof (Fp p x V2 V5) as Np. exists p, x.
      rewrite D. destruct (Z.eqb_spec p t); [contradiction|]. split; [exact V1|]. split; [exact V2|]. split; [exact V3|]. split; [exact V4|].
      split; [|exact V6]. rewrite Li. tauto.
    - destruct V as (p & x & V1 & V2 & V3 & V4). destruct (Z.eq_dec p t) as [E|N].
      + subst p. exists t, ct. rewrite D, Z.eqb_refl. split; [exact V1|]. split; [rewrite Li; auto|]. split; [reflexivity|].
        rewrite Nm, <- V4. symmetry. apply (Un t x V2 V3). reflexivity.
      + exists p, x. rewrite D. destruct (Z.eqb_spec p t); [contradiction|]. split; [exact V1|]. split; [apply Li; auto|]. auto. }
  constructor; rewrite ?R1, ?R2, ?R3, ?R4, ?R5, ?R6.
  - apply (v_bad _ _ I).
  - rewrite (v_final _ _ I). reflexivity.
  - intros q x Hq. rewrite D in Hq. destruct (Z.eqb_spec q t); [lia|]. apply (v_fresh _ _ I) in Hq. lia.
  - exact Nk.
  - exact Ln.
  - intros q Hq. rewrite D. destruct (Z.eqb_spec q t) as [E|N].
    + exists ct. split; [reflexivity|]. rewrite Kp, Nm, beq_refl. split; [exact Sy|discriminate].
    + apply Li in Hq. destruct Hq as [Hq|Hq]; [|contradiction]. destruct (Inl q Hq N) as (x & X1 & X2 & X3). exists x. split; [exact X1|].
      rewrite Kp. destruct (beq (ic_name c) (ic_name x)) eqn:B; [apply beq_true in B; congruence|exact X3].
  - intros q1 q2 c1 c2 H1 H2. rewrite !D. apply Li in H1. apply Li in H2.
    destruct (Z.eqb_spec q1 t) as [E1|N1]; destruct (Z.eqb_spec q2 t) as [E2|N2]; intros K1 K2 Q; try congruence.
    + destruct H2 as [H2|H2]; [|contradiction]. symmetry. rewrite E1. apply (Un q2 c2 H2 K2). congruence.
    + destruct H1 as [H1|H1]; [|contradiction]. rewrite E2. apply (Un q1 c1 H1 K1). congruence.
    + destruct H1 as [H1|H1]; [|contradiction]. destruct H2 as [H2|H2]; [|contradiction]. apply (v_names _ _ I q1 q2 c1 c2); assumption.
  - intros n Hn. rewrite Kp in Hn. destruct (beq (ic_name c) n) eqn:B.
    + apply beq_true in B. exists t, ct. rewrite D, Z.eqb_refl. split; [apply Li; auto|]. split; [reflexivity|congruence].
    + destruct (v_kept _ _ I n Hn) as (q & x & A1 & A2 & A3). exists q, x. rewrite D. destruct (Z.eqb_spec q t) as [E|N].
      * exfalso. subst q. apply (Un t x A1 A2) in E || (assert (ic_name x = ic_name c) by (apply (Un t x A1 A2); reflexivity)).
        assert (Q : ic_name c = n) by congruence. apply beq_true in Q. congruence.
      * split; [apply Li; auto|]. auto.
  - pose proof (v_def _ _ I) as Vd. cbn [defaults]. destruct (r_def r) as [d|]; [|exact Vd].
    destruct Vd as (x & V1 & V2 & V3 & V4). exists x. rewrite D. destruct (Z.eqb_spec d t); [congruence|]. split; [exact V1|].
    split; [exact V2|]. split; [|exact V4]. rewrite Li. tauto.
  - destruct Ifs as [(A & _)|(A & _ & B & _)]; rewrite A; [apply (v_ifnd _ _ I)|]. rewrite map_app. apply NoDup_snoc; [apply (v_ifnd _ _ I)|exact B].
  - intros n cp Hn. destruct Ifs as [(A & _ & C)|(A & _ & B & C)]; rewrite A in Hn; rewrite C.
    + apply Old. exact Hn.
    + apply in_app_or in Hn. destruct Hn as [Hn|[Hn|[]]].
      * destruct (beq (ic_name c) n) eqn:E; [|apply Old; exact Hn]. apply beq_true in E. exfalso. apply B. rewrite E.
        apply in_map_iff. exists (n, cp). auto.
      * injection Hn as <- <-. rewrite beq_refl. exists t, ct. rewrite D, Z.eqb_refl. split; [reflexivity|]. split; [apply Li; auto|]. auto.
  - intros n Hn. destruct Ifs as [(A & _ & C)|(A & _ & B & C)]; rewrite C in Hn; rewrite A.
    + apply (v_all _ _ I n Hn).
    + rewrite map_app. apply in_or_app. destruct (beq (ic_name c) n) eqn:E; [|left; apply (v_all _ _ I n Hn)].
      apply beq_true in E. right. left. exact E.
  - destruct Ifs as [(A & B & _)|(A & B & _)]; rewrite A, B; [apply (v_notes _ _ I)|].
    rewrite known_app, (v_notes _ _ I), map_app. reflexivity.
  - destruct (v_mem _ _ I) as (F & F1 & F0 & F2). exists F. split; [pose proof (names_mono (RIf c) h); lia|split; [exact F0|]].
    intros q x Hq. rewrite D in Hq. destruct (Z.eqb_spec q t); [right; left; apply Li; auto|].
    destruct (F2 _ _ Hq) as [K|[K|K]]; auto. right. left. apply Li. auto.
Qed.

Lemma inv_if : forall h r c, Inv h r -> full (RIf c) -> Inv (RIf c :: h) (do_interface c r).
Proof.
  intros h r c I Fc. pose proof (fresh_none _ _ I) as Fr.
  assert (D : forall q, deref (r_heap r ++ [(r_next r, c)]) q = if q =? r_next r then Some c else deref (r_heap r) q)
    by (intro q; apply deref_snoc; exact Fr).
  assert (Nl : ~ In (r_next r) (r_list r)) by (intro K; destruct (v_list _ _ I _ K) as (x & K2 & _); congruence).
  assert (Dl : forall q, In q (r_list r) -> deref (r_heap r ++ [(r_next r, c)]) q = deref (r_heap r) q).
  { intros q Hq. rewrite D. destruct (Z.eqb_spec q (r_next r)); [subst q; contradiction|reflexivity]. }
  unfold do_interface, add_conf. destruct (alloc c r) as [p r1] eqn:Al.
  assert (E1 : r1 = snd (alloc c r)) by (rewrite Al; reflexivity). assert (Ep : p = r_next r) by (unfold alloc in Al; congruence). subst p.
  assert (Eh : r_heap r1 = r_heap r ++ [(r_next r, c)]) by (rewrite E1; reflexivity).
  rewrite Eh, D, Z.eqb_refl. replace (r_list r1) with (r_list r) by (rewrite E1; reflexivity).
  pose proof (walk_spec (r_heap r ++ [(r_next r, c)]) (ic_name c) (r_list r)) as Wk.
  assert (Lv : forall q, In q (r_list r) -> exists x, deref (r_heap r ++ [(r_next r, c)]) q = Some x).
  { intros q Hq. rewrite Dl by exact Hq. destruct (v_list _ _ I q Hq) as (x & X & _). eauto. }
  specialize (Wk Lv). destruct (walk _ (ic_name c) (r_list r)) as [[q|] b].
  - destruct Wk as (Eb & Hq & cq & Dq & Nq). subst b. rewrite Dl in Dq by exact Hq.
    assert (Es : set_bad false r1 = r1) by (rewrite E1; unfold set_bad; cbn; rewrite orb_false_r; reflexivity).
    rewrite Es, E1. destruct (merge_free h r c q cq I Dq) as (h' & E & Dh & Nk). rewrite E. cbn [r_final r_heap].
    rewrite Dh, Z.eqb_refl.
    destruct (v_list _ _ I q Hq) as (x & X1 & X2 & X3). assert (x = cq) by congruence. subst x.
    assert (Goal : Inv (RIf c :: h) (if r_final r then add_interface (ic_name c) (Some q)
              (mkReg h' (r_next r + 1) (r_list r) (r_def r) (r_ifs r) (r_final r) (r_notes r) (r_bad r)) else
              mkReg h' (r_next r + 1) (r_list r) (r_def r) (r_ifs r) (r_final r) (r_notes r) (r_bad r))).
    { apply (inv_if_common h r c q (merge_ifconf cq c cq) h' (r_list r) I).
      - exact Nq.
      - apply (says_merge cq c cq [c]); [apply says_one; exact Fc|]. rewrite <- Nq. exact X2.
      - exact Dh.
      - exact Nk.
      - apply (v_fresh _ _ I) in Dq. lia.
      - apply (v_lnd _ _ I).
      - intro y. split; [auto|]. intros [Y|Y]; [exact Y|subst y; exact Hq].
      - intros y z Hy Dy. split.
        + intro K. apply (v_names _ _ I y q z cq Hy Hq Dy Dq). congruence.
        + intro K. subst y. congruence.
      - left. exact Hq. }
    cbn [merge_ifconf ic_name]. rewrite Nq. exact Goal.
  - destruct Wk as (Eb & Hno). subst b.
    assert (Es : set_bad false r1 = r1) by (rewrite E1; unfold set_bad; cbn; rewrite orb_false_r; reflexivity).
    rewrite Es. assert (Er : set_list (r_list r1 ++ [r_next r]) r1 = mkReg (r_heap r ++ [(r_next r, c)]) (r_next r + 1) (r_list r ++ [r_next r])
        (r_def r) (r_ifs r) (r_final r) (r_notes r) (r_bad r)) by (rewrite E1; reflexivity).
    rewrite Er. cbn [r_final r_heap]. rewrite D, Z.eqb_refl.
    apply (inv_if_common h r c (r_next r) c (r_heap r ++ [(r_next r, c)]) (r_list r ++ [r_next r]) I).
    + reflexivity.
    + assert (K0 : kept (ic_name c) h = []).
      { destruct (kept (ic_name c) h) eqn:K; [reflexivity|]. exfalso.
        destruct (v_kept _ _ I (ic_name c)) as (q & x & A1 & A2 & A3); [congruence|].
        apply (Hno q x A1); [rewrite Dl by exact A1; exact A2|exact A3]. }
      rewrite K0. apply says_one. exact Fc.
    + exact D.
    + apply snoc_nd; [exact Fr|apply (v_nd _ _ I)].
    + lia.
    + apply NoDup_snoc; [apply (v_lnd _ _ I)|exact Nl].
    + intro q. rewrite in_app_iff. cbn. intuition congruence.
    + intros q x Hq Dq. split.
      * intro K. exfalso. apply (Hno q x Hq); [rewrite Dl by exact Hq; exact Dq|exact K].
      * intro K. subst q. contradiction.
    + right. exact Fr.
Qed.

Lemma exist_def : forall h, existsb is_def h = match defaults h with [] => false | _ => true end.
Proof. induction h as [|o h IH]; cbn; auto. destruct o; cbn; auto. Qed.

Lemma inv_arg : forall h r n, Inv h r -> Inv (RArg n :: h) (add_interface n None r).
Proof.
  intros h r n I. set (res := add_interface n None r).
  assert (R1 : r_heap res = r_heap r /\ r_next res = r_next r /\ r_list res = r_list r /\ r_def res = r_def r /\ r_final res = r_final r /\
               r_bad res = r_bad r).
  { subst res. unfold add_interface. destruct (existsb _ _); cbn; auto 8. }
  destruct R1 as (R1 & R2 & R3 & R4 & R5 & R6).
  assert (Ifs : (r_ifs res = r_ifs r /\ r_notes res = r_notes r /\ forall m, stands m (RArg n :: h) = stands m h) \/
                (r_ifs res = r_ifs r ++ [(n, r_def r)] /\ r_notes res = r_notes r ++ [NAdd n] /\
                 ~ In n (map fst (r_ifs r)) /\
                 forall m, stands m (RArg n :: h) = if beq n m then Some (FromArgs (existsb is_def h)) else stands m h)).
  { subst res. unfold add_interface. destruct (existsb (fun x => beq (fst x) n) (r_ifs r)) eqn:Ex.
    - left. split; [reflexivity|]. split; [reflexivity|]. intro m. cbn [stands].
      apply exist_name in Ex. destruct (stands m h) eqn:Sn; auto.
      destruct (beq n m) eqn:E; auto. apply beq_true in E. exfalso.
      apply in_map_iff in Ex. destruct Ex as ((k & v) & E1 & E2). cbn in E1. subst k.
      pose proof (v_ifs _ _ I _ _ E2) as V. rewrite E, Sn in V. exact V.
    - right. cbn [r_ifs r_notes].
      assert (Ab : ~ In n (map fst (r_ifs r))) by (intro K; apply exist_name in K; congruence).
      split; [reflexivity|]. split; [reflexivity|]. split; [exact Ab|]. intro m. cbn [stands].
      destruct (stands m h) as [x|] eqn:Sn; auto.
      destruct (beq n m) eqn:E; auto. apply beq_true in E. exfalso. apply Ab. rewrite E. apply (v_all _ _ I). congruence. }
  pose proof (v_def _ _ I) as Vd.
  constructor; rewrite ?R1, ?R2, ?R3, ?R4, ?R5, ?R6.
  - apply (v_bad _ _ I).
  - rewrite (v_final _ _ I). reflexivity.
  - apply (v_fresh _ _ I).
  - apply (v_nd _ _ I).
  - apply (v_lnd _ _ I).
  - apply (v_list _ _ I).
  - apply (v_names _ _ I).
  - apply (v_kept _ _ I).
  - exact Vd.
  - destruct Ifs as [(A & _)|(A & _ & B & _)]; rewrite A; [apply (v_ifnd _ _ I)|]. rewrite map_app. apply NoDup_snoc; [apply (v_ifnd _ _ I)|exact B].
  - intros m cp Hn. destruct Ifs as [(A & _ & C)|(A & _ & B & C)]; rewrite A in Hn; rewrite C.
    + apply (v_ifs _ _ I m cp Hn).
    + apply in_app_or in Hn. destruct Hn as [Hn|[Hn|[]]].
      * destruct (beq n m) eqn:E; [|apply (v_ifs _ _ I m cp Hn)]. apply beq_true in E. exfalso. apply B. rewrite E.
        apply in_map_iff. exists (m, cp). auto.
      * injection Hn as <- <-. rewrite beq_refl, exist_def. destruct (r_def r) as [d|].
        -- destruct Vd as (x & _ & _ & _ & V). destruct (defaults h); [congruence|]. split; [reflexivity|discriminate].
        -- rewrite Vd. reflexivity.
  - intros m Hn. destruct Ifs as [(A & _ & C)|(A & _ & B & C)]; rewrite C in Hn; rewrite A.
    + apply (v_all _ _ I m Hn).
    + rewrite map_app. apply in_or_app. destruct (beq n m) eqn:E; [|left; apply (v_all _ _ I m Hn)].
      apply beq_true in E. right. left. exact E.
  - destruct Ifs as [(A & B & _)|(A & B & _)]; rewrite A, B; [apply (v_notes _ _ I)|].
    rewrite known_app, (v_notes _ _ I), map_app. reflexivity.
  - destruct (v_mem _ _ I) as (F & F1 & F0 & F2). exists F. split; [pose proof (names_mono (RArg n) h); lia|split; [exact F0|exact F2]].
Qed.

Lemma opeq_true : forall a b, opeq a b = true <-> a = b.
Proof.
  intros [a|] [b|]; cbn; try (split; congruence). rewrite Z.eqb_eq. split; congruence.
Qed.

Lemma stands_flush : forall m n h, stands m (RFlush n :: h) = if beq n m then None else stands m h.
Proof. intros. cbn [stands]. destruct (stands m h); destruct (beq n m); reflexivity. Qed.

(** The removal without the configuration object *)
Definition less (n : list Z) (m : list (list Z * option Z)) (r : reg) : reg :=
  mkReg (r_heap r) (r_next r) (r_list r) (r_def r) m (r_final r) (r_notes r ++ [NFlush n]) (r_bad r).
Lemma inv_flush_keep : forall h r n m, Inv h r ->
  (forall k, kept k (RFlush n :: h) = kept k h) ->
  ~ In n (map fst m) -> NoDup (map fst m) -> (forall x, In x m <-> In x (r_ifs r) /\ fst x <> n) ->
  map fst m = filter (fun k => negb (beq k n)) (map fst (r_ifs r)) ->
  Inv (RFlush n :: h) (less n m r).
Proof.
  intros h r n m I Kp M1 M2 M3 M4. pose proof (v_def _ _ I) as Vd. unfold less.
  constructor; cbn [r_heap r_next r_list r_def r_ifs r_final r_notes r_bad].
  - apply (v_bad _ _ I).
  - rewrite (v_final _ _ I). reflexivity.
  - apply (v_fresh _ _ I).
  - apply (v_nd _ _ I).
  - apply (v_lnd _ _ I).
  - intros q Hq. destruct (v_list _ _ I q Hq) as (x & X). exists x. rewrite Kp. exact X.
  - apply (v_names _ _ I).
  - intros k Hk. rewrite Kp in Hk. apply (v_kept _ _ I k Hk).
  - exact Vd.
  - exact M2.
  - intros k cp Hk. apply M3 in Hk. destruct Hk as (Hk & Ne). cbn in Ne. rewrite stands_flush.
    destruct (beq n k) eqn:E; [apply beq_true in E; congruence|]. apply (v_ifs _ _ I k cp Hk).
  - intros k Hk. rewrite stands_flush in Hk. destruct (beq n k) eqn:E; [congruence|].
    pose proof (v_all _ _ I k Hk) as A. apply in_map_iff in A. destruct A as (x & A1 & A2). apply in_map_iff. exists x. split; [exact A1|].
    apply M3. split; [exact A2|]. intro K. rewrite A1 in K. symmetry in K. apply beq_true in K. congruence.
  - rewrite known_app, (v_notes _ _ I). cbn [known]. symmetry. exact M4.
  - destruct (v_mem _ _ I) as (F & F1 & F0 & F2). exists F. split; [pose proof (names_mono (RFlush n) h); lia|split; [exact F0|exact F2]].
Qed.

Lemma inv_flush : forall h r n, Inv h r ->
  Inv (RFlush n :: h) (snd (do_flush n r)) /\ (fst (do_flush n r) = true <-> stands n h <> None).
Proof.
  intros h r n I. unfold do_flush. pose proof (take_spec n (r_ifs r) (v_ifnd _ _ I)) as Tk.
  destruct (take_if n (r_ifs r)) as [[cp m]|].
  - destruct Tk as (T1 & T2 & T3 & T4 & T5). cbn [r_def]. cbn [fst snd].
    split; [|split; [|reflexivity]].
    2:{ intros _ K. pose proof (v_ifs _ _ I n cp T1) as V. rewrite K in V. exact V. }
    pose proof (v_ifs _ _ I n cp T1) as V. pose proof (v_def _ _ I) as Vd.
    assert (Kk : stands n h <> Some FromLine -> forall k, kept k (RFlush n :: h) = kept k h).
    { intros Hs k. cbn [kept]. destruct (beq n k) eqn:E; [|reflexivity]. apply beq_true in E. subst k.
      destruct (stands n h) as [[]|]; congruence. }
    destruct cp as [p|].
    + destruct (opeq (Some p) (r_def r)) eqn:Op.
      * apply opeq_true in Op. apply (inv_flush_keep h r n m I); auto. apply Kk. intro K. rewrite K in V.
        destruct V as (p' & x & V1 & V2 & _). injection V1 as <-. rewrite <- Op in Vd. destruct Vd as (_ & _ & _ & Vn & _). contradiction.
      * assert (Nd : r_def r <> Some p) by (intro K; rewrite K in Op; cbn in Op; rewrite Z.eqb_refl in Op; discriminate Op).
        unfold flush_conf. cbn [r_heap r_list].
        pose proof (unlink_spec (r_heap r) p (r_list r) (v_lnd _ _ I)) as Un.
        assert (Lv : forall q, In q (r_list r) -> exists c, deref (r_heap r) q = Some c).
        { intros q Hq. destruct (v_list _ _ I q Hq) as (x & X & _). eauto. }
        specialize (Un Lv). destruct (unlink (r_heap r) p (r_list r)) as [[l|] b].
        -- destruct Un as (Eb & U1 & U2 & U3 & U4). subst b.
           destruct (stands n h) as [[|[]|]|] eqn:Sn; try (exfalso; exact V); try discriminate V.
           { destruct V as (p' & x & V1 & _ & _ & _ & V5 & _). injection V1 as <-. contradiction. }
           { destruct V as (V1 & _). symmetry in V1. contradiction. }
           destruct V as (p' & x & V1 & V2 & V3 & V4). injection V1 as <-.
           unfold free_conf, set_list, set_bad, set_heap, dead. cbn [r_heap r_next r_list r_def r_ifs r_final r_notes r_bad].
           rewrite V3, !orb_false_r.
           assert (Kn : forall k, kept k (RFlush n :: h) = if beq n k then [] else kept k h).
           { intro k. cbn [kept]. destruct (beq n k) eqn:E; [|reflexivity]. apply beq_true in E. subst k. rewrite Sn. reflexivity. }
           assert (Other : forall q y, In q (r_list r) -> q <> p -> deref (r_heap r) q = Some y -> beq n (ic_name y) = false).
           { intros q y Hq Nq Dy. destruct (beq n (ic_name y)) eqn:E; [|reflexivity]. apply beq_true in E. exfalso. apply Nq.
             apply (v_names _ _ I q p y x Hq V2 Dy V3). congruence. }
           constructor; cbn [r_heap r_next r_list r_def r_ifs r_final r_notes r_bad].
           ++ apply (v_bad _ _ I).
           ++ rewrite (v_final _ _ I). reflexivity.
           ++ intros q y Hq. rewrite deref_free in Hq. destruct (q =? p); [discriminate Hq|]. apply (v_fresh _ _ I) in Hq. exact Hq.
           ++ apply NoDup_filter_fst. apply (v_nd _ _ I).
           ++ exact U3.
           ++ intros q Hq. apply U4 in Hq. destruct Hq as (Hq & Nq). destruct (v_list _ _ I q Hq) as (y & Y1 & Y2 & Y3). exists y.
              rewrite deref_free. destruct (Z.eqb_spec q p); [contradiction|]. rewrite Kn, (Other q y Hq Nq Y1). auto.
           ++ intros q1 q2 c1 c2 H1 H2. apply U4 in H1. apply U4 in H2. rewrite !deref_free.
              destruct (Z.eqb_spec q1 p); [tauto|]. destruct (Z.eqb_spec q2 p); [tauto|]. apply (v_names _ _ I); tauto.
           ++ intros k Hk. rewrite Kn in Hk. destruct (beq n k) eqn:E; [congruence|].
              destruct (v_kept _ _ I k Hk) as (q & y & A1 & A2 & A3). exists q, y. rewrite deref_free.
              assert (Nq : q <> p).
              { intro K. subst q. assert (Q : n = k) by congruence. apply beq_true in Q. congruence. }
              destruct (Z.eqb_spec q p); [contradiction|]. split; [apply U4; auto|]. auto.
           ++ cbn [defaults]. destruct (r_def r) as [d|]; [|exact Vd]. destruct Vd as (y & Y1 & Y2 & Y3 & Y4). exists y. rewrite deref_free.
              destruct (Z.eqb_spec d p); [congruence|]. split; [exact Y1|]. split; [exact Y2|]. split; [|exact Y4].
              intro K. apply U4 in K. tauto.
           ++ exact T3.
           ++ intros k cp Hk. apply T4 in Hk. destruct Hk as (Hk & Ne). cbn in Ne. rewrite stands_flush. cbn [configured_lines].
              destruct (beq n k) eqn:E; [apply beq_true in E; congruence|]. pose proof (v_ifs _ _ I k cp Hk) as W.
              destruct (stands k h) as [[|[]|]|]; auto.
              ** destruct W as (p' & y & W1 & W2 & W3 & W4 & W5 & W6). exists p', y. rewrite deref_free.
                 destruct (Z.eqb_spec p' p); [subst p'; contradiction|]. split; [exact W1|]. split; [exact W2|]. split; [exact W3|].
                 split; [exact W4|]. split; [|exact W6]. intro K. apply U4 in K. tauto.
              ** destruct W as (p' & y & W1 & W2 & W3 & W4). exists p', y. rewrite deref_free.
                 assert (Nq : p' <> p) by (intro K; subst p'; congruence).
                 destruct (Z.eqb_spec p' p); [contradiction|]. split; [exact W1|]. split; [apply U4; auto|]. auto.
           ++ intros k Hk. rewrite stands_flush in Hk. destruct (beq n k) eqn:E; [congruence|].
              pose proof (v_all _ _ I k Hk) as A. apply in_map_iff in A. destruct A as (y & A1 & A2). apply in_map_iff. exists y.
              split; [exact A1|]. apply T4. split; [exact A2|]. intro K. rewrite A1 in K. symmetry in K. apply beq_true in K. congruence.
           ++ rewrite known_app, (v_notes _ _ I). cbn [known]. symmetry. exact T5.
           ++ destruct (v_mem _ _ I) as (F & F1 & F0 & F2). exists F. split; [pose proof (names_mono (RFlush n) h); lia|split; [exact F0|]].
              intros q y Hq. rewrite deref_free in Hq. destruct (Z.eqb_spec q p); [discriminate Hq|].
              destruct (F2 _ _ Hq) as [K|[K|K]]; auto. right. left. apply U4. auto.
        -- destruct Un as (Eb & U1). subst b. unfold set_bad. cbn [r_heap r_next r_list r_def r_ifs r_final r_notes r_bad]. rewrite orb_false_r.
           apply (inv_flush_keep h r n m I); auto. apply Kk. intro K. rewrite K in V.
           destruct V as (p' & x & V1 & V2 & _). injection V1 as <-. contradiction.
    + apply (inv_flush_keep h r n m I); auto. apply Kk. intro K. rewrite K in V. destruct V as (p' & x & V1 & _). discriminate V1.
  - cbn [fst snd]. assert (Sn : stands n h = None).
    { destruct (stands n h) eqn:E; [|reflexivity]. exfalso. apply Tk. apply (v_all _ _ I). congruence. }
    split; [|split; [discriminate|congruence]].
    assert (Kk : forall k, kept k (RFlush n :: h) = kept k h).
    { intro k. cbn [kept]. destruct (beq n k) eqn:E; [|reflexivity]. apply beq_true in E. subst k. rewrite Sn. reflexivity. }
    assert (Ss : forall k, stands k (RFlush n :: h) = stands k h).
    { intro k. rewrite stands_flush. destruct (beq n k) eqn:E; [|reflexivity]. apply beq_true in E. subst k. congruence. }
    pose proof (v_def _ _ I) as Vd. constructor.
    + apply (v_bad _ _ I).
    + rewrite (v_final _ _ I). reflexivity.
    + apply (v_fresh _ _ I).
    + apply (v_nd _ _ I).
    + apply (v_lnd _ _ I).
    + intros q Hq. destruct (v_list _ _ I q Hq) as (x & X). exists x. rewrite Kk. exact X.
    + apply (v_names _ _ I).
    + intros k Hk. rewrite Kk in Hk. apply (v_kept _ _ I k Hk).
    + exact Vd.
    + apply (v_ifnd _ _ I).
    + intros k cp Hk. rewrite Ss. apply (v_ifs _ _ I k cp Hk).
    + intros k Hk. rewrite Ss in Hk. apply (v_all _ _ I k Hk).
    + apply (v_notes _ _ I).
    + destruct (v_mem _ _ I) as (F & F1 & F0 & F2). exists F. split; [pose proof (names_mono (RFlush n) h); lia|split; [exact F0|exact F2]].
Qed.

(** ** The start *)
Definition take_over (d : option ifconf) (c : ifconf) : ifconf := match d with Some x => merge_ifconf c c x | None => c end.
Definition oderef (h : list (Z * ifconf)) (o : option Z) : option ifconf := match o with Some d => deref h d | None => None end.
Lemma loop_spec : forall l r, NoDup l ->
  (forall q, In q l -> exists c, deref (r_heap r) q = Some c) ->
  (forall q1 q2 c1 c2, In q1 l -> In q2 l -> deref (r_heap r) q1 = Some c1 -> deref (r_heap r) q2 = Some c2 ->
     ic_name c1 = ic_name c2 -> q1 = q2) ->
  (forall q c, In q l -> deref (r_heap r) q = Some c -> ~ In (ic_name c) (map fst (r_ifs r))) ->
  NoDup (map fst (r_ifs r)) ->
  match r_def r with Some d => ~ In d l /\ deref (r_heap r) d <> None | None => True end -> r_list r = l ->
  exists h' ifs notes,
    finalise_loop l r = mkReg h' (r_next r) [] (r_def r) (r_ifs r ++ ifs) (r_final r) (r_notes r ++ notes) (r_bad r) /\
    map fst h' = map fst (r_heap r) /\
    (forall q, ~ In q l -> deref h' q = deref (r_heap r) q) /\
    (forall q c, In q l -> deref (r_heap r) q = Some c -> deref h' q = Some (take_over (oderef (r_heap r) (r_def r)) c)) /\
    (forall n cp, In (n, cp) ifs <-> exists q c, cp = Some q /\ In q l /\ deref (r_heap r) q = Some c /\ n = ic_name c) /\
    notes = map (fun x => NAdd (fst x)) ifs /\ NoDup (map fst (r_ifs r ++ ifs)).
Proof.
  induction l as [|p l IH]; intros r N Lv Nm Ab Nd Df Ll; cbn [finalise_loop].
  - exists (r_heap r), [], []. rewrite !app_nil_r. destruct r as [hp nx li df is fi no ba]. cbn in *. rewrite Ll.
    split; [reflexivity|]. split; [reflexivity|]. split; [reflexivity|]. split; [intros q c []|]. split; [|split; [reflexivity|exact Nd]].
    intros n cp. split; [intros []|]. intros (q & c & _ & [] & _).
  - inversion N as [|x y Np Nl]; subst.
    destruct (Lv p (or_introl eq_refl)) as (c & Ec).
    set (r1 := match r_def (set_list l r) with Some d => merge_obj p p d (set_list l r) | None => set_list l r end).
    assert (R1 : exists h1, r1 = mkReg h1 (r_next r) l (r_def r) (r_ifs r) (r_final r) (r_notes r) (r_bad r) /\
       map fst h1 = map fst (r_heap r) /\
       forall q, deref h1 q = if q =? p then Some (take_over (oderef (r_heap r) (r_def r)) c) else deref (r_heap r) q).
    { subst r1. cbn [set_list r_def]. destruct (r_def r) as [d|] eqn:Rd.
      - destruct Df as (D1 & D2). unfold merge_obj, set_list, set_heap. cbn [r_heap r_next r_list r_def r_ifs r_final r_notes r_bad].
        rewrite Ec. cbn [oderef]. destruct (deref (r_heap r) d) as [cd|] eqn:Ed; [|congruence]. rewrite Rd.
        eexists. split; [reflexivity|]. split; [apply store_keys|]. intro q. rewrite deref_store, Ec. reflexivity.
      - unfold set_list. rewrite Rd. eexists. split; [reflexivity|]. split; [reflexivity|]. intro q. cbn [oderef take_over].
        destruct (Z.eqb_spec q p); [subst q; exact Ec|reflexivity]. }
    clearbody r1. destruct R1 as (h1 & E1 & K1 & D1). cbn zeta. rewrite E1. cbn [r_heap]. rewrite D1, Z.eqb_refl.
    assert (Nc : ic_name (take_over (oderef (r_heap r) (r_def r)) c) = ic_name c) by (unfold take_over; destruct (oderef _ _); reflexivity).
    rewrite Nc.
    assert (Add : add_interface (ic_name c) (Some p) (mkReg h1 (r_next r) l (r_def r) (r_ifs r) (r_final r) (r_notes r) (r_bad r)) =
       mkReg h1 (r_next r) l (r_def r) (r_ifs r ++ [(ic_name c, Some p)]) (r_final r) (r_notes r ++ [NAdd (ic_name c)]) (r_bad r)).
    { unfold add_interface. cbn [r_heap r_next r_list r_def r_ifs r_final r_notes r_bad].
      destruct (existsb (fun x => beq (fst x) (ic_name c)) (r_ifs r)) eqn:Ex; [|reflexivity].
      apply exist_name in Ex. exfalso. apply (Ab p c); auto. left. reflexivity. }
    rewrite Add. set (r2 := mkReg h1 (r_next r) l (r_def r) (r_ifs r ++ [(ic_name c, Some p)]) (r_final r) (r_notes r ++ [NAdd (ic_name c)]) (r_bad r)).
    assert (Dq : forall q, In q l -> deref h1 q = deref (r_heap r) q).
    { intros q Hq. rewrite D1. destruct (Z.eqb_spec q p); [subst q; contradiction|reflexivity]. }
    assert (Od : oderef h1 (r_def r) = oderef (r_heap r) (r_def r)).
    { unfold oderef. destruct (r_def r) as [d|]; [|reflexivity]. rewrite D1. destruct (Z.eqb_spec d p); [|reflexivity].
      subst d. destruct Df as (X & _). exfalso. apply X. left. reflexivity. }
    destruct (IH r2) as (h' & ifs & notes & A1 & A2 & A3 & A4 & A5 & A6 & A7); subst r2; cbn [r_heap r_next r_list r_def r_ifs r_final r_notes r_bad] in *.
    + exact Nl.
    + intros q Hq. rewrite Dq by exact Hq. apply Lv. right. exact Hq.
    + intros q1 q2 c1 c2 H1 H2. rewrite !Dq by assumption. apply Nm; right; assumption.
    + intros q x Hq. rewrite Dq by exact Hq. intros Hx K. rewrite map_app in K. apply in_app_or in K. destruct K as [K|[K|[]]].
      * apply (Ab q x); auto. right. exact Hq.
      * cbn in K. apply Np. rewrite (Nm p q c x); auto; [left; reflexivity|right; exact Hq].
    + rewrite map_app. apply NoDup_snoc; [exact Nd|]. cbn. apply Ab with (q := p); [left; reflexivity|exact Ec].
    + destruct (r_def r) as [d|]; [|exact Logic.I]. destruct Df as (X & Y). split; [intro K; apply X; right; exact K|].
      rewrite D1. destruct (d =? p); [discriminate|exact Y].
    + reflexivity.
    + exists h', ((ic_name c, Some p) :: ifs), (NAdd (ic_name c) :: notes). rewrite A1, <- !app_assoc. cbn [app].
      split; [reflexivity|]. split; [congruence|]. split; [|split; [|split; [|split]]].
      * intros q Hq. rewrite A3; [|intro K; apply Hq; right; exact K]. rewrite D1. destruct (Z.eqb_spec q p); [|reflexivity].
        subst q. exfalso. apply Hq. left. reflexivity.
      * intros q x [Hq|Hq] Hx.
        -- subst q. rewrite A3 by exact Np. rewrite D1, Z.eqb_refl. congruence.
        -- rewrite Od in A4. apply A4; [exact Hq|]. rewrite Dq by exact Hq. exact Hx.
      * intros n cp. split.
        -- intros [K|K].
           ++ injection K as <- <-. exists p, c. split; [reflexivity|]. split; [left; reflexivity|]. auto.
           ++ apply A5 in K. destruct K as (q & x & B1 & B2 & B3 & B4). exists q, x. rewrite Dq in B3 by exact B2.
              split; [exact B1|]. split; [right; exact B2|]. auto.
        -- intros (q & x & B1 & [B2|B2] & B3 & B4).
           ++ subst q cp n. assert (x = c) by congruence. subst x. left. reflexivity.
           ++ right. apply A5. exists q, x. rewrite Dq by exact B2. auto.
      * cbn. f_equal. exact A6.
      * rewrite <- app_assoc in A7. exact A7.
Qed.

Lemma known_adds : forall (l : list (list Z * option Z)) acc, known (map (fun x => NAdd (fst x)) l) acc = acc ++ map fst l.
Proof.
  induction l as [|x l IH]; intro acc; cbn; [rewrite app_nil_r; reflexivity|]. rewrite IH, <- app_assoc. reflexivity.
Qed.

Lemma inv_start : forall h r, Inv h r -> Forall before_start h -> Inv (RStart :: h) (do_final r).
Proof.
  intros h r I B.
  assert (E0 : r_ifs r = []).
  { destruct (r_ifs r) as [|[n cp] l] eqn:E; [reflexivity|]. exfalso.
    pose proof (v_ifs _ _ I n cp) as V. rewrite E, (before_stands n h B) in V. apply V. left. reflexivity. }
  unfold do_final. pose proof (v_def _ _ I) as Vd.
  destruct (loop_spec (r_list r) r) as (h' & ifs & notes & A1 & A2 & A3 & A4 & A5 & A6 & A7); auto.
  - apply (v_lnd _ _ I).
  - intros q Hq. destruct (v_list _ _ I q Hq) as (x & X & _). eauto.
  - apply (v_names _ _ I).
  - intros q c _ _. rewrite E0. intros [].
  - rewrite E0. constructor.
  - destruct (r_def r); [|exact Logic.I]. destruct Vd as (x & V1 & _ & V3 & _). split; [exact V3|congruence].
  - rewrite A1. unfold set_final. cbn [r_heap r_next r_list r_def r_ifs r_final r_notes r_bad]. rewrite E0 in A7 |- *. cbn [app] in *.
    assert (Live : forall q c, deref h' q = Some c -> exists x, deref (r_heap r) q = Some x).
    { intros q c Hq. apply in_deref. rewrite <- A2. eapply deref_in. exact Hq. }
    assert (St : forall n, stands n (RStart :: h) = if existsb (is_if n) h then Some FromFile else None).
    { intro n. cbn [stands]. rewrite (before_stands n h B). reflexivity. }
    assert (Nl : forall p d, r_def r = Some d -> In p (r_list r) -> p <> d).
    { intros p d Hd Hp K. subst p. rewrite Hd in Vd. destruct Vd as (_ & _ & _ & V & _). contradiction. }
    constructor; cbn [r_heap r_next r_list r_def r_ifs r_final r_notes r_bad].
    + apply (v_bad _ _ I).
    + reflexivity.
    + intros q c Hq. destruct (Live q c Hq) as (x & X). apply (v_fresh _ _ I) in X. exact X.
    + rewrite A2. apply (v_nd _ _ I).
    + constructor.
    + intros q [].
    + intros q1 q2 c1 c2 [].
    + intros n Hn. cbn in Hn. congruence.
    + cbn [defaults]. destruct (r_def r) as [d|] eqn:Rd; [|exact Vd]. destruct Vd as (x & V1 & V2 & V3 & V4). exists x.
      rewrite A3 by exact V3. split; [exact V1|]. split; [exact V2|]. split; [intros []|exact V4].
    + exact A7.
    + intros n cp Hn. apply A5 in Hn. destruct Hn as (q & c & B1 & B2 & B3 & B4). subst n. rewrite St.
      destruct (v_list _ _ I q B2) as (x & X1 & X2 & X3). assert (x = c) by congruence. subst x.
      rewrite (before_kept _ _ B). destruct (kept (ic_name c) h) eqn:Ek; [congruence|]. rewrite <- Ek in *.
      exists q, (take_over (oderef (r_heap r) (r_def r)) c). split; [exact B1|]. split; [apply A4; assumption|]. cbn [configured_lines].
      split; [|split; [unfold take_over; destruct (oderef _ _); reflexivity|split; [intros []|]]].
      * unfold take_over, oderef. destruct (r_def r) as [d|].
        -- destruct Vd as (y & V1 & V2 & _). rewrite V1. apply says_merge; assumption.
        -- rewrite Vd, app_nil_r. exact X2.
      * intro K. apply (Nl q q K B2). reflexivity.
    + intros n Hn. rewrite St, (before_kept n h B) in Hn. destruct (kept n h) eqn:Ek; [congruence|].
      destruct (v_kept _ _ I n) as (q & c & B1 & B2 & B3); [congruence|]. apply in_map_iff. exists (n, Some q). split; [reflexivity|].
      apply A5. exists q, c. auto.
    + rewrite A6, known_app, known_adds, (v_notes _ _ I), E0. reflexivity.
    + exists (r_list r). split.
      * rewrite <- (map_length (fun q => match deref (r_heap r) q with Some c => ic_name c | None => [] end) (r_list r)).
        transitivity (length (names h)); [|apply names_mono]. apply NoDup_incl_length.
        -- assert (G : forall l, NoDup l -> (forall q, In q l -> In q (r_list r)) ->
             NoDup (map (fun q => match deref (r_heap r) q with Some c => ic_name c | None => [] end) l)).
           { induction l as [|q l IHl]; intros Hn Hi; cbn; constructor; inversion Hn as [|? ? Hq Hl]; subst.
             - intro K. apply in_map_iff in K. destruct K as (q' & K1 & K2).
               destruct (v_list _ _ I q (Hi q (or_introl eq_refl))) as (c & C & _).
               destruct (v_list _ _ I q' (Hi q' (or_intror K2))) as (c' & C' & _).
               rewrite C, C' in K1. apply Hq. rewrite (v_names _ _ I q q' c c'); auto; apply Hi; [left; reflexivity|right; exact K2].
             - apply IHl; [exact Hl|]. intros x Hx. apply Hi. right. exact Hx. }
           apply G; [apply (v_lnd _ _ I)|auto].
        -- intros n Hn. apply in_map_iff in Hn. destruct Hn as (q & K1 & K2). destruct (v_list _ _ I q K2) as (c & C1 & _ & C3).
           rewrite C1 in K1. subst n. unfold names. apply nodup_In. apply kept_named. exact C3.
      * split; [discriminate|]. intros q c Hq. destruct (Live q c Hq) as (x & X). destruct (v_mem _ _ I) as (F & _ & F0 & F2).
        rewrite (F0 (before_started h B)) in F2. destruct (F2 _ _ X) as [K|[K|[]]]; auto.
Qed.

Lemma rrun_app : forall a b r, rrun (a ++ b) r = rrun b (rrun a r).
Proof. induction a as [|o a IH]; intros b r; cbn; auto. Qed.
Lemma inv_run : forall h, history h -> Inv h (rrun (rev h) reg0).
Proof.
  induction h as [|o h IH]; intro H; [exact inv0|].
  destruct (history_tail o h H) as (Ht & Fo & Hs & _). specialize (IH Ht). cbn [rev]. rewrite rrun_app. cbn [rrun].
  destruct o; cbn [rstep].
  - apply inv_if; assumption.
  - apply inv_def; assumption.
  - apply inv_start; auto.
  - apply inv_arg; assumption.
  - apply inv_flush; assumption.
Qed.

(** ** What follows *)
Lemma find_name : forall n (l : list (list Z * option Z)), NoDup (map fst l) ->
  match find (fun x => beq (fst x) n) l with
  | Some (k, c) => k = n /\ In (n, c) l
  | None => ~ In n (map fst l)
  end.
Proof.
  intros n l _. destruct (find (fun x => beq (fst x) n) l) as [[k c]|] eqn:E.
  - apply find_some in E. destruct E as (E1 & E2). cbn in E2. apply beq_true in E2. subst k. auto.
  - intro K. apply exist_name in K. apply existsb_exists in K. destruct K as (x & K1 & K2). apply (find_none _ _ E) in K1. congruence.
Qed.
Lemma inv_memory : forall h r, Inv h r -> (length (r_heap r) <= 1 + 2 * length (names h))%nat.
Proof.
  intros h r I. destruct (v_mem _ _ I) as (F & F1 & _ & F2).
  assert (Ll : (length (r_list r) <= length (names h))%nat).
  { rewrite <- (map_length (fun q => match deref (r_heap r) q with Some c => ic_name c | None => [] end) (r_list r)).
    apply NoDup_incl_length.
    - assert (G : forall l, NoDup l -> (forall q, In q l -> In q (r_list r)) ->
         NoDup (map (fun q => match deref (r_heap r) q with Some c => ic_name c | None => [] end) l)).
      { induction l as [|q l IHl]; intros Hn Hi; cbn; constructor; inversion Hn as [|? ? Hq Hl]; subst.
        - intro K. apply in_map_iff in K. destruct K as (q' & K1 & K2).
          destruct (v_list _ _ I q (Hi q (or_introl eq_refl))) as (c & C & _).
          destruct (v_list _ _ I q' (Hi q' (or_intror K2))) as (c' & C' & _).
          rewrite C, C' in K1. apply Hq. rewrite (v_names _ _ I q q' c c'); auto; apply Hi; [left; reflexivity|right; exact K2].
        - apply IHl; [exact Hl|]. intros x Hx. apply Hi. right. exact Hx. }
      apply G; [apply (v_lnd _ _ I)|auto].
    - intros n Hn. apply in_map_iff in Hn. destruct Hn as (q & K1 & K2). destruct (v_list _ _ I q K2) as (c & C1 & _ & C3).
      rewrite C1 in K1. subst n. unfold names. apply nodup_In. apply kept_named. exact C3. }
  rewrite <- (map_length fst (r_heap r)).
  transitivity (length ((match r_def r with Some d => [d] | None => [] end) ++ r_list r ++ F)).
  - apply NoDup_incl_length; [apply (v_nd _ _ I)|]. intros p Hp. apply in_deref in Hp. destruct Hp as (c & Hp).
    apply in_or_app. destruct (F2 _ _ Hp) as [K|[K|K]].
    + left. rewrite K. left. reflexivity.
    + right. apply in_or_app. auto.
    + right. apply in_or_app. auto.
  - rewrite !app_length. destruct (r_def r); cbn [length]; lia.
Qed.

(** L_Line2.v: what a file of lines leaves in the configuration. *)
From Coq Require Import String.
From Verif Require Import Base M_Util S_Util L_Util M_Filter S_Filter L_Filter M_Config S_Config L_Config L_Config2 L_Config3 S_Dump L_Dump S_Rule L_Rule S_Line L_Line M_Ifup S_Ifup.
Close Scope string_scope.
Open Scope Z_scope.

(** ** The last that says something *)
Definition lookup {A B} (f : A -> option B) (l : list A) : option B :=
  fold_left (fun o x => match f x with Some v => Some v | None => o end) l None.
Lemma lookup_snoc : forall A B (f : A -> option B) l x,
  lookup f (l ++ [x]) = match f x with Some v => Some v | None => lookup f l end.
Proof. intros. unfold lookup. rewrite fold_left_app. reflexivity. Qed.
Lemma lookup_none : forall A B (f : A -> option B) l, lookup f l = None -> forall x, In x l -> f x = None.
Proof.
  intros A B f l. induction l as [|y l IH] using rev_ind; intros H x Hx; [destruct Hx|].
  rewrite lookup_snoc in H. destruct (f y) eqn:E; [discriminate|]. apply in_app_or in Hx. destruct Hx as [Hx|[<-|[]]]; auto.
Qed.
Lemma last_lookup : forall A B (R : A -> B -> Prop) f, (forall x v, R x v <-> f x = Some v) ->
  forall l v, last_of R l v <-> lookup f l = Some v.
Proof.
  intros A B R f H l. induction l as [|y l IH] using rev_ind; intros v.
  - split; [intros (a & x & b & E & _); destruct a; discriminate|discriminate].
  - rewrite lookup_snoc. split.
    + intros (a & x & b & E & Rx & N). destruct (rev b) as [|z b'] eqn:Eb.
      * assert (b = []) by (rewrite <- (rev_involutive b), Eb; reflexivity). subst b. apply app_inj_tail in E. destruct E as (-> & ->).
        apply H in Rx. now rewrite Rx.
      * assert (Eb' : b = rev b' ++ [z]) by (rewrite <- (rev_involutive b), Eb; reflexivity). subst b.
        rewrite app_comm_cons, app_assoc in E. apply app_inj_tail in E. destruct E as (-> & ->).
        destruct (f z) as [w|] eqn:F.
        { exfalso. apply (N z w); [apply in_or_app; right; now left|]. now apply H. }
        apply IH. exists a, x, (rev b'). split; auto. split; auto. intros q w Hq. apply N. apply in_or_app. now left.
    + destruct (f y) as [w|] eqn:F.
      * intros E. injection E as ->. exists l, y, []. split; auto. split; [now apply H|]. intros q w [].
      * intros E. apply IH in E. destruct E as (a & x & b & -> & Rx & N). exists a, x, (b ++ [y]). split; [now rewrite <- app_assoc|].
        split; auto. intros q w Hq. apply in_app_or in Hq. destruct Hq as [Hq|[<-|[]]]; auto. intros Q. apply H in Q. congruence.
Qed.
Definition slot (n : nat) (p : param) : option Z := match p with PVal m v => if Nat.eqb m n then Some v else None | PKey _ => None end.
Definition kslot (p : param) : option (list Z) := match p with PVal _ _ => None | PKey id => Some id end.
Definition sv (n : nat) (ps : list param) : option Z :=
  match lookup (slot n) ps with Some v => if v =? 0 then None else Some v | None => None end.
Definition od (o : option Z) : Z := match o with Some v => v | None => 0 end.
Definition val (n : nat) (pss : list (list param)) : Z := od (lookup (sv n) pss).
Definition kval (pss : list (list param)) : option (list Z) := lookup (lookup kslot) pss.
Lemma says_slot : forall n x v, says n x v <-> slot n x = Some v.
Proof.
  intros n [m w|id] v; unfold says, slot; split; intros H; try discriminate H.
  - injection H as -> ->. now rewrite Nat.eqb_refl.
  - destruct (Nat.eqb m n) eqn:E; [|discriminate]. apply Nat.eqb_eq in E. injection H as ->. now subst.
Qed.
Lemma sets_sv : forall n ps v, sets n ps v <-> sv n ps = Some v.
Proof.
  intros n ps v. unfold sets, sv. rewrite (last_lookup _ _ _ _ (says_slot n)). destruct (lookup (slot n) ps) as [w|].
  - destruct (w =? 0) eqn:E; split; intros H.
    + destruct H as (H & N). injection H as ->. lia.
    + discriminate.
    + destruct H as (H & N). exact H.
    + split; auto. injection H as ->. lia.
  - split; [intros (H & _); discriminate|discriminate].
Qed.
Lemma sets_key_lk : forall ps id, sets_key ps id <-> lookup kslot ps = Some id.
Proof.
  intros ps id. unfold sets_key. apply last_lookup. intros [m w|i] v; cbn; split; intros H; try discriminate H; congruence.
Qed.
Lemma val_sets : forall n pss v, last_of (sets n) pss v <-> val n pss = v /\ v <> 0.
Proof.
  intros n pss v. rewrite (last_lookup _ _ _ _ (sets_sv n)). unfold val.
  assert (Nz : forall w, lookup (sv n) pss = Some w -> w <> 0).
  { intros w H. apply (last_lookup _ _ _ _ (sets_sv n)) in H. destruct H as (a & x & b & _ & (_ & N) & _). exact N. }
  destruct (lookup (sv n) pss) as [w|]; cbn [od].
  - specialize (Nz w eq_refl). split; [intros H; injection H as ->; auto|intros (-> & _); auto].
  - split; [discriminate|intros (<- & H); now destruct H].
Qed.
Lemma kval_sets : forall pss id, last_of sets_key pss id <-> kval pss = Some id.
Proof. intros pss id. exact (last_lookup _ _ _ _ sets_key_lk pss id). Qed.

(** ** Interfaces *)
Definition desc (ids : list (list Z)) (ic : ifconf) (pss : list (list param)) : Prop :=
  length (ic_vals ic) = 17%nat /\ (forall n, nth n (ic_vals ic) 0 = val n pss) /\
  match ic_key ic with Some k => exists id, nth_error ids k = Some id /\ kval pss = Some id | None => kval pss = None end.
Lemma nth_set : forall (l : list Z) i v n, (i < length l)%nat ->
  nth n (firstn i l ++ v :: skipn (S i) l) 0 = if Nat.eqb i n then v else nth n l 0.
Proof.
  induction l as [|x l IH]; intros i v n H; [cbn in H; lia|]. destruct i as [|i]; cbn [firstn skipn app].
  - destruct n; reflexivity.
  - destruct n as [|n]; [reflexivity|]. cbn [nth Nat.eqb]. apply IH. cbn in H. lia.
Qed.
Lemma length_set : forall (l : list Z) i v, (i < length l)%nat -> length (firstn i l ++ v :: skipn (S i) l) = length l.
Proof. intros l i v H. rewrite app_length, firstn_length. cbn [length]. rewrite skipn_length. lia. Qed.
Lemma param_slot : forall n v ws, param_text (PVal n v) ws -> (n < 17)%nat.
Proof.
  intros n v ws H. inversion H as [kw n' hi t v' Hk|kw n' hi t v' Hk|kw n' t v' Hk|t v' Hk|t v' Hk|]; subst; try lia.
  all: repeat destruct Hk as [Hk|Hk]; try (destruct Hk; fail); injection Hk; intros; lia.
Qed.
Lemma applys_desc : forall ids ps name, (forall n v, In (PVal n v) ps -> (n < 17)%nat) -> (forall id, In (PKey id) ps -> In id ids) ->
  let ic := fold_left (apply1 ids) ps (ic0 name) in
  length (ic_vals ic) = 17%nat /\ (forall n, nth n (ic_vals ic) 0 = od (lookup (slot n) ps)) /\
  match ic_key ic with Some k => exists id, nth_error ids k = Some id /\ lookup kslot ps = Some id | None => lookup kslot ps = None end.
Proof.
  intros ids ps name. induction ps as [|pr ps IH] using rev_ind; intros Hn Hk.
  - cbn -[nth]. split; auto. split; auto. intros n. change [0; 0; 0; 0; 0; 0; 0; 0; 0; 0; 0; 0; 0; 0; 0; 0; 0] with (repeat 0 17).
    apply nth_repeat.
  - cbv zeta in *. rewrite fold_left_app. cbn [fold_left].
    destruct IH as (L & V & K); [intros; eapply Hn; apply in_or_app; left; eauto|intros; apply Hk; apply in_or_app; now left|].
    set (ic := fold_left (apply1 ids) ps (ic0 name)) in *. destruct pr as [m v|id]; cbn [apply1 set_val ic_vals ic_key].
    + assert (Hm : (m < 17)%nat) by (eapply Hn; apply in_or_app; right; now left).
      split; [rewrite length_set by lia; exact L|]. split.
      * intros n. rewrite nth_set by lia. rewrite lookup_snoc. cbn [slot]. rewrite V. destruct (Nat.eqb m n); reflexivity.
      * rewrite lookup_snoc. exact K.
    + split; [exact L|]. split; [intros n; rewrite lookup_snoc; apply V|]. rewrite lookup_snoc. cbn [kslot].
      destruct (idx_in id ids) as (k & E). { apply Hk. apply in_or_app. right. now left. }
      rewrite E. exists id. split; auto. now apply idx_nth.
Qed.
Lemma val1 : forall n ps, val n [ps] = od (lookup (slot n) ps).
Proof.
  intros n ps. unfold val. change [ps] with ([] ++ [ps]). rewrite lookup_snoc. unfold sv.
  destruct (lookup (slot n) ps) as [v|]; [|reflexivity]. destruct (v =? 0) eqn:E; cbn; [lia|reflexivity].
Qed.
Lemma val_snoc : forall n pss ps, val n (pss ++ [ps]) = if val n [ps] =? 0 then val n pss else val n [ps].
Proof.
  intros n pss ps. rewrite val1. unfold val at 1. rewrite lookup_snoc. unfold sv, val.
  destruct (lookup (slot n) ps) as [v|]; cbn [od]; [|reflexivity]. destruct (v =? 0); reflexivity.
Qed.
Lemma kval_snoc : forall pss ps, kval (pss ++ [ps]) = match lookup kslot ps with Some i => Some i | None => kval pss end.
Proof. intros. unfold kval. rewrite lookup_snoc. reflexivity. Qed.
Lemma new_desc : forall ids ps name, (forall n v, In (PVal n v) ps -> (n < 17)%nat) -> (forall id, In (PKey id) ps -> In id ids) ->
  desc ids (fold_left (apply1 ids) ps (ic0 name)) [ps].
Proof.
  intros ids ps name Hn Hk. destruct (applys_desc ids ps name Hn Hk) as (L & V & K). split; [exact L|]. split.
  - intros n. rewrite V, val1. reflexivity.
  - assert (E : kval [ps] = lookup kslot ps).
    { change [ps] with ([] ++ [ps]). rewrite kval_snoc. destruct (lookup kslot ps); reflexivity. }
    rewrite E. exact K.
Qed.
Lemma merge_nth : forall a b n, length a = length b -> nth n (merge_vals a b) 0 = if nth n a 0 =? 0 then nth n b 0 else nth n a 0.
Proof.
  induction a as [|x a IH]; intros b n H; destruct b as [|y b]; try discriminate H; cbn [merge_vals].
  - destruct n; reflexivity.
  - destruct n as [|n]; cbn [nth]; [reflexivity|]. apply IH. injection H as H. exact H.
Qed.
Lemma merge_len : forall a b, length a = length b -> length (merge_vals a b) = length a.
Proof. induction a as [|x a IH]; intros [|y b] H; try discriminate H; auto. cbn. f_equal. apply IH. now injection H. Qed.
Lemma merge_desc : forall ids dst ic x ps pss, desc ids ic [ps] -> desc ids x pss -> desc ids (merge_ifconf dst ic x) (pss ++ [ps]).
Proof.
  intros ids dst ic x ps pss (L1 & V1 & K1) (L2 & V2 & K2). unfold desc, merge_ifconf. cbn [ic_vals ic_key].
  split; [rewrite merge_len; congruence|]. split.
  - intros n. rewrite merge_nth by congruence. rewrite V1, V2, val_snoc. reflexivity.
  - assert (E : kval [ps] = lookup kslot ps).
    { change [ps] with ([] ++ [ps]). rewrite kval_snoc. destruct (lookup kslot ps); reflexivity. }
    rewrite kval_snoc, <- E. destruct (ic_key ic) as [k|].
    + destruct K1 as (id & K1 & ->). eauto.
    + rewrite K1. exact K2.
Qed.
Lemma desc_more : forall ids more ic pss, desc ids ic pss -> desc (ids ++ more) ic pss.
Proof.
  intros ids more ic pss (L & V & K). split; auto. split; auto. destruct (ic_key ic) as [k|]; auto.
  destruct K as (id & K1 & K2). exists id. split; auto. rewrite nth_error_app1; auto. apply nth_error_Some. congruence.
Qed.

(** ** Keys *)
Definition isk (x : param) : bool := match x with PKey _ => true | _ => false end.
Definition refs_in (B : nat) (ks : list key) : Prop := forall k, In k ks -> 0 <= k_ref k <= Z.of_nat B.
Lemma nth_cut : forall A (l : list A) i x, nth_error l i = Some x -> exists l1 l2, l = l1 ++ x :: l2 /\ firstn i l = l1 /\ skipn (S i) l = l2.
Proof.
  intros A l i x H. destruct (nth_error_split l i H) as (l1 & l2 & -> & <-). exists l1, l2. split; auto.
  split; [rewrite firstn_app, Nat.sub_diag, firstn_all; cbn; now rewrite app_nil_r|].
  rewrite skipn_app. replace (S (length l1) - length l1)%nat with 1%nat by lia. rewrite skipn_all2 by lia. reflexivity.
Qed.
Lemma kfx_spec : forall pr g B, refs_in B (g_keys g) -> Z.of_nat (B + (if isk pr then 1 else 0)) <= 65535 ->
  exists ks, kfx pr g = set_keys ks g /\ map anonymous ks = map anonymous (g_keys g) /\ refs_in (B + (if isk pr then 1 else 0)) ks.
Proof.
  assert (Same : forall g, g = set_keys (g_keys g) g) by (intros []; reflexivity).
  assert (More : forall a b ks, refs_in a ks -> (a <= b)%nat -> refs_in b ks) by (intros a b ks R H k Hk; specialize (R k Hk); lia).
  intros [n v|id] g B R Hb; cbn [kfx isk] in *.
  - exists (g_keys g). split; [apply Same|]. split; auto. now rewrite Nat.add_0_r.
  - unfold find_key. destruct (index_key id (g_keys g)) as [i|] eqn:E; cbn [snd].
    + unfold retain_key. destruct (nth_error (g_keys g) i) as [k|] eqn:N.
      * destruct (nth_cut _ _ _ _ N) as (l1 & l2 & Ek & -> & ->).
        assert (Hk : In k (g_keys g)) by (rewrite Ek; apply in_or_app; right; now left).
        pose proof (R k Hk) as Rk. replace (k_ref k <? 65535) with true by lia.
        eexists. split; [reflexivity|]. split.
        { rewrite Ek, !map_app. reflexivity. }
        { intros q Hq. apply in_app_or in Hq. destruct Hq as [Hq|[<-|Hq]].
          - assert (In q (g_keys g)) by (rewrite Ek; apply in_or_app; now left). specialize (R q H). lia.
          - cbn [k_ref]. lia.
          - assert (In q (g_keys g)) by (rewrite Ek; apply in_or_app; right; now right). specialize (R q H). lia. }
      * exists (g_keys g). split; [apply Same|]. split; auto. eapply More; eauto. lia.
    + exists (g_keys g). split; [apply Same|]. split; auto. eapply More; eauto. lia.
Qed.
Lemma kfxs_spec : forall ps g B, refs_in B (g_keys g) -> Z.of_nat (B + length (filter isk ps)) <= 65535 ->
  exists ks, kfxs ps g = set_keys ks g /\ map anonymous ks = map anonymous (g_keys g) /\ refs_in (B + length (filter isk ps)) ks.
Proof.
  induction ps as [|pr ps IH]; intros g B R Hb.
  - exists (g_keys g). split; [destruct g; reflexivity|]. split; auto. cbn [filter length]. now rewrite Nat.add_0_r.
  - cbn [filter] in Hb. unfold kfxs. cbn [fold_left].
    destruct (kfx_spec pr g B R) as (ks & E1 & E2 & E3); [destruct (isk pr); cbn [length] in Hb; lia|].
    destruct (IH (kfx pr g) (B + (if isk pr then 1 else 0))%nat) as (ks2 & F1 & F2 & F3).
    + rewrite E1. exact E3.
    + destruct (isk pr); cbn [length] in Hb; lia.
    + unfold kfxs in F1. rewrite F1. exists ks2. split; [rewrite E1; reflexivity|]. split; [rewrite F2, E1; exact E2|].
      cbn [filter]. destruct (isk pr); cbn [length]; [replace (B + S (length (filter isk ps)))%nat with (B + 1 + length (filter isk ps))%nat by lia|rewrite Nat.add_0_r in F3]; exact F3.
Qed.
Lemma anon_ids : forall a b, map anonymous a = map anonymous b -> map k_id a = map k_id b.
Proof.
  intros a b H. assert (M : forall ks, map k_id ks = map (fun x => fst (fst x)) (map anonymous ks)) by (intros; rewrite map_map; apply map_ext; intros []; reflexivity).
  now rewrite (M a), H, <- M.
Qed.
Lemma anon_in : forall a b k, map anonymous a = map anonymous b -> In k a -> exists k0, In k0 b /\ anonymous k0 = anonymous k.
Proof. intros a b k H Hk. apply (in_map anonymous) in Hk. rewrite H in Hk. apply in_map_iff in Hk. destruct Hk as (k0 & E & I). eauto. Qed.

(** ** The configuration after the lines [ls] *)
Definition kdef (id : list Z) (x : list Z * Z * list Z) : option (Z * list Z) :=
  let '(i, ty, v) := x in if beq i id then Some (ty, v) else None.
Definition wopt (o : opt) : option bool :=
  match o with
  | OInt n _ => if beq n (str "local-port") then Some false else if beq n (str "local-port-readwrite") then Some true else None
  | OFile n _ => if beq n (str "local-path") then Some false else if beq n (str "local-path-readwrite") then Some true else None
  | _ => None
  end.
Lemma opens_wopt : forall o b, opens o b <-> wopt o = Some b.
Proof.
  assert (G : forall n (a c : list Z) b, a <> c -> In (n, b) [(a, false); (c, true)] <-> (if beq n a then Some false else if beq n c then Some true else None) = Some b).
  { intros n a c b Ne. split.
    - intros [E|[E|[]]]; injection E as <- <-; [now rewrite beq_refl|]. rewrite beq_no by auto. now rewrite beq_refl.
    - destruct (beq n a) eqn:B1; [apply beq_true in B1; intros E; injection E as <-; subst; now left|].
      destruct (beq n c) eqn:B2; [apply beq_true in B2; intros E; injection E as <-; subst; right; now left|discriminate]. }
  intros [n v|n v|a|n v|v|v|i] b; cbn [opens wopt]; try (split; [intros []|discriminate]); apply G; vm_compute; discriminate.
Qed.
Record J (e : env) (g0 : cfg) (ls : list line) (g : cfg) : Prop := mkJ {
  j_final : g_final g = false;
  j_abort : g_abort g = g_abort g0;
  j_chain : forall w, exists fs, chain w g = chain w g0 ++ fs /\ Forall2 (means e) (rules w ls) fs;
  j_log : g_log g = g_log g0 ++ map opt_effect (opts ls);
  j_write : g_write g = match lookup wopt (opts ls) with Some b => b | None => g_write g0 end;
  j_kids : forall id, In id (map k_id (g_keys g)) <-> In id (key_ids ls);
  j_knd : NoDup (map k_id (g_keys g));
  j_kval : forall k, In k (g_keys g) -> lookup (kdef (k_id k)) (keys ls) = None -> False;
  j_kdef : forall k ty v, In k (g_keys g) -> lookup (kdef (k_id k)) (keys ls) = Some (ty, v) -> k_type k = ty /\ k_value k = secret ty v;
  j_ref : refs_in (named ls) (g_keys g);
  j_def : match g_default g with None => defs ls = [] | Some d => defs ls <> [] /\ desc (map k_id (g_keys g)) d (defs ls) end;
  j_ifnd : NoDup (map ic_name (g_ifs g));
  j_ifs : forall ic, In ic (g_ifs g) -> own (ic_name ic) ls <> [] /\ desc (map k_id (g_keys g)) ic (own (ic_name ic) ls);
  j_all : forall name, own name ls <> [] -> In name (map ic_name (g_ifs g)) }.
Lemma cm_snoc : forall A B (f : A -> list B) l x, concat (map f (l ++ [x])) = concat (map f l) ++ f x.
Proof. intros. rewrite map_app, concat_app. cbn. now rewrite app_nil_r. Qed.
Lemma own_snoc : forall n ls l, own n (ls ++ [l]) = own n ls ++ (match l with LIf m ps => if beq m n then [ps] else [] | _ => [] end).
Proof. intros. apply cm_snoc. Qed.
Lemma defs_snoc : forall ls l, defs (ls ++ [l]) = defs ls ++ (match l with LDef ps => [ps] | _ => [] end).
Proof. intros. apply cm_snoc. Qed.
Lemma rules_snoc : forall w ls l, rules w (ls ++ [l]) = rules w ls ++ (match l with LRule x cs => if x =? w then [cs] else [] | _ => [] end).
Proof. intros. apply cm_snoc. Qed.
Lemma opts_snoc : forall ls l, opts (ls ++ [l]) = opts ls ++ (match l with LOpt o => [o] | _ => [] end).
Proof. intros. apply cm_snoc. Qed.
Lemma keys_snoc : forall ls l, keys (ls ++ [l]) = keys ls ++ (match l with LKey id ty v => [(id, ty, v)] | _ => [] end).
Proof. intros. apply cm_snoc. Qed.
Lemma ids_snoc : forall ls l, key_ids (ls ++ [l]) = key_ids ls ++ (match l with LKey id _ _ => [id] | _ => [] end).
Proof. intros. apply cm_snoc. Qed.
Lemma named_snoc : forall ls l, named (ls ++ [l]) = (named ls +
  match l with LIf _ ps | LDef ps => length (filter isk ps) | LKey _ _ _ => 1 | _ => 0 end)%nat.
Proof. intros. unfold named. rewrite cm_snoc, app_length. f_equal. destruct l; reflexivity. Qed.
Lemma J0 : forall e g, g_final g = false -> g_keys g = [] -> g_ifs g = [] -> g_default g = None -> J e g [] g.
Proof.
  intros e g F K I D. constructor; rewrite ?K, ?I, ?D; auto; try (intros; contradiction); try (constructor; fail).
  - intros w. exists []. split; [now rewrite app_nil_r|constructor].
  - cbn. now rewrite app_nil_r.
  - intros id. split; intros [].
  - intros k [].
Qed.
Lemma params_slots : forall ps wss, Forall2 param_text ps wss -> forall n v, In (PVal n v) ps -> (n < 17)%nat.
Proof.
  intros ps wss H. induction H as [|a b ps wss A H IH]; intros n v Hi; [destruct Hi|].
  destruct Hi as [->|Hi]; [eapply param_slot; eauto|eauto].
Qed.
Lemma add_if_names : forall ic l, NoDup (map ic_name l) -> NoDup (map ic_name (fst (add_ifconf ic l))) /\
  (forall n, In n (map ic_name (fst (add_ifconf ic l))) <-> n = ic_name ic \/ In n (map ic_name l)).
Proof.
  induction l as [|x l IH]; intros N; cbn [add_ifconf].
  - cbn. split; [constructor; [intros []|constructor]|]. intros n. intuition.
  - cbn in N. inversion N as [|? ? N1 N2]; subst. destruct (beq (ic_name x) (ic_name ic)) eqn:B.
    + apply beq_true in B. cbn. split; [constructor; auto|]. intros n. rewrite B. intuition.
    + specialize (IH N2). destruct (add_ifconf ic l) as (l2, b). cbn [fst] in *. destruct IH as (I1 & I2). cbn.
      split; [constructor; auto; rewrite I2; intros [E|E]; auto; rewrite E, beq_refl in B; discriminate|].
      intros n. rewrite I2. intuition.
Qed.
Lemma add_if_in : forall ic l y, NoDup (map ic_name l) -> In y (fst (add_ifconf ic l)) ->
  (In y l /\ ic_name y <> ic_name ic) \/ (y = ic /\ ~ In (ic_name ic) (map ic_name l)) \/
  (exists x, In x l /\ ic_name x = ic_name ic /\ y = merge_ifconf x ic x).
Proof.
  induction l as [|x l IH]; intros y N H; cbn [add_ifconf] in H.
  - destruct H as [<-|[]]. right. left. split; auto.
  - cbn in N. inversion N as [|? ? N1 N2]; subst. destruct (beq (ic_name x) (ic_name ic)) eqn:B.
    + apply beq_true in B. cbn in H. destruct H as [<-|H].
      * right. right. exists x. split; [now left|]. auto.
      * left. split; [now right|]. intros E. apply N1. rewrite B, <- E. apply in_map. exact H.
    + specialize (IH y N2). destruct (add_ifconf ic l) as (l2, b). cbn [fst] in *.
      assert (Nx : ic_name x <> ic_name ic) by (intros E; rewrite E, beq_refl in B; discriminate).
      destruct H as [<-|H]; [left; split; [now left|auto]|].
      destruct (IH H) as [(I1 & I2)|[(-> & I)|(z & I1 & I2 & I3)]].
      * left. split; [now right|auto].
      * right. left. split; auto. cbn. intros [E|E]; auto.
      * right. right. exists z. split; [now right|auto].
Qed.
Lemma app_ne : forall A (a b : list A), a <> [] \/ b <> [] -> a ++ b <> [].
Proof. intros A a b [H|H] E; apply app_eq_nil in E; destruct E; contradiction. Qed.
Lemma J_step : forall e g0 ls g l t g', J e g0 ls g -> line_text e (key_ids ls) l t -> after e l g g' ->
  Z.of_nat (named (ls ++ [l])) <= 65535 -> J e g0 (ls ++ [l]) g'.
Proof.
  intros e g0 ls g l t g' Hj T A Bn. destruct Hj as [F Ab Ch Lg Wr Ki Kn Kv Kd Rf Df In_ Is Al]. rewrite named_snoc in Bn.
  destruct l as [w cs|name ps|ps|id ty v|o|]; cbn [after line_text] in *.
  - destruct A as (f & M & Rg & ->).
    assert (Gk : g_keys (add_filter w f g) = g_keys g /\ g_ifs (add_filter w f g) = g_ifs g /\ g_default (add_filter w f g) = g_default g) by auto.
    destruct Gk as (Gk & Gi & Gd).
    constructor; rewrite ?Gk, ?Gi, ?Gd, ?opts_snoc, ?keys_snoc, ?ids_snoc, ?defs_snoc, ?named_snoc, ?app_nil_r, ?Nat.add_0_r; auto.
    + intros x. destruct (Ch x) as (fs & C1 & C2). rewrite add_chain by auto. rewrite C1, rules_snoc, (Z.eqb_sym w x).
      eexists. split; [rewrite <- app_assoc; reflexivity|]. apply Forall2_app; auto. destruct (x =? w); [constructor; [exact M|constructor]|constructor].
    + intros ic Hi. rewrite own_snoc, app_nil_r. auto.
    + intros n. rewrite own_snoc, app_nil_r. auto.
  - destruct T as (wss & W & Kp & _). destruct (kfxs_spec ps g (named ls) Rf Bn) as (ks & E1 & E2 & E3).
    pose proof (anon_ids _ _ E2) as Ei. rewrite E1 in A. cbn [set_keys g_ifs] in A.
    set (ic := fold_left (apply1 (map k_id (g_keys g))) ps (ic0 name)) in *.
    assert (Di : desc (map k_id (g_keys g)) ic [ps]).
    { apply new_desc; [exact (params_slots _ _ W)|]. intros id Hid. apply Ki. auto. }
    assert (Nm : ic_name ic = name) by (unfold ic; rewrite applys_name; reflexivity).
    subst g'. constructor; rewrite ?opts_snoc, ?keys_snoc, ?ids_snoc, ?defs_snoc, ?named_snoc, ?app_nil_r;
      cbn [set_ifs set_keys g_final g_write g_in g_out g_redist g_inst g_ifs g_default g_keys g_log g_abort]; rewrite ?Ei; auto.
    + intros x. rewrite rules_snoc, app_nil_r. apply Ch.
    + intros k Hk. destruct (anon_in _ _ _ E2 Hk) as (k0 & I0 & Q). injection Q as Q1 Q2 Q3. rewrite <- Q1. eauto.
    + intros k ty v Hk. destruct (anon_in _ _ _ E2 Hk) as (k0 & I0 & Q). injection Q as Q1 Q2 Q3. rewrite <- Q1, <- Q2, <- Q3. eauto.
    + apply add_if_names. auto.
    + intros y Hy. rewrite own_snoc. destruct (add_if_in _ _ _ In_ Hy) as [(I1 & I2)|[(-> & I)|(x & I1 & I2 & ->)]].
      * rewrite Nm in I2. rewrite (beq_no name (ic_name y)) by auto. rewrite app_nil_r. auto.
      * rewrite Nm in *. rewrite beq_refl. split; [apply app_ne; right; discriminate|].
        assert (Ow : own name ls = []) by (destruct (own name ls) eqn:Q; auto; exfalso; apply I; apply Al; rewrite Q; discriminate).
        rewrite Ow. exact Di.
      * cbn [merge_ifconf ic_name]. rewrite I2, Nm, beq_refl. split; [apply app_ne; right; discriminate|].
        apply merge_desc; auto. rewrite <- Nm, <- I2. apply Is. exact I1.
    + intros n. rewrite own_snoc. intros H. apply (proj2 (add_if_names ic (g_ifs g) In_)). rewrite Nm.
      destruct (beq name n) eqn:B; [apply beq_true in B; auto|]. rewrite app_nil_r in H. auto.
  - destruct T as (wss & W & Kp & _). destruct (kfxs_spec ps g (named ls) Rf Bn) as (ks & E1 & E2 & E3).
    pose proof (anon_ids _ _ E2) as Ei. rewrite E1 in A. cbn [set_keys g_default] in A.
    set (ic := fold_left (apply1 (map k_id (g_keys g))) ps (ic0 [])) in *.
    assert (Di : desc (map k_id (g_keys g)) ic [ps]).
    { apply new_desc; [exact (params_slots _ _ W)|]. intros id Hid. apply Ki. auto. }
    subst g'. constructor; rewrite ?opts_snoc, ?keys_snoc, ?ids_snoc, ?defs_snoc, ?named_snoc, ?app_nil_r;
      cbn [set_default set_keys g_final g_write g_in g_out g_redist g_inst g_ifs g_default g_keys g_log g_abort]; rewrite ?Ei; auto.
    + intros x. rewrite rules_snoc, app_nil_r. apply Ch.
    + intros k Hk. destruct (anon_in _ _ _ E2 Hk) as (k0 & I0 & Q). injection Q as Q1 Q2 Q3. rewrite <- Q1. eauto.
    + intros k ty v Hk. destruct (anon_in _ _ _ E2 Hk) as (k0 & I0 & Q). injection Q as Q1 Q2 Q3. rewrite <- Q1, <- Q2, <- Q3. eauto.
    + split; [apply app_ne; right; discriminate|]. destruct (g_default g) as [d|].
      * apply merge_desc; auto. apply Df.
      * rewrite Df. exact Di.
    + intros y Hy. rewrite own_snoc, app_nil_r. auto.
    + intros n. rewrite own_snoc, app_nil_r. auto.
  - destruct T as (ws & Kg & _ & _). unfold add_key in A. unfold find_key in A.
    assert (Kl : forall k, lookup (kdef k) (keys (ls ++ [LKey id ty v])) = if beq id k then Some (ty, v) else lookup (kdef k) (keys ls)).
    { intros k. rewrite keys_snoc, lookup_snoc. cbn [kdef]. destruct (beq id k); reflexivity. }
    destruct (index_key id (g_keys g)) as [i|] eqn:Ek.
    + rewrite index_idx in Ek. pose proof (idx_nth _ _ _ Ek) as En. rewrite nth_error_map in En.
      destruct (nth_error (g_keys g) i) as [k|] eqn:N; [|discriminate]. cbn in En. injection En as En.
      destruct (nth_cut _ _ _ _ N) as (l1 & l2 & El & Ef & Es).
      assert (Hk : In k (g_keys g)) by (rewrite El; apply in_or_app; right; now left).
      pose proof (Rf k Hk) as Rk. unfold retain_key in A. rewrite N in A. replace (k_ref k <? 65535) with true in A by lia.
      rewrite Ef, Es in A. cbn [set_keys g_keys] in A.
      assert (Li : i = length l1).
      { rewrite <- Ef. rewrite firstn_length. assert (i < length (g_keys g))%nat by (apply nth_error_Some; congruence). lia. }
      rewrite nth_error_app2 in A by lia. rewrite Li, Nat.sub_diag in A. cbn [nth_error k_id k_ref] in A.
      rewrite firstn_app, Nat.sub_diag, firstn_all, app_nil_r in A.
      rewrite skipn_app in A. replace (S (length l1) - length l1)%nat with 1%nat in A by lia. rewrite skipn_all2 in A by lia. cbn [skipn app] in A.
      set (k2 := mkKey (k_id k) ty (secret ty v) (k_ref k + 1)) in *.
      assert (Ei : map k_id (l1 ++ k2 :: l2) = map k_id (g_keys g)) by (rewrite El, !map_app; reflexivity).
      assert (Oth : forall q, In q (l1 ++ k2 :: l2) -> q = k2 \/ (In q (g_keys g) /\ k_id q <> id)).
      { rewrite El, map_app in Kn. cbn [map] in Kn. apply NoDup_remove_2 in Kn. rewrite <- map_app in Kn.
        intros q Hq. apply in_app_or in Hq. destruct Hq as [Hq|[Hq|Hq]]; auto.
        - right. rewrite El. split; [apply in_or_app; now left|]. intros Eq. apply Kn. rewrite En, <- Eq. apply in_map. apply in_or_app. now left.
        - right. rewrite El. split; [apply in_or_app; right; now right|]. intros Eq. apply Kn. rewrite En, <- Eq. apply in_map. apply in_or_app. now right. }
      subst g'. constructor; rewrite ?opts_snoc, ?ids_snoc, ?defs_snoc, ?named_snoc, ?app_nil_r;
        cbn [set_keys g_final g_write g_in g_out g_redist g_inst g_ifs g_default g_keys g_log g_abort]; rewrite ?Ei; auto.
      * intros x. rewrite rules_snoc, app_nil_r. apply Ch.
      * intros x. rewrite Ki. split; intros H; [apply in_or_app; now left|]. apply in_app_or in H. destruct H as [H|[<-|[]]]; auto.
        apply Ki. rewrite <- En. apply in_map. exact Hk.
      * intros q Hq. rewrite Kl. destruct (beq id (k_id q)); [discriminate|]. destruct (Oth q Hq) as [->|(Q & _)]; [cbn [k_id]|]; eauto.
      * intros q tq vq Hq. rewrite Kl. destruct (Oth q Hq) as [->|(Q & Nq)].
        { unfold k2 at 1. cbn [k_id]. rewrite En, beq_refl. intros E. injection E as <- <-. split; reflexivity. }
        { rewrite beq_no by auto. eauto. }
      * intros q Hq. destruct (Oth q Hq) as [->|(Q & _)]; [cbn [k2 k_ref]; lia|]. specialize (Rf q Q). lia.
      * intros y Hy. rewrite own_snoc, app_nil_r. auto.
      * intros n. rewrite own_snoc, app_nil_r. auto.
    + assert (Nk : ~ In id (map k_id (g_keys g))).
      { intros H. destruct (idx_in _ _ H) as (k & E). rewrite index_idx in Ek. congruence. }
      assert (Ei : map k_id (g_keys g ++ [mkKey id ty (secret ty v) 0]) = map k_id (g_keys g) ++ [id]) by (rewrite map_app; reflexivity).
      subst g'. constructor; rewrite ?opts_snoc, ?ids_snoc, ?defs_snoc, ?named_snoc, ?app_nil_r;
        cbn [set_keys g_final g_write g_in g_out g_redist g_inst g_ifs g_default g_keys g_log g_abort]; rewrite ?Ei; auto.
      * intros x. rewrite rules_snoc, app_nil_r. apply Ch.
      * intros x. rewrite !in_app_iff, Ki. reflexivity.
      * apply NoDup_rev in Kn. rewrite <- (rev_involutive (map k_id (g_keys g) ++ [id])). apply NoDup_rev. rewrite rev_app_distr. cbn.
        constructor; auto. rewrite <- in_rev. exact Nk.
      * intros q Hq. rewrite Kl. apply in_app_or in Hq. destruct (beq id (k_id q)) eqn:B; [discriminate|].
        destruct Hq as [Hq|[<-|[]]]; [eauto|]. cbn [k_id] in B. rewrite beq_refl in B. discriminate.
      * intros q tq vq Hq. rewrite Kl. apply in_app_or in Hq. destruct Hq as [Hq|[<-|[]]].
        { rewrite beq_no; [eauto|]. intros E. apply Nk. rewrite E. apply in_map. exact Hq. }
        { cbn [k_id]. rewrite beq_refl. intros E. injection E as <- <-. split; reflexivity. }
      * intros q Hq. apply in_app_or in Hq. destruct Hq as [Hq|[<-|[]]]; [specialize (Rf q Hq); lia|cbn [k_ref]; lia].
      * destruct (g_default g) as [d|]; auto. destruct Df as (D1 & D2). split; auto. now apply desc_more.
      * intros y Hy. rewrite own_snoc, app_nil_r. destruct (Is y Hy) as (D1 & D2). split; auto. now apply desc_more.
      * intros n. rewrite own_snoc, app_nil_r. auto.
  - assert (Q : g_final g' = g_final g /\ g_abort g' = g_abort g /\ (forall w, chain w g' = chain w g) /\ g_log g' = g_log g ++ [opt_effect o] /\
      g_write g' = match wopt o with Some b => b | None => g_write g end /\ g_keys g' = g_keys g /\ g_ifs g' = g_ifs g /\ g_default g' = g_default g).
    { subst g'. destruct T as (ws & O & _). inversion O as [kw t' v Hk N V|kw t' v Hk N V|t' a R|kw s' Hk|t' v N V|t' v N V|i Hi]; subst; clear O.
      all: try (repeat split; reflexivity).
      all: repeat destruct Hk as [<-|Hk]; try (destruct Hk; fail); cbn [wr opt_effect wopt]; unfold opt_write; beqi; repeat split; reflexivity. }
    destruct Q as (Q1 & Q2 & Q3 & Q4 & Q5 & Q6 & Q7 & Q8).
    constructor; rewrite ?Q1, ?Q2, ?Q4, ?Q5, ?Q6, ?Q7, ?Q8, ?opts_snoc, ?keys_snoc, ?ids_snoc, ?defs_snoc, ?named_snoc, ?app_nil_r, ?Nat.add_0_r; auto.
    + intros x. rewrite rules_snoc, app_nil_r, Q3. apply Ch.
    + rewrite map_app, Lg, <- app_assoc. reflexivity.
    + rewrite lookup_snoc. destruct (wopt o); auto.
    + intros y Hy. rewrite own_snoc, app_nil_r. auto.
    + intros n. rewrite own_snoc, app_nil_r. auto.
  - subst g'. constructor; rewrite ?opts_snoc, ?keys_snoc, ?ids_snoc, ?defs_snoc, ?named_snoc, ?app_nil_r, ?Nat.add_0_r; auto.
    + intros x. rewrite rules_snoc, app_nil_r. apply Ch.
    + intros y Hy. rewrite own_snoc, app_nil_r. auto.
    + intros n. rewrite own_snoc, app_nil_r. auto.
Qed.
(** ** Files *)
Lemma line_ne : forall e ids l t, line_text e ids l t -> exists c r, t = c :: r.
Proof.
  intros e ids l t H. destruct l as [w cs|name ps|ps|id ty v|o|]; cbn [line_text] in H.
  - destruct H as ((kw & wss & _ & _ & _ & Sp) & _). exact (line_nonempty _ _ Sp).
  - destruct H as (wss & _ & _ & Sp). exact (line_nonempty _ _ Sp).
  - destruct H as (wss & _ & _ & Sp). exact (line_nonempty _ _ Sp).
  - destruct H as (ws & _ & _ & Sp). exact (line_nonempty _ _ Sp).
  - destruct H as (ws & _ & Sp). exact (line_nonempty _ _ Sp).
  - exact (line_nonempty _ _ H).
Qed.
Lemma named_app : forall a b, (named a <= named (a ++ b))%nat.
Proof. intros a b. unfold named. rewrite map_app, concat_app, app_length. lia. Qed.
Lemma file_lines : forall e g0 ls dn ts fuel c p, J e g0 dn (p_cfg p) -> ls <> [] -> length ts = length ls ->
  (forall a l b t, ls = a ++ l :: b -> nth_error ts (length a) = Some t -> line_text e (key_ids (dn ++ a)) l t) ->
  Z.of_nat (named (dn ++ ls)) <= 65535 -> c :: p_in p = concat ts -> (forall x, In x (concat ts) -> 0 <= x) -> (length ls <= fuel)%nat ->
  exists p', file_loop e fuel c p = (true, p') /\ J e g0 (dn ++ ls) (p_cfg p').
Proof.
  intros e g0 ls. induction ls as [|l ls IH]; intros dn ts fuel c p Hj Ne Len T Bn E Nn Fu; [easy|].
  destruct ts as [|t ts]; [discriminate Len|]. destruct fuel as [|fuel]; [cbn in Fu; lia|].
  pose proof (T [] l ls t eq_refl eq_refl) as T0. rewrite app_nil_r in T0. cbn [concat] in E.
  destruct (line_step e false (key_ids dn) l t (concat ts) c p T0) as (c' & p1 & P & I & A); auto.
  { intros id Hid. apply (j_kids _ _ _ _ Hj). exact Hid. }
  { apply (j_final _ _ _ _ Hj). }
  assert (Hj1 : J e g0 (dn ++ [l]) (p_cfg p1)).
  { eapply J_step; eauto. pose proof (named_app (dn ++ [l]) ls) as Q. rewrite <- app_assoc in Q. cbn [app] in Q. lia. }
  cbn [file_loop]. rewrite P. destruct ls as [|l2 ls'].
  - destruct ts; [|discriminate Len]. cbn in I. injection I as -> I. rewrite Z.eqb_refl. exists p1. auto.
  - assert (Nl : exists x y, concat ts = x :: y /\ 0 <= x).
    { destruct ts as [|t2 ts']; [discriminate Len|]. pose proof (T [l] l2 ls' t2 eq_refl eq_refl) as T2.
      destruct (line_ne _ _ _ _ T2) as (x & y & ->). cbn [concat app]. exists x. eexists. split; [reflexivity|].
      apply Nn. cbn [concat]. apply in_or_app. right. now left. }
    destruct Nl as (x & y & Ex & Px). rewrite Ex in I. cbn in I. injection I as -> I.
    replace (x =? -1) with false by lia.
    destruct (IH (dn ++ [l]) ts fuel x p1 Hj1) as (p2 & F2 & J2).
    + discriminate.
    + injection Len as Len. exact Len.
    + intros a l0 b t0 Ea Et. rewrite <- app_assoc. cbn [app]. apply (T (l :: a) l0 b t0); [cbn; now rewrite Ea|exact Et].
    + rewrite <- app_assoc. exact Bn.
    + rewrite Ex, I. reflexivity.
    + intros z Hz. apply Nn. cbn [concat]. apply in_or_app. now right.
    + cbn [length] in *. lia.
    + exists p2. split; [exact F2|]. rewrite <- app_assoc in J2. exact J2.
Qed.
Lemma text_len : forall e ls ts, file_text e ls ts -> (length ls <= length (concat ts))%nat.
Proof.
  intros e ls ts (L & T).
  assert (G : forall t, In t ts -> (1 <= length t)%nat).
  { intros t Ht. apply In_nth_error in Ht. destruct Ht as (n & Hn). assert (n < length ls)%nat by (rewrite <- L; apply nth_error_Some; congruence).
    destruct (nth_error ls n) as [l|] eqn:El; [|apply nth_error_None in El; lia].
    destruct (nth_error_split ls n El) as (a & b & Ea & La). subst n.
    destruct (line_ne _ _ _ _ (T a l b t Ea Hn)) as (x & y & ->). cbn. lia. }
  rewrite <- L. clear - G. induction ts as [|t ts IH]; [cbn; lia|]. cbn [concat length]. rewrite app_length.
  pose proof (G t (or_introl eq_refl)). specialize (IH (fun q Hq => G q (or_intror Hq))). lia.
Qed.
Lemma whole_file : forall e ls ts p, file_text e ls ts -> (forall x, In x (concat ts) -> 0 <= x) ->
  g_final (p_cfg p) = false -> g_keys (p_cfg p) = [] -> g_ifs (p_cfg p) = [] -> g_default (p_cfg p) = None ->
  Z.of_nat (named ls) <= 65535 ->
  exists p', from_file e (concat ts) p = (true, p') /\ J e (p_cfg p) ls (p_cfg p').
Proof.
  intros e ls ts p T Nn F K I D Bn. pose proof (text_len _ _ _ T) as Ln. destruct T as (L & T).
  unfold from_file. destruct (concat ts) as [|c r] eqn:Ec.
  - destruct ls; [|cbn in Ln; lia]. exists p. split; auto. now apply J0.
  - destruct (file_lines e (p_cfg p) ls [] ts (S (S (length r))) c (set_in r p)) as (p' & A & B).
    + now apply J0.
    + intros ->. destruct ts; [discriminate Ec|discriminate L].
    + exact L.
    + exact T.
    + exact Bn.
    + now rewrite Ec.
    + rewrite Ec. exact Nn.
    + cbn [length] in Ln. lia.
    + exists p'. split; [exact A|exact B].
Qed.
(** ** After the default lines have been merged *)
Lemma final_if : forall e g0 ls g, J e g0 ls g -> forall ic, In ic (finalise_ifs (g_default g) (g_ifs g)) ->
  length (ic_vals ic) = 17%nat /\
  (forall n, nth n (ic_vals ic) 0 = if val n (own (ic_name ic) ls) =? 0 then val n (defs ls) else val n (own (ic_name ic) ls)) /\
  match ic_key ic with
  | Some k => exists id, nth_error (map k_id (g_keys g)) k = Some id /\
                match kval (own (ic_name ic) ls) with Some i => Some i | None => kval (defs ls) end = Some id
  | None => match kval (own (ic_name ic) ls) with Some i => Some i | None => kval (defs ls) end = None
  end.
Proof.
  intros e g0 ls g Hj ic H. unfold finalise_ifs in H. pose proof (j_def _ _ _ _ Hj) as D. destruct (g_default g) as [d|].
  - apply in_map_iff in H. destruct H as (x & <- & Hx). destruct (j_ifs _ _ _ _ Hj x Hx) as (_ & (L1 & V1 & K1)).
    destruct D as (_ & (L2 & V2 & K2)). unfold merge_ifconf. cbn [ic_vals ic_name ic_key].
    split; [rewrite merge_len; congruence|]. split; [intros n; rewrite merge_nth by congruence; now rewrite V1, V2|].
    destruct (ic_key x) as [k|].
    + destruct K1 as (id & A & B). exists id. rewrite B. auto.
    + rewrite K1. exact K2.
  - destruct (j_ifs _ _ _ _ Hj ic H) as (_ & (L1 & V1 & K1)). rewrite D. split; [exact L1|]. split.
    + intros n. rewrite V1. destruct (val n (own (ic_name ic) ls) =? 0) eqn:Z0; [|reflexivity]. apply Z.eqb_eq in Z0. rewrite Z0. reflexivity.
    + destruct (ic_key ic) as [k|]; [destruct K1 as (id & A & B); exists id; rewrite B; auto|]. rewrite K1. reflexivity.
Qed.
Lemma configured_val : forall n name ls v, configured (sets n) name ls v <->
  (if val n (own name ls) =? 0 then val n (defs ls) else val n (own name ls)) = v /\ v <> 0.
Proof.
  intros n name ls v. unfold configured. rewrite !val_sets. destruct (val n (own name ls) =? 0) eqn:E.
  - split.
    + intros [(A & B)|(_ & H)]; [lia|exact H].
    + intros H. right. split; [|exact H]. intros w Hw. apply val_sets in Hw. lia.
  - split.
    + intros [H|(N & _)]; [exact H|]. exfalso. apply (N (val n (own name ls))). apply val_sets. split; [reflexivity|lia].
    + auto.
Qed.
Lemma configured_key : forall name ls id, configured sets_key name ls id <->
  match kval (own name ls) with Some i => Some i | None => kval (defs ls) end = Some id.
Proof.
  intros name ls id. unfold configured. rewrite !kval_sets. destruct (kval (own name ls)) as [i|] eqn:E.
  - split; [|auto]. intros [H|(N & _)]; [exact H|]. exfalso. apply (N i). now apply kval_sets.
  - split; [intros [H|(_ & H)]; [discriminate|exact H]|]. intros H. right. split; [|exact H]. intros w Hw. apply kval_sets in Hw. congruence.
Qed.

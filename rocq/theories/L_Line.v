(** L_Line.v: the lines of a configuration file are read as the manual describes them. *)
From Coq Require Import String.
From Verif Require Import Base M_Util S_Util L_Util M_Filter S_Filter L_Filter M_Config S_Config L_Config L_Config2 L_Config3 S_Dump L_Dump S_Rule L_Rule S_Line.
Close Scope string_scope.
Open Scope Z_scope.

(** ** Values *)
Lemma u32_fold : forall t acc, (forall c, In c t -> 48 <= c <= 57) -> 0 <= acc ->
  fold_left (fun x c => u32 (x * 10 + c - 48)) t (u32 acc) = u32 (fold_left (fun x c => x * 10 + dval c) t acc).
Proof.
  induction t as [|c t IH]; intros acc H A; auto. cbn [fold_left].
  assert (C : 48 <= c <= 57) by (apply H; now left).
  replace (u32 (u32 acc * 10 + c - 48)) with (u32 (acc * 10 + dval c)).
  - apply IH; [intros x Hx; apply H; now right|]. unfold dval. replace (c <=? 57) with true by lia. lia.
  - unfold u32, dval. replace (c <=? 57) with true by lia. rewrite <- (Z.add_mod_idemp_l (acc * 10)), <- (Z.mul_mod_idemp_l acc) by lia.
    rewrite Z.add_mod_idemp_l by lia. f_equal. lia.
Qed.
Lemma number_digits : forall t v, number 10 t v -> Forall (fun c => isdigit_ c = true) t.
Proof. intros t v N. apply Forall_forall. intros c Hc. pose proof (number_dec_chars _ _ _ N Hc). unfold isdigit_. lia. Qed.
Lemma u32_number : forall t v, number 10 t v -> fold_left (fun x c => u32 (x * 10 + c - 48)) t 0 = u32 v.
Proof.
  intros t v N. change 0 with (u32 0) at 1. rewrite u32_fold; [|intros c Hc; exact (number_dec_chars _ _ _ N Hc)|lia].
  f_equal. symmetry. exact (number_val _ _ _ N).
Qed.
Lemma number_nonneg : forall t v, number 10 t v -> 0 <= v.
Proof. intros t v N. induction N as [c v (D & _)|t x c v N IH (D & _)]; lia. Qed.
Lemma read_thou : forall t v, thou_text t v -> 0 <= v < 2147483648 -> conv_thousands t = Some v.
Proof.
  intros t v H V. unfold conv_thousands. assert (E : parse_thousands t = v); [|rewrite E; replace (v <? 0) with false by lia; reflexivity].
  destruct H as [(x & N & ->)|(a & f & x & y & -> & N & M & L & ->)]; unfold parse_thousands.
  - pose proof (number_nonneg _ _ N) as Px. rewrite <- (app_nil_r t).
    rewrite skip_blanks_digit; [|exact (number_digits _ _ N)|exact (number_ne _ _ _ N)].
    rewrite digits_u32_app by exact (number_digits _ _ N). rewrite (u32_number _ _ N). cbn [digits_u32 skip_blanks].
    unfold u32, s32. cbv zeta. rewrite (Z.mod_small x) by lia. rewrite (Z.mod_small (x * 1000)) by lia.
    rewrite Z.mod_small by lia. replace (x * 1000 + 0 <? 2147483648) with true by lia. lia.
  - pose proof (number_nonneg _ _ N) as Px. pose proof (number_nonneg _ _ M) as Py.
    rewrite skip_blanks_digit; [|exact (number_digits _ _ N)|exact (number_ne _ _ _ N)].
    rewrite digits_u32_app by exact (number_digits _ _ N). rewrite (u32_number _ _ N). cbn [digits_u32].
    change (isdigit_ 46) with false. cbv iota. rewrite <- (app_nil_r f) at 1.
    rewrite digits_u32_app by exact (number_digits _ _ M). rewrite (u32_number _ _ M). cbn [digits_u32].
    pose proof (number_ne _ _ _ M) as Nf. cbn [Nat.add].
    assert (Lf : length f = 1%nat \/ length f = 2%nat \/ length f = 3%nat) by (destruct f; [easy|cbn [length] in *; lia]).
    destruct Lf as [Ef|[Ef|Ef]]; rewrite Ef in *; cbn -[Z.mul Z.add u32 s32] in *.
    all: change (Z.of_nat 1) with 1 in *; change (Z.of_nat 2) with 2 in *; change (Z.of_nat 3) with 3 in *.
    all: change (10 ^ (3 - 1)) with 100 in *; change (10 ^ (3 - 2)) with 10 in *; change (10 ^ (3 - 3)) with 1 in *.
    all: unfold u32, s32; cbv zeta.
    all: rewrite ?(Z.mod_small x) by lia; rewrite ?(Z.mod_small y) by lia; rewrite ?(Z.mod_small (x * 1000)) by lia;
      rewrite ?(Z.mod_small (y * 10)) by lia; rewrite ?(Z.mod_small (y * 10 * 10)) by lia.
    all: rewrite Z.mod_small by lia.
    all: match goal with |- (if ?b then _ else _) = _ => replace b with true by lia end; lia.
Qed.
Lemma read_bool : forall t v, bool_text t v -> conv_bool t = Some v.
Proof. intros t v H. repeat destruct H as [H|H]; try (injection H as <- <-; reflexivity). destruct H. Qed.
Lemma read_type : forall t v, type_text t v -> conv_type t = Some v.
Proof. intros t v H. repeat destruct H as [H|H]; try (injection H as <- <-; reflexivity). destruct H. Qed.
Lemma h2i_digit : forall c v, hex_digit c v -> h2i c = v /\ 0 <= v < 16.
Proof.
  intros c v [(A & ->)|[(A & ->)|(A & ->)]]; unfold h2i.
  - replace ((48 <=? c) && (c <=? 57)) with true by lia. lia.
  - replace ((48 <=? c) && (c <=? 57)) with false by lia. replace ((97 <=? c) && (c <=? 102)) with true by lia. lia.
  - replace ((48 <=? c) && (c <=? 57)) with false by lia. replace ((97 <=? c) && (c <=? 102)) with false by lia.
    replace ((65 <=? c) && (c <=? 70)) with true by lia. lia.
Qed.
Lemma read_hex : forall t v, hex_text t v -> conv_hex t = Some v.
Proof.
  intros t v H. unfold conv_hex. induction H as [|a b t x y v A B H IH]; auto. cbn [fromhex].
  destruct (h2i_digit _ _ A) as (-> & A2). destruct (h2i_digit _ _ B) as (-> & B2). rewrite IH.
  replace (x <? 0) with false by lia. replace (y <? 0) with false by lia. cbn [orb]. do 2 f_equal. lia.
Qed.

(** ** Words *)
(** The next word in a loop over words *)
Lemma loop_word : forall s more line rest ch p, spaced (s :: more) line -> ch :: p_in p = line ++ rest ->
  exists w0 r x t p1 l, skip_ws ch (p_in p) = (w0, r) /\ eol w0 = false /\ getword w0 (set_in r p) = Good x (t, s) p1 /\
    p_cfg p1 = p_cfg p /\ spaced more (x :: l) /\ p_in p1 = l ++ rest.
Proof.
  intros s more line rest ch p Sp E. destruct (spaced_inv _ _ _ Sp) as (b & x & l & El & B & W & X & S').
  pose proof (word_chars _ W) as Wc. destruct s as [|w0 w]; [destruct W; easy|].
  inversion Wc as [|? ? Wc0 Wc1]; subst. apply orb_false_iff in Wc0. destruct Wc0 as (V1 & V2).
  assert (Sk : skip_ws ch (p_in p) = (w0, w ++ x :: l ++ rest)).
  { apply (skip_ws_app b); auto. rewrite E, <- !app_assoc. reflexivity. }
  destruct (getword_fwd [] (w0 :: w) x (l ++ rest) w0 (set_in (w ++ x :: l ++ rest) p)) as (t & p1 & G & R1 & R2); auto.
  exists w0, (w ++ x :: l ++ rest), x, t, p1, l. auto 10.
Qed.
Lemma arg_text : forall t more x l rest p, spaced (t :: more) (x :: l) -> p_in p = l ++ rest ->
  exists b y l', x :: p_in p = b ++ t ++ y :: l' ++ rest /\ Forall blank b /\ word_ok t /\ (blank y \/ y = 10 \/ y = 35) /\ spaced more (y :: l').
Proof.
  intros t more x l rest p Sp E. destruct (spaced_inv _ _ _ Sp) as (b & y & l' & El & B & W & Y & S').
  exists b, y, l'. split; auto. rewrite E. change (x :: l ++ rest) with ((x :: l) ++ rest). rewrite El, <- !app_assoc. reflexivity.
Qed.
Definition got {A} (more : list (list Z)) (rest : list Z) (v : A) (g : cfg) (r : res A) : Prop :=
  exists y l' p', r = Good y v p' /\ p_cfg p' = g /\ spaced more (y :: l') /\ p_in p' = l' ++ rest.
Lemma conv_arg : forall A (f : list Z -> option A) t v more x l rest p, spaced (t :: more) (x :: l) -> p_in p = l ++ rest ->
  f t = Some v -> got more rest v (p_cfg p) (getconv f x p).
Proof.
  intros A f t v more x l rest p Sp E F. destruct (arg_text _ _ _ _ _ _ Sp E) as (b & y & l' & E2 & B & W & Y & S').
  destruct (getconv_fwd A f b t y (l' ++ rest) x p v) as (p' & G & R1 & R2); auto. exists y, l', p'. auto.
Qed.
Lemma word_arg : forall t more x l rest p, spaced (t :: more) (x :: l) -> p_in p = l ++ rest ->
  exists k, got more rest (k, t) (p_cfg p) (getword x p).
Proof.
  intros t more x l rest p Sp E. destruct (arg_text _ _ _ _ _ _ Sp E) as (b & y & l' & E2 & B & W & Y & S').
  destruct (getword_fwd b t y (l' ++ rest) x p) as (k & p' & G & R1 & R2); auto. exists k, y, l', p'. auto.
Qed.
Lemma string_arg : forall t more x l rest p, spaced (t :: more) (x :: l) -> p_in p = l ++ rest ->
  exists k, got more rest (k, t) (p_cfg p) (getstring x p).
Proof.
  intros t more x l rest p Sp E. destruct (arg_text _ _ _ _ _ _ Sp E) as (b & y & l' & E2 & B & W & Y & S').
  destruct (getstring_fwd b t y (l' ++ rest) x p) as (k & p' & G & R1 & R2); auto. exists k, y, l', p'. auto.
Qed.
Lemma end_line : forall A (v : A) ch line rest p, spaced [] line -> ch :: p_in p = line ++ rest ->
  exists c1 r1, skip_ws ch (p_in p) = (c1, r1) /\ eol c1 = true /\ to_eol c1 r1 = gnc1 rest.
Proof.
  intros A v ch line rest p Sp E. inversion Sp as [l El Fl|]; subst.
  pose proof (empty_end line rest ch p El Fl E) as K. destruct (skip_ws ch (p_in p)) as (c1, r1). exists c1, r1. tauto.
Qed.
Lemma skip_eol_fwd : forall x l rest p, spaced [] (x :: l) -> p_in p = l ++ rest ->
  exists c p', skip_eol x p = Good c tt p' /\ p_cfg p' = p_cfg p /\ (c, p_in p') = gnc1 rest.
Proof.
  intros x l rest p Sp E. destruct (end_line unit tt x (x :: l) rest p Sp) as (c1 & r1 & A & B & C). { cbn. now rewrite E. }
  unfold skip_eol. rewrite A, B, C. destruct (gnc1 rest) as (c2, r2). eexists _, _. split; [reflexivity|]. auto.
Qed.

(** ** Parameters *)
Fixpoint idx (id : list Z) (ids : list (list Z)) : option nat :=
  match ids with
  | [] => None
  | x :: l => if beq x id then Some O else match idx id l with Some i => Some (S i) | None => None end
  end.
Lemma index_idx : forall id ks, index_key id ks = idx id (map k_id ks).
Proof. induction ks as [|k ks IH]; auto. cbn. rewrite IH. reflexivity. Qed.
Lemma idx_in : forall id ids, In id ids -> exists k, idx id ids = Some k.
Proof.
  induction ids as [|x l IH]; intros H; [destruct H|]. cbn. destruct (beq x id) eqn:B; [eauto|].
  destruct H as [->|H]; [rewrite beq_refl in B; discriminate|]. destruct (IH H) as (k & ->). eauto.
Qed.
Lemma idx_nth : forall id ids k, idx id ids = Some k -> nth_error ids k = Some id.
Proof.
  induction ids as [|x l IH]; intros k H; [discriminate|]. cbn in H. destruct (beq x id) eqn:B.
  - injection H as <-. apply beq_true in B. now subst.
  - destruct (idx id l) as [i|]; [|discriminate]. injection H as <-. cbn. auto.
Qed.
Definition kfx (pr : param) (g : cfg) : cfg := match pr with PVal _ _ => g | PKey id => snd (find_key id g) end.
Definition apply1 (ids : list (list Z)) (ic : ifconf) (pr : param) : ifconf :=
  match pr with
  | PVal n v => set_val n v ic
  | PKey id => mkIc (ic_name ic) (ic_vals ic) (idx id ids)
  end.
Lemma kfx_ids : forall pr g, map k_id (g_keys (kfx pr g)) = map k_id (g_keys g).
Proof.
  intros [n v|id] g; auto. cbn [kfx]. pose proof (find_key_refs id g) as R. unfold refs_only in R.
  destruct R as (_ & _ & _ & _ & _ & _ & _ & _ & _ & R & _).
  assert (M : forall ks, map k_id ks = map (fun x => fst (fst x)) (map anonymous ks)) by (intros; rewrite map_map; apply map_ext; intros []; reflexivity).
  rewrite (M (g_keys (snd (find_key id g)))), R, <- M. reflexivity.
Qed.
Ltac kwi := unfold if_kw, directive, key_kw; cbv zeta;
  repeat match goal with |- context [beq (str ?a) (str ?b)] =>
    let r := eval vm_compute in (beq (str a) (str b)) in change (beq (str a) (str b)) with r; cbv iota end.
Lemma if_kw_fwd : forall pr s t more x l rest ic p, param_text pr [s; t] ->
  (forall id, pr = PKey id -> In id (map k_id (g_keys (p_cfg p)))) -> spaced (t :: more) (x :: l) -> p_in p = l ++ rest ->
  got more rest (apply1 (map k_id (g_keys (p_cfg p))) ic pr) (kfx pr (p_cfg p)) (if_kw s x ic p).
Proof.
  intros pr s t more x l rest ic p H K Sp E.
  assert (Num : forall v, num_text t v -> 0 <= v < 2147483648 -> got more rest v (p_cfg p) (getconv conv_int x p)).
  { intros v N V. eapply conv_arg; eauto. now apply conv_num. }
  assert (Thou : forall v, thou_text t v -> 0 <= v < 2147483648 -> got more rest v (p_cfg p) (getconv conv_thousands x p)).
  { intros v N V. eapply conv_arg; eauto. now apply read_thou. }
  assert (Bool : forall v, bool_text t v -> got more rest v (p_cfg p) (getconv conv_bool x p)).
  { intros v N. eapply conv_arg; eauto. now apply read_bool. }
  assert (Ty : forall v, type_text t v -> got more rest v (p_cfg p) (getconv conv_type x p)).
  { intros v N. eapply conv_arg; eauto. now apply read_type. }
  inversion H as [kw n hi t' v Hk N V|kw n hi t' v Hk N V|kw n t' v Hk N|t' v N|t' v N V|id]; subst; clear H; cbn [apply1 kfx].
  - repeat destruct Hk as [Hk|Hk]; try (destruct Hk; fail); injection Hk as <- <- <-; kwi;
      (destruct (Num v N ltac:(lia)) as (y & l' & p' & -> & G); unfold with_val;
       replace (v <? 1) with false by lia; match goal with |- context [v >? ?h] => replace (v >? h) with false by lia end;
       exists y, l', p'; auto).
  - repeat destruct Hk as [Hk|Hk]; try (destruct Hk; fail); injection Hk as <- <- <-; kwi;
      (destruct (Thou v N ltac:(lia)) as (y & l' & p' & -> & G); unfold with_val;
       replace (v <=? 0) with false by lia; match goal with |- context [v >? ?h] => replace (v >? h) with false by lia end;
       exists y, l', p'; auto).
  - destruct (Bool v N) as (y & l' & p' & Q & G).
    repeat destruct Hk as [Hk|Hk]; try (destruct Hk; fail); injection Hk as <- <-; kwi; rewrite Q; exists y, l', p'; auto.
  - destruct (Ty v N) as (y & l' & p' & Q & G). kwi. rewrite Q. exists y, l', p'. auto.
  - destruct (Bool v N) as (y & l' & p' & Q & G). kwi. rewrite Q. exists y, l', p'. split; [|exact G]. unfold with_val.
    repeat destruct N as [N|N]; try (destruct N; fail); injection N as <- <-; try reflexivity; now destruct V.
  - kwi. destruct (word_arg t more x l rest p Sp E) as (k & y & l' & p' & -> & G1 & G2 & G3).
    rewrite uset_cfg, G1. unfold find_key. rewrite index_idx.
    destruct (idx_in _ _ (K t eq_refl)) as (i & Ei). rewrite Ei.
    exists y, l'. eexists. split; [reflexivity|]. rewrite freet_cfg, freet_in. cbn [p_cfg set_cfg p_in]. rewrite uset_in. auto.
Qed.
Lemma ifconf_loop_S : forall fuel c tok name ic p, ifconf_loop (S fuel) c tok name ic p =
  (let '(c, r) := skip_ws c (p_in p) in
   let p := set_in r p in
   if eol c then let '(c, r) := to_eol c r in Good c ic (set_in r p)
   else match getword c p with
   | Bad p => Bad (freet name (freet tok p))
   | Good c (t, s) p =>
       match if_kw s c ic (uset t p) with
       | Bad p => Bad (freet name (freet (Some t) p))
       | Good c ic p => ifconf_loop fuel c (Some t) name ic (freet (Some t) p)
       end
   end).
Proof. reflexivity. Qed.
Lemma param_words : forall pr ws, param_text pr ws -> exists s t, ws = [s; t].
Proof. intros pr ws H. inversion H; eauto. Qed.
Definition kfxs (ps : list param) (g : cfg) : cfg := fold_left (fun g pr => kfx pr g) ps g.
Lemma params_loop : forall ps wss line rest fuel ch tok name ic p ids, Forall2 param_text ps wss ->
  ids = map k_id (g_keys (p_cfg p)) -> (forall id, In (PKey id) ps -> In id ids) ->
  spaced (concat wss) line -> ch :: p_in p = line ++ rest -> (length ps < fuel)%nat ->
  exists c p', ifconf_loop fuel ch tok name ic p = Good c (fold_left (apply1 ids) ps ic) p' /\
    p_cfg p' = kfxs ps (p_cfg p) /\ (c, p_in p') = gnc1 rest.
Proof.
  induction ps as [|pr ps IH]; intros wss line rest fuel ch tok name ic p ids W Ei Ki Sp E Fu; inversion W as [|? ws ? wss' W1 W2]; subst;
    (destruct fuel as [|fuel]; [cbn in Fu; lia|]); rewrite ifconf_loop_S.
  - destruct (end_line unit tt ch line rest p Sp E) as (c1 & r1 & -> & B & C). cbv beta iota zeta. rewrite B, C.
    destruct (gnc1 rest) as (c2, r2). eexists _, _. split; [reflexivity|]. auto.
  - destruct (param_words _ _ W1) as (s & t & ->). cbn [concat app] in Sp.
    destruct (loop_word s (t :: concat wss') line rest ch p Sp E) as (w0 & r & x & k & p1 & l & -> & B & Gw & G1 & S1 & I1).
    cbv beta iota zeta. rewrite B, Gw.
    destruct (if_kw_fwd pr s t (concat wss') x l rest ic (uset k p1) W1) as (y & l' & p2 & -> & G2 & S2 & I2); auto.
    { intros id ->. rewrite uset_cfg, G1. apply Ki. now left. }
    { now rewrite uset_in. }
    rewrite uset_cfg, G1 in *.
    destruct (IH wss' (y :: l') rest fuel y (Some k) name (apply1 (map k_id (g_keys (p_cfg p))) ic pr) (freet (Some k) p2)
      (map k_id (g_keys (p_cfg p))) W2) as (c & p' & F1 & F2 & F3).
    + rewrite freet_cfg, G2. symmetry. apply kfx_ids.
    + intros id Hid. apply Ki. now right.
    + exact S2.
    + rewrite freet_in, I2. reflexivity.
    + cbn in Fu. lia.
    + exists c, p'. cbn [fold_left]. split; [exact F1|]. split; [|exact F3]. rewrite F2, freet_cfg, G2. reflexivity.
Qed.

(** ** Keys *)
Inductive kclause := KId (id : list Z) | KType (ty : Z) | KValue (v : list Z).
Inductive kclause_text : kclause -> list (list Z) -> Prop :=
| kt_id : forall id, kclause_text (KId id) [str "id"; id]
| kt_type : forall t ty, In (t, ty) [(str "hmac-sha256", 1); (str "blake2s128", 2)] -> kclause_text (KType ty) [str "type"; t]
| kt_value : forall t v, hex_text t v -> kclause_text (KValue v) [str "value"; t].
Definition kapply (k : option (list Z) * Z * list Z) (c : kclause) : option (list Z) * Z * list Z :=
  let '(i, ty, v) := k in
  match c with KId id => (Some id, ty, v) | KType t => (i, t, v) | KValue x => (i, ty, x) end.
Definition kview (k : keyp) : option (list Z) * Z * list Z :=
  (match kp_id k with Some (_, i) => Some i | None => None end, kp_type k, kp_value k).
Lemma key_kw_fwd : forall c s t more x l rest k p, kclause_text c [s; t] ->
  spaced (t :: more) (x :: l) -> p_in p = l ++ rest ->
  exists k', kview k' = kapply (kview k) c /\ got more rest k' (p_cfg p) (key_kw s x k p).
Proof.
  intros c s t more x l rest k p H Sp E. inversion H as [id|t' ty Hk|t' v Hk]; subst; kwi.
  - destruct (word_arg t more x l rest p Sp E) as (z & y & l' & p' & -> & G).
    exists (mkKp (Some (z, t)) (kp_type k) (kp_value k)). split; [reflexivity|]. exists y, l', p'. auto.
  - exists (mkKp (kp_id k) ty (kp_value k)). split; [reflexivity|].
    match goal with |- got _ _ _ _ (with_cfg (getconv ?f _ _) _) => assert (F : f t = Some ty) end.
    { repeat destruct Hk as [Hk|Hk]; try (destruct Hk; fail); injection Hk as <- <-; reflexivity. }
    destruct (conv_arg _ _ t ty more x l rest p Sp E F) as (y & l' & p' & -> & G). exists y, l', p'. auto.
  - exists (mkKp (kp_id k) (kp_type k) v). split; [reflexivity|].
    destruct (conv_arg _ conv_hex t v more x l rest p Sp E (read_hex _ _ Hk)) as (y & l' & p' & -> & G). exists y, l', p'. auto.
Qed.
Lemma key_loop_S : forall fuel c k p, key_loop (S fuel) c k p =
  (let '(c, r) := skip_ws c (p_in p) in
   let p := set_in r p in
   if eol c then let '(c, r) := to_eol c r in Good c k (set_in r p)
   else match getword c p with
   | Bad p => Bad (freet (idptr k) p)
   | Good c (t, s) p =>
       match key_kw s c k (uset t p) with
       | Bad p => Bad (freet (idptr k) (freet (Some t) p))
       | Good c k p => key_loop fuel c k (freet (Some t) p)
       end
   end).
Proof. reflexivity. Qed.
Lemma kclauses_loop : forall cs wss line rest fuel ch k p, Forall2 kclause_text cs wss ->
  spaced (concat wss) line -> ch :: p_in p = line ++ rest -> (length cs < fuel)%nat ->
  exists c k' p', key_loop fuel ch k p = Good c k' p' /\ kview k' = fold_left kapply cs (kview k) /\
    p_cfg p' = p_cfg p /\ (c, p_in p') = gnc1 rest.
Proof.
  induction cs as [|c0 cs IH]; intros wss line rest fuel ch k p W Sp E Fu; inversion W as [|? ws ? wss' W1 W2]; subst;
    (destruct fuel as [|fuel]; [cbn in Fu; lia|]); rewrite key_loop_S.
  - destruct (end_line unit tt ch line rest p Sp E) as (c1 & r1 & -> & B & C). cbv beta iota zeta. rewrite B, C.
    destruct (gnc1 rest) as (c2, r2). eexists _, _, _. split; [reflexivity|]. auto.
  - assert (Ew : exists s t, ws = [s; t]) by (inversion W1; eauto). destruct Ew as (s & t & ->). cbn [concat app] in Sp.
    destruct (loop_word s (t :: concat wss') line rest ch p Sp E) as (w0 & r & x & z & p1 & l & -> & B & Gw & G1 & S1 & I1).
    cbv beta iota zeta. rewrite B, Gw.
    destruct (key_kw_fwd c0 s t (concat wss') x l rest k (uset z p1) W1 S1) as (k' & V & y & l' & p2 & -> & G2 & S2 & I2).
    { now rewrite uset_in. }
    rewrite uset_cfg, G1 in G2.
    destruct (IH wss' (y :: l') rest fuel y k' (freet (Some z) p2) W2 S2) as (c & k2 & p' & F1 & F2 & F3 & F4).
    + rewrite freet_in, I2. reflexivity.
    + cbn in Fu. lia.
    + exists c, k2, p'. split; [exact F1|]. rewrite V in F2. split; [exact F2|]. split; [|exact F4]. rewrite F3, freet_cfg. exact G2.
Qed.
Lemma key_words_split : forall id ty v ws, key_words id ty v ws ->
  exists cs wss, Forall2 kclause_text cs wss /\ ws = concat wss /\ fold_left kapply cs (None, 0, []) = (Some id, ty, v) /\ length cs = 3%nat.
Proof.
  intros id ty v ws (tx & t & a & b & c & T & H & -> & -> & -> & I).
  pose proof (kt_id id) as K1. pose proof (kt_type tx ty T) as K2. pose proof (kt_value t v H) as K3.
  repeat destruct I as [<-|I]; [| | | | | |destruct I].
  - exists [KId id; KType ty; KValue v]. eexists. split; [repeat (apply Forall2_cons; [eassumption|]); apply Forall2_nil|]. auto.
  - exists [KId id; KValue v; KType ty]. eexists. split; [repeat (apply Forall2_cons; [eassumption|]); apply Forall2_nil|]. auto.
  - exists [KType ty; KId id; KValue v]. eexists. split; [repeat (apply Forall2_cons; [eassumption|]); apply Forall2_nil|]. auto.
  - exists [KType ty; KValue v; KId id]. eexists. split; [repeat (apply Forall2_cons; [eassumption|]); apply Forall2_nil|]. auto.
  - exists [KValue v; KId id; KType ty]. eexists. split; [repeat (apply Forall2_cons; [eassumption|]); apply Forall2_nil|]. auto.
  - exists [KValue v; KType ty; KId id]. eexists. split; [repeat (apply Forall2_cons; [eassumption|]); apply Forall2_nil|]. auto.
Qed.
Lemma finish_good : forall k id ty v, kview k = (Some id, ty, v) -> key_good ty v -> finish_key k = Some (id, ty, secret ty v).
Proof.
  intros [[(t, i)|] ty' v'] id ty v H (Nv & G); unfold kview in H; cbn in H; [|discriminate]. injection H as -> -> ->.
  unfold finish_key, secret. cbn [kp_id kp_type kp_value]. destruct G as [(-> & L)|(-> & L)]; cbn [Z.eqb Pos.eqb].
  - replace (Z.of_nat (length v) >? 64) with false by lia. reflexivity.
  - replace (Z.of_nat (length v) <? 1) with false by (destruct v; [easy|cbn [length]; lia]).
    replace (Z.of_nat (length v) >? 32) with false by lia. reflexivity.
Qed.

(** ** Options *)
Definition wr (o : opt) (g : cfg) : cfg := match o with OInt n _ | OFile n _ => opt_write n g | _ => g end.
Ltac memi := repeat match goal with |- context [mem (str ?a) ?l] =>
    let r := eval vm_compute in (mem (str a) l) in change (mem (str a) l) with r; cbv iota end.
Ltac beqi := repeat match goal with |- context [beq (str ?a) (str ?b)] =>
    let r := eval vm_compute in (beq (str a) (str b)) in change (beq (str a) (str b)) with r; cbv iota end.
Lemma opt_step : forall A (r : res A) (k : A -> cfg -> option cfg) v g g' rest, got [] rest v g r -> k v g = Some g' ->
  exists c p', opt_done r k = Good c tt p' /\ p_cfg p' = g' /\ (c, p_in p') = gnc1 rest.
Proof.
  intros A r k v g g' rest (y & l' & p' & -> & G & Sp & I) K. unfold opt_done. rewrite G, K.
  destruct (skip_eol_fwd y l' rest (set_cfg g' p') Sp I) as (c & p2 & -> & G2 & I2). exists c, p2. auto.
Qed.
Lemma option_fwd : forall e o s t x l rest p, opt_text e o [s; t] -> g_final (p_cfg p) = false ->
  spaced [t] (x :: l) -> p_in p = l ++ rest ->
  exists c p', parse_option e s x p = Good c tt p' /\ p_cfg p' = wr o (effect1 (opt_effect o) (p_cfg p)) /\ (c, p_in p') = gnc1 rest.
Proof.
  intros e o s t x l rest p H F Sp E.
  assert (Num : forall v, num_text t v -> 0 <= v < 2147483648 -> got [] rest v (p_cfg p) (getconv conv_int x p)).
  { intros v N V. eapply conv_arg; eauto. now apply conv_num. }
  unfold parse_option. rewrite F. cbn [andb].
  inversion H as [kw t' v Hk N V|kw t' v Hk N V|t' a R|kw s' Hk|t' v N V|t' v N V|i Hi]; subst; clear H.
  - repeat destruct Hk as [<-|Hk]; try (destruct Hk; fail); memi;
      (eapply opt_step; [exact (Num v N ltac:(lia))|]; cbv beta;
       replace (v <=? 0) with false by lia; replace (v >=? 65535) with false by lia; reflexivity).
  - repeat destruct Hk as [<-|Hk]; try (destruct Hk; fail); memi;
      (eapply opt_step; [eapply conv_arg; [exact Sp|exact E|exact (read_bool _ _ N)]|]; reflexivity).
  - memi; beqi. eapply opt_step; [eapply conv_arg; [exact Sp|exact E|exact (read_addr _ _ _ R)]|]. reflexivity.
  - destruct (string_arg t [] x l rest p Sp E) as (k & Gs).
    repeat destruct Hk as [<-|Hk]; try (destruct Hk; fail); memi; beqi;
      (eapply opt_step; [exact Gs|]; cbv beta iota zeta; beqi;
       try (change (g_final (opt_write ?a ?b)) with (g_final b); cbn [effect1 g_final]); rewrite ?F; reflexivity).
  - memi; beqi. eapply opt_step; [exact (Num v N ltac:(lia))|]. cbv beta. replace (v <? 0) with false by lia. reflexivity.
  - memi; beqi. eapply opt_step; [exact (Num v N ltac:(lia))|]. cbv beta. replace (v <? 0) with false by lia. reflexivity.
  - memi; beqi. eapply opt_step; [eapply conv_arg; [exact Sp|exact E|apply parse_format_eui64; auto]|]. reflexivity.
Qed.

(** ** Lines *)
Definition after (e : env) (l : line) (g g' : cfg) : Prop :=
  let ids := map k_id (g_keys g) in
  match l with
  | LRule w cs => exists f, means e cs f /\ 0 <= w <= 3 /\ g' = add_filter w f g
  | LIf name ps => let g1 := kfxs ps g in g' = set_ifs (fst (add_ifconf (fold_left (apply1 ids) ps (ic0 name)) (g_ifs g1))) g1
  | LDef ps => let g1 := kfxs ps g in let ic := fold_left (apply1 ids) ps (ic0 []) in
      g' = set_default (Some (match g_default g1 with None => ic | Some d => merge_ifconf d ic d end)) g1
  | LKey id ty v => g' = add_key id ty (secret ty v) g
  | LOpt o => g' = wr o (effect1 (opt_effect o) g)
  | LBlank => g' = g
  end.
Lemma kfx_final : forall pr g, g_final (kfx pr g) = g_final g.
Proof. intros [n v|id] g; auto. cbn [kfx]. pose proof (find_key_refs id g) as R. apply R. Qed.
Lemma kfxs_final : forall ps g, g_final (kfxs ps g) = g_final g.
Proof. induction ps as [|pr ps IH]; intros g; auto. cbn [kfxs fold_left]. unfold kfxs in IH. now rewrite IH, kfx_final. Qed.
Lemma params_len : forall ps wss, Forall2 param_text ps wss -> (length ps <= length (concat wss))%nat.
Proof.
  intros ps wss H. induction H as [|a b ps wss A H IH]; [cbn; lia|]. destruct (param_words _ _ A) as (s & t & ->).
  cbn [concat length app]. lia.
Qed.
Lemma apply1_name : forall ids ic pr, ic_name (apply1 ids ic pr) = ic_name ic.
Proof. intros ids ic [n v|id]; reflexivity. Qed.
Lemma applys_name : forall ids ps ic, ic_name (fold_left (apply1 ids) ps ic) = ic_name ic.
Proof. induction ps as [|pr ps IH]; intros ic; auto. cbn [fold_left]. now rewrite IH, apply1_name. Qed.
Lemma opt_words : forall e o ws, opt_text e o ws -> exists s t, ws = [s; t].
Proof. intros e o ws H. inversion H; eauto. Qed.
Lemma directive_opt : forall e act o s t c p, opt_text e o [s; t] -> g_final (p_cfg p) = false ->
  directive e act s c p = match parse_option e s c p with Bad p => Bad p | Good c _ p => Good c (ACT_DONE, None) p end.
Proof.
  intros e act o s t c p H F. unfold directive. rewrite F. cbn [andb].
  inversion H as [kw t' v Hk N V|kw t' v Hk N V|t' a R|kw s' Hk|t' v N V|t' v N V|i Hi]; subst; clear H.
  all: try (repeat destruct Hk as [<-|Hk]; try (destruct Hk; fail); beqi; reflexivity).
  all: beqi; reflexivity.
Qed.
Lemma line_step : forall e act ids l t rest c p, line_text e ids l t -> (forall id, In id ids -> In id (map k_id (g_keys (p_cfg p)))) ->
  g_final (p_cfg p) = false -> c :: p_in p = t ++ rest ->
  exists c' p', parse_config_line e act c p = Good c' (ACT_DONE, None) p' /\ (c', p_in p') = gnc1 rest /\ after e l (p_cfg p) (p_cfg p').
Proof.
  intros e act ids l t rest c p T K F E. destruct l as [w cs|name ps|ps|id ty v|o|]; cbn [line_text] in T.
  - destruct T as ((kw & wss & Hk & C & W & Sp) & (o & Go)). cbn [fst snd] in *.
    pose proof (rule_line e act kw w cs wss t rest c p Hk C W Sp E F) as L.
    destruct (semo e cs filt0) as [f|] eqn:Se; [|exfalso; exact (semo_none _ _ C Se o Go)].
    destruct L as (c' & p' & P & I & G). exists c', p'. split; [exact P|]. split; [exact I|].
    exists (finish_filter f). split; [exact (built_means e cs f C Se)|]. split; [exact (rule_range _ _ Hk)|exact G].
  - destruct T as (wss & W & Ki & Sp).
    destruct (line_fwd e act _ _ t rest c p Sp E) as (x & k & p1 & l & P & G1 & S1 & I1).
    assert (D : directive e act (str "interface") x p1 = line_interface x p1) by (kwi; rewrite G1, F; reflexivity).
    rewrite D in P. unfold line_interface, parse_ifconf in P.
    destruct (loop_word name (concat wss) (x :: l) rest x p1 S1) as (w0 & r & y & k2 & p2 & l2 & Sk & B & Gw & G2 & S2 & I2).
    { rewrite I1. reflexivity. }
    rewrite Sk in P.
    assert (N0 : (w0 =? 10) || (w0 =? 35) = false) by (unfold eol in B; lia). rewrite N0 in P.
    assert (Gs : getstring w0 (set_in r p1) = Good y (k2, name) p2).
    { unfold getword in Gw. unfold getstring. destruct (skip_ws w0 (p_in (set_in r p1))) as (c1, r1) eqn:Q.
      destruct (eol c1 || (c1 =? 34)) eqn:V; [discriminate|]. apply orb_false_iff in V. destruct V as (V1 & V2).
      rewrite V1, V2. cbn [negb]. unfold getword. cbn [p_in set_in].
      assert (Z1 : skip_ws c1 r1 = (c1, r1)).
      { assert (Wn : ws c1 = false).
        { clear - Q. revert w0 Q. generalize (p_in (set_in r p1)). intros q. induction q as [|a q IH]; intros w0 Q; cbn in Q.
          - destruct (ws w0) eqn:X; injection Q as <- <-; auto.
          - destruct (ws w0) eqn:X; [eauto|injection Q as <- <-; auto]. }
        destruct r1; cbn; rewrite Wn; reflexivity. }
      rewrite Z1, V1, V2. cbn [orb]. exact Gw. }
    rewrite Gs in P.
    destruct (params_loop ps wss (y :: l2) rest (S (S (length (p_in p2)))) y None (Some k2) (ic0 name) p2 (map k_id (g_keys (p_cfg p2))) W eq_refl)
      as (c' & p3 & L1 & L2 & L3).
    + intros id Hid. rewrite G2, G1. auto.
    + exact S2.
    + rewrite I2. reflexivity.
    + pose proof (params_len _ _ W). pose proof (spaced_len _ _ S2). cbn [length] in *. rewrite I2, app_length. lia.
    + unfold with_cfg, with_val in P. rewrite L1 in P. cbv beta iota zeta in P. rewrite L2 in P.
      rewrite kfxs_final, G2, G1, F in P.
      destruct (add_ifconf (fold_left (apply1 (map k_id (g_keys (p_cfg p)))) ps (ic0 name)) (g_ifs (kfxs ps (p_cfg p)))) as (ll, mm) eqn:A.
      eexists _, _. split; [exact P|]. cbn [after]. rewrite A.
      destruct mm; rewrite ?freet_in, ?freet_cfg; cbn [p_in p_cfg set_cfg fst]; auto.
  - destruct T as (wss & W & Ki & Sp).
    destruct (line_fwd e act _ _ t rest c p Sp E) as (x & k & p1 & l & P & G1 & S1 & I1).
    assert (D : directive e act (str "default") x p1 = line_default x p1) by (kwi; rewrite G1, F; reflexivity).
    rewrite D in P. unfold line_default in P.
    destruct (params_loop ps wss (x :: l) rest (S (S (length (p_in p1)))) x None None (ic0 []) p1 (map k_id (g_keys (p_cfg p1))) W eq_refl)
      as (c' & p3 & L1 & L2 & L3).
    + intros id Hid. rewrite G1. auto.
    + exact S1.
    + rewrite I1. reflexivity.
    + pose proof (params_len _ _ W). pose proof (spaced_len _ _ S1). cbn [length] in *. rewrite I1, app_length. lia.
    + rewrite L1 in P. eexists _, _. split; [exact P|]. rewrite freet_in, freet_cfg. cbn [p_in p_cfg set_cfg]. split; [exact L3|].
      cbn [after]. rewrite L2, G1. reflexivity.
  - destruct T as (ws & Kg & Kw & Sp). destruct (key_words_split _ _ _ _ Kw) as (cs & wss & W & -> & Kv & Kl).
    destruct (line_fwd e act _ _ t rest c p Sp E) as (x & k & p1 & l & P & G1 & S1 & I1).
    assert (D : directive e act (str "key") x p1 = line_key x p1) by (kwi; rewrite G1, F; reflexivity).
    rewrite D in P. unfold line_key, parse_key in P.
    destruct (kclauses_loop cs wss (x :: l) rest (S (S (length (p_in p1)))) x (mkKp None 0 []) p1 W S1) as (c' & k' & p3 & L1 & L2 & L3 & L4).
    + rewrite I1. reflexivity.
    + assert (Lc : (length cs <= length (concat wss))%nat).
      { clear - W. induction W as [|a b cs wss A W IH]; [cbn; lia|]. cbn [concat length]. rewrite app_length. inversion A; cbn [length]; lia. }
      pose proof (spaced_len _ _ S1). cbn [length] in *. rewrite I1, app_length. lia.
    + rewrite L1 in P. rewrite (finish_good k' id ty v) in P; [|rewrite L2; exact Kv|exact Kg].
      eexists _, _. split; [exact P|]. rewrite freet_in, freet_cfg. cbn [p_in p_cfg set_cfg after]. split; [exact L4|]. rewrite L3, G1. reflexivity.
  - destruct T as (ws & O & Sp). destruct (opt_words _ _ _ O) as (s & t1 & ->).
    destruct (line_fwd e act _ _ t rest c p Sp E) as (x & k & p1 & l & P & G1 & S1 & I1).
    rewrite (directive_opt e act o s t1 x p1 O) in P by congruence.
    destruct (option_fwd e o s t1 x l rest p1 O) as (c' & p2 & Q & G2 & I2); auto; [congruence|].
    rewrite Q in P. eexists _, _. split; [exact P|]. rewrite freet_in, freet_cfg. split; [exact I2|]. cbn [after]. now rewrite G2, G1.
  - destruct (end_line unit tt c t rest p T E) as (c1 & r1 & A & B & C). unfold parse_config_line. rewrite A. cbv beta iota zeta.
    rewrite B, C. destruct (gnc1 rest) as (c2, r2). eexists _, _. split; [reflexivity|]. split; [reflexivity|]. reflexivity.
Qed.

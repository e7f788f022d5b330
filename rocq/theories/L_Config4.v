(** L_Config4.v: configuration files; the key table over time. *)
From Coq Require Import String.
From Verif Require Import Base M_Util M_Filter M_Config S_Config L_Config L_Config2 L_Config3.
Close Scope string_scope.
Open Scope Z_scope.

Local Arguments filter_loop e !fuel c f ifn p.
Local Arguments ifconf_loop !fuel c tok name ic p.
Local Arguments key_loop !fuel c k p.

(** ** Files *)
Lemma text_len : forall c r, lex_ok c r -> (length (text c r) <= S (length r))%nat.
Proof. intros c r _. unfold text. destruct (c <? 0); simpl; lia. Qed.
Lemma line_shorter : forall c p c' p', ends c p c' p' -> lex_ok c (p_in p) -> c <> -1 -> c' <> -1 ->
  (length (text c' (p_in p')) < length (text c (p_in p)))%nat.
Proof.
  intros c p c' p' (L' & l & E & l0 & F & O) L N N'. rewrite E, app_length.
  destruct O as [->|[-> O]]; [rewrite app_length; simpl; lia|].
  exfalso. unfold text in O. destruct L' as ([[L' _]|L'] & _); [easy|].
  destruct (Z.ltb_spec c' 0); [lia|discriminate O].
Qed.
Lemma file_loop_ok : forall e fuel c p, lex_ok c (p_in p) -> heap_ok p -> c <> -1 ->
  (length (text c (p_in p)) < fuel)%nat -> hweak p (snd (file_loop e fuel c p)) /\
  (fst (file_loop e fuel c p) = true -> hgood p (snd (file_loop e fuel c p)) /\ p_in (snd (file_loop e fuel c p)) = []).
Proof.
  induction fuel as [|fuel IH]; intros c p L H N F; [lia|]. cbn [file_loop].
  pose proof (parse_config_line_ok e false c p L H) as K.
  destruct (parse_config_line e false c p) as [p1|c1 a p1]; unfold line_ok in K.
  { split; [apply K|intros X; discriminate X]. }
  destruct K as (K & E). destruct (Z.eqb_spec c1 (-1)) as [->|N1].
  { split; [now apply hgood_weak|]. intros _. split; [easy|]. destruct E as (([[_ E]|E] & _) & _); [easy|lia]. }
  pose proof (line_shorter _ _ _ _ E L N N1).
  destruct (IH c1 p1) as (I1 & I2); [apply E|apply K|easy|lia|].
  split.
  - eapply hweak_trans; [apply hgood_weak; exact K|exact I1].
  - intros X. destruct (I2 X) as (J1 & J2). split; [|easy]. eapply hgood_trans; eauto.
Qed.
Lemma from_file_ok : forall e l p, Forall (fun x => 0 <= x) l -> heap_ok p ->
  hweak p (snd (from_file e l p)) /\
  (fst (from_file e l p) = true -> l <> [] -> hgood p (snd (from_file e l p)) /\ p_in (snd (from_file e l p)) = []).
Proof.
  intros e [|c r] p B H. { split; [now apply hgood_weak, hgood_refl|easy]. }
  inversion B as [|? ? Bc Br]; subst. unfold from_file.
  destruct (file_loop_ok e (S (S (length r))) c (set_in r p)) as (A1 & A2).
  - split; [now right|easy].
  - exact H.
  - lia.
  - cbn [p_in set_in]. pose proof (text_len c r). unfold text. destruct (c <? 0); simpl; lia.
  - split; [destruct A1; now split|]. intros X _. destruct (A2 X) as (J & Q). split; [|exact Q]. destruct J. now split.
Qed.

(** ** The key table *)
(** Keys stay at their place and keep their name; the counts do not go down. *)
Definition grow (g g' : cfg) : Prop :=
  (forall i k, nth_error (g_keys g) i = Some k ->
     exists k', nth_error (g_keys g') i = Some k' /\ k_id k' = k_id k /\ k_ref k <= k_ref k') /\
  (Forall (fun k => 0 <= k_ref k <= 65535) (g_keys g) -> Forall (fun k => 0 <= k_ref k <= 65535) (g_keys g')) /\
  (g_abort g = true -> g_abort g' = true) /\
  (g_abort g' = true -> g_abort g = true \/ exists i k, nth_error (g_keys g') i = Some k /\ 65535 <= k_ref k).
Lemma grow_same : forall g g', g_keys g' = g_keys g -> g_abort g' = g_abort g -> grow g g'.
Proof.
  intros g g' A B. split; [|split; [now rewrite A|split; [congruence|left; congruence]]]. rewrite A. intros i k E. exists k. split; [easy|]. split; [easy|lia].
Qed.
Lemma grow_refl : forall g, grow g g. Proof. intros. now apply grow_same. Qed.
Lemma grow_trans : forall a b c, grow a b -> grow b c -> grow a c.
Proof.
  intros a b c (A1 & A2 & A3 & A4) (B1 & B2 & B3 & B4). split; [|split; [tauto|split; [tauto|]]].
  2:{ intros Q. destruct (B4 Q) as [Q'|Q']; [|now right]. destruct (A4 Q') as [Q2|(i & k & E & L)]; [now left|].
      right. destruct (B1 _ _ E) as (k2 & E2 & _ & L2). exists i, k2. split; [easy|lia]. }
  intros i k E. destruct (A1 _ _ E) as (k1 & E1 & I1 & L1).
  destruct (B1 _ _ E1) as (k2 & E2 & I2 & L2). exists k2. split; [easy|]. split; [congruence|lia].
Qed.
Lemma nth_upd : forall A (l : list A) i x y, nth_error l i = Some x ->
  forall j, nth_error (firstn i l ++ y :: skipn (S i) l) j = if (j =? i)%nat then Some y else nth_error l j.
Proof.
  induction l as [|z l IH]; intros [|i] x y E j; try discriminate E.
  - destruct j; easy.
  - cbn in E. cbn [firstn skipn app]. destruct j as [|j]; [easy|]. cbn [nth_error Nat.eqb]. now apply (IH i x y).
Qed.
Lemma Forall_upd : forall A (P : A -> Prop) l i y, Forall P l -> P y -> Forall P (firstn i l ++ y :: skipn (S i) l).
Proof.
  intros A P l i y F Y. apply Forall_app. split.
  - rewrite <- (firstn_skipn i l) in F. apply Forall_app in F. tauto.
  - constructor; [easy|]. rewrite <- (firstn_skipn (S i) l) in F. apply Forall_app in F. tauto.
Qed.
Lemma nth_In_P : forall A (P : A -> Prop) l i x, Forall P l -> nth_error l i = Some x -> P x.
Proof. intros A P l i x F E. rewrite Forall_forall in F. apply F. eapply nth_error_In; eauto. Qed.
Lemma retain_grow : forall i g, grow g (retain_key i g).
Proof.
  intros i g. unfold retain_key. destruct (nth_error (g_keys g) i) as [k|] eqn:E; [|apply grow_refl].
  destruct (Z.ltb_spec (k_ref k) 65535) as [H|H].
  - split; [|split; [|split; [easy|now left]]]; cbn [set_keys g_keys].
    + intros j x Ex. rewrite (nth_upd _ _ _ _ _ E). destruct (Nat.eqb_spec j i) as [->|N].
      * rewrite E in Ex. injection Ex as <-. eexists. split; [reflexivity|]. cbn. split; [easy|lia].
      * exists x. split; [easy|]. split; [easy|lia].
    + intros F. apply Forall_upd; [easy|]. cbn. pose proof (nth_In_P _ _ _ _ _ F E) as Q. cbn in Q. lia.
  - split; [|split; [|split; [easy|right; exists i, k; split; [exact E|lia]]]]; cbn [set_abort g_keys]; [|easy]. intros j x Ex. exists x. split; [easy|]. split; [easy|lia].
Qed.
Lemma find_key_grow : forall id g, grow g (snd (find_key id g)).
Proof. intros. unfold find_key. destruct (index_key id (g_keys g)); [apply retain_grow|apply grow_refl]. Qed.
Lemma add_key_grow : forall id ty v g, grow g (add_key id ty v g).
Proof.
  intros id ty v g. unfold add_key. pose proof (find_key_grow id g) as K. destruct (find_key id g) as ([i|], g1); cbn [snd] in K.
  - destruct (nth_error (g_keys g1) i) as [k|] eqn:E; [|easy]. eapply grow_trans; [exact K|].
    split; [|split; [|split; [easy|now left]]]; cbn [set_keys g_keys].
    + intros j x Ex. rewrite (nth_upd _ _ _ _ _ E). destruct (Nat.eqb_spec j i) as [->|N].
      * rewrite E in Ex. injection Ex as <-. eexists. split; [reflexivity|]. cbn. split; [easy|lia].
      * exists x. split; [easy|]. split; [easy|lia].
    + intros F. apply Forall_upd; [easy|]. cbn. pose proof (nth_In_P _ _ _ _ _ F E) as Q. cbn in Q. lia.
  - eapply grow_trans; [exact K|]. split; [|split; [|split; [easy|now left]]]; cbn [set_keys g_keys].
    + intros j x Ex. exists x. split; [|split; [easy|lia]]. rewrite nth_error_app1; [easy|]. apply nth_error_Some. congruence.
    + intros F. apply Forall_app. split; [easy|]. constructor; [cbn; lia|constructor].
Qed.
Definition rcfg {A} (P : cfg -> Prop) (r : res A) : Prop := match r with Bad p => P (p_cfg p) | Good _ _ p => P (p_cfg p) end.
Lemma skip_eol_same : forall (P : cfg -> Prop) c p, P (p_cfg p) -> rcfg P (skip_eol c p).
Proof.
  intros P c p H. unfold skip_eol. destruct (skip_ws c (p_in p)) as (c1, r1). destruct (eol c1); [|exact H].
  destruct (to_eol c1 r1). exact H.
Qed.
Lemma getword_same : forall (P : cfg -> Prop) c p, P (p_cfg p) -> rcfg P (getword c p).
Proof.
  intros P c p H. unfold getword. destruct (skip_ws c (p_in p)) as (c1, r1). destruct (_ || _); [exact H|].
  destruct (word_loop c1 r1 0) as ((c2, r2), w). destruct (c2 <? -1); exact H.
Qed.
Lemma getstring_same : forall (P : cfg -> Prop) c p, P (p_cfg p) -> rcfg P (getstring c p).
Proof.
  intros P c p H. unfold getstring. destruct (skip_ws c (p_in p)) as (c1, r1). destruct (eol c1); [exact H|].
  destruct (negb _); [now apply getword_same|]. destruct (gnc1 r1) as (c2, r2).
  destruct (string_loop 256 c2 r2 0) as [((c3, r3), w)|]; exact H.
Qed.
Lemma getconv_same : forall (P : cfg -> Prop) A (f : list Z -> option A) c p, P (p_cfg p) -> rcfg P (getconv f c p).
Proof.
  intros P A f c p H. unfold getconv. pose proof (getword_same P c p H) as K. destruct (getword c p) as [p1|c1 (t, s) p1]; [exact K|].
  unfold rcfg in *. destruct (f s); cbn [p_cfg]; now rewrite freet_cfg, uset_cfg.
Qed.
Lemma with_val_same : forall (P : cfg -> Prop) A B (r : res A) (k : A -> option B), rcfg P r -> rcfg P (with_val r k).
Proof. intros P A B r k H. unfold with_val. destruct r as [p|c v p]; [exact H|]. destruct (k v); exact H. Qed.
Lemma opt_done_same : forall (P : cfg -> Prop) A (r : res A) k, rcfg P r -> (forall v g g', P g -> k v g = Some g' -> P g') -> rcfg P (opt_done r k).
Proof.
  intros P A r k H K. unfold opt_done. destruct r as [p|c v p]; [exact H|]. destruct (k v (p_cfg p)) as [g'|] eqn:E; [|exact H].
  apply skip_eol_same. cbn [set_cfg p_cfg]. eapply K; eauto.
Qed.
Lemma opt_write_grow : forall s g g', grow g g' -> grow g (opt_write s g').
Proof. intros s g g' H. unfold opt_write. destruct (_ || _); [|destruct (_ || _); [|easy]]; eapply grow_trans; try exact H; now apply grow_same. Qed.
Lemma effect1_grow : forall x g g', grow g g' -> grow g (effect1 x g').
Proof. intros x g g' H. eapply grow_trans; [exact H|]. now apply grow_same. Qed.
Lemma parse_option_grow : forall e s c p, rcfg (grow (p_cfg p)) (parse_option e s c p).
Proof.
  intros e s c p. pose proof (grow_refl (p_cfg p)) as G. unfold parse_option. cbv zeta.
  destruct (g_final (p_cfg p) && _); [exact G|].
  destruct (mem s int_opts). { apply opt_done_same; [now apply getconv_same|]. intros v g g' H. destruct (_ || _); intros X; [discriminate X|]. injection X as <-. now apply opt_write_grow, effect1_grow. }
  destruct (mem s bool_opts). { apply opt_done_same; [now apply getconv_same|]. intros v g g' H X. injection X as <-. now apply effect1_grow. }
  destruct (beq s (str "protocol-group")). { apply opt_done_same; [now apply getconv_same|]. intros [v z] g g' H X. injection X as <-. now apply effect1_grow. }
  destruct (mem s str_opts).
  { apply opt_done_same; [now apply getstring_same|]. intros [v z] g g' H X. injection X as <-.
    destruct (_ && _); [apply effect1_grow|]; now apply opt_write_grow, effect1_grow. }
  destruct (beq s (str "debug")). { apply opt_done_same; [now apply getconv_same|]. intros v g g' H. destruct (v <? 0); intros X; [discriminate X|]. injection X as <-. now apply effect1_grow. }
  destruct (beq s (str "smoothing-half-life")). { apply opt_done_same; [now apply getconv_same|]. intros v g g' H. destruct (v <? 0); intros X; [discriminate X|]. injection X as <-. now apply effect1_grow. }
  destruct (beq s (str "router-id")). { apply opt_done_same; [now apply getconv_same|]. intros v g g' H X. injection X as <-. now apply effect1_grow. }
  exact G.
Qed.
Lemma filter_kw_grow : forall e s c f ifn p (P : cfg -> Prop), P (p_cfg p) -> rcfg P (filter_kw e s c f ifn p).
Proof.
  intros e s c f ifn p P H. unfold filter_kw. cbv zeta.
  repeat match goal with |- rcfg _ (if ?b then _ else _) => destruct b end;
    try (apply with_val_same; first [now apply getconv_same|now apply getstring_same]); exact H.
Qed.
Lemma filter_loop_grow : forall e fuel c f ifn p (P : cfg -> Prop), P (p_cfg p) -> rcfg P (filter_loop e fuel c f ifn p).
Proof.
  intros e. induction fuel as [|fuel IH]; intros c f ifn p P H; [exact H|]. cbn [filter_loop].
  destruct (skip_ws c (p_in p)) as (c1, r1). destruct (eol c1); [destruct (to_eol c1 r1); exact H|].
  pose proof (getword_same P c1 (set_in r1 p) H) as K. destruct (getword c1 (set_in r1 p)) as [p1|c2 (t, s) p1].
  { unfold rcfg. now rewrite freet_cfg. }
  pose proof (filter_kw_grow e s c2 f ifn (uset t p1) P) as Q. rewrite uset_cfg in Q. specialize (Q K).
  destruct (filter_kw e s c2 f ifn (uset t p1)) as [p2|c3 (f3, i3) p2].
  - unfold rcfg. now rewrite !freet_cfg.
  - apply IH. now rewrite freet_cfg.
Qed.
Lemma if_kw_grow : forall s c ic p g, grow g (p_cfg p) -> rcfg (grow g) (if_kw s c ic p).
Proof.
  intros s c ic p g H. unfold if_kw. cbv zeta.
  repeat match goal with |- rcfg _ (if ?b then _ else _) => destruct b end;
    try (apply with_val_same; now apply getconv_same); try exact H.
  pose proof (getword_same (grow g) c p H) as K. destruct (getword c p) as [p1|c2 (t, s2) p1]; [exact K|].
  rewrite uset_cfg. pose proof (find_key_grow s2 (p_cfg p1)) as Q. destruct (find_key s2 (p_cfg p1)) as (o, g1). cbn [snd] in Q.
  destruct o; unfold rcfg; rewrite freet_cfg; cbn [p_cfg set_cfg]; eapply grow_trans; eauto.
Qed.
Lemma ifconf_loop_grow : forall fuel c tok name ic p g, grow g (p_cfg p) -> rcfg (grow g) (ifconf_loop fuel c tok name ic p).
Proof.
  induction fuel as [|fuel IH]; intros c tok name ic p g H; [exact H|]. cbn [ifconf_loop].
  destruct (skip_ws c (p_in p)) as (c1, r1). destruct (eol c1); [destruct (to_eol c1 r1); exact H|].
  pose proof (getword_same (grow g) c1 (set_in r1 p) H) as K. destruct (getword c1 (set_in r1 p)) as [p1|c2 (t, s) p1].
  { unfold rcfg. now rewrite !freet_cfg. }
  pose proof (if_kw_grow s c2 ic (uset t p1) g) as Q. rewrite uset_cfg in Q. specialize (Q K).
  destruct (if_kw s c2 ic (uset t p1)) as [p2|c3 ic3 p2].
  - unfold rcfg. now rewrite !freet_cfg.
  - apply IH. now rewrite freet_cfg.
Qed.
Lemma key_kw_grow : forall s c k p (P : cfg -> Prop), P (p_cfg p) -> rcfg P (key_kw s c k p).
Proof.
  intros s c k p P H. unfold key_kw.
  repeat match goal with |- rcfg _ (if ?b then _ else _) => destruct b end;
    try (unfold with_cfg; apply with_val_same; first [now apply getconv_same|now apply getword_same]); exact H.
Qed.
Lemma key_loop_grow : forall fuel c k p (P : cfg -> Prop), P (p_cfg p) -> rcfg P (key_loop fuel c k p).
Proof.
  induction fuel as [|fuel IH]; intros c k p P H; [exact H|]. cbn [key_loop].
  destruct (skip_ws c (p_in p)) as (c1, r1). destruct (eol c1); [destruct (to_eol c1 r1); exact H|].
  pose proof (getword_same P c1 (set_in r1 p) H) as K. destruct (getword c1 (set_in r1 p)) as [p1|c2 (t, s) p1].
  { unfold rcfg. now rewrite freet_cfg. }
  pose proof (key_kw_grow s c2 k (uset t p1) P) as Q. rewrite uset_cfg in Q. specialize (Q K).
  destruct (key_kw s c2 k (uset t p1)) as [p2|c3 k3 p2].
  - unfold rcfg. now rewrite !freet_cfg.
  - apply IH. now rewrite freet_cfg.
Qed.
Lemma directive_grow : forall e act s c p, rcfg (grow (p_cfg p)) (directive e act s c p).
Proof.
  intros e act s c p. pose proof (grow_refl (p_cfg p)) as G. unfold directive.
  assert (La : forall a, rcfg (grow (p_cfg p)) (line_action act a c p)).
  { intros a. unfold line_action. pose proof (skip_eol_same (grow (p_cfg p)) c p G) as K. destruct (skip_eol c p); [exact K|]. destruct act; exact K. }
  assert (Lf : forall w, rcfg (grow (p_cfg p)) (line_filter e w c p)).
  { intros w. unfold line_filter. destruct (g_final (p_cfg p)); [exact G|]. unfold parse_filter.
    pose proof (filter_loop_grow e (S (S (length (p_in p)))) c filt0 None p (grow (p_cfg p)) G) as K.
    unfold with_cfg. pose proof (with_val_same _ _ _ _ (fun v => Some (finish_filter v)) K) as Q.
    destruct (with_val _ _) as [p1|c1 f p1]; [exact Q|]. unfold rcfg in *. cbn [set_cfg p_cfg].
    eapply grow_trans; [exact Q|]. now apply grow_same. }
  repeat match goal with |- rcfg _ (if ?b then _ else _) => destruct b end; try apply La; try apply Lf; try exact G.
  - unfold line_interface, parse_ifconf. destruct (skip_ws c (p_in p)) as (c1, r1). destruct (_ || _); [exact G|].
    pose proof (getstring_same (grow (p_cfg p)) c1 (set_in r1 p) G) as K. destruct (getstring c1 (set_in r1 p)) as [p1|c2 (t, nm) p1]; [exact K|].
    pose proof (ifconf_loop_grow (S (S (length (p_in p1)))) c2 None (Some t) (ic0 nm) p1 _ K) as Q. unfold with_cfg.
    destruct (ifconf_loop _ c2 None (Some t) (ic0 nm) p1) as [p2|c3 ic p2]; [exact Q|]. cbn [with_val].
    destruct (add_ifconf ic (g_ifs (p_cfg p2))) as (l, mg). unfold rcfg.
    set (g' := if g_final (p_cfg p2) then _ else _).
    assert (R : grow (p_cfg p) g').
    { eapply grow_trans; [exact Q|]. unfold g'. destruct (g_final (p_cfg p2)); now apply grow_same. }
    destruct mg; [rewrite freet_cfg|]; exact R.
  - unfold line_default. pose proof (ifconf_loop_grow (S (S (length (p_in p)))) c None None (ic0 []) p _ G) as Q.
    destruct (ifconf_loop _ c None None (ic0 []) p) as [p2|c3 ic p2]; [exact Q|]. unfold rcfg. cbn [p_cfg set_cfg].
    eapply grow_trans; [exact Q|]. now apply grow_same.
  - unfold line_flush. pose proof (getword_same (grow (p_cfg p)) c p G) as K. destruct (getword c p) as [p1|c1 (t2, s2) p1]; [exact K|].
    destruct (beq s2 _); [|unfold rcfg; now rewrite freet_cfg, uset_cfg].
    pose proof (getword_same (grow (p_cfg p)) c1 (uset t2 p1)) as K2. rewrite uset_cfg in K2. specialize (K2 K).
    destruct (getword c1 (uset t2 p1)) as [p2|c2 (t, nm) p2]; [unfold rcfg; now rewrite freet_cfg|].
    pose proof (skip_eol_same (grow (p_cfg p)) c2 p2 K2) as K3. destruct (skip_eol c2 p2) as [p3|c3 u p3]; [unfold rcfg; now rewrite !freet_cfg|].
    unfold rcfg. rewrite !freet_cfg. cbn [set_cfg p_cfg]. rewrite uset_cfg. now apply effect1_grow.
  - pose proof (skip_eol_same (grow (p_cfg p)) c p G) as K. destruct (skip_eol c p); [exact K|]. destruct act; [|exact K].
    unfold rcfg in *. cbn [set_cfg p_cfg]. now apply effect1_grow.
  - unfold line_key, parse_key. pose proof (key_loop_grow (S (S (length (p_in p)))) c (mkKp None 0 []) p (grow (p_cfg p)) G) as K.
    destruct (key_loop _ c (mkKp None 0 []) p) as [p1|c1 k p1]; [exact K|].
    destruct (finish_key k) as [((id, ty), v)|]; unfold rcfg in *; [|now rewrite freet_cfg]. cbn [set_cfg p_cfg].
    eapply grow_trans; [exact K|]. apply add_key_grow.
  - pose proof (parse_option_grow e s c p) as K. destruct (parse_option e s c p); exact K.
Qed.
Lemma line_grow : forall e act c p, rcfg (grow (p_cfg p)) (parse_config_line e act c p).
Proof.
  intros e act c p. pose proof (grow_refl (p_cfg p)) as G. unfold parse_config_line.
  destruct (skip_ws c (p_in p)) as (c1, r1). destruct (eol c1); [destruct (to_eol c1 r1); exact G|].
  pose proof (getword_same (grow (p_cfg p)) c1 (set_in r1 p) G) as K. destruct (getword c1 (set_in r1 p)) as [p1|c2 (t, s) p1]; [exact K|].
  pose proof (directive_grow e act s c2 (uset t p1)) as Q. rewrite uset_cfg in Q.
  destruct (directive e act s c2 (uset t p1)) as [p2|c3 a p2]; unfold rcfg in *; rewrite freet_cfg; eapply grow_trans; eauto.
Qed.
Lemma from_string_grow : forall e l p, grow (p_cfg p) (p_cfg (snd (from_string e l p))).
Proof.
  intros e [|c r] p; [apply grow_refl|]. unfold from_string. pose proof (line_grow e true c (set_in r p)) as K.
  destruct (parse_config_line e true c (set_in r p)) as [p1|c1 (a, m) p1]; [exact K|]. destruct (c1 =? -1); exact K.
Qed.
Lemma file_loop_grow : forall e fuel c p, grow (p_cfg p) (p_cfg (snd (file_loop e fuel c p))).
Proof.
  intros e. induction fuel as [|fuel IH]; intros c p; [apply grow_refl|]. cbn [file_loop].
  pose proof (line_grow e false c p) as K. destruct (parse_config_line e false c p) as [p1|c1 a p1]; [exact K|].
  destruct (c1 =? -1); [exact K|]. eapply grow_trans; [exact K|apply IH].
Qed.
Lemma from_file_grow : forall e l p, grow (p_cfg p) (p_cfg (snd (from_file e l p))).
Proof. intros e [|c r] p; [apply grow_refl|]. unfold from_file. exact (file_loop_grow e (S (S (length r))) c (set_in r p)). Qed.

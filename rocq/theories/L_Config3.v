(** L_Config3.v: which lines are accepted on a read-only connection, and what rejected
    lines leave behind. *)
From Coq Require Import String.
From Verif Require Import Base M_Util M_Filter M_Config S_Config L_Config L_Config2.
Close Scope string_scope.
Open Scope Z_scope.

(** ** Forward computation *)
Lemma skip_ws_app : forall b c r x y, c :: r = b ++ x :: y -> Forall blank b -> ws x = false -> skip_ws c r = (x, y).
Proof.
  induction b as [|z b IH]; intros c r x y E B W.
  - injection E as -> ->. destruct y; cbn [skip_ws]; now rewrite W.
  - injection E as -> ->. inversion B as [|? ? Bz Bb]; subst. apply ws_iff in Bz.
    destruct (b ++ x :: y) as [|c' r'] eqn:E'; [now destruct b|]. cbn [skip_ws]. rewrite Bz. apply IH; auto.
Qed.
Lemma word_loop_app : forall w c r i d y, c :: r = w ++ d :: y -> w <> [] ->
  Forall (fun x => ws x || eol x = false) w -> ws d || eol d = true -> i + Z.of_nat (length w) <= 255 ->
  word_loop c r i = (d, y, w).
Proof.
  induction w as [|z w IH]; intros c r i d y E N F D K; [easy|].
  injection E as -> ->. inversion F as [|? ? Fz Fw]; subst. cbn [length] in K.
  assert (I0 : (i >=? 255) = false). { rewrite Z.geb_leb. apply Z.leb_gt. lia. }
  destruct w as [|z2 w].
  - simpl. now rewrite I0, D.
  - pose proof Fw as Fw'. inversion Fw as [|? ? Fz2 Fw2]; subst.
    cbn [app word_loop]. rewrite I0, Fz2.
    rewrite (IH z2 (w ++ d :: y) (i + 1) d y) ; try easy. lia.
Qed.
Lemma to_eol_app : forall k c r y, c :: r = k ++ 10 :: y -> ~ In 10 k -> Forall (fun x => 0 <= x) k -> to_eol c r = gnc1 y.
Proof.
  induction k as [|z k IH]; intros c r y E N F.
  - injection E as -> ->. destruct y; easy.
  - injection E as -> ->. inversion F; subst.
    assert (Hz : (z =? 10) || (z <? 0) = false).
    { apply orb_false_iff. split; [apply Z.eqb_neq; intros ->; apply N; now left|now apply Z.ltb_ge]. }
    destruct (k ++ 10 :: y) as [|c' r'] eqn:E'; [now destruct k|]. cbn [to_eol]. rewrite Hz.
    apply IH; auto. intros Q. apply N. now right.
Qed.
Lemma Forall_blank_pos : forall b, Forall blank b -> Forall (fun x => 0 <= x) b.
Proof. intros b H. eapply Forall_impl; [|exact H]. unfold blank. intros; simpl in *. lia. Qed.

(** ** Backward *)
Lemma skip_eol_back : forall c p c' u p', lex_ok c (p_in p) -> skip_eol c p = Good c' u p' ->
  p_cfg p' = p_cfg p /\ exists b k, Forall blank b /\ ~ In 10 k /\ (k = [] \/ exists k', k = 35 :: k') /\
    (text c (p_in p) = b ++ k ++ 10 :: text c' (p_in p') \/ text c (p_in p) = b ++ k /\ text c' (p_in p') = []).
Proof.
  intros c p c' u p' L. unfold skip_eol. pose proof (skip_ws_spec _ _ L) as K.
  destruct (skip_ws c (p_in p)) as (c1, r1). destruct K as (K1 & W & b & E & B).
  destruct (eol c1) eqn:D; [|intros X; discriminate X].
  pose proof (to_eol_spec _ _ K1) as Q. destruct (to_eol c1 r1) as (c2, r2) eqn:Et. destruct Q as (Q1 & k & N & Q).
  intros X. injection X as <- <- <-. split; [easy|]. cbn [p_in set_in]. exists b, k. split; [easy|]. split; [easy|]. split.
  - destruct k as [|x k]; [now left|]. right. exists k. f_equal.
    assert (Ex : text c1 r1 = x :: r1 /\ x = c1).
    { unfold text in *. destruct (c1 <? 0); [destruct Q as [Q|[Q _]]; discriminate Q|].
      destruct Q as [Q|[Q _]]; injection Q as -> _; easy. }
    destruct Ex as (Ex & ->). unfold eol in D. rewrite !orb_true_iff, !Z.eqb_eq in D.
    destruct D as [[D|D]|D]; [|subst; exfalso; apply N; now left|easy].
    unfold text in Ex. rewrite D in Ex. discriminate Ex.
  - destruct Q as [Q|[Q Q']]; [left|right]; rewrite E, Q; [easy|]. easy.
Qed.
(** The first word of a line that can be read. *)
Lemma getword_back : forall c p c' t s p', lex_ok c (p_in p) -> ws c = false -> getword c p = Good c' (t, s) p' ->
  exists w, text c (p_in p) = w ++ text c' (p_in p') /\ s = cstr w /\ ~ In 10 w.
Proof.
  intros c p c' t s p' L W0. unfold getword.
  assert (Es : skip_ws c (p_in p) = (c, p_in p)). { destruct (p_in p); cbn [skip_ws]; now rewrite W0. }
  rewrite Es.
  destruct (eol c || (c =? 34)) eqn:D; [intros X; discriminate X|].
  apply orb_false_iff in D. destruct D as (D & _). unfold eol in D. rewrite !orb_false_iff in D.
  destruct D as ((D1 & D2) & _). apply Z.ltb_ge in D1. apply Z.eqb_neq in D2.
  pose proof (word_loop_spec (p_in p) c 0 D1 D2 (proj2 L) ltac:(lia)) as H.
  destruct (word_loop c (p_in p) 0) as ((c1, r1), w).
  destruct H as [->|(A & B & E & N & Ne & H)]; [intros X; discriminate X|].
  destruct (c1 <? -1); [intros X; discriminate X|]. unfold alloct. intros X. injection X as <- <- <- <-.
  cbn [p_in set_in]. now exists w.
Qed.
Lemma cstr_seen : forall w, seen_as w (cstr w).
Proof.
  induction w as [|x w IH]; [now left|]. simpl. destruct (Z.eqb_spec x 0) as [->|N].
  - right. now exists w.
  - destruct IH as [<-|(y & E)]; [now left|]. right. exists y. simpl. now f_equal.
Qed.

(** ** Rejected lines *)
Definition opt_names : list (list Z) :=
  int_opts ++ bool_opts ++ str_opts ++ [str "protocol-group"; str "debug"; str "smoothing-half-life"; str "router-id"].
Lemma opt_done_other : forall A (r : res A) k p', opt_done r k = Bad p' -> True. Proof. easy. Qed.
Lemma mem_app : forall s a b, mem s (a ++ b) = mem s a || mem s b.
Proof. intros. unfold mem. apply existsb_app. Qed.
Lemma parse_option_other : forall e s c p, mem s opt_names = false -> parse_option e s c p = Bad p.
Proof.
  intros e s c p M. unfold opt_names in M. rewrite !mem_app, !orb_false_iff in M. destruct M as (M1 & M2 & M3 & M4).
  unfold parse_option. cbv zeta. destruct (g_final (p_cfg p) && _); [easy|]. rewrite M1, M2, M3.
  unfold mem in M4. cbn [existsb] in M4. rewrite !orb_false_iff in M4. destruct M4 as (N1 & N2 & N3 & N4 & _).
  now rewrite N1, N2, N3, N4.
Qed.
Lemma skip_eol_cfg : forall c p, match skip_eol c p with Bad p' => p_cfg p' = p_cfg p | Good _ _ p' => p_cfg p' = p_cfg p end.
Proof.
  intros. unfold skip_eol. destruct (skip_ws c (p_in p)) as (c1, r1). destruct (eol c1); [|easy].
  destruct (to_eol c1 r1). easy.
Qed.
Lemma line_action_cfg : forall act a c p, match line_action act a c p with Bad p' => p_cfg p' = p_cfg p | Good _ _ p' => p_cfg p' = p_cfg p end.
Proof.
  intros. unfold line_action. pose proof (skip_eol_cfg c p). destruct (skip_eol c p); [easy|]. now destruct act.
Qed.
Lemma directive_rejected : forall e act s c p p', lex_ok c (p_in p) -> heap_ok p -> directive e act s c p = Bad p' ->
  p_cfg p' = p_cfg p \/ (s = str "interface" \/ s = str "default") /\ refs_only (p_cfg p) (p_cfg p') \/ mem s opt_names = true.
Proof.
  intros e act s c p p' L H. unfold directive.
  destruct (beq s (str "quit")). { intros E. pose proof (line_action_cfg act ACT_QUIT c p) as Q. rewrite E in Q. auto. }
  destruct (beq s (str "dump")). { intros E. pose proof (line_action_cfg act ACT_DUMP c p) as Q. rewrite E in Q. auto. }
  destruct (beq s (str "monitor")). { intros E. pose proof (line_action_cfg act ACT_MONITOR c p) as Q. rewrite E in Q. auto. }
  destruct (beq s (str "unmonitor")). { intros E. pose proof (line_action_cfg act ACT_UNMONITOR c p) as Q. rewrite E in Q. auto. }
  destruct (g_final (p_cfg p) && negb (g_write (p_cfg p))). { intros E. injection E as <-. now left. }
  assert (Fl : forall w, line_filter e w c p = Bad p' -> p_cfg p' = p_cfg p).
  { intros w. unfold line_filter. destruct (g_final (p_cfg p)); [intros E; now injection E as <-|].
    pose proof (parse_filter_parses e c p L H) as S. destruct (parse_filter e c p); [|intros E; discriminate E].
    intros E. injection E as <-. apply S. }
  destruct (beq s (str "in")); [intros E; left; eauto|].
  destruct (beq s (str "out")); [intros E; left; eauto|].
  destruct (beq s (str "redistribute")); [intros E; left; eauto|].
  destruct (beq s (str "install")); [intros E; left; eauto|]. clear Fl.
  destruct (beq s (str "interface")) eqn:Ei.
  { apply beq_true in Ei. unfold line_interface, parse_ifconf.
    pose proof (round_start c p p L (hgood_refl _ H)) as R.
    destruct (skip_ws c (p_in p)) as (c1, r1). cbv zeta in R. destruct R as (R1 & R2 & R3 & R4 & R5).
    destruct ((c1 =? 10) || (c1 =? 35)). { intros E. injection E as <-. now left. }
    pose proof (getstring_spec c1 (set_in r1 p) R2) as G. destruct (getstring c1 (set_in r1 p)) as [p1|c2 (t, name) p2].
    { intros E. injection E as <-. left. apply G. }
    destruct G as (E & Sh & K & G1 & G2 & G3 & G4 & G5 & G6).
    destruct (new_good p _ p2 t R3 G1 G2 G3 G4 G5) as (N1 & N2 & N3 & N4 & N5).
    destruct (ifconf_loop_parses (S (S (length (p_in p2)))) c2 None (Some t) (ic0 name) p2 p) as (A & B); try easy.
    { apply (eats_ok _ _ _ _ E). } { rewrite G6. apply refs_refl. } { apply fuel_enough. }
    unfold with_cfg. destruct (ifconf_loop (S (S (length (p_in p2)))) c2 None (Some t) (ic0 name) p2) as [p3|c3 ic p3]; simpl.
    - intros X. injection X as <-. destruct A as (A1 & A2 & A3). auto.
    - destruct (add_ifconf ic (g_ifs (p_cfg p3))). intros X. discriminate X. }
  destruct (beq s (str "default")) eqn:Ed.
  { apply beq_true in Ed. unfold line_default.
    destruct (ifconf_loop_parses (S (S (length (p_in p)))) c None None (ic0 []) p p L (hgood_refl _ H) Logic.I) as (A & B);
      [easy|easy|apply refs_refl|apply fuel_enough|].
    destruct (ifconf_loop (S (S (length (p_in p)))) c None None (ic0 []) p); intros X; [injection X as <-|discriminate X].
    destruct A as (A1 & A2 & A3). auto. }
  destruct (beq s (str "flush")).
  { unfold line_flush. destruct (getword c p) as [p1|c1 (t2, s2) p1] eqn:E1.
    { destruct (getword_badg _ _ _ L H E1) as (_ & Q). intros X. injection X as <-. auto. }
    destruct (getword_good _ _ _ _ _ _ L H E1) as (A1 & A2 & A3 & A4 & A5).
    rewrite uset_live by easy. destruct (beq s2 (str "interface")).
    2:{ intros X. injection X as <-. left. now rewrite freet_cfg. }
    destruct (getword c1 p1) as [p2|c2 (t, name) p2] eqn:E2.
    { destruct (getword_badg _ _ _ (eats_ok _ _ _ _ A4) (hg_ok _ _ A1) E2) as (_ & Q). intros X. injection X as <-.
      left. rewrite freet_cfg. congruence. }
    destruct (getword_good _ _ _ _ _ _ (eats_ok _ _ _ _ A4) (hg_ok _ _ A1) E2) as (B1 & B2 & B3 & B4 & B5).
    pose proof (skip_eol_cfg c2 p2) as Q. destruct (skip_eol c2 p2); intros X; [injection X as <-|discriminate X].
    left. rewrite !freet_cfg. congruence. }
  destruct (beq s (str "reopen-logfile")).
  { pose proof (skip_eol_cfg c p) as Q. destruct (skip_eol c p); [intros X; injection X as <-; auto|].
    destruct act; intros X; [discriminate X|injection X as <-; auto]. }
  destruct (beq s (str "key")).
  { unfold line_key. pose proof (parse_key_parses c p L H) as S.
    destruct (parse_key c p) as [p1|c1 ((id, ty), v) p1]; intros X; [injection X as <-|discriminate X].
    left. apply S. }
  destruct (mem s opt_names) eqn:M; [auto|]. rewrite parse_option_other by easy. intros X. injection X as <-. auto.
Qed.
Lemma line_rejected : forall e act c p p', lex_ok c (p_in p) -> heap_ok p -> parse_config_line e act c p = Bad p' ->
  p_cfg p' = p_cfg p \/
  (exists s, starts_with (text c (p_in p)) s /\
    ((s = str "interface" \/ s = str "default") /\ refs_only (p_cfg p) (p_cfg p') \/ mem s opt_names = true)).
Proof.
  intros e act c p p' L H. unfold parse_config_line.
  pose proof (round_start c p p L (hgood_refl _ H)) as R. pose proof (skip_ws_spec _ _ L) as Wk.
  destruct (skip_ws c (p_in p)) as (c1, r1). cbv zeta in R.
  destruct R as (R1 & R2 & R3 & R4 & R5). destruct Wk as (_ & _ & b & Eb & Fb).
  destruct (eol c1). { destruct (to_eol c1 r1). intros X. discriminate X. }
  destruct (getword c1 (set_in r1 p)) as [p1|c2 (t, s) p1] eqn:E1.
  { destruct (getword_badg _ _ _ R2 (hg_ok _ _ R3) E1) as (_ & Q). intros X. injection X as <-. auto. }
  destruct (getword_good _ _ _ _ _ _ R2 (hg_ok _ _ R3) E1) as (A1 & A2 & A3 & A4 & A5).
  pose proof (getword_starts _ _ _ _ _ _ R2 E1) as St.
  rewrite uset_live by easy. pose proof (hgood_trans _ _ _ R3 A1) as A0.
  destruct (directive e act s c2 p1) as [p2|c3 a p2] eqn:Ed; intros X; [injection X as <-|discriminate X].
  destruct (directive_rejected _ _ _ _ _ _ (eats_ok _ _ _ _ A4) (hg_ok _ _ A0) Ed) as [Q|Q].
  - left. rewrite freet_cfg, Q, A5. easy.
  - right. exists s. rewrite freet_cfg. rewrite A5 in Q. split; [|exact Q].
    destruct St as (b2 & r2 & Es & Fs). cbn [p_in set_in] in Es.
    exists (b ++ b2), r2. rewrite Eb, Es, <- app_assoc. split; [easy|]. apply Forall_app. auto.
Qed.

(** ** Read-only connections *)
Lemma directive_ro : forall e s c p, g_final (p_cfg p) = true -> g_write (p_cfg p) = false ->
  match directive e true s c p with
  | Bad p' => p_cfg p' = p_cfg p
  | Good c' (a, m) p' => p_cfg p' = p_cfg p /\ m = None /\ In (s, a) ro_commands /\ exists u, skip_eol c p = Good c' u p'
  end.
Proof.
  intros e s c p F W. unfold directive. rewrite F, W. cbn [negb andb].
  assert (Q : forall a w, beq s (str w) = true -> In (str w, a) ro_commands ->
    match line_action true a c p with
    | Bad p' => p_cfg p' = p_cfg p
    | Good c' (a, m) p' => p_cfg p' = p_cfg p /\ m = None /\ In (s, a) ro_commands /\ exists u, skip_eol c p = Good c' u p'
    end).
  { intros a w E I1. apply beq_true in E. subst s. unfold line_action. pose proof (skip_eol_cfg c p) as K.
    destruct (skip_eol c p); [easy|]. eauto. }
  destruct (beq s (str "quit")) eqn:E1; [apply (Q _ _ E1); now left|].
  destruct (beq s (str "dump")) eqn:E2; [apply (Q _ _ E2); right; now left|].
  destruct (beq s (str "monitor")) eqn:E3; [apply (Q _ _ E3); right; right; now left|].
  destruct (beq s (str "unmonitor")) eqn:E4; [apply (Q _ _ E4); right; right; right; now left|].
  easy.
Qed.
Lemma complete_bytes : forall l, complete_line l -> Forall (fun x => 0 <= x) l.
Proof. intros l (b & -> & _ & F). apply Forall_app. split; [easy|]. constructor; [lia|constructor]. Qed.
(** What follows a complete line, when the parser accepts it. *)
Lemma complete_end : forall l a b, complete_line l -> l = a ++ 10 :: b -> b = [] /\ a = removelast l.
Proof.
  intros l a b (body & -> & N & _) E.
  assert (B : b = []).
  { destruct b as [|x b] using rev_ind; [easy|exfalso]. rewrite app_comm_cons, app_assoc in E. apply app_inj_tail in E.
    destruct E as (E & _). apply N. rewrite E. apply in_or_app. right. now left. }
  subst b. split; [easy|]. rewrite removelast_last. apply app_inj_tail in E. now destruct E.
Qed.
Lemma from_string_ro : forall e l p a m p', complete_line l -> heap_ok p ->
  g_final (p_cfg p) = true -> g_write (p_cfg p) = false -> from_string e l p = (a, m, p') ->
  p_cfg p' = p_cfg p /\
  (a = -1 \/ m = None /\ (a = 0 /\ empty_line l \/
     exists x w, In (w, a) ro_commands /\ seen_as x w /\ word_line x l)).
Proof.
  intros e l p a m p' Cl H Fi Wr. unfold from_string. pose proof (complete_bytes _ Cl) as By.
  destruct l as [|c r]. { destruct Cl as (b & X & _). now destruct b. }
  inversion By as [|? ? Hc Hr]; subst.
  assert (L : lex_ok c (p_in (set_in r p))) by (split; auto).
  unfold parse_config_line. cbn [p_in set_in].
  pose proof (skip_ws_spec r c L) as Sk. destruct (skip_ws c r) as (c1, r1) eqn:Es. destruct Sk as (L1 & W & b & Eb & Fb).
  rewrite text_pos in Eb by easy.
  destruct (eol c1) eqn:D.
  { pose proof (to_eol_spec _ _ L1) as Q. destruct (to_eol c1 r1) as (c2, r2). destruct Q as (L2 & k & N & Q).
    cbn [set_in p_in]. destruct (Z.eqb_spec c2 (-1)) as [->|N2]; intros X; injection X as <- <- <-; cbn [set_in p_cfg]; [|auto].
    split; [easy|]. right. split; [easy|]. left. split; [easy|]. rewrite Eb. rewrite text_end in Q.
    assert (Qk : text c1 r1 = k ++ [10]).
    { destruct Q as [Q|[Q _]]; [easy|]. exfalso. destruct Cl as (body & Cb & Nb & _). rewrite Cb, Q in Eb.
      assert (In 10 (b ++ k)) as K by (rewrite <- Eb; apply in_or_app; right; now left).
      apply in_app_or in K. destruct K as [K|K]; [now apply (blank_no _ Fb)|easy]. }
    exists b, k. rewrite Qk. split; [easy|]. split; [easy|]. split; [easy|].
    destruct k as [|x k]; [now left|]. right. exists k. f_equal.
    assert (x = c1). { unfold text in Qk. destruct (c1 <? 0); [discriminate Qk|]. now injection Qk as -> _. }
    subst x. unfold eol in D. rewrite !orb_true_iff, !Z.eqb_eq in D. destruct D as [[D|D]|D]; [|subst; exfalso; apply N; now left|easy].
    unfold text in Qk. rewrite D in Qk. discriminate Qk. }
  set (p1 := set_in r1 (set_in r p)).
  destruct (getword c1 p1) as [p2|c2 (t, s) p2] eqn:E1.
  { destruct (getword_badg c1 p1 p2 L1 H E1) as (_ & Q). intros X. injection X as <- <- <-. split; [exact Q|now left]. }
  destruct (getword_good c1 p1 _ _ _ _ L1 H E1) as (A1 & A2 & A3 & A4 & A5).
  destruct (getword_back c1 p1 _ _ _ _ L1 W E1) as (w & Ew & Sw & Nw).
  rewrite uset_live by easy.
  pose proof (directive_ro e s c2 p2) as Q. rewrite A5 in Q. specialize (Q Fi Wr).
  destruct (directive e true s c2 p2) as [p3|c3 (a3, m3) p3].
  { intros X. injection X as <- <- <-. rewrite freet_cfg, Q. split; [easy|now left]. }
  destruct Q as (Q1 & -> & Q3 & u & Q4).
  destruct (Z.eqb_spec c3 (-1)) as [->|N3]; intros X; injection X as <- <- <-; rewrite freet_cfg, Q1.
  2:{ split; [easy|now left]. }
  split; [easy|]. right. split; [easy|]. right. exists w, s. split; [easy|]. split; [rewrite Sw; apply cstr_seen|].
  destruct (skip_eol_back _ _ _ _ _ (eats_ok _ _ _ _ A4) Q4) as (_ & b2 & k2 & F2 & N2 & K2 & T2).
  rewrite text_end in T2. exists b, (b2 ++ k2 ++ [10]). split; [|split; [easy|]].
  - rewrite Eb. f_equal. change (text c1 (p_in p1) = w ++ b2 ++ k2 ++ [10]). rewrite Ew. f_equal.
    destruct T2 as [T2|[T2 _]]; [easy|]. exfalso.
    destruct Cl as (body & Cb & Nb & _). rewrite Cb in Eb. change (text c1 r1) with (text c1 (p_in p1)) in Eb. rewrite Ew, T2 in Eb.
    assert (In 10 (b ++ w ++ b2 ++ k2)) as K by (rewrite <- Eb; apply in_or_app; right; now left).
    rewrite !in_app_iff in K. destruct K as [K|[K|[K|K]]]; try easy; [now apply (blank_no _ Fb)|now apply (blank_no _ F2)].
  - now exists b2, k2.
Qed.
(** The commands are obeyed. *)
Lemma skip_eol_empty : forall l c p, text c (p_in p) = l -> 0 <= c -> empty_line l -> Forall (fun x => 0 <= x) l ->
  exists u p', skip_eol c p = Good (-1) u p' /\ p_cfg p' = p_cfg p.
Proof.
  intros l c p E C (b & k & El & Fb & N & K) By. unfold skip_eol. rewrite text_pos in E by easy.
  destruct (k ++ [10]) as [|x y] eqn:Ek; [now destruct k|].
  assert (Hx : ws x = false /\ eol x = true).
  { destruct K as [->|(k' & ->)]; injection Ek as <- _; easy. }
  rewrite El in E. rewrite (skip_ws_app b c (p_in p) x y E Fb (proj1 Hx)). rewrite (proj2 Hx).
  assert (Fk : Forall (fun z => 0 <= z) k).
  { rewrite El, <- Ek in By. apply Forall_app in By. destruct By as (_ & By). apply Forall_app in By. tauto. }
  rewrite (to_eol_app k x y [] (eq_sym Ek) N Fk). simpl. eauto.
Qed.
Lemma from_string_command : forall e l p w a, complete_line l -> heap_ok p -> In (w, a) ro_commands -> word_line w l ->
  exists p', from_string e l p = (a, None, p') /\ p_cfg p' = p_cfg p.
Proof.
  intros e l p w a Cl H Iw (b & l' & El & Fb & Em). pose proof (complete_bytes _ Cl) as By.
  destruct l as [|c r]. { destruct Cl as (b' & X & _). now destruct b'. }
  assert (Wn : exists x y, w = x :: y). { repeat destruct Iw as [X|Iw]; try (injection X as <- _; simpl; eauto). destruct Iw. }
  destruct Wn as (x & y & Ewn).
  assert (Wd : Forall (fun x => ws x || eol x = false) w /\ Z.of_nat (length w) <= 255 /\ (x =? 34) = false /\ cstr w = w /\
     In (w, a) [(str "quit", ACT_QUIT); (str "dump", ACT_DUMP); (str "monitor", ACT_MONITOR); (str "unmonitor", ACT_UNMONITOR)]).
  { assert (Q : In (w, a) [(str "quit", ACT_QUIT); (str "dump", ACT_DUMP); (str "monitor", ACT_MONITOR); (str "unmonitor", ACT_UNMONITOR)]) by exact Iw.
    rewrite <- and_assoc, <- and_assoc, <- and_assoc. split; [|exact Q].
    repeat destruct Iw as [X|Iw]; try (injection X as X _; rewrite <- X in *; injection Ewn as <- _; split; [split; [split|]|]; [repeat constructor|vm_compute; congruence|reflexivity|reflexivity]).
    destruct Iw. }
  destruct Wd as (Wd & Wl & Wq & Wc & Wa).
  pose proof Em as (b2 & k2 & El' & F2 & N2 & K2).
  destruct l' as [|d z]. { destruct b2; [destruct k2|]; discriminate El'. }
  assert (Hd : ws d || eol d = true).
  { destruct b2 as [|d' b2].
    - destruct K2 as [->|(k' & ->)]; injection El' as -> _; easy.
    - injection El' as -> _. inversion F2; subst. apply orb_true_iff. left. now apply ws_iff. }
  assert (Hd0 : 0 <= d /\ Forall (fun z => 0 <= z) (d :: z)).
  { rewrite El in By. apply Forall_app in By. destruct By as (_ & By). apply Forall_app in By. destruct By as (_ & By). now inversion By. }
  unfold from_string, parse_config_line. cbn [p_in set_in].
  rewrite Ewn in El. rewrite (skip_ws_app b c r x (y ++ d :: z) El Fb).
  2:{ rewrite Ewn in Wd. inversion Wd as [|? ? Q _]; subst. apply orb_false_iff in Q. tauto. }
  assert (Ex : eol x = false). { rewrite Ewn in Wd. inversion Wd as [|? ? Q _]; subst. apply orb_false_iff in Q. tauto. }
  rewrite Ex. unfold getword. cbn [p_in set_in].
  assert (Es : skip_ws x (y ++ d :: z) = (x, y ++ d :: z)).
  { apply (skip_ws_app []); [easy|constructor|]. rewrite Ewn in Wd. inversion Wd as [|? ? Q _]; subst. apply orb_false_iff in Q. tauto. }
  rewrite Es, Ex, Wq. cbn [orb].
  rewrite (word_loop_app w x (y ++ d :: z) 0 d z); [|now rewrite Ewn|now rewrite Ewn|easy|easy|lia].
  assert (Hlt : (d <? -1) = false) by (apply Z.ltb_ge; lia). rewrite Hlt.
  unfold alloct. cbn [p_nxt p_live p_bad p_stuck p_cfg p_in set_in]. rewrite Wc.
  rewrite uset_live by now left.
  set (p1 := mkP z _ _ _ _ _).
  destruct (skip_eol_empty (d :: z) d p1 (text_pos _ _ (proj1 Hd0)) (proj1 Hd0) Em (proj2 Hd0)) as (u & p' & S1 & S2).
  assert (Q : directive e true w d p1 = Good (-1) (a, None) p').
  { unfold directive, line_action. rewrite S1. repeat destruct Wa as [X|Wa]; try (injection X as <- <-; reflexivity). destruct Wa. }
  rewrite Q. cbn [Z.eqb]. eexists. split; [reflexivity|]. rewrite freet_cfg, S2. easy.
Qed.

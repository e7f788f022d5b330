(** L_Config2.v: whole lines, strings and files. *)
From Coq Require Import String.
From Verif Require Import Base M_Util M_Filter M_Config S_Config L_Config.
Close Scope string_scope.
Open Scope Z_scope.

Global Arguments ifconf_loop : simpl never.
Global Arguments filter_loop : simpl never.
Global Arguments key_loop : simpl never.
Definition line_ok {A} (strict : Prop) (c : Z) (p : pst) (r : res A) : Prop :=
  match r with
  | Bad p' => hweak p p' /\ (strict -> p_bad p' = p_bad p)
  | Good c' _ p' => hgood p p' /\ ends c p c' p'
  end.
Lemma parses_line : forall A c p (r : res A) P, parses c p p r -> line_ok P c p r.
Proof.
  intros A c p [p'|c' a p'] P H; unfold parses in H; simpl.
  - destruct H as (H & _). split; [now apply hgood_weak|intros _; apply H].
  - tauto.
Qed.
Lemma skip_eol_line : forall c p, lex_ok c (p_in p) -> heap_ok p -> parses c p p (skip_eol c p).
Proof.
  intros c p L H. unfold skip_eol. pose proof (round_start c p p L (hgood_refl _ H)) as R.
  destruct (skip_ws c (p_in p)) as (c1, r1). cbv zeta in R. destruct R as (R1 & R2 & R3 & R4 & R5).
  destruct (eol c1).
  - destruct (to_eol c1 r1) as (c2, r2). split; [now eapply hsame_good; [|exact R3]|]. split; [easy|exact R5].
  - split; [exact R3|easy].
Qed.
Lemma getword_good : forall c p c' t s p', lex_ok c (p_in p) -> heap_ok p -> getword c p = Good c' (t, s) p' ->
  hgood p p' /\ In t (p_live p') /\ ~ In t (p_live p) /\ eats c p c' p' /\ p_cfg p' = p_cfg p.
Proof.
  intros c p c' t s p' L H E. pose proof (getword_spec c p L) as W. rewrite E in W.
  destruct W as (W0 & _ & K & W1 & W2 & W3 & W4 & W5 & W6).
  destruct (new_good p p p' t (hgood_refl _ H) W1 W2 W3 W4 W5) as (N1 & N2 & N3 & N4 & N5). auto.
Qed.
Lemma getword_badg : forall c p p', lex_ok c (p_in p) -> heap_ok p -> getword c p = Bad p' -> hgood p p' /\ p_cfg p' = p_cfg p.
Proof.
  intros c p p' L H E. pose proof (getword_spec c p L) as W. rewrite E in W.
  destruct W as (W1 & W2 & W3 & W4 & W5). split; [|easy]. now eapply hsame_good; [|apply hgood_refl, H].
Qed.
Lemma parses_from2 : forall A c p0 c1 p1 p2 c2 (r : res A), hgood p0 p1 -> eats c p0 c1 p1 -> hgood p1 p2 ->
  eats c1 p1 c2 p2 -> p_cfg p2 = p_cfg p0 -> parses c2 p2 p2 r -> parses c p0 p0 r.
Proof.
  intros A c p0 c1 p1 p2 c2 r H E H2 E2 G R. pose proof (hgood_trans _ _ _ H H2) as H3.
  pose proof (eats_trans _ _ _ _ _ _ E E2) as E3. destruct r as [p'|c' a p'].
  - destruct R as (R1 & R2). split; [eapply hgood_trans; eauto|congruence].
  - destruct R as (R1 & R2 & R3). split; [eapply hgood_trans; eauto|]. split; [congruence|]. eapply eats_ends; eauto.
Qed.
Lemma opt_done_line : forall A (r : res A) k c p P, lex_ok c (p_in p) -> heap_ok p -> reads c p r ->
  line_ok P c p (opt_done r k).
Proof.
  intros A [p'|c' v p'] k c p P L H R; unfold reads in R; simpl.
  - destruct R as (R & _). split; [now apply hgood_weak|intros _; apply R].
  - destruct R as (R1 & R2 & R3 & _). destruct (k v (p_cfg p')) as [g|]; simpl.
    + assert (Q : hgood p (set_cfg g p')) by now eapply hsame_good; [|exact R1].
      assert (Q2 : eats c p c' (set_cfg g p')) by now eapply eats_in; [exact R3|].
      pose proof (skip_eol_line c' (set_cfg g p') (eats_ok _ _ _ _ R3) (hg_ok _ _ Q)) as S.
      destruct (skip_eol c' (set_cfg g p')) as [p2|c2 a p2]; simpl in *.
      * destruct S as (S & _). split; [apply hgood_weak; eapply hgood_trans; eauto|].
        intros _. transitivity (p_bad p'); [apply S|apply R1].
      * destruct S as (S1 & S2 & S3). split; [eapply hgood_trans; eauto|]. eapply eats_ends; eauto.
    + split; [now apply hgood_weak|intros _; apply R1].
Qed.
Lemma getstring_reads : forall c p, lex_ok c (p_in p) -> heap_ok p -> reads c p (getstring c p).
Proof.
  intros c p L H. pose proof (getstring_spec c p L) as G. destruct (getstring c p) as [p'|c' (t, name) p']; simpl.
  - destruct G as (G1 & G2 & G3 & G4 & G5). split; [|easy]. now eapply hsame_good; [|now apply hgood_refl].
  - destruct G as (E & Sh & K & G1 & G2 & G3 & G4 & G5 & G6).
    destruct (new_good p p p' t (hgood_refl _ H) G1 G2 G3 G4 G5) as (N1 & N2 & N3 & N4 & N5). auto.
Qed.
Lemma line_bad : forall A P c p, heap_ok p -> line_ok P c p (@Bad A p).
Proof. intros. split; [now apply hgood_weak, hgood_refl|easy]. Qed.
Lemma parse_option_line : forall e s c p P, lex_ok c (p_in p) -> heap_ok p -> line_ok P c p (parse_option e s c p).
Proof.
  intros e s c p P L H. unfold parse_option. cbv zeta.
  repeat match goal with |- line_ok _ _ _ (if ?b then _ else _) => destruct b end.
  all: first [now apply line_bad | apply opt_done_line; auto using getconv_reads, getstring_reads].
Qed.
Lemma line_action_line : forall act a c p P, lex_ok c (p_in p) -> heap_ok p -> line_ok P c p (line_action act a c p).
Proof.
  intros act a c p P L H. unfold line_action. pose proof (skip_eol_line c p L H) as S.
  destruct (skip_eol c p) as [p'|c' u p']; [destruct S as (S & _)|destruct S as (S & _ & S3); destruct act]; simpl.
  - split; [now apply hgood_weak|intros _; apply S].
  - auto.
  - split; [now apply hgood_weak|intros _; apply S].
Qed.
Lemma line_filter_line : forall e w c p P, lex_ok c (p_in p) -> heap_ok p -> line_ok P c p (line_filter e w c p).
Proof.
  intros e w c p P L H. unfold line_filter. destruct (g_final (p_cfg p)); [now apply line_bad|].
  pose proof (parse_filter_parses e c p L H) as S.
  destruct (parse_filter e c p) as [p'|c' f p']; [destruct S as (S & _)|destruct S as (S & _ & S3)]; simpl.
  - split; [now apply hgood_weak|intros _; apply S].
  - split; [now eapply hsame_good; [|exact S]|]. now eapply ends_in; [exact S3|].
Qed.
Lemma line_key_line : forall c p P, lex_ok c (p_in p) -> heap_ok p -> line_ok P c p (line_key c p).
Proof.
  intros c p P L H. unfold line_key.
  pose proof (parse_key_parses c p L H) as S.
  destruct (parse_key c p) as [p'|c' ((id, ty), v) p']; [destruct S as (S & _)|destruct S as (S & _ & S3)]; simpl.
  - split; [now apply hgood_weak|intros _; apply S].
  - split; [now eapply hsame_good; [|exact S]|]. now eapply ends_in; [exact S3|].
Qed.
Lemma line_interface_line : forall c p, lex_ok c (p_in p) -> heap_ok p ->
  line_ok (plain (text c (p_in p))) c p (line_interface c p).
Proof.
  intros c p L H. unfold line_interface, parse_ifconf.
  pose proof (round_start c p p L (hgood_refl _ H)) as R.
  destruct (skip_ws c (p_in p)) as (c1, r1). cbv zeta in R. destruct R as (R1 & R2 & R3 & R4 & R5).
  destruct ((c1 =? 10) || (c1 =? 35)). { split; [now apply hgood_weak|easy]. }
  pose proof (getstring_spec c1 (set_in r1 p) R2) as G. destruct (getstring c1 (set_in r1 p)) as [p'|c2 (t, name) p2]; simpl.
  - destruct G as (G1 & G2 & G3 & G4 & G5). assert (Hg : hgood p p') by now eapply hsame_good; [|exact R3].
    split; [now apply hgood_weak|intros _; apply Hg].
  - destruct G as (E & Sh & K & G1 & G2 & G3 & G4 & G5 & G6).
    destruct (new_good p _ p2 t R3 G1 G2 G3 G4 G5) as (N1 & N2 & N3 & N4 & N5).
    pose proof (eats_trans _ _ _ _ _ _ R1 E) as E2.
    destruct (ifconf_loop_parses (S (S (length (p_in p2)))) c2 None (Some t) (ic0 name) p2 p) as (A & B); try easy.
    + apply (eats_ok _ _ _ _ E).
    + rewrite G6. apply refs_refl.
    + apply fuel_enough.
    + destruct (ifconf_loop (S (S (length (p_in p2)))) c2 None (Some t) (ic0 name) p2) as [p3|c3 ic p3]; simpl.
      * destruct A as (A1 & A2 & A3). split; [easy|]. intros P. apply A3. eapply plain_eats; eauto.
      * destruct A as (A1 & A2 & A3). destruct (add_ifconf ic (g_ifs (p_cfg p3))) as (l, merged).
        set (g' := if g_final (p_cfg p3) then _ else _).
        assert (Hg : hgood p (set_cfg g' p3)) by now eapply hsame_good; [|exact A1].
        assert (He : ends c p c3 (set_cfg g' p3)). { eapply eats_ends; [exact E2|]. now eapply ends_in; [exact A3|]. }
        destruct merged; [|now split]. simpl. split.
        -- apply freeo_good; [easy|]. exact B.
        -- eapply ends_in; [exact He|]. apply freet_in.
Qed.
Lemma line_default_line : forall c p, lex_ok c (p_in p) -> heap_ok p ->
  line_ok (plain (text c (p_in p))) c p (line_default c p).
Proof.
  intros c p L H. unfold line_default.
  destruct (ifconf_loop_parses (S (S (length (p_in p)))) c None None (ic0 []) p p L (hgood_refl _ H) Logic.I) as (A & B);
    [easy|easy|apply refs_refl|apply fuel_enough|].
  - destruct (ifconf_loop (S (S (length (p_in p)))) c None None (ic0 []) p) as [p3|c3 ic p3]; simpl.
    + destruct A as (A1 & A2 & A3). auto.
    + destruct A as (A1 & A2 & A3). split; [now eapply hsame_good; [|exact A1]|]. now eapply ends_in; [exact A3|].
Qed.
Lemma line_flush_line : forall e c p P, lex_ok c (p_in p) -> heap_ok p -> line_ok P c p (line_flush e c p).
Proof.
  intros e c p P L H. unfold line_flush.
  destruct (getword c p) as [p1|c1 (t2, s2) p1] eqn:E1.
  { destruct (getword_badg _ _ _ L H E1) as (Q & _). split; [now apply hgood_weak|intros _; apply Q]. }
  destruct (getword_good _ _ _ _ _ _ L H E1) as (A1 & A2 & A3 & A4 & A5).
  rewrite uset_live by easy. pose proof (hg_ok _ _ A1) as H1. pose proof (eats_ok _ _ _ _ A4) as L1.
  destruct (beq s2 (str "interface")).
  2:{ destruct (freet_good p p1 t2 A1 A2 A3) as (F & _). split; [now apply hgood_weak|intros _; apply F]. }
  destruct (getword c1 p1) as [p2|c2 (t, name) p2] eqn:E2.
  { destruct (getword_badg _ _ _ L1 H1 E2) as (Q & _).
    destruct (freet_good p p2 t2 (hgood_trans _ _ _ A1 Q)) as (F & _); [now apply (hg_incl _ _ Q)|easy|].
    split; [now apply hgood_weak|intros _; apply F]. }
  destruct (getword_good _ _ _ _ _ _ L1 H1 E2) as (B1 & B2 & B3 & B4 & B5).
  assert (Nt : t <> t2) by (intros ->; easy).
  assert (B6 : ~ In t (p_live p)). { intros K. apply B3. now apply (hg_incl _ _ A1). }
  pose proof (skip_eol_line c2 p2 (eats_ok _ _ _ _ B4) (hg_ok _ _ B1)) as S.
  destruct (skip_eol c2 p2) as [p3|c3 u p3].
  - destruct S as (S & _). pose proof (hgood_trans _ _ _ A1 (hgood_trans _ _ _ B1 S)) as Q.
    destruct (freet_good p p3 t Q) as (F & F'); [now apply (hg_incl _ _ S)|easy|].
    destruct (freet_good p (freet (Some t) p3) t2 F) as (F2 & _); [|easy|].
    + apply F'; [|congruence]. now apply (hg_incl _ _ S), (hg_incl _ _ B1).
    + split; [now apply hgood_weak|intros _; apply F2].
  - destruct S as (S & Sg & Se). pose proof (hgood_trans _ _ _ A1 (hgood_trans _ _ _ B1 S)) as Q.
    assert (Lt : In t (p_live p3)) by now apply (hg_incl _ _ S).
    assert (Lt2 : In t2 (p_live p3)) by now apply (hg_incl _ _ S), (hg_incl _ _ B1).
    rewrite uset_live by easy.
    set (p4 := set_cfg _ p3).
    assert (Q4 : hgood p p4) by now eapply hsame_good; [|exact Q].
    destruct (freet_good p p4 t2 Q4 Lt2 A3) as (F & F').
    destruct (freet_good p (freet (Some t2) p4) t F (F' _ Lt Nt) B6) as (F2 & _).
    split; [exact F2|]. apply (ends_in c p c3 p4); [|now rewrite !freet_in].
    apply (ends_in c p c3 p3); [|reflexivity]. exact (eats_ends _ _ _ _ _ _ (eats_trans _ _ _ _ _ _ A4 B4) Se).
Qed.

Lemma directive_line : forall e act s c p, lex_ok c (p_in p) -> heap_ok p ->
  line_ok (plain (text c (p_in p)) \/ s <> str "interface" /\ s <> str "default") c p (directive e act s c p).
Proof.
  intros e act s c p L H. unfold directive.
  destruct (beq s (str "quit")); [now apply line_action_line|].
  destruct (beq s (str "dump")); [now apply line_action_line|].
  destruct (beq s (str "monitor")); [now apply line_action_line|].
  destruct (beq s (str "unmonitor")); [now apply line_action_line|].
  destruct (g_final (p_cfg p) && negb (g_write (p_cfg p))).
  { assert (hgood p (set_in (snd (to_eol c (p_in p))) p)) as Q by now eapply hsame_good; [|now apply hgood_refl].
    split; [now apply hgood_weak|easy]. }
  destruct (beq s (str "in")); [now apply line_filter_line|].
  destruct (beq s (str "out")); [now apply line_filter_line|].
  destruct (beq s (str "redistribute")); [now apply line_filter_line|].
  destruct (beq s (str "install")); [now apply line_filter_line|].
  destruct (beq s (str "interface")) eqn:Ei.
  { apply beq_true in Ei. pose proof (line_interface_line c p L H) as Q. destruct (line_interface c p); [|exact Q].
    destruct Q as (Q1 & Q2). split; [easy|]. intros [P|[P _]]; auto. easy. }
  destruct (beq s (str "default")) eqn:Ed.
  { apply beq_true in Ed. pose proof (line_default_line c p L H) as Q. destruct (line_default c p); [|exact Q].
    destruct Q as (Q1 & Q2). split; [easy|]. intros [P|[_ P]]; auto. easy. }
  destruct (beq s (str "flush")); [now apply line_flush_line|].
  destruct (beq s (str "reopen-logfile")).
  { pose proof (skip_eol_line c p L H) as S.
    destruct (skip_eol c p) as [p'|c' u p']; [destruct S as (S & _)|destruct S as (S & _ & S3); destruct act]; simpl.
    - split; [now apply hgood_weak|intros _; apply S].
    - split; [now eapply hsame_good; [|exact S]|]. now eapply ends_in; [exact S3|].
    - split; [now apply hgood_weak|intros _; apply S]. }
  destruct (beq s (str "key")); [now apply line_key_line|].
  pose proof (parse_option_line e s c p (plain (text c (p_in p)) \/ s <> str "interface" /\ s <> str "default") L H) as Q.
  destruct (parse_option e s c p); exact Q.
Qed.

Lemma cstr_prefix : forall w, exists r, w = cstr w ++ r.
Proof.
  induction w as [|x w [r IH]]; [now exists []|]. simpl. destruct (x =? 0); [now exists (x :: w)|].
  exists r. simpl. now f_equal.
Qed.
Lemma getword_starts : forall c p c' t s p', lex_ok c (p_in p) -> getword c p = Good c' (t, s) p' ->
  starts_with (text c (p_in p)) s.
Proof.
  intros c p c' t s p' L. unfold getword. pose proof (skip_ws_spec _ _ L) as K.
  destruct (skip_ws c (p_in p)) as (c0, r0). destruct K as (K1 & W & l0 & E0 & F0).
  destruct (eol c0 || (c0 =? 34)) eqn:D; [intros X; discriminate X|].
  apply orb_false_iff in D. destruct D as (D & _). unfold eol in D. rewrite !orb_false_iff in D.
  destruct D as ((D1 & D2) & _). apply Z.ltb_ge in D1. apply Z.eqb_neq in D2.
  pose proof (word_loop_spec r0 c0 0 D1 D2 (proj2 K1) ltac:(lia)) as H.
  destruct (word_loop c0 r0 0) as ((c1, r1), w).
  destruct H as [->|(A & B & E & N & Ne & H)]; [intros X; discriminate X|].
  destruct (c1 <? -1); [intros X; discriminate X|]. unfold alloct. intros X. injection X as <- <- <- <-.
  destruct (cstr_prefix w) as (r & Er). exists l0, (r ++ text c1 r1). rewrite E0, E. split; [|easy].
  rewrite Er at 1. now rewrite <- app_assoc.
Qed.

Lemma parse_config_line_ok : forall e act c p, lex_ok c (p_in p) -> heap_ok p ->
  line_ok (plain (text c (p_in p)) \/
           ~ starts_with (text c (p_in p)) (str "interface") /\ ~ starts_with (text c (p_in p)) (str "default"))
          c p (parse_config_line e act c p).
Proof.
  intros e act c p L H. unfold parse_config_line.
  pose proof (round_start c p p L (hgood_refl _ H)) as R. pose proof (skip_ws_spec _ _ L) as Wk.
  destruct (skip_ws c (p_in p)) as (c1, r1). cbv zeta in R.
  destruct R as (R1 & R2 & R3 & R4 & R5). destruct Wk as (_ & _ & b & Eb & Fb).
  destruct (eol c1).
  { destruct (to_eol c1 r1) as (c2, r2). split; [now eapply hsame_good; [|exact R3]|exact R5]. }
  destruct (getword c1 (set_in r1 p)) as [p1|c2 (t, s) p1] eqn:E1.
  { destruct (getword_badg _ _ _ R2 (hg_ok _ _ R3) E1) as (Q & _). pose proof (hgood_trans _ _ _ R3 Q) as Q'.
    split; [now apply hgood_weak|intros _; apply Q']. }
  destruct (getword_good _ _ _ _ _ _ R2 (hg_ok _ _ R3) E1) as (A1 & A2 & A3 & A4 & A5).
  pose proof (getword_starts _ _ _ _ _ _ R2 E1) as St.
  rewrite uset_live by easy. pose proof (hgood_trans _ _ _ R3 A1) as A0.
  pose proof (eats_trans _ _ _ _ _ _ R1 A4) as E2.
  pose proof (directive_line e act s c2 p1 (eats_ok _ _ _ _ A4) (hg_ok _ _ A0)) as Q.
  destruct (directive e act s c2 p1) as [p2|c3 a p2]; simpl in *.
  - destruct Q as (Q1 & Q2). assert (Lt : In t (p_live p2)) by now apply (hw_incl _ _ Q1).
    split.
    + apply free_weak; [|easy]. eapply hweak_trans; [apply hgood_weak, A0|exact Q1].
    + intros P. transitivity (p_bad p2).
      * unfold freet. apply is_live_iff in Lt. now rewrite Lt.
      * transitivity (p_bad p1); [|apply A0]. apply Q2. destruct P as [P|[P1 P2]].
        -- left. eapply plain_eats; [exact E2|exact P].
        -- right. assert (Z0 : forall w, s = w -> starts_with (text c (p_in p)) w).
           { intros w <-. destruct St as (b2 & r2 & Es & Fs). cbn [p_in set_in] in Es.
             exists (b ++ b2), r2. rewrite Eb, Es, <- app_assoc. split; [easy|]. apply Forall_app. auto. }
           split; intros X; [apply P1|apply P2]; now apply Z0.
  - destruct Q as (Q1 & Q2). destruct (freet_good p p2 t (hgood_trans _ _ _ A0 Q1)) as (F & _); [now apply (hg_incl _ _ Q1)|easy|].
    split; [exact F|]. eapply ends_in; [|apply freet_in]. eapply eats_ends; eauto.
Qed.

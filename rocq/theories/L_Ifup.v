(** L_Ifup.v: the values of parameters that a configuration can give. *)
From Coq Require Import String.
From Verif Require Import Base M_Util M_Filter M_Config M_Ifup S_Config L_Config L_Config2 L_Config3 L_Config4 S_Ifup.
Close Scope string_scope.
Open Scope Z_scope.

Local Arguments filter_loop e !fuel c f ifn p.
Local Arguments ifconf_loop !fuel c tok name ic p.
Local Arguments key_loop !fuel c k p.

Lemma F2_set : forall (P : Z -> Z -> Prop) l b i v, Forall2 P l b -> (i < length b)%nat -> P v (nth i b 0) ->
  Forall2 P (firstn i l ++ v :: skipn (S i) l) b.
Proof.
  intros P l b i v F. revert i. induction F as [|x y l b Pxy F IH]; intros i L Pv; [cbn in L; lia|].
  destruct i as [|i]; cbn [firstn skipn app nth] in *; constructor; auto. apply IH; auto. cbn in L. lia.
Qed.
Lemma set_val_ok : forall i v ic, vals_ok (ic_vals ic) -> (i < 17)%nat -> 0 <= v <= nth i val_bounds 0 -> vals_ok (ic_vals (set_val i v ic)).
Proof. intros. unfold vals_ok, set_val. cbn [ic_vals]. apply F2_set; auto. Qed.
Lemma merge_vals_ok : forall a b, vals_ok a -> vals_ok b -> vals_ok (merge_vals a b).
Proof.
  unfold vals_ok. intros a b Fa. revert b. induction Fa as [|x y a bb Px Fa IH]; intros b Fb; inversion Fb; subst; cbn [merge_vals]; constructor; auto.
  destruct (x =? 0); auto.
Qed.
Lemma ic0_ok : forall n, vals_ok (ic_vals (ic0 n)).
Proof. intros n. unfold vals_ok, ic0, val_bounds. cbn [ic_vals repeat]. repeat (apply Forall2_cons; [lia|]). constructor. Qed.

Definition rval {A} (P : A -> Prop) (r : res A) : Prop := match r with Bad _ => True | Good _ a _ => P a end.
Lemma with_val_val : forall A B (Q : A -> Prop) (P : B -> Prop) (r : res A) k, rval Q r -> (forall v x, Q v -> k v = Some x -> P x) -> rval P (with_val r k).
Proof. intros A B Q P r k H K. unfold with_val. destruct r as [p|c v p]; cbn; auto. destruct (k v) as [x|] eqn:E; cbn; auto. eapply K; eauto. Qed.
Lemma getconv_val : forall A (f : list Z -> option A) (Q : A -> Prop) c p, (forall s x, f s = Some x -> Q x) -> rval Q (getconv f c p).
Proof.
  intros A f Q c p H. unfold getconv. destruct (getword c p) as [p1|c1 (t, s) p1]; cbn; auto. destruct (f s) eqn:E; cbn; auto. eapply H; eauto.
Qed.
Lemma conv_bool_val : forall s x, conv_bool s = Some x -> 0 <= x <= 2.
Proof. intros s x. unfold conv_bool. repeat destruct (_ || _); intros E; inversion E; lia. Qed.
Lemma conv_type_val : forall s x, conv_type s = Some x -> 0 <= x <= 3.
Proof. intros s x. unfold conv_type. destruct (_ || _); [|repeat destruct (beq _ _)]; intros E; inversion E; lia. Qed.
Lemma if_kw_val : forall s c ic p, vals_ok (ic_vals ic) -> rval (fun ic => vals_ok (ic_vals ic)) (if_kw s c ic p).
Proof.
  intros s c ic p H. unfold if_kw. cbv zeta.
  assert (I : forall lo hi i, 0 <= lo -> hi <= nth i val_bounds 0 -> (i < 17)%nat -> rval (fun ic => vals_ok (ic_vals ic))
    (with_val (getconv conv_int c p) (fun v => if (v <? lo) || (v >? hi) then None else Some (set_val i v ic)))).
  { intros lo hi i A B C. eapply (with_val_val _ _ (fun _ => True)); [now apply getconv_val|]. intros v x _. destruct (_ || _) eqn:E; intros X; inversion X; subst. apply set_val_ok; auto. lia. }
  assert (T : forall hi i, hi <= nth i val_bounds 0 -> (i < 17)%nat -> rval (fun ic => vals_ok (ic_vals ic))
    (with_val (getconv conv_thousands c p) (fun v => if (v <=? 0) || (v >? hi) then None else Some (set_val i v ic)))).
  { intros hi i B C. eapply (with_val_val _ _ (fun _ => True)); [now apply getconv_val|]. intros v x _. destruct (_ || _) eqn:E; intros X; inversion X; subst. apply set_val_ok; auto. lia. }
  assert (Bo : forall i, 2 <= nth i val_bounds 0 -> (i < 17)%nat -> rval (fun ic => vals_ok (ic_vals ic))
    (with_val (getconv conv_bool c p) (fun v => Some (set_val i v ic)))).
  { intros i B C. eapply with_val_val; [apply getconv_val; exact conv_bool_val|]. cbv beta. intros v x V X; inversion X; subst. apply set_val_ok; auto. lia. }
  repeat match goal with |- rval _ (if ?b then _ else _) => destruct b end;
    match goal with
    | |- rval _ (with_val (getconv conv_int _ _) (fun v => if (v <? ?lo) || (v >? ?hi) then None else Some (set_val ?i v _))) => apply (I lo hi i); [lia|vm_compute; discriminate|lia]
    | |- rval _ (with_val (getconv conv_thousands _ _) (fun v => if _ || (v >? ?hi) then None else Some (set_val ?i v _))) => apply (T hi i); [vm_compute; discriminate|lia]
    | |- rval _ (with_val (getconv conv_bool _ _) (fun v => Some (set_val ?i v _))) => apply (Bo i); [vm_compute; discriminate|lia]
    | _ => idtac
    end.
  - eapply with_val_val; [apply getconv_val; exact conv_type_val|]. cbv beta. intros v x V X; inversion X; subst. apply set_val_ok; auto; lia.
  - eapply with_val_val; [apply getconv_val; exact conv_bool_val|]. cbv beta. intros v x V X; inversion X; subst. apply set_val_ok; auto; try lia. unfold val_bounds. cbn [nth]. destruct (v =? 2); lia.
  - destruct (getword c p) as [p1|c1 (t, s1) p1]; cbn; auto. destruct (find_key _ _) as ([i|], g); cbn; auto.
  - exact Logic.I.
Qed.
Lemma ifconf_loop_val : forall fuel c tok name ic p, vals_ok (ic_vals ic) -> rval (fun ic => vals_ok (ic_vals ic)) (ifconf_loop fuel c tok name ic p).
Proof.
  induction fuel as [|fuel IH]; intros c tok name ic p H; [exact Logic.I|]. cbn [ifconf_loop].
  destruct (skip_ws c (p_in p)) as (c1, r1). destruct (eol c1); [destruct (to_eol c1 r1); exact H|].
  destruct (getword c1 (set_in r1 p)) as [p1|c2 (t, s) p1]; [exact Logic.I|].
  pose proof (if_kw_val s c2 ic (uset t p1) H) as Q. destruct (if_kw s c2 ic (uset t p1)) as [p2|c3 ic3 p2]; [exact Logic.I|].
  apply IH. exact Q.
Qed.
Lemma add_ifconf_val : forall ic l, vals_ok (ic_vals ic) -> Forall (fun ic => vals_ok (ic_vals ic)) l -> Forall (fun ic => vals_ok (ic_vals ic)) (fst (add_ifconf ic l)).
Proof.
  intros ic l H F. induction F as [|x l Hx F IH]; cbn [add_ifconf]; [constructor; auto; constructor|].
  destruct (beq _ _); cbn [fst].
  - constructor; auto. cbn. apply merge_vals_ok; auto.
  - destruct (add_ifconf ic l) as (l', b). cbn [fst] in *. constructor; auto.
Qed.

(** ** The rest of the configuration leaves the interfaces alone *)
Definition keeps_ifs (f : cfg -> cfg) : Prop := forall g, g_ifs (f g) = g_ifs g /\ g_default (f g) = g_default g.
Lemma ivs_same : forall g g', g_ifs g' = g_ifs g -> g_default g' = g_default g -> ifs_valid g -> ifs_valid g'.
Proof. unfold ifs_valid. intros g g' -> ->. auto. Qed.
Lemma find_key_ifs : forall id g, g_ifs (snd (find_key id g)) = g_ifs g /\ g_default (snd (find_key id g)) = g_default g.
Proof. intros. unfold find_key, retain_key. destruct (index_key id (g_keys g)); [|easy]. destruct (nth_error _ _); [|easy]. destruct (_ <? _); easy. Qed.
Lemma find_key_iv : forall id g, ifs_valid g -> ifs_valid (snd (find_key id g)).
Proof. intros id g. destruct (find_key_ifs id g). now apply ivs_same. Qed.
Lemma add_key_iv : forall id ty v g, ifs_valid g -> ifs_valid (add_key id ty v g).
Proof.
  intros id ty v g H. unfold add_key. pose proof (find_key_iv id g H) as K. destruct (find_key id g) as ([i|], g1); cbn [snd] in K.
  - destruct (nth_error (g_keys g1) i); [|exact K]. exact K.
  - exact K.
Qed.
Lemma opt_write_iv : forall s g, ifs_valid g -> ifs_valid (opt_write s g).
Proof. intros s g H. unfold opt_write. destruct (_ || _); [exact H|]. destruct (_ || _); exact H. Qed.
Lemma effect1_iv : forall x g, ifs_valid g -> ifs_valid (effect1 x g). Proof. intros x g H. exact H. Qed.
Lemma parse_option_iv : forall e s c p, ifs_valid (p_cfg p) -> rcfg ifs_valid (parse_option e s c p).
Proof.
  intros e s c p G. unfold parse_option. cbv zeta.
  destruct (g_final (p_cfg p) && _); [exact G|].
  destruct (mem s int_opts). { apply opt_done_same; [now apply getconv_same|]. intros v g g' H. destruct (_ || _); intros X; [discriminate X|]. injection X as <-. now apply opt_write_iv, effect1_iv. }
  destruct (mem s bool_opts). { apply opt_done_same; [now apply getconv_same|]. intros v g g' H X. injection X as <-. now apply effect1_iv. }
  destruct (beq s (str "protocol-group")). { apply opt_done_same; [now apply getconv_same|]. intros [v z] g g' H X. injection X as <-. now apply effect1_iv. }
  destruct (mem s str_opts).
  { apply opt_done_same; [now apply getstring_same|]. intros [v z] g g' H X. injection X as <-.
    destruct (_ && _); [apply effect1_iv|]; now apply opt_write_iv, effect1_iv. }
  destruct (beq s (str "debug")). { apply opt_done_same; [now apply getconv_same|]. intros v g g' H. destruct (v <? 0); intros X; [discriminate X|]. injection X as <-. now apply effect1_iv. }
  destruct (beq s (str "smoothing-half-life")). { apply opt_done_same; [now apply getconv_same|]. intros v g g' H. destruct (v <? 0); intros X; [discriminate X|]. injection X as <-. now apply effect1_iv. }
  destruct (beq s (str "router-id")). { apply opt_done_same; [now apply getconv_same|]. intros v g g' H X. injection X as <-. now apply effect1_iv. }
  exact G.
Qed.
Lemma if_kw_iv : forall s c ic p, ifs_valid (p_cfg p) -> rcfg ifs_valid (if_kw s c ic p).
Proof.
  intros s c ic p H. unfold if_kw. cbv zeta.
  repeat match goal with |- rcfg _ (if ?b then _ else _) => destruct b end;
    try (apply with_val_same; now apply getconv_same); try exact H.
  pose proof (getword_same ifs_valid c p H) as K. destruct (getword c p) as [p1|c2 (t, s2) p1]; [exact K|].
  rewrite uset_cfg. pose proof (find_key_iv s2 (p_cfg p1) K) as Q. destruct (find_key s2 (p_cfg p1)) as (o, g1). cbn [snd] in Q.
  destruct o; unfold rcfg; rewrite freet_cfg; exact Q.
Qed.
Lemma ifconf_loop_iv : forall fuel c tok name ic p, ifs_valid (p_cfg p) -> rcfg ifs_valid (ifconf_loop fuel c tok name ic p).
Proof.
  induction fuel as [|fuel IH]; intros c tok name ic p H; [exact H|]. cbn [ifconf_loop].
  destruct (skip_ws c (p_in p)) as (c1, r1). destruct (eol c1); [destruct (to_eol c1 r1); exact H|].
  pose proof (getword_same ifs_valid c1 (set_in r1 p) H) as K. destruct (getword c1 (set_in r1 p)) as [p1|c2 (t, s) p1].
  { unfold rcfg. now rewrite !freet_cfg. }
  pose proof (if_kw_iv s c2 ic (uset t p1)) as Q. rewrite uset_cfg in Q. specialize (Q K).
  destruct (if_kw s c2 ic (uset t p1)) as [p2|c3 ic3 p2].
  - unfold rcfg. now rewrite !freet_cfg.
  - apply IH. now rewrite freet_cfg.
Qed.
Lemma directive_iv : forall e act s c p, ifs_valid (p_cfg p) -> rcfg ifs_valid (directive e act s c p).
Proof.
  intros e act s c p G. unfold directive.
  assert (La : forall a, rcfg ifs_valid (line_action act a c p)).
  { intros a. unfold line_action. pose proof (skip_eol_same ifs_valid c p G) as K. destruct (skip_eol c p); [exact K|]. destruct act; exact K. }
  assert (Lf : forall w, rcfg ifs_valid (line_filter e w c p)).
  { intros w. unfold line_filter. destruct (g_final (p_cfg p)); [exact G|]. unfold parse_filter.
    pose proof (filter_loop_grow e (S (S (length (p_in p)))) c filt0 None p ifs_valid G) as K.
    unfold with_cfg. pose proof (with_val_same _ _ _ _ (fun v => Some (finish_filter v)) K) as Q.
    destruct (with_val _ _) as [p1|c1 f p1]; [exact Q|]. exact Q. }
  repeat match goal with |- rcfg _ (if ?b then _ else _) => destruct b end; try apply La; try apply Lf; try exact G.
  - unfold line_interface, parse_ifconf. destruct (skip_ws c (p_in p)) as (c1, r1). destruct (_ || _); [exact G|].
    pose proof (getstring_same ifs_valid c1 (set_in r1 p) G) as K. destruct (getstring c1 (set_in r1 p)) as [p1|c2 (t, nm) p1]; [exact K|].
    pose proof (ifconf_loop_iv (S (S (length (p_in p1)))) c2 None (Some t) (ic0 nm) p1 K) as Q.
    pose proof (ifconf_loop_val (S (S (length (p_in p1)))) c2 None (Some t) (ic0 nm) p1 (ic0_ok nm)) as V. unfold with_cfg.
    destruct (ifconf_loop _ c2 None (Some t) (ic0 nm) p1) as [p2|c3 ic p2]; [exact Q|]. cbn [with_val rval] in *.
    pose proof (add_ifconf_val ic (g_ifs (p_cfg p2)) V (proj1 Q)) as Ad.
    destruct (add_ifconf ic (g_ifs (p_cfg p2))) as (l, mg). cbn [fst] in Ad. unfold rcfg.
    set (g' := if g_final (p_cfg p2) then _ else _).
    assert (R : ifs_valid g').
    { unfold g'. destruct Q as (_ & Q). destruct (g_final (p_cfg p2)); split; auto. }
    destruct mg; [rewrite freet_cfg|]; exact R.
  - unfold line_default. pose proof (ifconf_loop_iv (S (S (length (p_in p)))) c None None (ic0 []) p G) as Q.
    pose proof (ifconf_loop_val (S (S (length (p_in p)))) c None None (ic0 []) p (ic0_ok [])) as V.
    destruct (ifconf_loop _ c None None (ic0 []) p) as [p2|c3 ic p2]; [exact Q|]. unfold rcfg. cbn [p_cfg set_cfg rval] in *.
    destruct Q as (Q1 & Q2). split; [exact Q1|]. cbn [set_default g_default]. destruct (g_default (p_cfg p2)); auto. apply merge_vals_ok; auto.
  - unfold line_flush. pose proof (getword_same ifs_valid c p G) as K. destruct (getword c p) as [p1|c1 (t2, s2) p1]; [exact K|].
    destruct (beq s2 _); [|unfold rcfg; now rewrite freet_cfg, uset_cfg].
    pose proof (getword_same ifs_valid c1 (uset t2 p1)) as K2. rewrite uset_cfg in K2. specialize (K2 K).
    destruct (getword c1 (uset t2 p1)) as [p2|c2 (t, nm) p2]; [unfold rcfg; now rewrite freet_cfg|].
    pose proof (skip_eol_same ifs_valid c2 p2 K2) as K3. destruct (skip_eol c2 p2) as [p3|c3 u p3]; [unfold rcfg; now rewrite !freet_cfg|].
    unfold rcfg. rewrite !freet_cfg. cbn [set_cfg p_cfg]. rewrite uset_cfg. now apply effect1_iv.
  - pose proof (skip_eol_same ifs_valid c p G) as K. destruct (skip_eol c p); [exact K|]. destruct act; [|exact K].
    unfold rcfg in *. cbn [set_cfg p_cfg]. now apply effect1_iv.
  - unfold line_key, parse_key. pose proof (key_loop_grow (S (S (length (p_in p)))) c (mkKp None 0 []) p ifs_valid G) as K.
    destruct (key_loop _ c (mkKp None 0 []) p) as [p1|c1 k p1]; [exact K|].
    destruct (finish_key k) as [((id, ty), v)|]; unfold rcfg in *; [|now rewrite freet_cfg]. cbn [set_cfg p_cfg].
    now apply add_key_iv.
  - pose proof (parse_option_iv e s c p G) as K. destruct (parse_option e s c p); exact K.
Qed.
Lemma line_iv : forall e act c p, ifs_valid (p_cfg p) -> rcfg ifs_valid (parse_config_line e act c p).
Proof.
  intros e act c p G. unfold parse_config_line.
  destruct (skip_ws c (p_in p)) as (c1, r1). destruct (eol c1); [destruct (to_eol c1 r1); exact G|].
  pose proof (getword_same ifs_valid c1 (set_in r1 p) G) as K. destruct (getword c1 (set_in r1 p)) as [p1|c2 (t, s) p1]; [exact K|].
  pose proof (directive_iv e act s c2 (uset t p1)) as Q. rewrite uset_cfg in Q. specialize (Q K).
  destruct (directive e act s c2 (uset t p1)) as [p2|c3 a p2]; unfold rcfg in *; now rewrite freet_cfg.
Qed.
Lemma from_string_iv : forall e l p, ifs_valid (p_cfg p) -> ifs_valid (p_cfg (snd (from_string e l p))).
Proof.
  intros e [|c r] p G; [exact G|]. unfold from_string. pose proof (line_iv e true c (set_in r p) G) as K.
  destruct (parse_config_line e true c (set_in r p)) as [p1|c1 (a, m) p1]; [exact K|]. destruct (c1 =? -1); exact K.
Qed.
Lemma file_loop_iv : forall e fuel c p, ifs_valid (p_cfg p) -> ifs_valid (p_cfg (snd (file_loop e fuel c p))).
Proof.
  intros e. induction fuel as [|fuel IH]; intros c p G; [exact G|]. cbn [file_loop].
  pose proof (line_iv e false c p G) as K. destruct (parse_config_line e false c p) as [p1|c1 a p1]; [exact K|].
  destruct (c1 =? -1); [exact K|]. apply IH. exact K.
Qed.
Lemma from_file_iv : forall e l p, ifs_valid (p_cfg p) -> ifs_valid (p_cfg (snd (from_file e l p))).
Proof. intros e [|c r] p G; [exact G|]. unfold from_file. exact (file_loop_iv e (S (S (length r))) c (set_in r p) G). Qed.

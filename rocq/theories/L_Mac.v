(** L_Mac.v: every key of the table can sign (M_Mac.v), and how it signs. *)
From Coq Require Import String.
From Verif Require Import Base M_Wire M_Util M_Config M_Keys M_Mac S_Mac L_Config L_Config2 L_Config3 L_Config4.
From Coq Require Import Lia.
Close Scope string_scope.
Open Scope Z_scope.
Local Arguments ifconf_loop !fuel c tok name ic p.

(** ** Keys of the table: RFC 2104 blocks, BLAKE2s keys *)
Definition key_fits (k : key) : Prop :=
  (k_type k = 1 /\ length (k_value k) = 64%nat) \/ (k_type k = 2 /\ (1 <= length (k_value k) <= 32)%nat).
Definition kg (g g' : cfg) : Prop := Forall key_fits (g_keys g) -> Forall key_fits (g_keys g').
Lemma kg_refl : forall g, kg g g. Proof. intros g H. exact H. Qed.
Lemma kg_same : forall g g', g_keys g' = g_keys g -> kg g g'.
Proof. intros g g' E H. now rewrite E. Qed.
Lemma kg_trans : forall a b c, kg a b -> kg b c -> kg a c.
Proof. unfold kg. auto. Qed.
Lemma put_fits : forall i k k' l, Forall key_fits l -> nth_error l i = Some k -> key_fits k' -> Forall key_fits (firstn i l ++ k' :: skipn (S i) l).
Proof.
  intros i k k' l F E K. rewrite <- (firstn_skipn i l) in F. apply Forall_app in F. destruct F as (F1, F2). apply Forall_app. split; [exact F1|].
  constructor; [exact K|]. clear - F2. revert l F2. induction i as [|i IH]; intros [|x l] F; cbn [skipn] in *; auto.
  - inversion F; auto.
Qed.
Lemma retain_kg : forall i g, kg g (retain_key i g).
Proof.
  intros i g H. unfold retain_key. destruct (nth_error (g_keys g) i) as [k|] eqn:E; [|exact H]. destruct (k_ref k <? 65535); [|exact H].
  apply (put_fits i k); auto. apply (proj1 (Forall_forall _ _) H k). eapply nth_error_In; eauto.
Qed.
Lemma release_kg : forall i g, kg g (release_key i g).
Proof.
  intros i g H. unfold release_key. destruct (nth_error (g_keys g) i) as [k|] eqn:E; [|exact H]. destruct (k_ref k >? 0); [|exact H].
  apply (put_fits i k); auto. apply (proj1 (Forall_forall _ _) H k). eapply nth_error_In; eauto.
Qed.
Lemma find_key_kg : forall id g, kg g (snd (find_key id g)).
Proof. intros. unfold find_key. destruct (index_key id (g_keys g)); [apply retain_kg|apply kg_refl]. Qed.
Definition good_key (ty : Z) (v : list Z) : Prop := (ty = 1 /\ length v = 64%nat) \/ (ty = 2 /\ (1 <= length v <= 32)%nat).
Lemma add_key_kg : forall id ty v g, good_key ty v -> kg g (add_key id ty v g).
Proof.
  intros id ty v g Hg H. unfold add_key. pose proof (find_key_kg id g H) as K. destruct (find_key id g) as ([i|], g1); cbn [snd] in K.
  - destruct (nth_error (g_keys g1) i) as [k|] eqn:E; [|exact K]. apply (put_fits i k); auto.
  - cbn [set_keys g_keys]. apply Forall_app. split; [exact K|]. constructor; [exact Hg|constructor].
Qed.
Lemma finish_good : forall k, match finish_key k with Some (_, ty, v) => good_key ty v | None => True end.
Proof.
  intro k. unfold finish_key. destruct (kp_id k) as [(t, id)|]; [|exact Logic.I]. destruct (kp_type k =? 1).
  - destruct (Z.of_nat (length (kp_value k)) >? 64) eqn:E; [exact Logic.I|]. left. split; [reflexivity|]. rewrite app_length, repeat_length. lia.
  - destruct (kp_type k =? 2); [|exact Logic.I].
    destruct ((Z.of_nat (length (kp_value k)) <? 1) || (Z.of_nat (length (kp_value k)) >? 32)) eqn:E; [exact Logic.I|].
    apply orb_false_iff in E. right. split; [reflexivity|]. lia.
Qed.
Lemma opt_write_kg : forall s g g', kg g g' -> kg g (opt_write s g').
Proof. intros s g g' H. unfold opt_write. destruct (_ || _); [|destruct (_ || _); [|easy]]; eapply kg_trans; try exact H; now apply kg_same. Qed.
Lemma effect1_kg : forall x g g', kg g g' -> kg g (effect1 x g').
Proof. intros x g g' H. eapply kg_trans; [exact H|]. now apply kg_same. Qed.
Lemma parse_option_kg : forall e s c p, rcfg (kg (p_cfg p)) (parse_option e s c p).
Proof.
  intros e s c p. pose proof (kg_refl (p_cfg p)) as G. unfold parse_option. cbv zeta.
  destruct (g_final (p_cfg p) && _); [exact G|].
  destruct (mem s int_opts). { apply opt_done_same; [now apply getconv_same|]. intros v g g' H. destruct (_ || _); intros X; [discriminate X|]. injection X as <-. now apply opt_write_kg, effect1_kg. }
  destruct (mem s bool_opts). { apply opt_done_same; [now apply getconv_same|]. intros v g g' H X. injection X as <-. now apply effect1_kg. }
  destruct (beq s (str "protocol-group")). { apply opt_done_same; [now apply getconv_same|]. intros [v z] g g' H X. injection X as <-. now apply effect1_kg. }
  destruct (mem s str_opts).
  { apply opt_done_same; [now apply getstring_same|]. intros [v z] g g' H X. injection X as <-.
    destruct (_ && _); [apply effect1_kg|]; now apply opt_write_kg, effect1_kg. }
  destruct (beq s (str "debug")). { apply opt_done_same; [now apply getconv_same|]. intros v g g' H. destruct (v <? 0); intros X; [discriminate X|]. injection X as <-. now apply effect1_kg. }
  destruct (beq s (str "smoothing-half-life")). { apply opt_done_same; [now apply getconv_same|]. intros v g g' H. destruct (v <? 0); intros X; [discriminate X|]. injection X as <-. now apply effect1_kg. }
  destruct (beq s (str "router-id")). { apply opt_done_same; [now apply getconv_same|]. intros v g g' H X. injection X as <-. now apply effect1_kg. }
  exact G.
Qed.
Lemma if_kw_kg : forall s c ic p g, kg g (p_cfg p) -> rcfg (kg g) (if_kw s c ic p).
Proof.
  intros s c ic p g H. unfold if_kw. cbv zeta.
  repeat match goal with |- rcfg _ (if ?b then _ else _) => destruct b end;
    try (apply with_val_same; now apply getconv_same); try exact H.
  pose proof (getword_same (kg g) c p H) as K. destruct (getword c p) as [p1|c2 (t, s2) p1]; [exact K|].
  rewrite uset_cfg. pose proof (find_key_kg s2 (p_cfg p1)) as Q. destruct (find_key s2 (p_cfg p1)) as (o, g1). cbn [snd] in Q.
  destruct o; unfold rcfg; rewrite freet_cfg; cbn [p_cfg set_cfg]; eapply kg_trans; eauto.
Qed.
Lemma ifconf_loop_kg : forall fuel c tok name ic p g, kg g (p_cfg p) -> rcfg (kg g) (ifconf_loop fuel c tok name ic p).
Proof.
  induction fuel as [|fuel IH]; intros c tok name ic p g H; [exact H|]. cbn [ifconf_loop].
  destruct (skip_ws c (p_in p)) as (c1, r1). destruct (eol c1); [destruct (to_eol c1 r1); exact H|].
  pose proof (getword_same (kg g) c1 (set_in r1 p) H) as K. destruct (getword c1 (set_in r1 p)) as [p1|c2 (t, s) p1].
  { unfold rcfg. now rewrite !freet_cfg. }
  pose proof (if_kw_kg s c2 ic (uset t p1) g) as Q. rewrite uset_cfg in Q. specialize (Q K).
  destruct (if_kw s c2 ic (uset t p1)) as [p2|c3 ic3 p2].
  - unfold rcfg. now rewrite !freet_cfg.
  - apply IH. now rewrite freet_cfg.
Qed.
Lemma directive_kg : forall e act s c p, rcfg (kg (p_cfg p)) (directive e act s c p).
Proof.
  intros e act s c p. pose proof (kg_refl (p_cfg p)) as G. unfold directive.
  assert (La : forall a, rcfg (kg (p_cfg p)) (line_action act a c p)).
  { intros a. unfold line_action. pose proof (skip_eol_same (kg (p_cfg p)) c p G) as K. destruct (skip_eol c p); [exact K|]. destruct act; exact K. }
  assert (Lf : forall w, rcfg (kg (p_cfg p)) (line_filter e w c p)).
  { intros w. unfold line_filter. destruct (g_final (p_cfg p)); [exact G|]. unfold parse_filter.
    pose proof (filter_loop_grow e (S (S (length (p_in p)))) c filt0 None p (kg (p_cfg p)) G) as K.
    unfold with_cfg. pose proof (with_val_same _ _ _ _ (fun v => Some (finish_filter v)) K) as Q.
    destruct (with_val _ _) as [p1|c1 f p1]; [exact Q|]. unfold rcfg in *. cbn [set_cfg p_cfg].
    eapply kg_trans; [exact Q|]. now apply kg_same. }
  repeat match goal with |- rcfg _ (if ?b then _ else _) => destruct b end; try apply La; try apply Lf; try exact G.
  - unfold line_interface, parse_ifconf. destruct (skip_ws c (p_in p)) as (c1, r1). destruct (_ || _); [exact G|].
    pose proof (getstring_same (kg (p_cfg p)) c1 (set_in r1 p) G) as K. destruct (getstring c1 (set_in r1 p)) as [p1|c2 (t, nm) p1]; [exact K|].
    pose proof (ifconf_loop_kg (S (S (length (p_in p1)))) c2 None (Some t) (ic0 nm) p1 _ K) as Q. unfold with_cfg.
    destruct (ifconf_loop _ c2 None (Some t) (ic0 nm) p1) as [p2|c3 ic p2]; [exact Q|]. cbn [with_val].
    destruct (add_ifconf ic (g_ifs (p_cfg p2))) as (l, mg). unfold rcfg.
    set (g' := if g_final (p_cfg p2) then _ else _).
    assert (R : kg (p_cfg p) g').
    { eapply kg_trans; [exact Q|]. unfold g'. destruct (g_final (p_cfg p2)); now apply kg_same. }
    destruct mg; [rewrite freet_cfg|]; exact R.
  - unfold line_default. pose proof (ifconf_loop_kg (S (S (length (p_in p)))) c None None (ic0 []) p _ G) as Q.
    destruct (ifconf_loop _ c None None (ic0 []) p) as [p2|c3 ic p2]; [exact Q|]. unfold rcfg. cbn [p_cfg set_cfg].
    eapply kg_trans; [exact Q|]. now apply kg_same.
  - unfold line_flush. pose proof (getword_same (kg (p_cfg p)) c p G) as K. destruct (getword c p) as [p1|c1 (t2, s2) p1]; [exact K|].
    destruct (beq s2 _); [|unfold rcfg; now rewrite freet_cfg, uset_cfg].
    pose proof (getword_same (kg (p_cfg p)) c1 (uset t2 p1)) as K2. rewrite uset_cfg in K2. specialize (K2 K).
    destruct (getword c1 (uset t2 p1)) as [p2|c2 (t, nm) p2]; [unfold rcfg; now rewrite freet_cfg|].
    pose proof (skip_eol_same (kg (p_cfg p)) c2 p2 K2) as K3. destruct (skip_eol c2 p2) as [p3|c3 u p3]; [unfold rcfg; now rewrite !freet_cfg|].
    unfold rcfg. rewrite !freet_cfg. cbn [set_cfg p_cfg]. rewrite uset_cfg. now apply effect1_kg.
  - pose proof (skip_eol_same (kg (p_cfg p)) c p G) as K. destruct (skip_eol c p); [exact K|]. destruct act; [|exact K].
    unfold rcfg in *. cbn [set_cfg p_cfg]. now apply effect1_kg.
  - unfold line_key, parse_key. pose proof (key_loop_grow (S (S (length (p_in p)))) c (mkKp None 0 []) p (kg (p_cfg p)) G) as K.
    destruct (key_loop _ c (mkKp None 0 []) p) as [p1|c1 k p1]; [exact K|].
    pose proof (finish_good k) as Fg. destruct (finish_key k) as [((id, ty), v)|]; unfold rcfg in *; [|now rewrite freet_cfg]. cbn [set_cfg p_cfg].
    eapply kg_trans; [exact K|]. apply add_key_kg. exact Fg.
  - pose proof (parse_option_kg e s c p) as K. destruct (parse_option e s c p); exact K.
Qed.
Lemma line_kg : forall e act c p, rcfg (kg (p_cfg p)) (parse_config_line e act c p).
Proof.
  intros e act c p. pose proof (kg_refl (p_cfg p)) as G. unfold parse_config_line.
  destruct (skip_ws c (p_in p)) as (c1, r1). destruct (eol c1); [destruct (to_eol c1 r1); exact G|].
  pose proof (getword_same (kg (p_cfg p)) c1 (set_in r1 p) G) as K. destruct (getword c1 (set_in r1 p)) as [p1|c2 (t, s) p1]; [exact K|].
  pose proof (directive_kg e act s c2 (uset t p1)) as Q. rewrite uset_cfg in Q.
  destruct (directive e act s c2 (uset t p1)) as [p2|c3 a p2]; unfold rcfg in *; rewrite freet_cfg; eapply kg_trans; eauto.
Qed.
Lemma from_string_kg : forall e l p, kg (p_cfg p) (p_cfg (snd (from_string e l p))).
Proof.
  intros e [|c r] p; [apply kg_refl|]. unfold from_string. pose proof (line_kg e true c (set_in r p)) as K.
  destruct (parse_config_line e true c (set_in r p)) as [p1|c1 (a, m) p1]; [exact K|]. destruct (c1 =? -1); exact K.
Qed.
Lemma file_loop_kg : forall e fuel c p, kg (p_cfg p) (p_cfg (snd (file_loop e fuel c p))).
Proof.
  intros e. induction fuel as [|fuel IH]; intros c p; [apply kg_refl|]. cbn [file_loop].
  pose proof (line_kg e false c p) as K. destruct (parse_config_line e false c p) as [p1|c1 a p1]; [exact K|].
  destruct (c1 =? -1); [exact K|]. eapply kg_trans; [exact K|apply IH].
Qed.
Lemma from_file_kg : forall e l p, kg (p_cfg p) (p_cfg (snd (from_file e l p))).
Proof. intros e [|c r] p; [apply kg_refl|]. unfold from_file. exact (file_loop_kg e (S (S (length r))) c (set_in r p)). Qed.

Lemma if_key_kg : forall ck old g, kg g (snd (if_key ck old g)).
Proof.
  intros ck old g. unfold if_key. destruct (okeq ck old); [apply kg_refl|].
  assert (A : kg g (match old with Some i => release_key i g | None => g end)) by (destruct old; [apply release_kg|apply kg_refl]).
  destruct ck; cbn [snd]; [|exact A]. eapply kg_trans; [exact A|apply retain_kg].
Qed.
Lemma up_if_kg : forall n ck l g, kg g (snd (up_if n ck l g)).
Proof.
  intros n ck. induction l as [|(m, k) l IH]; intro g; cbn [up_if]; [apply kg_refl|]. destruct (beq m n).
  - pose proof (if_key_kg ck k g) as A. destruct (if_key ck k g). exact A.
  - specialize (IH g). destruct (up_if n ck l g). exact IH.
Qed.
Lemma reach_fits : forall e s, kreach e s -> Forall key_fits (g_keys (p_cfg (ks_p s))).
Proof.
  induction 1 as [p A B|s ev _ IH Al].
  - cbn [ks_p]. rewrite A. constructor.
  - destruct ev as [l|l|n|n ck|n]; cbn [kstep ks_p]; try exact IH.
    + exact (from_string_kg e l (ks_p s) IH).
    + exact (from_file_kg e l (ks_p s) IH).
    + pose proof (up_if_kg n ck (ks_ifs s) (p_cfg (ks_p s)) IH) as A. destruct (up_if n ck (ks_ifs s) (p_cfg (ks_p s))). exact A.
Qed.

(** ** The digest *)
Definition mac_of (sha : list Z -> list Z) (blake : list Z -> list Z -> list Z) (k : M_Config.key) (m : list Z) : option (list Z) :=
  if k_type k =? 1 then if Z.of_nat (length (k_value k)) =? 64 then Some (rfc_mac sha blake 1 (k_value k) m) else None
  else if k_type k =? 2 then
    if (1 <=? Z.of_nat (length (k_value k))) && (Z.of_nat (length (k_value k)) <=? 32) then Some (rfc_mac sha blake 2 (k_value k) m) else None
  else None.
Lemma pad_map : forall c v, length v = 64%nat -> pad_with c v = map (Z.lxor c) v.
Proof.
  intros c v L. unfold pad_with. rewrite <- L. clear L. rewrite <- (map_ext (fun i => Z.lxor c (nth i v 0))) by (intro; apply Z.lxor_comm).
  rewrite <- (map_map (fun i => nth i v 0) (Z.lxor c)). f_equal.
  induction v as [|x v IH]; [reflexivity|]. cbn [length seq map nth]. f_equal. rewrite <- seq_shift, map_map. exact IH.
Qed.
Lemma port_same : forall p, 0 <= p < 65536 -> port_bytes p = [p / 256; p mod 256].
Proof. intros p H. unfold port_bytes, u16. now rewrite Z.mod_small by lia. Qed.
Lemma hmac_padded : forall sha v m, (length v <= 64)%nat -> hmac sha (v ++ repeat 0 (64 - length v)) m = hmac sha v m.
Proof.
  intros sha v m L. unfold hmac. rewrite app_length, repeat_length. replace (64 - (length v + (64 - length v)))%nat with 0%nat by lia.
  cbn [repeat]. now rewrite app_nil_r.
Qed.
Lemma compute_is : forall sha blake port src dst header body k, digests sha blake -> 0 <= port < 65536 ->
  compute_mac sha blake port src dst header body k = mac_of sha blake k (signed_bytes src dst port header body).
Proof.
  intros sha blake port src dst header body k (Hs & Hb) P. unfold compute_mac, mac_of, signed_bytes. cbv zeta. rewrite (port_same port P).
  destruct (k_type k =? 1).
  - destruct (Z.of_nat (length (k_value k)) =? 64) eqn:E; cbn [negb]; [|reflexivity]. assert (L : length (k_value k) = 64%nat) by lia.
    unfold sha_result, sha_input, sha_reset. cbn [sc_in app]. rewrite !(pad_map _ _ L), firstn_all2 by (rewrite Hs; lia).
    unfold rfc_mac, hmac. cbn [Z.eqb Pos.eqb]. rewrite L. cbn [repeat Nat.sub]. rewrite app_nil_r, <- !app_assoc. reflexivity.
  - destruct (k_type k =? 2); [|reflexivity]. unfold blk_init.
    destruct (Z.of_nat (length (k_value k)) >? 32) eqn:E1.
    + replace (Z.of_nat (length (k_value k)) <=? 32) with false by lia. now rewrite andb_false_r.
    + replace (Z.of_nat (length (k_value k)) <=? 32) with true by lia. rewrite orb_false_r, andb_true_r.
      destruct (Z.of_nat (length (k_value k)) <? 1) eqn:E2.
      * now replace (1 <=? Z.of_nat (length (k_value k))) with false by lia.
      * replace (1 <=? Z.of_nat (length (k_value k))) with true by lia.
        unfold blk_final, blk_update. cbn [bc_in bc_key app]. unfold rfc_mac. cbn [Z.eqb Pos.eqb]. rewrite <- !app_assoc. reflexivity.
Qed.
Lemma mac_short : forall sha blake, digests sha blake -> forall k m d, mac_of sha blake k m = Some d -> zlen d <= 32.
Proof.
  intros sha blake (Hs & Hb) k m d. unfold mac_of, rfc_mac, hmac. cbn [Z.eqb Pos.eqb]. unfold zlen.
  destruct (k_type k =? 1).
  - destruct (_ =? 64); intro E; [|discriminate E]. injection E as <-. rewrite Hs. lia.
  - destruct (k_type k =? 2); [|discriminate]. destruct (_ && _); intro E; [|discriminate E]. injection E as <-. rewrite Hb. lia.
Qed.

(** P_Args.v: C81, the command line means what the manual says. *)
From Coq Require Import String.
From Verif Require Import Base M_Util S_Util L_Util M_Filter S_Filter L_Filter M_Config S_Config L_Config L_Config2 L_Config3 S_Dump L_Dump S_Rule L_Rule P_Rule S_Line L_Line M_Ifup S_Ifup L_Line2 L_Eof P_Line M_Args S_Args L_Args.
Close Scope string_scope.
Open Scope Z_scope.

(** ** Values *)
Lemma valued_lookup : forall B (R : opt -> B -> Prop) f, (forall x v, R x v <-> f x = Some v) ->
  forall os d v, v = match lookup f os with Some w => w | None => d end -> valued R os d v.
Proof.
  intros B R f H os d v E. pose proof (last_lookup _ _ R f H os) as L. unfold valued. destruct (lookup f os) as [w|].
  - left. apply L. now subst.
  - right. split; [|exact E]. intros w Hw. apply L in Hw. discriminate.
Qed.
Lemma value_of : forall B (get : vars -> B) (f : opt -> option B) st,
  (forall v o, opt_ok o -> get (assign v (opt_effect o)) = match f o with Some w => w | None => get v end) ->
  forall os, Forall opt_ok os ->
  get (after_options st (map opt_effect os)) = match lookup f os with Some w => w | None => get (vars0 st) end.
Proof.
  intros B get f st H os. unfold after_options. induction os as [|o os IH] using rev_ind; intros F; [reflexivity|].
  apply Forall_app in F. destruct F as (F1 & F2). inversion F2; subst.
  rewrite map_app, fold_left_app. cbn [map fold_left]. rewrite H, lookup_snoc, (IH F1) by auto. destruct (f o); reflexivity.
Qed.
Definition int_defaults : list (list Z * Z) :=
  [(str "protocol-port", 6696); (str "kernel-priority", 0); (str "kernel-check-interval", 300); (str "allow-duplicates", -1);
   (str "export-table", -1); (str "shutdown-delay-ms", -1)].
Definition bool_defaults (subtrees : bool) : list (list Z * bool) :=
  [(str "-s", false); (str "-w", false); (str "random-id", false); (str "link-detect", false); (str "daemonise", false);
   (str "reflect-kernel-metric", false); (str "skip-kernel-setup", false); (str "ipv6-subtrees", subtrees)].
(** The variables have the values the options [os] give them. *)
Definition values_as (subtrees : bool) (os : list opt) (v : vars) : Prop :=
  (forall n d, In (n, d) int_defaults -> valued (gives_int n) os d (v_int v n)) /\
  (forall n d, In (n, d) (bool_defaults subtrees) -> valued (gives_bool n) os d (v_bool v n)) /\
  (forall n d, In (n, d) [(str "pid-file", str "/var/run/babeld.pid"); (str "state-file", str "/var/lib/babel-state")] ->
     valued (gives_str n) os (Some d) (v_str v n)) /\
  valued (gives_str (str "log-file")) os (if v_bool v (str "daemonise") then Some (str "/var/log/babeld.log") else None) (log_name v) /\
  valued gives_group os [255; 2; 0; 0; 0; 0; 0; 0; 0; 0; 0; 0; 0; 1; 0; 6] (v_group v) /\
  valued (fun o d => o = ODebug d) os 0 (v_debug v) /\
  valued (fun o h => o = OHalfLife h) os 4 (v_half v) /\
  valued gives_server os None (server v) /\
  v_import v = firstn 10 (imports os) /\
  (forall n, In n [str "-h"; str "-H"] -> exists i, valued (gives_int n) os 4000 i /\ interval v n = Z.max i 5) /\
  (20 <= resend_delay v <= 2000 /\ (resend_delay v = 20 \/ (2 * resend_delay v <= interval v (str "-h") /\ 2 * resend_delay v <= interval v (str "-H")))).
Definition f_int n o := match o with OInt m v => if beq m n then Some v else None | _ => None end.
Definition f_bool n o := match o with OBool m v => if beq m n then Some v else None | _ => None end.
Definition f_str n o := match o with OFile m v => if beq m n then Some (Some v) else None | _ => None end.
Definition f_server o : option (option (Z + list Z)) :=
  match o with
  | OInt n i => if beq n (str "local-port") || beq n (str "local-port-readwrite") then Some (Some (inl i)) else None
  | OFile n s => if beq n (str "local-path") || beq n (str "local-path-readwrite") then Some (Some (inr s)) else None
  | _ => None
  end.
Lemma f_int_ok : forall n o v, gives_int n o v <-> f_int n o = Some v.
Proof.
  intros n o v. unfold gives_int, f_int. split; [intros ->; now rewrite beq_refl|].
  destruct o as [m w| | | | | |]; try discriminate. destruct (beq m n) eqn:E; [|discriminate]. apply beq_true in E. intros H. injection H as ->. now subst.
Qed.
Lemma f_bool_ok : forall n o v, gives_bool n o v <-> f_bool n o = Some v.
Proof.
  intros n o v. unfold gives_bool, f_bool. split; [intros ->; now rewrite beq_refl|].
  destruct o as [|m w| | | | |]; try discriminate. destruct (beq m n) eqn:E; [|discriminate]. apply beq_true in E. intros H. injection H as ->. now subst.
Qed.
Lemma f_str_ok : forall n o v, gives_str n o v <-> f_str n o = Some v.
Proof.
  intros n o v. unfold gives_str, f_str. split; [intros (s & -> & ->); now rewrite beq_refl|].
  destruct o as [| | |m w| | |]; try discriminate. destruct (beq m n) eqn:E; [|discriminate]. apply beq_true in E. intros H. injection H as <-. subst. eauto.
Qed.
Lemma f_server_ok : forall o v, gives_server o v <-> f_server o = Some v.
Proof.
  intros o v. unfold gives_server, f_server. split.
  - intros [(n & i & -> & [<-|[<-|[]]] & ->)|(n & i & -> & [<-|[<-|[]]] & ->)]; reflexivity.
  - destruct o as [m w| | |m w| | |]; try discriminate; destruct (_ || _)%bool eqn:E; try discriminate; intros H; injection H as <-; apply orb_true_iff in E;
      [left|right]; exists m, w; split; auto; split; auto; destruct E as [E|E]; apply beq_true in E; subst; cbn; tauto.
Qed.
Lemma firstn_snoc : forall (l : list Z) x n, (length l < n)%nat -> firstn n l ++ [x] = firstn n (l ++ [x]).
Proof. intros l x n H. rewrite (firstn_all2 l) by lia. rewrite firstn_all2; [reflexivity|]. rewrite app_length. cbn [length]. lia. Qed.
Lemma values_hold : forall st os, Forall opt_ok os -> values_as st os (after_options st (map opt_effect os)).
Proof.
  intros st os F. unfold values_as.
  assert (Vi : forall n, beq n (str "local-port") || beq n (str "local-port-readwrite") = false -> beq n (str "import-table") = false ->
    v_int (after_options st (map opt_effect os)) n = match lookup (f_int n) os with Some w => w | None => v_int (vars0 st) n end).
  { intros n H1 H2. apply (value_of _ (fun v => v_int v n)); auto. intros v o _. destruct o as [m w|m w|a|m w|w|w|i]; cbn [opt_effect assign f_int]; auto.
    - destruct (beq m n) eqn:E.
      + apply beq_true in E. subst m. rewrite H1, H2. cbn [v_int]. unfold upd. now rewrite beq_refl.
      + destruct (beq m (str "local-port") || _); [reflexivity|]. destruct (beq m (str "import-table")); [destruct ((w <? 0) || _ || _); reflexivity|]. cbn [v_int]. unfold upd.
        destruct (beq n m) eqn:E2; auto. apply beq_true in E2. subst. rewrite beq_refl in E. discriminate.
    - destruct (beq m (str "local-path") || _); reflexivity. }
  assert (Vb : forall n, v_bool (after_options st (map opt_effect os)) n = match lookup (f_bool n) os with Some w => w | None => v_bool (vars0 st) n end).
  { intros n. apply (value_of _ (fun v => v_bool v n)); auto. intros v o _. destruct o as [m w|m w|a|m w|w|w|i]; cbn [opt_effect assign f_bool]; auto.
    - destruct (beq m (str "local-port") || _); [reflexivity|]. destruct (beq m (str "import-table")); [destruct ((w <? 0) || _ || _); reflexivity|]. reflexivity.
    - cbn [v_bool]. unfold upd. destruct (beq m n) eqn:E.
      + apply beq_true in E. subst. now rewrite beq_refl.
      + destruct (beq n m) eqn:E2; auto. apply beq_true in E2. subst. rewrite beq_refl in E. discriminate.
    - destruct (beq m (str "local-path") || _); reflexivity. }
  assert (Vs : forall n, beq n (str "local-path") || beq n (str "local-path-readwrite") = false ->
    v_str (after_options st (map opt_effect os)) n = match lookup (f_str n) os with Some w => w | None => v_str (vars0 st) n end).
  { intros n H1. apply (value_of _ (fun v => v_str v n)); auto. intros v o _. destruct o as [m w|m w|a|m w|w|w|i]; cbn [opt_effect assign f_str]; auto.
    - destruct (beq m (str "local-port") || _); [reflexivity|]. destruct (beq m (str "import-table")); [destruct ((w <? 0) || _ || _); reflexivity|]. reflexivity.
    - destruct (beq m n) eqn:E.
      + apply beq_true in E. subst m. rewrite H1. cbn [v_str]. unfold upd. now rewrite beq_refl.
      + destruct (beq m (str "local-path") || _); [reflexivity|]. cbn [v_str]. unfold upd.
        destruct (beq n m) eqn:E2; auto. apply beq_true in E2. subst. rewrite beq_refl in E. discriminate. }
  assert (Iv : forall n, In n [str "-h"; str "-H"] -> exists i, valued (gives_int n) os 4000 i /\ interval (after_options st (map opt_effect os)) n = Z.max i 5).
  { intros n Hn. exists (match lookup (f_int n) os with Some w => w | None => 4000 end). split; [apply (valued_lookup _ _ _ (f_int_ok n)); reflexivity|].
    unfold interval. rewrite Vi by (destruct Hn as [<-|[<-|[]]]; reflexivity).
    destruct (lookup (f_int n) os) as [w|] eqn:E.
    - assert (1 <= w).
      { apply (last_lookup _ _ _ _ (f_int_ok n)) in E. destruct E as (a & o & b & -> & -> & _). rewrite Forall_forall in F.
        assert (Q : opt_ok (OInt n w)) by (apply F, in_or_app; right; now left). cbn [opt_ok] in Q. tauto. }
      replace (w <=? 0) with false by lia. reflexivity.
    - destruct Hn as [<-|[<-|[]]]; reflexivity. }
  split; [|split; [|split; [|split; [|split; [|split; [|split; [|split; [|split; [|split]]]]]]]]].
  - intros n d H. apply (valued_lookup _ _ _ (f_int_ok n)).
    repeat destruct H as [H|H]; try (destruct H; fail); injection H as <- <-; rewrite Vi by reflexivity; reflexivity.
  - intros n d H. apply (valued_lookup _ _ _ (f_bool_ok n)). rewrite Vb.
    repeat destruct H as [H|H]; try (destruct H; fail); injection H as <- <-; reflexivity.
  - intros n d H. apply (valued_lookup _ _ _ (f_str_ok n)).
    repeat destruct H as [H|H]; try (destruct H; fail); injection H as <- <-; rewrite Vs by reflexivity; reflexivity.
  - apply (valued_lookup _ _ _ (f_str_ok (str "log-file"))). unfold log_name. rewrite (Vs (str "log-file") eq_refl).
    destruct (lookup (f_str (str "log-file")) os) as [[w|]|] eqn:E; try reflexivity.
    apply (last_lookup _ _ _ _ (f_str_ok (str "log-file"))) in E. destruct E as (a & o & b & _ & (s & Es & _) & _). discriminate.
  - apply (valued_lookup _ _ (fun o => match o with OGroup a => Some (addr_bytes a) | _ => None end)).
    { intros o v. unfold gives_group. split; [intros (a & -> & ->); reflexivity|]. destruct o; try discriminate. intros H. injection H as <-. eauto. }
    apply (value_of _ v_group); auto. intros v o _. destruct o as [m w|m w|a|m w|w|w|i]; cbn [opt_effect assign]; auto.
    + destruct (beq m (str "local-port") || _); [reflexivity|]. destruct (beq m (str "import-table")); [destruct ((w <? 0) || _ || _); reflexivity|]. reflexivity.
    + destruct (beq m (str "local-path") || _); reflexivity.
  - apply (valued_lookup _ _ (fun o => match o with ODebug a => Some a | _ => None end)).
    { intros o v. split; [intros ->; reflexivity|]. destruct o; try discriminate. intros H. injection H as <-. auto. }
    apply (value_of _ v_debug); auto. intros v o _. destruct o as [m w|m w|a|m w|w|w|i]; cbn [opt_effect assign]; auto.
    + destruct (beq m (str "local-port") || _); [reflexivity|]. destruct (beq m (str "import-table")); [destruct ((w <? 0) || _ || _); reflexivity|]. reflexivity.
    + destruct (beq m (str "local-path") || _); reflexivity.
  - apply (valued_lookup _ _ (fun o => match o with OHalfLife a => Some a | _ => None end)).
    { intros o v. split; [intros ->; reflexivity|]. destruct o; try discriminate. intros H. injection H as <-. auto. }
    apply (value_of _ v_half); auto. intros v o Ho. destruct o as [m w|m w|a|m w|w|w|i]; cbn [opt_effect assign]; auto.
    + destruct (beq m (str "local-port") || _); [reflexivity|]. destruct (beq m (str "import-table")); [destruct ((w <? 0) || _ || _); reflexivity|]. reflexivity.
    + destruct (beq m (str "local-path") || _); reflexivity.
    + cbn [v_half]. cbn [opt_ok] in Ho. destruct (w <=? 0) eqn:E; [lia|reflexivity].
  - apply (valued_lookup _ _ _ f_server_ok). apply (value_of _ server); auto. intros v o Ho.
    destruct o as [m w|m w|a|m w|w|w|i]; cbn [opt_effect assign f_server]; auto.
    + destruct (beq m (str "local-port") || _).
      * unfold server. cbn [v_port]. cbn [opt_ok] in Ho. replace (w >=? 0) with true by lia. reflexivity.
      * destruct (beq m (str "import-table")); [destruct ((w <? 0) || _ || _); reflexivity|]. reflexivity.
    + destruct (beq m (str "local-path") || _); reflexivity.
  - unfold after_options. clear Vi Vb Vs Iv. induction os as [|o os IH] using rev_ind; [reflexivity|].
    apply Forall_app in F. destruct F as (F1 & F2). inversion F2 as [|x y Ho _]; subst. specialize (IH F1).
    rewrite map_app, fold_left_app. cbn [map fold_left]. unfold imports. rewrite map_app, concat_app. fold (imports os). cbn [map concat]. rewrite app_nil_r.
    set (v := fold_left assign (map opt_effect os) (vars0 st)) in *. clearbody v.
    destruct o as [m w|m w|a|m w|w|w|i]; cbn [opt_effect assign]; rewrite ?app_nil_r; try exact IH.
    + destruct (beq m (str "local-port") || beq m (str "local-port-readwrite")) eqn:E1.
      * assert (E2 : beq m (str "import-table") = false) by (apply orb_true_iff in E1; destruct E1 as [E1|E1]; apply beq_true in E1; subst; reflexivity).
        rewrite E2, app_nil_r. exact IH.
      * destruct (beq m (str "import-table")) eqn:E2; [|rewrite app_nil_r; exact IH].
        apply beq_true in E2. cbn [opt_ok] in Ho. destruct Ho as (H0 & _ & H1). specialize (H1 E2).
        rewrite IH, firstn_length. replace (w <? 0) with false by lia. replace (w >? 65535) with false by lia. cbn [orb].
        destruct (Z.of_nat (Nat.min 10 (length (imports os))) >? 9) eqn:E3.
        { rewrite IH, firstn_app. replace (10 - length (imports os))%nat with 0%nat by lia. now rewrite firstn_O, app_nil_r. }
        { cbn [v_import]. apply firstn_snoc. lia. }
    + destruct (beq m (str "local-path") || _); exact IH.
  - exact Iv.
  - unfold resend_delay. destruct (Iv (str "-h") ltac:(now left)) as (i & _ & ->). destruct (Iv (str "-H") ltac:(right; now left)) as (j & _ & ->).
    pose proof (Z.quot_div_nonneg (Z.max i 5) 2 ltac:(lia) ltac:(lia)) as Q1. pose proof (Z.quot_div_nonneg (Z.max j 5) 2 ltac:(lia) ltac:(lia)) as Q2.
    rewrite Q1, Q2. pose proof (Z.div_mod (Z.max i 5) 2 ltac:(lia)). pose proof (Z.mod_pos_bound (Z.max i 5) 2 ltac:(lia)).
    pose proof (Z.div_mod (Z.max j 5) 2 ltac:(lia)). pose proof (Z.mod_pos_bound (Z.max j 5) 2 ltac:(lia)). lia.
Qed.

(** ** Runs *)
Lemma line_opt_ok : forall e ids l t, line_text e ids l t -> Forall opt_ok (opts [l]).
Proof.
  intros e ids l t H. destruct l as [| | | |o|]; try constructor. 2: constructor. destruct H as (ws & H & _).
  inversion H as [kw t' v Hk N V|kw t' v Hk N V|t' a R|kw s' Hk|t' v N V|t' v N V|i Hi]; subst; cbn [opt_ok]; auto; [|lia].
  split; [lia|]. split; [lia|]. lia.
Qed.
Lemma opts_app : forall a b, opts (a ++ b) = opts a ++ opts b.
Proof. intros. unfold opts. now rewrite map_app, concat_app. Qed.
Lemma item_opt_ok : forall e ids i x, item_text e ids i x -> Forall opt_ok (opts (as_lines [i])).
Proof.
  intros e ids i x H.
  inversion H as [c' n lo t v Hk N V|c' n t v Hk N V|c' n Hk|c' n t Hk|c' n t Hk Sl|t b R M|t v N V|t v N V|l t Ne Pos L|t]; subst; clear H;
    unfold as_lines, opts; cbn [map concat app]; try (constructor; [|constructor]; cbn [opt_ok]; auto; try lia).
  - repeat destruct Hk as [Hk|Hk]; try (destruct Hk; fail); injection Hk as <- <- <-; (split; [lia|split; [|lia]]); cbn; intros [H|[H|[]]]; discriminate.
  - repeat destruct Hk as [Hk|Hk]; try (destruct Hk; fail); injection Hk as <- <-; (split; [lia|split; [lia|discriminate]]).
  - pose proof (line_opt_ok _ _ _ _ L) as Q. exact Q.
  - constructor.
Qed.
Lemma its_opt_ok : forall e its dn l, length l = length its ->
  (forall a i b x, its = a ++ i :: b -> nth_error l (length a) = Some x -> item_text e (key_ids (as_lines (dn ++ a))) i x) -> Forall opt_ok (opts (as_lines its)).
Proof.
  intros e its. induction its as [|i its IH]; intros dn l Ln T; [constructor|]. destruct l as [|x l]; [discriminate|].
  change (i :: its) with ([i] ++ its). rewrite as_lines_app, opts_app. apply Forall_app. split.
  - eapply item_opt_ok. exact (T [] i its x eq_refl eq_refl).
  - apply (IH (dn ++ [i]) l); [cbn in Ln; lia|]. intros a j b y E N. rewrite <- app_assoc. cbn [app]. apply (T (i :: a) j b y); [cbn; now rewrite E|exact N].
Qed.
Lemma lines_opt_ok : forall e ls dn ts, length ts = length ls ->
  (forall a l b t, ls = a ++ l :: b -> nth_error ts (length a) = Some t -> line_text e (key_ids (dn ++ a)) l t) -> Forall opt_ok (opts ls).
Proof.
  intros e ls. induction ls as [|i its IH]; intros dn l Ln T; [constructor|]. destruct l as [|x l]; [discriminate|].
  change (i :: its) with ([i] ++ its). rewrite opts_app. apply Forall_app. split.
  - eapply line_opt_ok. exact (T [] i its x eq_refl eq_refl).
  - apply (IH (dn ++ [i]) l); [cbn in Ln; lia|]. intros a j b y E N. rewrite <- app_assoc. cbn [app]. apply (T (i :: a) j b y); [cbn; now rewrite E|exact N].
Qed.
Lemma files_run : forall e file dn fs ls, files_text e file dn fs ls -> forall g0 p, J e g0 dn (p_cfg p) -> Z.of_nat (named (dn ++ ls)) <= 65535 ->
  exists p', on_files e file fs p = Some p' /\ J e g0 (dn ++ ls) (p_cfg p') /\ Forall opt_ok (opts ls).
Proof.
  intros e file dn fs ls H. induction H as [dn|dn f fs ls rest ts s Hf Hs Nn Ln T H IH]; intros g0 p Hj Bn.
  - exists p. rewrite app_nil_r. split; [reflexivity|]. split; [exact Hj|constructor].
  - destruct (one_file e g0 dn ls ts s p Hj Ln T) as (p1 & P1 & J1); auto.
    { pose proof (named_app (dn ++ ls) rest) as Q. rewrite <- app_assoc in Q. lia. }
    destruct (IH g0 p1 J1) as (p2 & P2 & J2 & O2); [now rewrite <- app_assoc|]. rewrite <- app_assoc in J2.
    exists p2. cbn [on_files]. rewrite Hf, P1. split; [exact P2|]. split; [exact J2|]. rewrite opts_app. apply Forall_app. split; [|exact O2].
    eapply lines_opt_ok; eauto.
Qed.
(** The files that are read: those named by -c, otherwise /etc/babeld.conf if there is one *)
Definition to_read (its : list item) (etc : bool) : list (list Z) :=
  match names its with [] => if etc then [str "/etc/babeld.conf"] else [] | l => l end.
(** Any command line of options of the manual, with any layout of the letters and arguments:
    the daemon starts with the operands as interfaces; first the options count, in order, then
    the lines of the files, in order; interfaces, keys, rules and variables are as these
    say (C75, C76), where the last one wins. *)
Theorem C81_command_line : forall gnu e file etc subtrees args its l ops flines p,
  vector gnu l ops args -> its_text e its l -> files_text e file (as_lines its) (to_read its etc) flines ->
  (tables (as_lines its) <= 10)%nat -> fresh (p_cfg p) -> g_log (p_cfg p) = [] ->
  let ls := as_lines its ++ flines in
  Z.of_nat (named ls) <= 65535 ->
  exists p', main gnu e file etc args p = Run ops p' /\ g_abort (p_cfg p') = false /\
    interfaces_as ls (p_cfg p') /\ rest_as e (p_cfg p) ls (p_cfg p') /\
    values_as subtrees (opts ls) (after_options subtrees (g_log (p_cfg p'))).
Proof.
  intros gnu e file etc subtrees args its l ops flines p V (Ln & T) Ft Tb (F & K & I & D & Ab) Lg ls Bn.
  assert (Hj : J e (p_cfg p) [] (p_cfg p)) by now apply J0.
  destruct (items_run e (p_cfg p) its [] l p Hj Lg Ln T) as (p1 & P1 & J1); auto.
  { cbn [app]. pose proof (named_app (as_lines its) flines). unfold ls in Bn. lia. }
  cbn [app] in P1, J1. destruct (files_run e file (as_lines its) _ flines Ft (p_cfg p) p1 J1 Bn) as (p2 & P2 & J2 & O2).
  exists p2. split.
  - unfold main. rewrite (getopt_vector _ _ _ _ V). change (names []) with (@nil (list Z)) in P1. rewrite P1.
    unfold to_read in P2. destruct (names its) as [|f fs]; now rewrite P2.
  - split; [rewrite (j_abort _ _ _ _ J2); exact Ab|]. split; [exact (J_interfaces _ _ _ _ J2)|]. split; [exact (J_rest _ _ _ _ J2)|].
    rewrite (j_log _ _ _ _ J2), Lg. cbn [app]. apply values_hold. unfold ls. rewrite opts_app. apply Forall_app. split; [|exact O2].
    apply (its_opt_ok e its [] l Ln). exact T.
Qed.
Print Assumptions C81_command_line.
Definition x_files (f : list Z) : option (list Z) :=
  if beq f (str "b.conf") then Some (str "interface eth1 rxcost 300" ++ [10] ++ str "protocol-port 7001") else None.
Definition x_items : list item :=
  [ISet (OBool (str "-s") true); ISet (OInt (str "protocol-port") 6700); ISet (OFile (str "pid-file") []); ILine (LIf (str "eth0") [PVal 2 200]); IFile (str "b.conf")].
Definition x_opts : list (Z * option (list Z)) :=
  [(115, None); (112, Some (str "6700")); (73, Some []); (67, Some (str "interface eth0 rxcost 200")); (99, Some (str "b.conf"))].
Definition x_args : list (list Z) :=
  [str "-sp6700"; str "wlan0"; str "-I"; []; str "-C"; str "interface eth0 rxcost 200"; str "-cb.conf"; str "--"; str "-x"].
Definition x_flines : list line := [LIf (str "eth1") [PVal 2 300]; LOpt (OInt (str "protocol-port") 7001)] ++ [].
Example C81_command_line_ex : vector true x_opts [str "wlan0"; str "-x"] x_args /\ its_text r_env x_items x_opts /\
  files_text r_env x_files (as_lines x_items) (to_read x_items true) x_flines /\ (tables (as_lines x_items) <= 10)%nat /\
  fresh (p_cfg r_p) /\ g_log (p_cfg r_p) = [] /\ Z.of_nat (named (as_lines x_items ++ x_flines)) <= 65535 /\
  match main true r_env x_files true x_args r_p with
  | Run ops p' => let v := after_options true (g_log (p_cfg p')) in
      v_int v (str "protocol-port") = 7001 /\ v_str v (str "pid-file") = Some [] /\ v_bool v (str "-s") = true /\
      map ic_name (g_ifs (p_cfg p')) = [str "eth0"; str "eth1"] /\ resend_delay v = 2000
  | _ => False
  end.
Proof.
  split; [|split; [|split; [|split; [|split; [|split; [|split]]]]]].
  - change x_opts with (map (fun c => (c, @None (list Z))) [115] ++ (112, Some (str "6700")) :: tl (tl x_opts)).
    apply (vec_joined true [115] 112 (str "6700")); [constructor; [cbn; tauto|constructor]|cbn; tauto|discriminate|].
    apply vec_operand; [left; cbn; lia|reflexivity|].
    apply (vec_next true [] 73 []); [constructor|cbn; tauto|].
    apply (vec_next true [] 67 (str "interface eth0 rxcost 200")); [constructor|cbn; tauto|].
    apply (vec_joined true [] 99 (str "b.conf")); [constructor|cbn; tauto|discriminate|].
    apply vec_dashes.
  - split; [reflexivity|]. intros a i b x E N.
    destruct a as [|a0 [|a1 [|a2 [|a3 [|a4 a]]]]]; unfold x_items in E; cbn [app] in E; injection E; clear E; intros; subst; try (destruct a; discriminate); cbn [length x_opts nth_error] in N; injection N as <-.
    + apply it_flag. cbn. tauto.
    + apply it_int with (lo := 1); [cbn; tauto|numt|lia].
    + apply it_name. cbn. tauto.
    + apply it_line; [discriminate| |].
      * assert (B : forallb (fun x => 0 <? x) (str "interface eth0 rxcost 200") = true) by (vm_compute; reflexivity).
        intros x Hx. rewrite forallb_forall in B. specialize (B x Hx). lia.
      * exists [[str "rxcost"; str "200"]]. split; [|split; [intros id [E'|[]]; discriminate E'|apply spacedb_ok; vm_compute; reflexivity]].
        constructor; [|constructor]. eapply pt_int; [now left|numt|lia].
    + apply it_file.
  - unfold x_flines. apply ft_file with (ts := [nl (str "interface eth1 rxcost 300"); nl (str "protocol-port 7001")]) (s := str "interface eth1 rxcost 300" ++ [10] ++ str "protocol-port 7001").
    + reflexivity.
    + right. vm_compute. reflexivity.
    + assert (B : forallb (fun x => 0 <=? x) (str "interface eth1 rxcost 300" ++ [10] ++ str "protocol-port 7001") = true) by (vm_compute; reflexivity).
      intros x Hx. rewrite forallb_forall in B. specialize (B x Hx). lia.
    + reflexivity.
    + intros a l b t E N. destruct a as [|a0 [|a1 a]]; cbn [app] in E; injection E; clear E; intros; subst; try (destruct a; discriminate); cbn [length nth_error] in N; injection N as <-.
      * exists [[str "rxcost"; str "300"]]. split; [|split; [intros id [E'|[]]; discriminate E'|apply spacedb_ok; vm_compute; reflexivity]].
        constructor; [|constructor]. eapply pt_int; [now left|numt|lia].
      * exists [str "protocol-port"; str "7001"]. split; [|apply spacedb_ok; vm_compute; reflexivity]. apply ot_int; [cbn; tauto|numt|lia].
    + apply ft_end.
  - vm_compute. lia.
  - unfold fresh; auto.
  - reflexivity.
  - vm_compute. discriminate.
  - vm_compute. repeat split.
Qed.

(** ** The same option on the command line and in a file *)
Theorem C81_same : forall gnu e o c a args ops t name file p,
  vector gnu [(c, a)] ops args -> item_text e [] (ISet o) (c, a) -> line_text e [] (LOpt o) t -> (forall x, In x t -> 0 <= x) -> file name = Some t ->
  g_final (p_cfg p) = false -> g_log (p_cfg p) = [] ->
  exists p1 p2, main gnu e file false args p = Run ops p1 /\ main gnu e file false [str "-c"; name] p = Run [] p2 /\ p_cfg p1 = p_cfg p2.
Proof.
  intros gnu e o c a args ops t name file p V It L Nn Fn F Lg.
  destruct (set_step e [] o c a [] p It) as (P1 & _); [intros _; rewrite Lg; cbn; lia|].
  exists (sets_in o p).
  destruct (line_ne _ _ _ _ L) as (x & r & ->).
  destruct (line_step e false [] (LOpt o) (x :: r) [] x (set_in r p) L) as (c' & p' & P & I & A); [intros id []|exact F|cbn [p_in set_in]; now rewrite app_nil_r|].
  cbn in I. injection I as -> I. exists p'. split; [|split].
  - unfold main. rewrite (getopt_vector _ _ _ _ V). cbn [map gopt fst snd on_opts]. rewrite P1. reflexivity.
  - unfold main. assert (Vn : vector gnu [(99, Some name)] [] [str "-c"; name]).
    { apply (vec_next gnu [] 99 name []); [constructor|cbn; tauto|apply vec_end]. }
    rewrite (getopt_vector _ _ _ _ Vn). cbn [map gopt fst snd on_opts]. unfold on_opt. letters. cbn [app on_files]. rewrite Fn.
    unfold from_file. cbn [file_loop]. rewrite P. reflexivity.
  - cbn [after] in A. rewrite A. reflexivity.
Qed.
Print Assumptions C81_same.
Example C81_same_ex : vector false [(107, Some (str "15"))] [] [str "-k15"] /\
  item_text r_env [] (ISet (OInt (str "kernel-priority") 15)) (107, Some (str "15")) /\
  line_text r_env [] (LOpt (OInt (str "kernel-priority") 15)) (nl (str "kernel-priority 15")).
Proof.
  split; [|split].
  - apply (vec_joined false [] 107 (str "15")); [constructor|cbn; tauto|discriminate|apply vec_end].
  - apply it_int with (lo := 0); [cbn; tauto|numt|lia].
  - exists [str "kernel-priority"; str "15"]. split; [|apply spacedb_ok; vm_compute; reflexivity]. apply ot_int; [cbn; tauto|numt|lia].
Qed.

(** ** Refused command lines *)
Lemma nat_big : forall t v, num_text t v -> 2147483648 <= v < 2 ^ 63 -> parse_nat t = -1.
Proof.
  intros t v N V. unfold parse_nat. rewrite (strtol_num t v N) by lia. cbn [skip_blanks].
  replace ((v <? 0) || (v >? 2147483647)) with true by lia. reflexivity.
Qed.
(** When the daemon starts, its arguments were options of the manual and operands, numbers
    were in their ranges and the group was an IPv6 multicast address; the operands are all
    there, in order. *)
Theorem C81_accepted : forall gnu e file etc args p ops p', main gnu e file etc args p = Run ops p' ->
  exists l, vector gnu l ops args /\ forall c t, In (c, Some t) l ->
    (forall n lo v, In (c, n, lo) int_letters -> num_text t v -> 0 <= v < 2 ^ 63 -> lo <= v <= 65535) /\
    (forall n v, In (c, n) [(104, str "-h"); (72, str "-H")] -> thou_text t v -> 0 <= v < 2147483648 -> 1 <= v <= 655350) /\
    (forall v, c = 77 -> num_text t v -> 0 <= v < 2 ^ 63 -> v <= 3600) /\
    (c = 109 -> e_pton4 e t = None /\ exists a, e_pton6 e t = Some a /\ nth 0 a 0 = 255).
Proof.
  intros gnu e file etc args p ops p' H. unfold main in H. destruct (getopt gnu args None) as (evs, ops1) eqn:E.
  destruct (on_opts e evs [] p) as [files q|o] eqn:Eo; [|subst o].
  2:{ exfalso. clear E. revert Eo. generalize (@nil (list Z)) as fs. generalize p as q. induction evs as [|[c a|] evs IH]; intros q fs Eo; cbn [on_opts] in Eo; try discriminate.
      destruct (on_opt e c a fs q) as [f1 q1|o] eqn:E1; [eapply IH; exact Eo|]. injection Eo as ->. clear IH.
      revert E1. unfold on_opt. cbv zeta.
      repeat match goal with
             | |- context [if ?b then _ else _] => destruct b; try discriminate
             | |- context [match ?b with _ => _ end] => destruct b; try discriminate
             end. }
  assert (ops1 = ops).
  { destruct files as [|f fs]; [destruct etc|]; (match type of H with match ?x with _ => _ end = _ => destruct x; [|discriminate] end; now injection H). }
  subst ops1. clear H. destruct (opts_back _ _ _ _ _ _ Eo) as (NB & NG).
  assert (NL : forall c a, In (GOpt c a) evs -> c <> 105 /\ c <> 86).
  { intros c a Hi. destruct (NG c a Hi) as (f & r & f' & r' & G). split; intros ->; unfold on_opt in G; revert G; letters; discriminate. }
  destruct (getopt_back gnu args evs ops E NB NL) as (l & V & ->). exists l. split; [exact V|]. intros c t Hi.
  assert (G : exists f r f' r', on_opt e c (Some t) f r = Go f' r').
  { apply NG. apply in_map_iff. exists (c, Some t). auto. }
  destruct G as (f & r & f' & r' & G). split; [|split; [|split]].
  - intros n lo v Hk N V0.
    assert (H47 : nth 0 t 0 =? 47 = false).
    { destruct N as (N & _). pose proof (num_hd _ _ N). destruct t; cbn in *; lia. }
    assert (Pn : parse_nat t = if v <? 2147483648 then v else -1).
    { destruct (v <? 2147483648) eqn:Ev; [apply nat_num|eapply nat_big]; eauto; lia. }
    repeat destruct Hk as [Hk|Hk]; try (destruct Hk; fail); injection Hk as <- <- <-; revert G; unfold on_opt; letters; cbv zeta iota; rewrite ?H47, ?Pn; cbv iota;
      try (destruct (count_import (g_log (p_cfg r)) >? 9); [discriminate|]);
      destruct (v <? 2147483648); cbn [Z.ltb Z.leb Z.compare orb];
      (match goal with |- (if ?b then _ else _) = _ -> _ => destruct b eqn:Eb; [discriminate|intros _; lia] | |- _ = _ -> _ => discriminate end).
  - intros n v Hk N V0.
    assert (Pn : parse_thousands t = v).
    { pose proof (read_thou t v N ltac:(lia)) as Q. unfold conv_thousands in Q. destruct (parse_thousands t <? 0); [discriminate|now injection Q]. }
    repeat destruct Hk as [Hk|Hk]; try (destruct Hk; fail); injection Hk as <- <-; revert G; unfold on_opt; letters; rewrite Pn; cbv zeta;
      (match goal with |- (if ?b then _ else _) = _ -> _ => destruct b eqn:Eb; [discriminate|intros _; lia] end).
  - intros v -> N V0.
    assert (Pn : parse_nat t = if v <? 2147483648 then v else -1).
    { destruct (v <? 2147483648) eqn:Ev; [apply nat_num|eapply nat_big]; eauto; lia. }
    revert G; unfold on_opt; letters; rewrite Pn; cbv zeta. destruct (v <? 2147483648) eqn:Ev; [|discriminate].
    destruct (_ || _) eqn:Eb; [discriminate|intros _; lia].
  - intros ->. revert G; unfold on_opt; letters. unfold parse_address. destruct (e_pton4 e t) as [a4|]; [cbn; discriminate|].
    destruct (e_pton6 e t) as [a|]; [|discriminate]. destruct (nth 0 a 0 =? 255) eqn:E5; [|discriminate]. intros _. split; auto. exists a. split; auto. lia.
Qed.
Print Assumptions C81_accepted.
Example C81_accepted_ex : match main true r_env x_files false x_args r_p with Run ops _ => ops = [str "wlan0"; str "-x"] | _ => False end /\
  main true r_env x_files false [str "-p0"] r_p = Usage /\ main true r_env x_files false [str "-p"] r_p = Usage /\
  main true r_env x_files false [str "-m"; str "10.0.0.0"] r_p = Usage /\ main true r_env x_files false [str "-z3"] r_p = Usage /\
  main true r_env x_files false [str "-sV"] r_p = Version /\ main true r_env x_files false [str "-cc.conf"] r_p = NoConfig.
Proof. vm_compute. repeat split. Qed.

(** ** Not as the manual says *)
(** "kernel-priority ... is equivalent to the command-line option -k", whose default is 0 *)
Theorem C81_equivalent_refuted : ~ forall e t v p, num_text t v -> 0 <= v <= 65535 -> fresh (p_cfg p) -> g_log (p_cfg p) = [] ->
  (exists p', main true e x_files false [str "-k"; t] p = Run [] p') ->
  exists p', main true e x_files false [str "-C"; str "kernel-priority " ++ t] p = Run [] p'.
Proof.
  intros H. assert (N : num_text (str "0") 0) by (split; [numb|now left]).
  destruct (H r_env (str "0") 0 r_p N ltac:(lia) ltac:(unfold fresh; auto) eq_refl) as (p' & Q).
  - eexists. vm_compute. reflexivity.
  - vm_compute in Q. discriminate Q.
Qed.
Print Assumptions C81_equivalent_refuted.
(** "protocol-group ... is equivalent to the command-line option -m": only -m checks that the
    address is multicast. *)
Theorem C81_group_refuted : ~ forall e t p, fresh (p_cfg p) -> g_log (p_cfg p) = [] ->
  (exists p', main true e x_files false [str "-C"; str "protocol-group " ++ t] p = Run [] p') ->
  exists p', main true e x_files false [str "-m"; t] p = Run [] p'.
Proof.
  intros H. destruct (H r_env (str "10.0.0.0") r_p ltac:(unfold fresh; auto) eq_refl) as (p' & Q).
  - eexists. vm_compute. reflexivity.
  - vm_compute in Q. discriminate Q.
Qed.
Print Assumptions C81_group_refuted.
(** An argument need not be a number: an empty or blank one is taken for 0. *)
Theorem C81_number_refuted : ~ forall e t p p', fresh (p_cfg p) -> main true e x_files false [str "-k"; t] p = Run [] p' ->
  exists c, In c t /\ 48 <= c <= 57.
Proof.
  intros H. destruct (H r_env [] r_p (sets_in (OInt (str "kernel-priority") 0) r_p) ltac:(unfold fresh; auto)) as (c & [] & _).
  vm_compute. reflexivity.
Qed.
Print Assumptions C81_number_refuted.

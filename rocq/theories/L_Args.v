(** L_Args.v: the command line. *)
From Coq Require Import String.
From Verif Require Import Base M_Util S_Util L_Util M_Filter S_Filter L_Filter M_Config S_Config L_Config L_Config2 L_Config3 S_Dump L_Dump S_Rule L_Rule S_Line L_Line M_Ifup S_Ifup L_Line2 L_Eof M_Args S_Args.
Close Scope string_scope.
Open Scope Z_scope.

(** ** getopt *)
Lemma mem_in : forall c l, existsb (Z.eqb c) l = true <-> In c l.
Proof. intros c l. rewrite existsb_exists. split; [intros (x & H & E); apply Z.eqb_eq in E; now subst|]. intros H. exists c. split; [exact H|apply Z.eqb_refl]. Qed.
Lemma takes_arg : forall c, takes c -> existsb (Z.eqb c) arg_letters = true.
Proof. intros c H. repeat destruct H as [<-|H]; try reflexivity. destruct H. Qed.
Lemma flag_arg : forall c, flag c -> existsb (Z.eqb c) arg_letters = false /\ existsb (Z.eqb c) flag_letters = true.
Proof. intros c H. repeat destruct H as [<-|H]; try (split; reflexivity). destruct H. Qed.
Lemma cluster_flags : forall fl cs, Forall flag fl -> cluster (fl ++ cs) = (map (fun c => GOpt c None) fl ++ fst (cluster cs), snd (cluster cs)).
Proof.
  induction fl as [|c fl IH]; intros cs F; cbn [app map]; [now destruct (cluster cs)|]. inversion F; subst. destruct (flag_arg c H1) as (A & B).
  cbn [cluster]. rewrite A, B, (IH cs H2). reflexivity.
Qed.
Lemma dash_word : forall gnu w l, w <> [] -> w <> [45] ->
  getopt gnu ((45 :: w) :: l) None = (fst (cluster w) ++ fst (getopt gnu l (snd (cluster w))), snd (getopt gnu l (snd (cluster w)))).
Proof.
  intros gnu [|y r] l N1 N2; [easy|]. cbn [getopt]. change (45 =? 45) with true.
  assert (B : (y =? 45) && beq r [] = false).
  { destruct (Z.eqb_spec y 45) as [->|]; auto. destruct r; [easy|reflexivity]. }
  cbv iota. rewrite B. destruct (cluster (y :: r)) as (evs, n). cbn [fst snd]. destruct (getopt gnu l n). reflexivity.
Qed.
Lemma letter_ok : forall c, takes c \/ flag c -> c <> 45.
Proof. intros c [H|H]; repeat destruct H as [<-|H]; try discriminate; destruct H. Qed.
Lemma operand_word : forall gnu o l, operand o -> getopt gnu (o :: l) None =
  if gnu then (fst (getopt gnu l None), o :: snd (getopt gnu l None)) else ([], o :: l).
Proof.
  intros gnu o l H. destruct o as [|x [|y r]]; cbn [getopt]; try (destruct gnu; auto; now destruct (getopt true l None)).
  destruct H as [H|H]; [|discriminate]. cbn in H. replace (x =? 45) with false by lia. destruct gnu; auto. now destruct (getopt true l None).
Qed.
Definition gopt (x : Z * option (list Z)) : gev := GOpt (fst x) (snd x).
Lemma getopt_vector : forall gnu its ops l, vector gnu its ops l -> getopt gnu l None = (map gopt its, ops).
Proof.
  intros gnu its ops l H. induction H as [|ops|o ops O G|its o ops l O G H IH|fl its ops l N F H IH|fl c a its ops l F T H IH|fl c a its ops l F T N H IH].
  - reflexivity.
  - reflexivity.
  - rewrite operand_word by auto. now rewrite G.
  - rewrite operand_word by auto. now rewrite G, <- G, IH.
  - rewrite dash_word; auto.
    + rewrite <- (app_nil_r fl), cluster_flags by auto. cbn [cluster fst snd]. rewrite IH, !app_nil_r, map_app, map_map. reflexivity.
    + intros ->. inversion F; subst. destruct (letter_ok 45); auto.
  - rewrite dash_word.
    + rewrite cluster_flags by auto. cbn [cluster]. rewrite (takes_arg c T). cbn [fst snd getopt]. rewrite IH. cbn [fst snd].
      rewrite map_app, map_map, app_nil_r. reflexivity.
    + destruct fl; discriminate.
    + destruct fl as [|x [|? ?]]; cbn; intros E; injection E as ->; [destruct (letter_ok 45); auto|discriminate..].
  - rewrite dash_word.
    + rewrite cluster_flags by auto. cbn [cluster]. rewrite (takes_arg c T). destruct a as [|a0 a]; [easy|]. cbn [fst snd]. rewrite IH. cbn [fst snd].
      rewrite map_app, map_map, <- app_assoc. reflexivity.
    + destruct fl; discriminate.
    + destruct fl as [|x [|? ?]]; cbn; intros E; injection E as ->; [destruct a; [easy|discriminate]|discriminate..].
Qed.

(** ** One option *)
Lemma J_opt : forall e g0 ls g o, J e g0 ls g -> (forall g, g_write (wr o g) = match wopt o with Some b => b | None => g_write g end) ->
  J e g0 (ls ++ [LOpt o]) (wr o (effect1 (opt_effect o) g)).
Proof.
  intros e g0 ls g o Hj Wo. destruct Hj as [F Ab Ch Lg Wr Ki Kn Kv Kd Rf Df In_ Is Al]. set (g' := wr o (effect1 (opt_effect o) g)).
  assert (Q : g_final g' = g_final g /\ g_abort g' = g_abort g /\ (forall w, chain w g' = chain w g) /\ g_log g' = g_log g ++ [opt_effect o] /\
      g_keys g' = g_keys g /\ g_ifs g' = g_ifs g /\ g_default g' = g_default g).
  { unfold g'. destruct o as [n v| | |n v| | |]; try (repeat split; reflexivity); cbn [wr]; unfold opt_write;
      destruct (beq n (str "local-port") || beq n (str "local-path")); try (repeat split; reflexivity);
      destruct (beq n (str "local-port-readwrite") || beq n (str "local-path-readwrite")); repeat split; reflexivity. }
  assert (Q5 : g_write g' = match wopt o with Some b => b | None => g_write g end) by (unfold g'; rewrite Wo; reflexivity).
  destruct Q as (Q1 & Q2 & Q3 & Q4 & Q6 & Q7 & Q8).
  constructor; rewrite ?Q1, ?Q2, ?Q4, ?Q5, ?Q6, ?Q7, ?Q8, ?opts_snoc, ?keys_snoc, ?ids_snoc, ?defs_snoc, ?named_snoc, ?app_nil_r, ?Nat.add_0_r; auto.
  + intros x. rewrite rules_snoc, app_nil_r, Q3. apply Ch.
  + rewrite map_app, Lg, <- app_assoc. reflexivity.
  + rewrite lookup_snoc. destruct (wopt o); auto.
  + intros y Hy. rewrite own_snoc, app_nil_r. auto.
  + intros n. rewrite own_snoc, app_nil_r. auto.
Qed.
Lemma nat_num : forall t v, num_text t v -> 0 <= v < 2147483648 -> parse_nat t = v.
Proof.
  intros t v N V. unfold parse_nat. rewrite (strtol_num t v N) by lia. cbn [skip_blanks].
  replace ((v <? 0) || (v >? 2147483647)) with false by lia. reflexivity.
Qed.
Lemma num_hd : forall t v, number 10 t v -> 48 <= hd 0 t.
Proof.
  intros t v N. induction N as [c v D|t x c v N IH D].
  - cbn. unfold digit in D. lia.
  - destruct t as [|y t]; [inversion N; destruct t; discriminate|exact IH].
Qed.
Lemma count_opts : forall os n, fold_left (fun n x => match x with SetInt o _ => if beq o (str "import-table") then n + 1 else n | _ => n end) (map opt_effect os) n =
  n + Z.of_nat (length (concat (map (fun o => match o with OInt m _ => if beq m (str "import-table") then [tt] else [] | _ => [] end) os))).
Proof.
  induction os as [|o os IH]; intros n; [cbn; lia|]. cbn [map fold_left concat]. rewrite app_length, IH. destruct o; cbn [opt_effect length]; try lia.
  destruct (beq name (str "import-table")); cbn [length]; lia.
Qed.
Lemma tables_opts : forall ls, tables ls = length (concat (map (fun o => match o with OInt m _ => if beq m (str "import-table") then [tt] else [] | _ => [] end) (opts ls))).
Proof.
  unfold tables, opts. induction ls as [|l ls IH]; auto. cbn [map concat]. rewrite map_app, concat_app, !app_length, IH. f_equal.
  destruct l; auto. cbn. rewrite app_nil_r. reflexivity.
Qed.
Lemma count_tables : forall e g0 ls g, J e g0 ls g -> g_log g0 = [] -> count_import (g_log g) = Z.of_nat (tables ls).
Proof. intros e g0 ls g Hj L. rewrite (j_log _ _ _ _ Hj), L, tables_opts. unfold count_import. cbn [app]. rewrite count_opts. lia. Qed.
Ltac letters := repeat match goal with |- context [?a =? ?b] =>
  let v := eval vm_compute in (a =? b) in match v with true => change (a =? b) with v | false => change (a =? b) with v end; cbv iota end.
Lemma from_string_line : forall e g0 ls l t p, J e g0 ls (p_cfg p) -> line_text e (key_ids ls) l (t ++ [10]) -> t <> [] -> (forall x, In x t -> 0 < x) ->
  Z.of_nat (named (ls ++ [l])) <= 65535 ->
  exists p', from_string e t p = (ACT_DONE, None, p') /\ J e g0 (ls ++ [l]) (p_cfg p').
Proof.
  intros e g0 ls l t p Hj T Ne Pos Bn. destruct t as [|c r]; [easy|].
  destruct (line_step e true (key_ids ls) l ((c :: r) ++ [10]) [] c (set_in (r ++ [10]) p) T) as (c' & p' & P & I & A).
  - intros id Hid. apply (j_kids _ _ _ _ Hj). exact Hid.
  - apply (j_final _ _ _ _ Hj).
  - cbn [p_in set_in]. now rewrite app_nil_r.
  - cbn in I. injection I as -> I. exists p'. split.
    + unfold from_string. rewrite (line_eof e true (c :: r) c r p (ACT_DONE, None) p' eq_refl); auto.
      rewrite Forall_forall. intros x Hx. specialize (Pos x Hx). lia.
    + eapply J_step; eauto.
Qed.
Lemma tables_app : forall a b, tables (a ++ b) = (tables a + tables b)%nat.
Proof. intros. unfold tables. now rewrite map_app, concat_app, app_length. Qed.
Definition sets_in (o : opt) (p : pst) : pst := set_cfg (wr o (effect1 (opt_effect o) (p_cfg p))) p.
Lemma set_step : forall e ids o c a files p, item_text e ids (ISet o) (c, a) -> (c = 84 -> count_import (g_log (p_cfg p)) <= 9) ->
  on_opt e c a files p = Go files (sets_in o p) /\ forall g, g_write (wr o g) = match wopt o with Some b => b | None => g_write g end.
Proof.
  intros e ids o c a files p T Tb.
  inversion T as [c' n lo t v Hk N V E1 E2|c' n t v Hk N V E1 E2|c' n Hk E1 E2|c' n t Hk E1 E2|c' n t Hk Sl E1 E2|t b R M E1 E2|t v N V E1 E2|t v N V E1 E2|l t Ne Pos L E1 E2|t E1 E2]; subst; clear T.
  - assert (Pn : parse_nat t = v) by (apply nat_num; [exact N|]; repeat destruct Hk as [Hk|Hk]; try (destruct Hk; fail); injection Hk as <- <- <-; lia).
    assert (H47 : nth 0 t 0 =? 47 = false).
    { destruct N as (N & _). pose proof (num_hd _ _ N). destruct t; cbn in *; lia. }
    repeat destruct Hk as [Hk|Hk]; try (destruct Hk; fail); injection Hk as <- <- <-; (split; [|intros g; reflexivity]); unfold on_opt; letters; cbv zeta iota; rewrite ?H47, ?Pn; cbv iota;
      try (specialize (Tb eq_refl); replace (count_import (g_log (p_cfg p)) >? 9) with false by lia; cbv iota);
      try (match goal with |- context [if (v <? ?a) || _ then _ else _] => replace ((v <? a) || (v >? 65535)) with false by lia end);
      try (match goal with |- context [if (v <=? ?a) || _ then _ else _] => replace ((v <=? a) || (v >? 65535)) with false by lia end); reflexivity.
  - assert (Pn : parse_thousands t = v).
    { pose proof (read_thou t v N ltac:(lia)) as Q. unfold conv_thousands in Q. destruct (parse_thousands t <? 0); [discriminate|now injection Q]. }
    repeat destruct Hk as [Hk|Hk]; try (destruct Hk; fail); injection Hk as <- <-; (split; [|intros g; reflexivity]); unfold on_opt; letters; rewrite Pn; cbv zeta;
      replace ((v <=? 0) || (v >? 655350)) with false by lia; reflexivity.
  - repeat destruct Hk as [Hk|Hk]; try (destruct Hk; fail); injection Hk as <- <-; (split; [|intros g; reflexivity]); unfold on_opt; letters; reflexivity.
  - repeat destruct Hk as [Hk|Hk]; try (destruct Hk; fail); injection Hk as <- <-; (split; [|intros g; reflexivity]); unfold on_opt; letters; reflexivity.
  - assert (H47 : nth 0 t 0 =? 47 = true) by (destruct t; cbn in *; lia).
    repeat destruct Hk as [Hk|Hk]; try (destruct Hk; fail); injection Hk as <- <-; (split; [|intros g; reflexivity]); unfold on_opt; letters; rewrite H47; reflexivity.
  - split; [|intros g; reflexivity]. unfold on_opt; letters. rewrite (read_addr _ _ _ R).
    assert (H255 : nth 0 (addr_bytes b) 0 =? 255 = true) by (destruct (addr_bytes b); cbn in *; lia). rewrite H255. reflexivity.
  - split; [|intros g; reflexivity]. unfold on_opt; letters. rewrite (nat_num t v N) by lia. cbv zeta. replace (v <? 0) with false by lia. reflexivity.
  - split; [|intros g; reflexivity]. unfold on_opt; letters. rewrite (nat_num t v N) by lia. cbv zeta. replace ((v <? 0) || (v >? 3600)) with false by lia. reflexivity.
Qed.
Lemma item_import : forall e ids o a, item_text e ids (ISet o) (84, a) -> tables (as_lines [ISet o]) = 1%nat.
Proof.
  intros e ids o a T.
  inversion T as [c' n lo t v Hk N V E1 E2|c' n t v Hk N V E1 E2|c' n Hk E1 E2|c' n t Hk E1 E2|c' n t Hk Sl E1 E2| | | | |]; subst; clear T;
    repeat destruct Hk as [Hk|Hk]; try (destruct Hk; fail); try discriminate Hk. injection Hk as <- <-. reflexivity.
Qed.
Lemma item_step : forall e g0 ls p files i c a, J e g0 ls (p_cfg p) -> g_log g0 = [] -> item_text e (key_ids ls) i (c, a) ->
  Z.of_nat (named (ls ++ as_lines [i])) <= 65535 -> (tables (ls ++ as_lines [i]) <= 10)%nat ->
  exists p', on_opt e c a files p = Go (files ++ names [i]) p' /\ J e g0 (ls ++ as_lines [i]) (p_cfg p').
Proof.
  intros e g0 ls p files i c a Hj Lg T Bn Tb. destruct i as [o|l|f].
  - destruct (set_step e (key_ids ls) o c a files p T) as (P & W).
    { intros ->. pose proof (item_import _ _ _ _ T) as Q. rewrite tables_app, Q in Tb. rewrite (count_tables _ _ _ _ Hj Lg). lia. }
    exists (sets_in o p). rewrite P. cbn [names as_lines map concat app]. rewrite app_nil_r. split; [reflexivity|]. now apply J_opt.
  - inversion T as [| | | | | | | |l' t Ne Pos L E1 E2|]; subst.
    cbn [as_lines names map concat app] in *. destruct (from_string_line e g0 ls l t p Hj L Ne Pos Bn) as (p' & P & Hj'). exists p'.
    rewrite app_nil_r. split; [|exact Hj']. unfold on_opt; letters. rewrite P. reflexivity.
  - inversion T; subst. cbn [as_lines names map concat app] in *. exists p. rewrite app_nil_r. split; [|exact Hj]. unfold on_opt; letters. reflexivity.
Qed.
Lemma as_lines_app : forall a b, as_lines (a ++ b) = as_lines a ++ as_lines b.
Proof. intros. unfold as_lines. now rewrite map_app, concat_app. Qed.
Lemma names_app : forall a b, names (a ++ b) = names a ++ names b.
Proof. intros. unfold names. now rewrite map_app, concat_app. Qed.
Lemma items_run : forall e g0 its dn l p, J e g0 (as_lines dn) (p_cfg p) -> g_log g0 = [] -> length l = length its ->
  (forall a i b x, its = a ++ i :: b -> nth_error l (length a) = Some x -> item_text e (key_ids (as_lines (dn ++ a))) i x) ->
  Z.of_nat (named (as_lines (dn ++ its))) <= 65535 -> (tables (as_lines (dn ++ its)) <= 10)%nat ->
  exists p', on_opts e (map gopt l) (names dn) p = Go (names (dn ++ its)) p' /\ J e g0 (as_lines (dn ++ its)) (p_cfg p').
Proof.
  intros e g0 its. induction its as [|i its IH]; intros dn l p Hj Lg Len T Bn Tb.
  - destruct l; [|discriminate]. cbn [map on_opts]. rewrite app_nil_r. eauto.
  - destruct l as [|(c, a) l]; [discriminate|]. pose proof (T [] i its (c, a) eq_refl eq_refl) as T0. rewrite app_nil_r in T0.
    destruct (item_step e g0 (as_lines dn) p (names dn) i c a Hj Lg T0) as (p1 & P1 & J1).
    { rewrite <- as_lines_app. pose proof (named_app (as_lines (dn ++ [i])) (as_lines its)) as Q. rewrite <- as_lines_app, <- app_assoc in Q. cbn [app] in Q. lia. }
    { rewrite <- as_lines_app. replace (dn ++ i :: its) with ((dn ++ [i]) ++ its) in Tb by (rewrite <- app_assoc; reflexivity).
      rewrite as_lines_app, tables_app in Tb. lia. }
    cbn [map on_opts gopt fst snd]. rewrite P1, <- names_app. rewrite <- as_lines_app in J1.
    destruct (IH (dn ++ [i]) l p1 J1 Lg) as (p2 & P2 & J2).
    + injection Len as Len. exact Len.
    + intros a0 i0 b x E N. rewrite <- app_assoc. cbn [app]. apply (T (i :: a0) i0 b x); [cbn; now rewrite E|exact N].
    + rewrite <- app_assoc. exact Bn.
    + rewrite <- app_assoc. exact Tb.
    + rewrite <- app_assoc in P2, J2. cbn [app] in P2, J2. exists p2. auto.
Qed.

(** ** Files *)
(** A file of lines, the newline of the last one perhaps missing *)
Lemma one_file : forall e g0 dn ls ts s p, J e g0 dn (p_cfg p) -> length ts = length ls ->
  (forall a l b t, ls = a ++ l :: b -> nth_error ts (length a) = Some t -> line_text e (key_ids (dn ++ a)) l t) ->
  Z.of_nat (named (dn ++ ls)) <= 65535 -> (s = concat ts \/ s ++ [10] = concat ts) -> (forall x, In x s -> 0 <= x) ->
  exists p', from_file e s p = (true, p') /\ J e g0 (dn ++ ls) (p_cfg p').
Proof.
  intros e g0 dn ls ts s p Hj Len T Bn S Nn.
  assert (G : (forall x, In x (concat ts) -> 0 <= x) -> exists p', from_file e (concat ts) p = (true, p') /\ J e g0 (dn ++ ls) (p_cfg p')).
  { clear s S Nn. intros Nn. assert (Ln : (length ls <= length (concat ts))%nat).
    { rewrite <- Len. assert (G : forall t, In t ts -> (1 <= length t)%nat).
      { intros t Ht. apply In_nth_error in Ht. destruct Ht as (n & Hn). assert (n < length ls)%nat by (rewrite <- Len; apply nth_error_Some; congruence).
        destruct (nth_error ls n) as [l|] eqn:El; [|apply nth_error_None in El; lia].
        destruct (nth_error_split ls n El) as (a & b & Ea & La). subst n.
        destruct (line_ne _ _ _ _ (T a l b t Ea Hn)) as (x & y & ->). cbn. lia. }
      clear - G. induction ts as [|t ts IH]; [cbn; lia|]. cbn [concat length]. rewrite app_length.
      pose proof (G t (or_introl eq_refl)). specialize (IH (fun q Hq => G q (or_intror Hq))). lia. }
    unfold from_file. destruct (concat ts) as [|c r] eqn:Ec.
    - destruct ls; [|cbn in Ln; lia]. exists p. rewrite app_nil_r. auto.
    - destruct (file_lines e g0 ls dn ts (Datatypes.S (Datatypes.S (length r))) c (set_in r p)) as (p' & A & B); auto.
      all: try (rewrite Ec; assumption || reflexivity).
      + intros ->. destruct ts; discriminate.
      + exists p'. auto. }
  destruct S as [->|S]; [auto|]. destruct G as (p' & A & B).
  { rewrite <- S. intros x Hx. apply in_app_or in Hx. destruct Hx as [Hx|[<-|[]]]; [auto|lia]. }
  rewrite <- S in A. destruct (file_eof e s p p') as (r & Q); [now apply Forall_forall|exact A|]. exists (set_in r p'). auto.
Qed.

(** ** Refused command lines *)
Lemma cluster_back : forall cs evs n, cluster cs = (evs, n) -> ~ In GBad evs -> (forall c a, In (GOpt c a) evs -> c <> 105 /\ c <> 86) -> n <> Some 105 ->
  exists fl, Forall flag fl /\
    ((cs = fl /\ evs = map gopt (map (fun c => (c, None)) fl) /\ n = None) \/
     (exists c, takes c /\ cs = fl ++ [c] /\ evs = map gopt (map (fun c => (c, None)) fl) /\ n = Some c) \/
     (exists c a, takes c /\ a <> [] /\ cs = fl ++ c :: a /\ evs = map gopt (map (fun c => (c, None)) fl ++ [(c, Some a)]) /\ n = None)).
Proof.
  induction cs as [|c cs IH]; intros evs n E NB NL Nn; cbn [cluster] in E.
  - injection E as <- <-. exists []. split; [constructor|]. left. auto.
  - destruct (existsb (Z.eqb c) arg_letters) eqn:A.
    + assert (Tk : c <> 105 -> takes c).
      { intros N. apply mem_in in A. clear - A N. unfold takes. repeat destruct A as [<-|A]; try (exfalso; apply N; reflexivity); cbn; tauto. }
      destruct cs as [|y r]; injection E as <- <-.
      * exists []. split; [constructor|]. right. left. exists c. split; [apply Tk; congruence|auto].
      * exists []. split; [constructor|]. right. right. exists c, (y :: r). split; [|split; [discriminate|auto]].
        apply Tk. apply (NL c (Some (y :: r))). now left.
    + destruct (cluster cs) as (l, m) eqn:Ec. destruct (existsb (Z.eqb c) flag_letters) eqn:B; injection E as <- <-; [|exfalso; apply NB; now left].
      assert (Fc : flag c).
      { assert (N : c <> 86) by (apply (NL c None); now left). apply mem_in in B. clear - B N. unfold flag. repeat destruct B as [<-|B]; try (exfalso; apply N; reflexivity); cbn; tauto. }
      destruct (IH l m eq_refl) as (fl & F & H).
      * intros H. apply NB. now right.
      * intros c0 a H. apply (NL c0 a). now right.
      * exact Nn.
      * exists (c :: fl). split; [now constructor|]. destruct H as [(-> & -> & ->)|[(d & D & -> & -> & ->)|(d & a & D & Na & -> & -> & ->)]].
        { left. auto. }
        { right. left. exists d. auto. }
        { right. right. exists d, a. auto. }
Qed.
Lemma getopt_back : forall gnu args evs ops, getopt gnu args None = (evs, ops) -> ~ In GBad evs -> (forall c a, In (GOpt c a) evs -> c <> 105 /\ c <> 86) ->
  exists l, vector gnu l ops args /\ evs = map gopt l.
Proof.
  intros gnu. assert (G : forall n args evs ops, (length args <= n)%nat -> getopt gnu args None = (evs, ops) -> ~ In GBad evs ->
    (forall c a, In (GOpt c a) evs -> c <> 105 /\ c <> 86) -> exists l, vector gnu l ops args /\ evs = map gopt l).
  2:{ intros args evs ops. apply (G (length args)). lia. }
  induction n as [|n IH]; intros args evs ops Ln E NB NL.
  - destruct args; [|cbn in Ln; lia]. injection E as <- <-. exists []. split; [constructor|reflexivity].
  - destruct args as [|a args]; [injection E as <- <-; exists []; split; [constructor|reflexivity]|]. cbn [length] in Ln.
    assert (Od : operand a \/ exists w, a = 45 :: w /\ w <> []).
    { destruct a as [|x [|y r]].
      - left. left. cbn. lia.
      - destruct (Z.eq_dec x 45) as [->|N]; left; [now right|now left].
      - destruct (Z.eq_dec x 45) as [->|N]; [right; eexists; split; [reflexivity|discriminate]|left; now left]. }
    destruct Od as [O|(w & -> & Nw)].
    + rewrite operand_word in E by auto. destruct gnu eqn:Gn.
      * destruct (getopt true args None) as (evs1, ops1) eqn:E1. cbn [fst snd] in E. injection E as <- <-.
        destruct (IH args evs1 ops1 ltac:(lia) E1 NB NL) as (l & V & ->). exists l. split; [now apply vec_operand|reflexivity].
      * injection E as <- <-. exists []. split; [now apply vec_operands|reflexivity].
    + destruct (list_eq_dec Z.eq_dec w [45]) as [->|N45].
      * cbn in E. injection E as <- <-. exists []. split; [apply vec_dashes|reflexivity].
      * rewrite dash_word in E by auto. destruct (cluster w) as (ev1, m) eqn:Ec. cbn [fst snd] in E.
        destruct (getopt gnu args m) as (ev2, ops2) eqn:E2. cbn [fst snd] in E. injection E as <- <-.
        destruct m as [c|].
        { destruct args as [|a args]; [cbn [getopt] in E2; injection E2 as <- <-; exfalso; apply NB, in_or_app; right; now left|].
          cbn [getopt] in E2. destruct (getopt gnu args None) as (ev3, ops3) eqn:E3. injection E2 as <- <-.
          assert (Nc : c <> 105) by (apply (NL c (Some a)), in_or_app; right; now left).
          destruct (cluster_back w ev1 (Some c) Ec) as (fl & F & H).
          - intros H. apply NB, in_or_app. now left.
          - intros c0 a0 H. apply (NL c0 a0), in_or_app. now left.
          - congruence.
          - destruct (IH args ev3 ops3) as (l & V & ->); [cbn [length] in Ln; lia|exact E3| | |].
            + intros H'. apply NB, in_or_app. right. now right.
            + intros c0 a0 H'. apply (NL c0 a0), in_or_app. right. now right.
            + destruct H as [(_ & _ & H)|[(d & D & -> & -> & Hd)|(d & a0 & _ & _ & _ & _ & H)]]; try discriminate. injection Hd as <-.
              exists (map (fun c => (c, None)) fl ++ (c, Some a) :: l). split; [now apply vec_next|]. rewrite map_app. reflexivity. }
        { destruct (cluster_back w ev1 None Ec) as (fl & F & H).
          - intros H. apply NB, in_or_app. now left.
          - intros c0 a0 H. apply (NL c0 a0), in_or_app. now left.
          - discriminate.
          - destruct (IH args ev2 ops2) as (l & V & ->); [lia|exact E2| | |].
            + intros H'. apply NB, in_or_app. now right.
            + intros c0 a0 H'. apply (NL c0 a0), in_or_app. now right.
            + destruct H as [(-> & -> & _)|[(d & _ & _ & _ & H)|(d & a0 & D & Na & -> & -> & _)]]; [|discriminate|].
              * exists (map (fun c => (c, None)) fl ++ l). split; [now apply vec_flags|now rewrite map_app].
              * exists (map (fun c => (c, None)) fl ++ (d, Some a0) :: l). split; [now apply vec_joined|]. rewrite !map_app, <- app_assoc. reflexivity. }
Qed.
Lemma opts_back : forall e evs files p files' p', on_opts e evs files p = Go files' p' ->
  ~ In GBad evs /\ forall c a, In (GOpt c a) evs -> exists f q f' q', on_opt e c a f q = Go f' q'.
Proof.
  induction evs as [|[c a|] evs IH]; intros files p files' p' E; cbn [on_opts] in E; [split; [intros []|intros c a []]| |discriminate].
  destruct (on_opt e c a files p) as [f1 q1|o] eqn:E1; [|discriminate]. destruct (IH _ _ _ _ E) as (A & B). split.
  - intros [H|H]; [discriminate|auto].
  - intros c0 a0 [H|H]; [injection H as <- <-; eauto 6|auto].
Qed.

(** P_Line.v: C75 and C76, a configuration file means what the manual says. *)
From Coq Require Import String.
From Verif Require Import Base M_Util S_Util L_Util M_Filter S_Filter L_Filter M_Config S_Config L_Config L_Config2 L_Config3 S_Dump L_Dump S_Rule L_Rule P_Rule S_Line L_Line M_Ifup S_Ifup L_Line2 L_Eof.
Close Scope string_scope.
Open Scope Z_scope.

(** ** A file, for the examples *)
Fixpoint texts (e : env) (ids : list (list Z)) (ls : list line) (ts : list (list Z)) : Prop :=
  match ls, ts with
  | [], [] => True
  | l :: ls, t :: ts => line_text e ids l t /\ texts e (ids ++ match l with LKey id _ _ => [id] | _ => [] end) ls ts
  | _, _ => False
  end.
Lemma texts_file : forall e ls ts, texts e [] ls ts -> file_text e ls ts.
Proof.
  intros e ls ts H.
  assert (G : forall ls dn ts, texts e (key_ids dn) ls ts -> length ts = length ls /\
    forall a l b t, ls = a ++ l :: b -> nth_error ts (length a) = Some t -> line_text e (key_ids (dn ++ a)) l t).
  { clear. induction ls as [|l ls IH]; intros dn ts H; destruct ts as [|t ts]; try contradiction.
    - split; auto. intros [|? ?]; discriminate.
    - destruct H as (H1 & H2). destruct (IH (dn ++ [l]) ts) as (L & T); [rewrite ids_snoc; exact H2|]. split; [cbn; now rewrite L|].
      intros [|x a] l0 b t0 E Et; cbn in E; injection E as -> E.
      + cbn in Et. injection Et as <-. now rewrite app_nil_r.
      + pose proof (T a l0 b t0 E Et) as Q. rewrite <- app_assoc in Q. exact Q. }
  destruct (G ls [] ts H) as (L & T). split; [exact L|]. intros a l b t. apply T.
Qed.
Definition f_lines : list line :=
  [LBlank; LKey (str "k1") 1 [0; 255; 167]; LOpt (OInt (str "local-port") 33123);
   LDef [PVal 0 4500; PVal 3 1; PKey (str "k1")]; LIf (str "eth0") [PVal 2 300; PVal 0 500];
   LIf (str "wlan0") [PVal 3 2]; LIf (str "eth0") [PVal 5 0; PVal 2 200]; LRule 2 [CLocal; CDeny]].
Definition f_texts : list (list Z) :=
  [nl (str "# keys first"); nl (str "key id k1 type hmac-sha256 value 00ffA7"); nl (str "local-port 33123");
   nl (str "default hello-interval 4.5  type wired key k1"); nl (str "interface eth0 rxcost 300 hello-interval 0.5 # slow");
   nl (str "interface wlan0 type wireless"); nl (str "interface eth0 link-quality auto rxcost 200"); nl (str "redistribute local deny")].
Ltac numb := match goal with |- number 10 ?x _ => let y := eval vm_compute in x in change x with y end; digits.
Lemma f_text : file_text r_env f_lines f_texts.
Proof.
  apply texts_file. cbn [texts f_lines f_texts app].
  assert (Ma : forall n v, num_text n v -> num_text n v) by auto.
  split; [|split; [|split; [|split; [|split; [|split; [|split; [|split; [|exact Logic.I]]]]]]]].
  - apply spacedb_ok. vm_compute. reflexivity.
  - exists [str "id"; str "k1"; str "type"; str "hmac-sha256"; str "value"; str "00ffA7"]. split; [split; [discriminate|left; cbn; split; lia]|].
    split; [|apply spacedb_ok; vm_compute; reflexivity]. exists (str "hmac-sha256"), (str "00ffA7"). do 3 eexists.
    split; [now left|]. split; [|split; [reflexivity|split; [reflexivity|split; [reflexivity|now left]]]].
    change (str "00ffA7") with [48; 48; 102; 102; 65; 55]. change [0; 255; 167] with [16 * 0 + 0; 16 * 15 + 15; 16 * 10 + 7].
    repeat (apply hex_byte; [unfold hex_digit; lia|unfold hex_digit; lia|]). apply hex_end.
  - exists [str "local-port"; str "33123"]. split; [|apply spacedb_ok; vm_compute; reflexivity]. apply ot_int; [cbn; tauto|numt|lia].
  - exists [[str "hello-interval"; str "4.5"]; [str "type"; str "wired"]; [str "key"; str "k1"]].
    split; [|split; [|apply spacedb_ok; vm_compute; reflexivity]].
    + constructor; [|constructor; [|constructor; [|constructor]]].
      * eapply pt_thou; [now left| |lia]. right. exists (str "4"), (str "5"), 4, 5. split; [reflexivity|]. split; [numb|]. split; [numb|].
        split; [vm_compute; lia|reflexivity].
      * apply pt_type. right. right. now left.
      * apply pt_key.
    + intros id [E|[E|[E|[]]]]; try discriminate E. injection E as <-. now left.
  - exists [[str "rxcost"; str "300"]; [str "hello-interval"; str "0.5"]].
    split; [|split; [|apply spacedb_ok; vm_compute; reflexivity]].
    + constructor; [|constructor; [|constructor]].
      * eapply pt_int; [now left|numt|lia].
      * eapply pt_thou; [now left| |lia]. right. exists (str "0"), (str "5"), 0, 5. split; [reflexivity|]. split; [numb|]. split; [numb|].
        split; [vm_compute; lia|reflexivity].
    + intros id [E|[E|[]]]; discriminate E.
  - exists [[str "type"; str "wireless"]]. split; [|split; [|apply spacedb_ok; vm_compute; reflexivity]].
    + constructor; [|constructor]. apply pt_type. right. right. right. now left.
    + intros id [E|[]]; discriminate E.
  - exists [[str "link-quality"; str "auto"]; [str "rxcost"; str "200"]]. split; [|split; [|apply spacedb_ok; vm_compute; reflexivity]].
    + constructor; [|constructor; [|constructor]].
      * eapply pt_bool; [right; now left|]. cbn. tauto.
      * eapply pt_int; [now left|numt|lia].
    + intros id [E|[E|[]]]; discriminate E.
  - split.
    + exists (str "redistribute"), [[str "local"]; [str "deny"]]. split; [cbn; auto|]. split; [repeat constructor|].
      split; [|apply spacedb_ok; vm_compute; reflexivity]. constructor; [reflexivity|]. constructor; [reflexivity|constructor].
    + exists None. intros c [<-|[<-|[]]]; split; auto; intros [].
Qed.

(** The state in which the daemon reads its first file *)
Definition fresh (g : cfg) : Prop :=
  g_final g = false /\ g_keys g = [] /\ g_ifs g = [] /\ g_default g = None /\ g_abort g = false.
(** The key an interface uses *)
Definition uses_key (g : cfg) (ic : ifconf) (id : list Z) : Prop :=
  exists n k, ic_key ic = Some n /\ nth_error (g_keys g) n = Some k /\ k_id k = id.

(** What the lines [ls] say of the interfaces of a configuration *)
Definition interfaces_as (ls : list line) (g : cfg) : Prop :=
  let ifs := finalise_ifs (g_default g) (g_ifs g) in
  NoDup (map ic_name ifs) /\
  (forall name, In name (map ic_name ifs) <-> exists ps, In (LIf name ps) ls) /\
  (forall ic, In ic ifs ->
     (forall n v, given (conf_for (g_default g) (Some ic)) n v <-> configured (sets n) (ic_name ic) ls v) /\
     (forall n, open (conf_for (g_default g) (Some ic)) n <-> forall v, ~ configured (sets n) (ic_name ic) ls v) /\
     (forall id, uses_key g ic id <-> configured sets_key (ic_name ic) ls id) /\
     (ic_key ic = None <-> forall id, ~ configured sets_key (ic_name ic) ls id)) /\
  (forall n v, given (conf_for (g_default g) None) n v <-> last_of (sets n) (defs ls) v).
Lemma J_interfaces : forall e g0 ls g, J e g0 ls g -> interfaces_as ls g.
Proof.
  intros e g0 ls g Hj. unfold interfaces_as. cbv zeta.
  assert (Nm : map ic_name (finalise_ifs (g_default g) (g_ifs g)) = map ic_name (g_ifs g)).
  { unfold finalise_ifs. destruct (g_default g); auto. rewrite map_map. reflexivity. }
  rewrite Nm. split; [exact (j_ifnd _ _ _ _ Hj)|]. split; [|split].
  - intros name. assert (Q : own name ls <> [] <-> exists ps, In (LIf name ps) ls).
    { split.
      - intros H. destruct (own name ls) as [|ps q] eqn:E; [now destruct H|]. unfold own in E.
        assert (Hi : In ps (ps :: q)) by now left. rewrite <- E in Hi. apply in_concat in Hi. destruct Hi as (l1 & H1 & H2).
        apply in_map_iff in H1. destruct H1 as (l & <- & Hl). destruct l as [|m qs| | | |]; try contradiction.
        destruct (beq m name) eqn:B; [|contradiction]. apply beq_true in B. subst. eauto.
      - intros (ps & H) E. unfold own in E. assert (Hi : In ps (concat (map (fun l => match l with LIf n qs => if beq n name then [qs] else [] | _ => [] end) ls))).
        { apply in_concat. exists [ps]. split; [|now left]. apply in_map_iff. exists (LIf name ps). rewrite beq_refl. auto. }
        rewrite E in Hi. destruct Hi. }
    rewrite <- Q. split.
    + intros H. apply in_map_iff in H. destruct H as (ic & <- & Hi). apply (j_ifs _ _ _ _ Hj ic Hi).
    + apply (j_all _ _ _ _ Hj).
  - intros ic Hi. destruct (final_if _ _ _ _ Hj ic Hi) as (L & V & Ke). cbn [conf_for].
    split; [|split; [|split]].
    + intros n v. rewrite configured_val, <- V. unfold given. split.
      * intros (c & Ec & Q). injection Ec as <-. exact Q.
      * intros Q. exists ic. auto.
    + intros n. unfold open. rewrite V. split.
      * intros Z0 v Hv. apply configured_val in Hv. lia.
      * intros H. destruct (Z.eq_dec (if val n (own (ic_name ic) ls) =? 0 then val n (defs ls) else val n (own (ic_name ic) ls)) 0) as [Z0|Z0]; [exact Z0|].
        exfalso. eapply H. apply configured_val. split; [reflexivity|exact Z0].
    + intros id. rewrite configured_key. unfold uses_key. split.
      * intros (n & k & E1 & E2 & E3). rewrite E1 in Ke. destruct Ke as (i & Q1 & Q2). rewrite Q2. rewrite nth_error_map, E2 in Q1. cbn in Q1. congruence.
      * intros H. destruct (ic_key ic) as [n|]; [|congruence]. destruct Ke as (i & Q1 & Q2). rewrite nth_error_map in Q1.
        destruct (nth_error (g_keys g) n) as [k|] eqn:E; [|discriminate]. cbn in Q1. exists n, k. split; auto. split; auto. congruence.
    + split.
      * intros E id H. apply configured_key in H. rewrite E in Ke. congruence.
      * intros H. destruct (ic_key ic) as [n|]; auto. destruct Ke as (i & Q1 & Q2). exfalso. apply (H i). now apply configured_key.
  - intros n v. cbn [conf_for]. rewrite val_sets. pose proof (j_def _ _ _ _ Hj) as Dj. unfold given. destruct (g_default g) as [d|].
    + destruct Dj as (_ & _ & Vd & _). rewrite <- Vd. split; [intros (c & Ec & Q); injection Ec as <-; exact Q|intros Q; exists d; auto].
    + rewrite Dj. split; [intros (c & Ec & _); discriminate|]. intros (A & B). cbn in A. congruence.
Qed.
(** ** C75: every interface gets the parameters its lines give *)
(** A file of lines is accepted.  Afterwards the interfaces are those with a line, each
    once; a parameter of an interface has the value of the last line for that interface that
    sets it, otherwise of the last "default" line that sets it, wherever in the file these
    lines are, otherwise none (and C70 says what happens then); likewise its key. *)
Theorem C75_interfaces : forall e ls ts p, file_text e ls ts -> (forall x, In x (concat ts) -> 0 <= x) -> fresh (p_cfg p) ->
  Z.of_nat (named ls) <= 65535 ->
  exists p', from_file e (concat ts) p = (true, p') /\ g_abort (p_cfg p') = false /\
  let g := p_cfg p' in let ifs := finalise_ifs (g_default g) (g_ifs g) in
  NoDup (map ic_name ifs) /\
  (forall name, In name (map ic_name ifs) <-> exists ps, In (LIf name ps) ls) /\
  (forall ic, In ic ifs ->
     (forall n v, given (conf_for (g_default g) (Some ic)) n v <-> configured (sets n) (ic_name ic) ls v) /\
     (forall n, open (conf_for (g_default g) (Some ic)) n <-> forall v, ~ configured (sets n) (ic_name ic) ls v) /\
     (forall id, uses_key g ic id <-> configured sets_key (ic_name ic) ls id) /\
     (ic_key ic = None <-> forall id, ~ configured sets_key (ic_name ic) ls id)) /\
  (forall n v, given (conf_for (g_default g) None) n v <-> last_of (sets n) (defs ls) v).
Proof.
  intros e ls ts p T Nn (F & K & I & D & Ab) Bn.
  destruct (whole_file e ls ts p T Nn F K I D Bn) as (p' & P & Hj). exists p'. split; [exact P|].
  split; [rewrite (j_abort _ _ _ _ Hj); exact Ab|]. exact (J_interfaces _ _ _ _ Hj).
Qed.
Print Assumptions C75_interfaces.
Example C75_interfaces_ex : file_text r_env f_lines f_texts /\ (forall x, In x (concat f_texts) -> 0 <= x) /\ fresh (p_cfg r_p) /\
  Z.of_nat (named f_lines) <= 65535 /\
  let '(ok, p') := from_file r_env (concat f_texts) r_p in let g := p_cfg p' in
  ok = true /\
  map (fun ic => (ic_name ic, firstn 6 (ic_vals ic), ic_key ic)) (finalise_ifs (g_default g) (g_ifs g)) =
    [(str "eth0", [500; 0; 200; 1; 0; 0], Some O); (str "wlan0", [4500; 0; 0; 2; 0; 0], Some O)].
Proof.
  split; [exact f_text|]. split.
  { assert (B : forallb (fun x => 0 <=? x) (concat f_texts) = true) by (vm_compute; reflexivity).
    intros x Hx. rewrite forallb_forall in B. specialize (B x Hx). lia. }
  split; [unfold fresh; auto|]. split; [vm_compute; discriminate|]. vm_compute. repeat split.
Qed.

(** A later line that asks for the automatic choice does not undo an earlier one. *)
Definition a_lines : list line := [LDef [PVal 3 1]; LIf (str "eth0") [PVal 3 0]].
Definition a_texts : list (list Z) := [nl (str "default type wired"); nl (str "interface eth0 type auto")].
Lemma a_text : file_text r_env a_lines a_texts.
Proof.
  apply texts_file. cbn [texts a_lines a_texts app]. split; [|split; [|exact Logic.I]].
  - exists [[str "type"; str "wired"]]. split; [|split; [|apply spacedb_ok; vm_compute; reflexivity]].
    + constructor; [|constructor]. apply pt_type. cbn. tauto.
    + intros id [E|[]]; discriminate E.
  - exists [[str "type"; str "auto"]]. split; [|split; [|apply spacedb_ok; vm_compute; reflexivity]].
    + constructor; [|constructor]. apply pt_type. cbn. tauto.
    + intros id [E|[]]; discriminate E.
Qed.
Theorem C75_auto_refuted : ~ forall e ls ts p, file_text e ls ts -> fresh (p_cfg p) ->
  let g := p_cfg (snd (from_file e (concat ts) p)) in
  forall ic n, In ic (finalise_ifs (g_default g) (g_ifs g)) -> last_of (fun ps v => last_of (says n) ps v) (own (ic_name ic) ls) 0 ->
    open (conf_for (g_default g) (Some ic)) n.
Proof.
  intros H. specialize (H r_env a_lines a_texts r_p a_text ltac:(unfold fresh; auto)). cbv zeta in H.
  assert (E : finalise_ifs (g_default (p_cfg (snd (from_file r_env (concat a_texts) r_p)))) (g_ifs (p_cfg (snd (from_file r_env (concat a_texts) r_p)))) =
    [mkIc (str "eth0") [0; 0; 0; 1; 0; 0; 0; 0; 0; 0; 0; 0; 0; 0; 0; 0; 0] None]) by (vm_compute; reflexivity).
  rewrite E in H. specialize (H _ 3%nat (or_introl eq_refl)).
  assert (L : last_of (fun ps v => last_of (says 3) ps v) (own (str "eth0") a_lines) 0).
  { exists [], [PVal 3 0], []. split; [reflexivity|]. split; [|intros y w []]. exists [], (PVal 3 0), []. split; auto. split; [reflexivity|]. intros y w []. }
  specialize (H L). cbn in H. discriminate H.
Qed.
Print Assumptions C75_auto_refuted.

(** An interface added while the daemon runs gets none of the parameters of "default". *)
Definition run_p : pst :=
  mkP [] [] 0 false false (mkCfg true true [] [] [] [] [] (Some (mkIc [] [0; 0; 0; 1; 0; 0; 0; 0; 0; 0; 0; 0; 0; 0; 0; 0; 0] None)) [] [] false).
Theorem C75_runtime_refuted : ~ forall e l p p' m ic n v, g_final (p_cfg p) = true -> given (g_default (p_cfg p)) n v ->
  from_string e l p = (ACT_DONE, m, p') -> In ic (g_ifs (p_cfg p')) -> ~ In (ic_name ic) (map ic_name (g_ifs (p_cfg p))) ->
  exists w, given (conf_for (g_default (p_cfg p')) (Some ic)) n w.
Proof.
  intros H.
  set (r := from_string r_env (nl (str "interface eth1")) run_p).
  assert (E : exists p', r = (ACT_DONE, None, p') /\ g_ifs (p_cfg p') = [mkIc (str "eth1") (repeat 0 17) None]).
  { unfold r. eexists. split; vm_compute; reflexivity. }
  destruct E as (p' & Er & Ei).
  assert (G : given (g_default (p_cfg run_p)) 3 1). { eexists. split; [reflexivity|]. cbn. split; [reflexivity|lia]. }
  destruct (H r_env (nl (str "interface eth1")) run_p p' None (mkIc (str "eth1") (repeat 0 17) None) 3%nat 1 eq_refl G Er) as (w & c & Ec & V & N).
  - rewrite Ei. now left.
  - intros [].
  - cbn in Ec. injection Ec as <-. cbn in V. congruence.
Qed.
Print Assumptions C75_runtime_refuted.

(** ** C76: the rest of the file *)
Definition defines (id : list Z) (x : list Z * Z * list Z) (y : Z * list Z) : Prop := x = (id, fst y, snd y).
(** What the lines [ls] say of the rest of a configuration, which was [g0] *)
Definition rest_as (e : env) (g0 : cfg) (ls : list line) (g : cfg) : Prop :=
  g_log g = g_log g0 ++ map opt_effect (opts ls) /\
  ((forall b, last_of opens (opts ls) b -> g_write g = b) /\ ((forall b, ~ last_of opens (opts ls) b) -> g_write g = g_write g0)) /\
  (NoDup (map k_id (g_keys g)) /\
   (forall id ty v, last_of (defines id) (keys ls) (ty, v) ->
      exists k, In k (g_keys g) /\ k_id k = id /\ k_type k = ty /\ k_value k = secret ty v) /\
   (forall k, In k (g_keys g) -> exists ty v, last_of (defines (k_id k)) (keys ls) (ty, v))) /\
  ((forall w, chain w g0 = []) -> forall d, dest_ok d -> one_family d ->
   (forall id neigh ifindex, exists r,
      verdict e (rules 0 ls) 0 id d neigh ifindex 0 (input_filter (g_in g) id d neigh ifindex) r) /\
   (forall id ifindex, exists r,
      verdict e (rules 1 ls) 0 id d None ifindex 0 (output_filter (g_out g) id d ifindex) r) /\
   (forall ifindex proto,
      let '(v, r) := redistribute_filter (finalise_redistribute (g_redist g)) d ifindex proto in
      verdict e (rules 2 ls) (if proto =? -2 then 0 else 65535) None d None ifindex proto v r) /\
   (forall id ifindex,
      let '(v, r) := install_filter (finalise_install (g_inst g)) id d ifindex in
      verdict e (rules 3 ls) 0 id d None ifindex 0 v r)).
Lemma J_rest : forall e g0 ls g, J e g0 ls g -> rest_as e g0 ls g.
Proof.
  intros e g0 ls g Hj. unfold rest_as.
  split; [exact (j_log _ _ _ _ Hj)|]. split; [|split].
  - pose proof (j_write _ _ _ _ Hj) as W.
    assert (Lw : forall b, last_of opens (opts ls) b <-> lookup wopt (opts ls) = Some b) by (intros b; apply last_lookup, opens_wopt).
    split.
    + intros b H. apply Lw in H. now rewrite W, H.
    + intros H. destruct (lookup wopt (opts ls)) as [b|] eqn:E; [|exact W]. exfalso. apply (H b). now apply Lw.
  - assert (Ld : forall id y, last_of (defines id) (keys ls) y <-> lookup (kdef id) (keys ls) = Some y).
    { intros id y. apply last_lookup. intros ((i, ty), v) (ty', v'). unfold defines, kdef. cbn [fst snd]. split.
      - intros E. injection E as -> -> ->. now rewrite beq_refl.
      - destruct (beq i id) eqn:B; [|discriminate]. apply beq_true in B. intros E. injection E as -> ->. now subst. }
    split; [exact (j_knd _ _ _ _ Hj)|]. split.
    + intros id ty v H. assert (Hi : In id (key_ids ls)).
      { destruct H as (a & x & b & E & Dx & _). unfold defines in Dx. cbn [fst snd] in Dx. subst x.
        assert (Hk : In (id, ty, v) (keys ls)) by (rewrite E; apply in_or_app; right; now left).
        unfold keys in Hk. apply in_concat in Hk. destruct Hk as (q & Hq & Hi). apply in_map_iff in Hq. destruct Hq as (l & <- & Hl).
        destruct l; try contradiction. destruct Hi as [Hi|[]]. injection Hi as -> -> ->. unfold key_ids. apply in_concat.
        exists [id]. split; [apply in_map_iff; eexists; split; [|exact Hl]; reflexivity|now left]. }
      apply (j_kids _ _ _ _ Hj) in Hi. apply in_map_iff in Hi. destruct Hi as (k & Ek & Hk). exists k. split; [exact Hk|]. split; [exact Ek|].
      apply Ld in H. rewrite <- Ek in H. exact (j_kdef _ _ _ _ Hj k ty v Hk H).
    + intros k Hk. destruct (lookup (kdef (k_id k)) (keys ls)) as [(ty, v)|] eqn:E.
      * exists ty, v. now apply Ld.
      * exfalso. exact (j_kval _ _ _ _ Hj k Hk E).
  - intros Em d Dd Of.
    assert (Ch : forall w, Forall2 (means e) (rules w ls) (chain w g)).
    { intros w. destruct (j_chain _ _ _ _ Hj w) as (fs & C1 & C2). rewrite Em in C1. rewrite C1. exact C2. }
    split; [|split; [|split]]; intros.
    + apply input_verdict; auto. exact (Ch 0).
    + apply output_verdict; auto. exact (Ch 1).
    + apply (redistribute_verdict e (rules 2 ls) (g_redist g)); auto. exact (Ch 2).
    + apply (install_verdict e (rules 3 ls) (g_inst g)); auto. exact (Ch 3).
Qed.
(** The options take effect in the order of the file, each with the value written there;
    whether clients may change the configuration is decided by the last of the local-...
    options; the keys are those of the file, each once, with the type and secret of its last
    line; the rules of each chain decide as C74 says. *)
Theorem C76_file : forall e ls ts p, file_text e ls ts -> (forall x, In x (concat ts) -> 0 <= x) -> fresh (p_cfg p) ->
  Z.of_nat (named ls) <= 65535 ->
  exists p', from_file e (concat ts) p = (true, p') /\
  let g := p_cfg p' in
  g_log g = g_log (p_cfg p) ++ map opt_effect (opts ls) /\
  ((forall b, last_of opens (opts ls) b -> g_write g = b) /\ ((forall b, ~ last_of opens (opts ls) b) -> g_write g = g_write (p_cfg p))) /\
  (NoDup (map k_id (g_keys g)) /\
   (forall id ty v, last_of (defines id) (keys ls) (ty, v) ->
      exists k, In k (g_keys g) /\ k_id k = id /\ k_type k = ty /\ k_value k = secret ty v) /\
   (forall k, In k (g_keys g) -> exists ty v, last_of (defines (k_id k)) (keys ls) (ty, v))) /\
  ((forall w, chain w (p_cfg p) = []) -> forall d, dest_ok d -> one_family d ->
   (forall id neigh ifindex, exists r,
      verdict e (rules 0 ls) 0 id d neigh ifindex 0 (input_filter (g_in g) id d neigh ifindex) r) /\
   (forall id ifindex, exists r,
      verdict e (rules 1 ls) 0 id d None ifindex 0 (output_filter (g_out g) id d ifindex) r) /\
   (forall ifindex proto,
      let '(v, r) := redistribute_filter (finalise_redistribute (g_redist g)) d ifindex proto in
      verdict e (rules 2 ls) (if proto =? -2 then 0 else 65535) None d None ifindex proto v r) /\
   (forall id ifindex,
      let '(v, r) := install_filter (finalise_install (g_inst g)) id d ifindex in
      verdict e (rules 3 ls) 0 id d None ifindex 0 v r)).
Proof.
  intros e ls ts p T Nn (F & K & I & D & Ab) Bn.
  destruct (whole_file e ls ts p T Nn F K I D Bn) as (p' & P & Hj). exists p'. split; [exact P|]. exact (J_rest _ _ _ _ Hj).
Qed.
Print Assumptions C76_file.
(** The newline at the end of the file may be missing. *)
Theorem C76_last_newline : forall e s p p', (forall x, In x s -> 0 <= x) -> from_file e (s ++ [10]) p = (true, p') ->
  exists p2, from_file e s p = (true, p2) /\ p_cfg p2 = p_cfg p'.
Proof.
  intros e s p p' F E. destruct (file_eof e s p p') as (r & H); [now apply Forall_forall|exact E|]. exists (set_in r p'). split; [exact H|reflexivity].
Qed.
Print Assumptions C76_last_newline.
Example C76_last_newline_ex :
  let s := str "interface eth0" ++ 10 :: str "redistribute local deny # last" in
  fst (from_file r_env (s ++ [10]) r_p) = true /\ length (g_redist (p_cfg (snd (from_file r_env s r_p)))) = 1%nat.
Proof. vm_compute. repeat split. Qed.
Example C76_file_ex : file_text r_env f_lines f_texts /\ fresh (p_cfg r_p) /\
  let '(ok, p') := from_file r_env (concat f_texts) r_p in let g := p_cfg p' in
  ok = true /\ g_log g = [SetInt (str "local-port") 33123] /\ g_write g = false /\
  map (fun k => (k_id k, k_type k, firstn 4 (k_value k), length (k_value k))) (g_keys g) = [(str "k1", 1, [0; 255; 167; 0], 64%nat)] /\
  length (g_redist g) = 1%nat.
Proof. split; [exact f_text|]. split; [unfold fresh; auto|]. vm_compute. repeat split. Qed.

(** The manual allows the values 0 of kernel-check-interval and shutdown-delay-ms, and the
    option first-rule-priority; the daemon refuses them. *)
Theorem C76_zero_refuted : ~ forall e kw t v p, In kw [str "kernel-check-interval"; str "shutdown-delay-ms"] -> num_text t v -> 0 <= v < 65535 ->
  fresh (p_cfg p) -> fst (from_file e (kw ++ 32 :: t ++ [10]) p) = true.
Proof.
  intros H. specialize (H r_env (str "shutdown-delay-ms") (str "0") 0 r_p ltac:(cbn; tauto)).
  assert (N : num_text (str "0") 0) by (split; [numb|now left]). specialize (H N ltac:(lia) ltac:(unfold fresh; auto)). vm_compute in H. discriminate H.
Qed.
Print Assumptions C76_zero_refuted.
Theorem C76_first_rule_refuted : ~ forall e t v p, num_text t v -> 0 <= v < 65535 -> fresh (p_cfg p) ->
  fst (from_file e (str "first-rule-priority " ++ t ++ [10]) p) = true.
Proof.
  intros H. assert (N : num_text (str "100") 100) by numt.
  specialize (H r_env (str "100") 100 r_p N ltac:(lia) ltac:(unfold fresh; auto)). vm_compute in H. discriminate H.
Qed.
Print Assumptions C76_first_rule_refuted.

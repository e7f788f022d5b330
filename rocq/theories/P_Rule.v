(** P_Rule.v: C74, filter lines mean what the manual says. *)
From Coq Require Import String.
From Verif Require Import Base M_Util S_Util L_Util M_Filter S_Filter L_Filter M_Config S_Config L_Config L_Config2 L_Config3 S_Dump L_Dump S_Rule L_Rule.
Close Scope string_scope.
Open Scope Z_scope.

(** ** Concrete texts, for the examples *)
Definition blankb (c : Z) : bool := (c =? 32) || (c =? 9) || (c =? 13).
Definition word_okb (w : list Z) : bool :=
  negb (beq w []) && (Z.of_nat (length w) <=? 255) && negb (hd 0 w =? 34) &&
  forallb (fun c => (0 <? c) && negb (blankb c) && negb (c =? 10) && negb (c =? 35)) w.
Fixpoint stripb (l : list Z) : list Z * list Z :=
  match l with c :: l' => if blankb c then let '(b, r) := stripb l' in (c :: b, r) else ([], l) | [] => ([], []) end.
Fixpoint spacedb (ws : list (list Z)) (l : list Z) : bool :=
  let '(b, r) := stripb l in
  match ws with
  | [] => match rev r with
          | x :: k => (x =? 10) && (match r with y :: _ => (y =? 10) || (y =? 35) | [] => false end) &&
                       negb (existsb (Z.eqb 10) k) && forallb (fun c => 0 <=? c) r
          | [] => false end
  | w :: ws' => word_okb w && beq (firstn (length w) r) w &&
                match skipn (length w) r with
                | c :: _ => (blankb c || (c =? 10) || (c =? 35)) && spacedb ws' (skipn (length w) r)
                | [] => false end
  end.
Lemma blankb_ok : forall c, blankb c = true -> blank c.
Proof. intros c H. unfold blankb, blank in *. lia. Qed.
Lemma stripb_ok : forall l b r, stripb l = (b, r) -> l = b ++ r /\ Forall blank b.
Proof.
  induction l as [|c l IH]; intros b r E; cbn in E; [injection E as <- <-; split; constructor|].
  destruct (blankb c) eqn:B; [|injection E as <- <-; split; [reflexivity|constructor]].
  destruct (stripb l) as (b', r'). injection E as <- <-. destruct (IH _ _ eq_refl) as (-> & F).
  split; [reflexivity|]. constructor; auto using blankb_ok.
Qed.
Lemma word_okb_ok : forall w, word_okb w = true -> word_ok w.
Proof.
  intros w H. unfold word_okb in H. rewrite !andb_true_iff in H. destruct H as (((A & B) & C) & D).
  split; [intros ->; discriminate A|]. split; [lia|]. split; [lia|]. intros c Hc. rewrite forallb_forall in D.
  specialize (D c Hc). unfold blankb in D. unfold blank. lia.
Qed.
Lemma spacedb_ok : forall ws l, spacedb ws l = true -> spaced ws l.
Proof.
  induction ws as [|w ws IH]; intros l H; cbn in H; destruct (stripb l) as (b, r) eqn:E;
    destruct (stripb_ok _ _ _ E) as (-> & B).
  - destruct (rev r) as [|x k] eqn:Er; [discriminate|].
    rewrite !andb_true_iff in H. destruct H as (((H0 & H1) & H2) & F). assert (x = 10) by lia. subst x.
    rewrite forallb_forall in F. assert (R : r = rev k ++ [10]) by (rewrite <- (rev_involutive r), Er; reflexivity).
    constructor.
    + exists b, (rev k). split; [now rewrite R|]. split; [exact B|].
      assert (N : ~ In 10 k). { intros X. apply negb_true_iff in H2. apply Bool.not_true_iff_false in H2. apply H2.
        apply existsb_exists. exists 10. auto. }
      split; [rewrite <- in_rev; exact N|].
      destruct (rev k) as [|y m] eqn:Ek; [now left|]. right. exists m. f_equal. rewrite R in H1. cbn [app] in H1.
      assert (y <> 10). { intros ->. apply N. apply in_rev. rewrite Ek. now left. }
      lia.
    + apply Forall_app. split; [apply Forall_blank_pos; auto|]. apply Forall_forall. intros c Hc. specialize (F c Hc). lia.
  - rewrite !andb_true_iff in H. destruct H as ((H1 & H2) & H3). apply beq_true in H2.
    destruct (skipn (length w) r) as [|c l'] eqn:Sk; [discriminate|]. apply andb_true_iff in H3. destruct H3 as (H3 & H4).
    rewrite <- (firstn_skipn (length w) r), H2, Sk. constructor; auto using word_okb_ok.
    exists c, l'. split; auto. unfold blankb, blank in *. lia.
Qed.
(** A C library that knows a few names *)
Definition r_env : env :=
  mkEnv (fun s => if beq s (str "10.0.0.0") then Some [10; 0; 0; 0] else if beq s (str "192.168.1.1") then Some [192; 168; 1; 1] else None)
        (fun s => if beq s (str "2001:db8::") then Some [32; 1; 13; 184; 0; 0; 0; 0; 0; 0; 0; 0; 0; 0; 0; 0]
                  else if beq s (str "::") then Some (repeat 0 16) else None)
        (fun s => if beq s (str "eth0") then 3 else 0) (fun _ => 1).
Definition r_p : pst := mkP [] [] 0 false false (mkCfg false false [] [] [] [] [] None [] [] false).
Definition ten : net := Net (A4 10 0 0 0) 8.
Definition doc : net := Net (A6 [32; 1; 13; 184; 0; 0; 0; 0; 0; 0; 0; 0; 0; 0; 0; 0]) 32.
Definition r_rules : list (Z * list clause) :=
  [(0, [CIf (str "eth0"); CLe 24; CIp ten; CMetric 512]); (2, [CLocal; CDeny]); (3, [CIp doc; CGe 48; CTable 7]); (0, [CGe 64; CDeny])].
Definition r_words : list (list (list (list Z))) :=
  [[[str "if"; str "eth0"]; [str "le"; str "24"]; [str "ip"; str "10.0.0.0/8"]; [str "metric"; str "512"]];
   [[str "local"]; [str "deny"]]; [[str "ip"; str "2001:db8::/32"]; [str "ge"; str "48"]; [str "table"; str "7"]];
   [[str "ge"; str "64"]; [str "deny"]]].
Definition nl (s : list Z) : list Z := s ++ [10].
Definition r_lines : list (list Z) :=
  [nl (str "  in if eth0   le 24 ip 10.0.0.0/8 metric 512 # eth0 is slow"); nl (str "redistribute local deny");
   nl (str "install ip 2001:db8::/32 ge 48 table 7 "); nl (str "in ge 64 deny#")].
Ltac digits := first [apply num1; split; [left; lia|lia]|
  match goal with |- number 10 ?t ?v =>
    let a := eval vm_compute in (removelast t) in let c := eval vm_compute in (last t 0) in
    let q := eval vm_compute in (v / 10) in let m := eval vm_compute in (v mod 10) in
    change t with (a ++ [c]); change v with (q * 10 + m); apply numS; [digits|split; [left; lia|lia]] end].
Ltac numt := split; [let t := fresh in match goal with |- number 10 ?x _ => let y := eval vm_compute in x in change x with y end; digits|
  right; vm_compute; discriminate].
Ltac clauses := repeat (apply Forall_cons; [cbn; first [exact Logic.I|lia|split; [assumption|cbn; lia]]|]); apply Forall_nil.
Lemma r_texts : Forall2 (rule_text r_env) r_rules r_lines.
Proof.
  assert (A4g : addr_good (A4 10 0 0 0)) by (split; [reflexivity|cbn; repeat constructor; lia]).
  assert (A6g : addr_good (A6 [32; 1; 13; 184; 0; 0; 0; 0; 0; 0; 0; 0; 0; 0; 0; 0])) by (split; [reflexivity|cbn; repeat constructor; lia]).
  constructor; [|constructor; [|constructor; [|constructor; [|constructor]]]].
  - exists (str "in"), (nth 0 r_words []). split; [now left|]. split; [|split; [|apply spacedb_ok; vm_compute; reflexivity]].
    + clauses.
    + constructor; [reflexivity|]. constructor; [exists (str "24"); split; [reflexivity|numt]|].
      constructor; [exists (str "10.0.0.0/8"); split; [reflexivity|]|].
      { left. exists (str "10.0.0.0"), (str "8"). split; [reflexivity|]. split; [vm_compute; intuition discriminate|].
        split; [vm_compute; lia|]. split; [vm_compute; reflexivity|numt]. }
      constructor; [exists (str "512"); split; [reflexivity|numt]|constructor].
  - exists (str "redistribute"), (nth 1 r_words []). split; [cbn; auto|]. split; [|split; [|apply spacedb_ok; vm_compute; reflexivity]].
    + clauses.
    + constructor; [reflexivity|]. constructor; [reflexivity|]. constructor.
  - exists (str "install"), (nth 2 r_words []). split; [cbn; auto|]. split; [|split; [|apply spacedb_ok; vm_compute; reflexivity]].
    + clauses.
    + constructor; [exists (str "2001:db8::/32"); split; [reflexivity|]|].
      { left. exists (str "2001:db8::"), (str "32"). split; [reflexivity|]. split; [vm_compute; intuition discriminate|].
        split; [vm_compute; lia|]. split; [split; vm_compute; reflexivity|numt]. }
      constructor; [exists (str "48"); split; [reflexivity|numt]|].
      constructor; [exists (str "7"); split; [reflexivity|numt]|constructor].
  - exists (str "in"), (nth 3 r_words []). split; [now left|]. split; [|split; [|apply spacedb_ok; vm_compute; reflexivity]].
    + clauses.
    + constructor; [exists (str "64"); split; [reflexivity|numt]|]. constructor; [reflexivity|]. constructor.
Qed.
Lemma r_good : Forall rule_good r_rules.
Proof.
  constructor; [exists (Some true)|constructor; [exists None|constructor; [exists (Some false)|constructor; [exists (Some false)|constructor]]]].
  - split; [intros c x Hc E; cbn in Hc; decompose [or] Hc; subst; cbn in E; try discriminate; try easy; injection E as <-; reflexivity|].
    left. exists (CIp ten). split; [cbn; auto|reflexivity].
  - intros c Hc. cbn in Hc. decompose [or] Hc; subst; try easy; split; auto.
  - split; [intros c x Hc E; cbn in Hc; decompose [or] Hc; subst; cbn in E; try discriminate; try easy; injection E as <-; reflexivity|].
    left. exists (CIp doc). split; [cbn; auto|reflexivity].
  - split; [intros c x Hc E; cbn in Hc; decompose [or] Hc; subst; cbn in E; try discriminate; easy|].
    right. split; [reflexivity|]. split; [intros c Hc; cbn in Hc; decompose [or] Hc; subst; try easy; reflexivity|].
    exists (CGe 64). split; [cbn; auto|cbn; lia].
Qed.

(** ** C74 *)
(** A rule line, with its clauses in any order, any blanks between the words and perhaps a
    comment, is accepted: one rule is added at the end of the chain it names and nothing
    else changes, what follows the line is left to read, and the rule matches exactly the
    routes that its clauses describe and does what they say. *)
Theorem C74_line : forall e act r line rest c p, rule_text e r line -> rule_good r ->
  Forall (fun x => 0 <= x) rest -> c :: p_in p = line ++ rest -> g_final (p_cfg p) = false ->
  exists c' p' f, parse_config_line e act c p = Good c' (ACT_DONE, None) p' /\ text c' (p_in p') = rest /\
    same_rest (p_cfg p) (p_cfg p') /\
    (forall w, chain w (p_cfg p') = chain w (p_cfg p) ++ (if w =? fst r then [f] else [])) /\
    filt_ok f /\ does (snd r) (f_action f) /\
    forall id d neigh ifindex proto, dest_ok d -> one_family d ->
      (filter_match f id d neigh ifindex proto = true <-> applies e (snd r) id d neigh ifindex proto).
Proof.
  intros e act r line rest c p (kw & wss & K & C & W & Sp) (o & Fo) Fr E G.
  pose proof (rule_line e act kw (fst r) (snd r) wss line rest c p K C W Sp E G) as L.
  destruct (semo e (snd r) filt0) as [f|] eqn:Se; [|exfalso; exact (semo_none _ _ C Se o Fo)].
  destruct L as (c' & p' & P & I1 & G1). exists c', p', (finish_filter f).
  split; [exact P|]. split; [apply gnc1_text; auto|]. rewrite G1.
  split; [unfold same_rest; repeat split; reflexivity|]. split; [intros w; apply add_chain; eapply rule_range; eauto|].
  exact (built_means e (snd r) f C Se).
Qed.
Print Assumptions C74_line.
Example C74_line_ex : exists line, nth_error r_lines 0 = Some line /\ rule_text r_env (nth 0 r_rules (0, [])) line /\
  rule_good (nth 0 r_rules (0, [])) /\
  match parse_config_line r_env true (hd 0 line) (set_in (tl line ++ str "quit") r_p) with
  | Good c' _ p' => c' = 113 /\ map f_plen_le (g_in (p_cfg p')) = [120] /\ map f_if (g_in (p_cfg p')) = [Some 3]
  | Bad _ => False end.
Proof.
  exists (nth 0 r_lines []). split; [reflexivity|]. pose proof r_texts as T. inversion T; subst. pose proof r_good as Q. inversion Q; subst.
  split; [assumption|]. split; [assumption|]. vm_compute. auto.
Qed.

(** A line whose clauses name both families is rejected and changes nothing. *)
Theorem C74_mixed : forall e act r line rest c p x y, rule_text e r line ->
  In x (snd r) -> In y (snd r) -> family_of x = Some true -> family_of y = Some false ->
  c :: p_in p = line ++ rest -> g_final (p_cfg p) = false ->
  exists p', parse_config_line e act c p = Bad p' /\ p_cfg p' = p_cfg p.
Proof.
  intros e act r line rest c p x y (kw & wss & K & C & W & Sp) Hx Hy Fx Fy E G.
  pose proof (rule_line e act kw (fst r) (snd r) wss line rest c p K C W Sp E G) as L.
  destruct (semo e (snd r) filt0) as [f|] eqn:Se; [|exact L]. exfalso.
  destruct (b_af _ _ _ (semo_built _ _ _ C Se)) as [(_ & A)|(b & _ & _ & A)].
  - rewrite (A x Hx) in Fx. discriminate.
  - pose proof (A x true Hx Fx). pose proof (A y false Hy Fy). congruence.
Qed.
Print Assumptions C74_mixed.
Definition mix_line : list Z := nl (str "in ip 10.0.0.0/8 src-ip 2001:db8::/32 deny").
Example C74_mixed_ex : rule_text r_env (0, [CIp ten; CSrcIp doc; CDeny]) mix_line /\
  match parse_config_line r_env true (hd 0 mix_line) (set_in (tl mix_line) r_p) with Bad p' => p_cfg p' = p_cfg r_p | _ => False end.
Proof.
  split; [|vm_compute; reflexivity].
  assert (A4g : addr_good (A4 10 0 0 0)) by (split; [reflexivity|cbn; repeat constructor; lia]).
  assert (A6g : addr_good (A6 [32; 1; 13; 184; 0; 0; 0; 0; 0; 0; 0; 0; 0; 0; 0; 0])) by (split; [reflexivity|cbn; repeat constructor; lia]).
  exists (str "in"), [[str "ip"; str "10.0.0.0/8"]; [str "src-ip"; str "2001:db8::/32"]; [str "deny"]].
  split; [now left|]. split; [|split; [|apply spacedb_ok; vm_compute; reflexivity]].
  - clauses.
  - constructor; [exists (str "10.0.0.0/8"); split; [reflexivity|]|constructor; [exists (str "2001:db8::/32"); split; [reflexivity|]|constructor; [reflexivity|constructor]]].
    + left. exists (str "10.0.0.0"), (str "8"). split; [reflexivity|]. split; [vm_compute; intuition discriminate|].
      split; [vm_compute; lia|]. split; [vm_compute; reflexivity|numt].
    + left. exists (str "2001:db8::"), (str "32"). split; [reflexivity|]. split; [vm_compute; intuition discriminate|].
      split; [vm_compute; lia|]. split; [split; vm_compute; reflexivity|numt].
Qed.

(** A configuration file made of rule lines is accepted, and decides about routes as the
    manual says: on each occasion the first rule of the right kind, in the order of the
    file, that applies; otherwise routes are accepted, announced and installed, and only
    local addresses are redistributed. *)
Theorem C74_file : forall e rs lines p, Forall2 (rule_text e) rs lines -> Forall rule_good rs -> rs <> [] ->
  (forall w, chain w (p_cfg p) = []) -> g_final (p_cfg p) = false -> (forall x, In x (concat lines) -> 0 <= x) ->
  exists p', from_file e (concat lines) p = (true, p') /\ same_rest (p_cfg p) (p_cfg p') /\
  forall d, dest_ok d -> one_family d ->
  (forall id neigh ifindex, exists r,
     verdict e (rules_of 0 rs) 0 id d neigh ifindex 0 (input_filter (g_in (p_cfg p')) id d neigh ifindex) r) /\
  (forall id ifindex, exists r,
     verdict e (rules_of 1 rs) 0 id d None ifindex 0 (output_filter (g_out (p_cfg p')) id d ifindex) r) /\
  (forall ifindex proto,
     let '(v, r) := redistribute_filter (finalise_redistribute (g_redist (p_cfg p'))) d ifindex proto in
     verdict e (rules_of 2 rs) (if proto =? -2 then 0 else 65535) None d None ifindex proto v r) /\
  (forall id ifindex,
     let '(v, r) := install_filter (finalise_install (g_inst (p_cfg p'))) id d ifindex in
     verdict e (rules_of 3 rs) 0 id d None ifindex 0 v r).
Proof.
  intros e rs lines p R Go Ne Em G Nn. unfold from_file.
  assert (Nl : exists c r, concat lines = c :: r).
  { inversion R as [|r l rs' lines' R1 R2]; subst; [easy|]. destruct R1 as (kw & wss & _ & _ & _ & Sp).
    destruct (line_nonempty _ _ Sp) as (x & y & ->). cbn [concat app]. eauto. }
  destruct Nl as (c & r & E). rewrite E.
  assert (Fu : (length rs <= S (S (length r)))%nat).
  { assert (L : forall rs lines, Forall2 (rule_text e) rs lines -> (length rs <= length (concat lines))%nat).
    { intros rs0 lines0 H. induction H as [|a l rs0 lines0 A H IH]; [cbn; lia|]. cbn [concat length]. rewrite app_length.
      destruct A as (kw & wss & _ & _ & _ & Sp). destruct (line_nonempty _ _ Sp) as (x & y & ->). cbn [length]. lia. }
    pose proof (L rs lines R) as K. rewrite E in K. cbn [length] in K. lia. }
  destruct (file_rules e rs lines (S (S (length r))) c (set_in r p) R Go Ne G (eq_sym E) Nn Fu) as (p' & F & S' & M).
  exists p'. split; [exact F|]. split; [exact S'|]. intros d D O.
  assert (Ch : forall w, Forall2 (means e) (rules_of w rs) (chain w (p_cfg p'))).
  { intros w. destruct (M w) as (fs & C1 & C2). cbn [p_cfg set_in] in C1. rewrite Em in C1. rewrite C1. exact C2. }
  split; [|split; [|split]]; intros.
  - apply input_verdict; auto. exact (Ch 0).
  - apply output_verdict; auto. exact (Ch 1).
  - apply (redistribute_verdict e (rules_of 2 rs) (g_redist (p_cfg p'))); auto. exact (Ch 2).
  - apply (install_verdict e (rules_of 3 rs) (g_inst (p_cfg p'))); auto. exact (Ch 3).
Qed.
Print Assumptions C74_file.
Example C74_file_ex : Forall2 (rule_text r_env) r_rules r_lines /\ Forall rule_good r_rules /\
  let '(ok, p') := from_file r_env (concat r_lines) r_p in
  let d4 l := mkDest (mapped 10 1 0 0) (96 + l) (repeat 0 12 ++ [0; 0; 0; 0]) 96 in
  let d6 l := mkDest [32; 1; 13; 184; 0; 0; 0; 0; 0; 0; 0; 0; 0; 0; 0; 0] l (repeat 0 16) 0 in
  ok = true /\
  input_filter (g_in (p_cfg p')) None (d4 24) None 3 = 512 /\ input_filter (g_in (p_cfg p')) None (d4 25) None 3 = 0 /\
  input_filter (g_in (p_cfg p')) None (d6 48) None 3 = 0 /\ input_filter (g_in (p_cfg p')) None (d6 64) None 3 = 65535 /\
  fst (redistribute_filter (finalise_redistribute (g_redist (p_cfg p'))) (d4 32) 3 (-2)) = 65535 /\
  fr_table (snd (install_filter (finalise_install (g_inst (p_cfg p'))) None (d6 48) 3)) = 7.
Proof. split; [exact r_texts|]. split; [exact r_good|]. vm_compute. repeat split. Qed.

(** Of several selectors of one kind only the last one counts: all of them need not hold. *)
Theorem C74_repeated_refuted : exists e line p p' f id d neigh ifindex proto,
  rule_text e (0, [CIp ten; CIp (Net (A4 192 168 1 1) 32); CDeny]) line /\ dest_ok d /\ one_family d /\
  parse_config_line e true (hd 0 line) (set_in (tl line) p) = Good (-1) (ACT_DONE, None) p' /\ g_in (p_cfg p') = [f] /\
  filter_match f id d neigh ifindex proto = true /\ ~ holds e true (CIp ten) id d neigh ifindex proto.
Proof.
  exists r_env, (nl (str "in ip 10.0.0.0/8 ip 192.168.1.1 deny")), r_p. eexists _, _.
  exists None, (mkDest (mapped 192 168 1 1) 128 (repeat 0 10 ++ [255; 255; 0; 0; 0; 0]) 96), None, 1, 0.
  split; [|split; [|split; [|split; [vm_compute; reflexivity|split; [reflexivity|split; [vm_compute; reflexivity|]]]]]].
  - exists (str "in"), [[str "ip"; str "10.0.0.0/8"]; [str "ip"; str "192.168.1.1"]; [str "deny"]].
    split; [now left|]. split; [|split; [|apply spacedb_ok; vm_compute; reflexivity]].
    + assert (A4g : addr_good (A4 10 0 0 0)) by (split; [reflexivity|cbn; repeat constructor; lia]).
      assert (A4h : addr_good (A4 192 168 1 1)) by (split; [reflexivity|cbn; repeat constructor; lia]).
      clauses.
    + constructor; [exists (str "10.0.0.0/8"); split; [reflexivity|]|constructor; [exists (str "192.168.1.1"); split; [reflexivity|]|constructor; [reflexivity|constructor]]].
      * left. exists (str "10.0.0.0"), (str "8"). split; [reflexivity|]. split; [vm_compute; intuition discriminate|].
        split; [vm_compute; lia|]. split; [vm_compute; reflexivity|numt].
      * right. left. split; [vm_compute; intuition discriminate|]. split; [discriminate|]. split; vm_compute; reflexivity.
  - split; [split; [reflexivity|cbn; repeat constructor; lia]|]. split; [cbn; lia|]. split; [split; [reflexivity|cbn; repeat constructor; lia]|cbn; lia].
  - intros _. cbn. lia.
  - intros (_ & H). specialize (H 96). assert (X : abit (mapped 192 168 1 1) 96 = abit (mapped 10 0 0 0) 96) by (apply H; cbn; lia).
    vm_compute in X. discriminate X.
Qed.
Print Assumptions C74_repeated_refuted.
(** A prefix length beyond 128 is accepted and taken modulo 256: this rule denies routes
    shorter than what it says. *)
Theorem C74_length_refuted : exists e line p p' f id d neigh ifindex proto,
  spaced [str "in"; str "ge"; str "300"; str "deny"] line /\ dest_ok d /\
  parse_config_line e true (hd 0 line) (set_in (tl line) p) = Good (-1) (ACT_DONE, None) p' /\ g_in (p_cfg p') = [f] /\
  filter_match f id d neigh ifindex proto = true /\ d_plen d < 300.
Proof.
  exists r_env, (nl (str "in ge 300 deny")), r_p. eexists _, _.
  exists None, (mkDest [32; 1; 13; 184; 0; 0; 0; 0; 0; 0; 0; 0; 0; 0; 0; 0] 48 (repeat 0 16) 0), None, 1, 0.
  split; [apply spacedb_ok; vm_compute; reflexivity|].
  split; [|split; [vm_compute; reflexivity|split; [reflexivity|split; [vm_compute; reflexivity|cbn; lia]]]].
  split; [split; [reflexivity|cbn; repeat constructor; lia]|]. split; [cbn; lia|]. split; [split; [reflexivity|cbn; repeat constructor; lia]|cbn; lia].
Qed.
Print Assumptions C74_length_refuted.

(** L_Rule.v: filter lines are read as the manual describes them. *)
From Coq Require Import String.
From Verif Require Import Base M_Util S_Util L_Util M_Filter S_Filter L_Filter M_Config S_Config L_Config L_Config2 L_Config3 S_Dump L_Dump S_Rule.
Close Scope string_scope.
Open Scope Z_scope.

(** ** Numbers *)
Lemma digits10 : forall t acc, (forall c, In c t -> 48 <= c <= 57) ->
  digits_base 10 t acc = (fold_left (fun x c => x * 10 + dval c) t acc, []).
Proof.
  induction t as [|c t IH]; intros acc H; auto. cbn [digits_base fold_left].
  assert (C : 48 <= c <= 57) by (apply H; now left).
  assert (D : digit_of 10 c = Some (dval c)).
  { unfold digit_of, isdigit_, dval. replace ((48 <=? c) && (c <=? 57)) with true by lia. replace (c <=? 57) with true by lia.
    replace (c - 48 <? 10) with true by lia. reflexivity. }
  rewrite D. apply IH. intros x Hx. apply H. now right.
Qed.
Lemma strtol_num : forall t v, num_text t v -> 0 <= v < 2 ^ 63 -> strtol0 t = (v, []).
Proof.
  intros t v (N & Z0) V.
  assert (C : forall c, In c t -> 48 <= c <= 57) by (intros c; apply (number_dec_chars _ _ _ N)).
  pose proof (number_val _ _ _ N) as E. pose proof (number_ne _ _ _ N) as Ne.
  destruct Z0 as [->|Z0]. { cbn in E. subst v. reflexivity. }
  destruct t as [|c t]; [easy|]. cbn [hd] in Z0. pose proof (C c (or_introl eq_refl)) as Hc.
  unfold strtol0. cbn [skip_spaces]. replace (isspace_ c) with false by (unfold isspace_; lia).
  replace (c =? 45) with false by lia. replace (c =? 43) with false by lia. cbv beta iota zeta.
  replace (c =? 48) with false by lia.
  assert (D : digit_of 10 c = Some (c - 48)).
  { unfold digit_of, isdigit_. replace ((48 <=? c) && (c <=? 57)) with true by lia. replace (c - 48 <? 10) with true by lia. reflexivity. }
  rewrite D, digits10 by auto. rewrite <- E. f_equal. lia.
Qed.
Lemma conv_num : forall t v, num_text t v -> 0 <= v < 2147483648 -> conv_int t = Some v.
Proof. intros t v N V. unfold conv_int. rewrite (strtol_num t v N) by lia. f_equal. unfold s32. cbv zeta. rewrite Z.mod_small by lia. replace (v <? 2147483648) with true by lia. reflexivity. Qed.

(** ** Addresses and prefixes *)
Definition afb (b : bool) : Z := if b then AF_INET else AF_INET6.
Lemma read_addr : forall e t a, raddr e t a -> parse_address e t = Some (addr_bytes a, afb (is4 a)).
Proof.
  intros e t [b1 b2 b3 b4|a]; unfold parse_address; cbn [raddr].
  - intros ->. reflexivity.
  - intros (-> & ->). reflexivity.
Qed.
Lemma split_slash_app : forall x k, ~ In 47 x -> split_slash (x ++ 47 :: k) = Some (x, k).
Proof.
  induction x as [|c x IH]; intros k N; cbn [app split_slash]; auto.
  replace (c =? 47) with false by (symmetry; apply Z.eqb_neq; intros ->; apply N; now left).
  rewrite IH; auto. intros H. apply N. now right.
Qed.
Lemma split_slash_no : forall x, ~ In 47 x -> split_slash x = None.
Proof.
  induction x as [|c x IH]; intros N; auto. cbn [split_slash].
  replace (c =? 47) with false by (symmetry; apply Z.eqb_neq; intros ->; apply N; now left).
  rewrite IH; auto. intros H. apply N. now right.
Qed.
Definition netp (n : net) : list Z * Z := (normalize_prefix (net_addr n) (net_len n), net_len n).
Lemma beq_no : forall a b, a <> b -> beq a b = false.
Proof. intros a b N. destruct (beq a b) eqn:E; auto. apply beq_true in E. contradiction. Qed.
Lemma read_net : forall e t n, rnet e t n -> net_good n ->
  parse_net e t = Some (fst (netp n), snd (netp n), afb (net4 n)).
Proof.
  intros e t [a l] R (G & L). unfold parse_net. cbn [rnet] in R.
  destruct R as [(x & k & -> & N & Lx & R & K)|[(N & D & R & ->)|(-> & -> & ->)]].
  - rewrite beq_no by (intros E; assert (I : In 47 (str "default")) by (rewrite <- E; apply in_or_app; right; now left);
                        vm_compute in I; repeat (destruct I as [I|I]; [discriminate I|]); exact I).
    rewrite split_slash_app by auto. replace (Z.of_nat (length x) >=? 46) with false by lia.
    rewrite (strtol_num k l K) by (destruct (is4 a); lia).
    destruct a as [b1 b2 b3 b4|a]; cbn [raddr is4] in *.
    + rewrite R. cbn [beq]. replace (l <? 0) with false by lia. replace (l >? 32) with false by lia. cbn [negb orb].
      unfold netp. cbn [fst snd net_addr net_len addr_bytes is4 net4 afb]. rewrite (Z.add_comm l 96). reflexivity.
    + destruct R as (-> & ->). cbn [beq]. replace (l <? 0) with false by lia. replace (l >? 128) with false by lia. reflexivity.
  - rewrite beq_no by auto. rewrite split_slash_no by auto. rewrite (read_addr _ _ _ R).
    unfold netp. cbn [fst snd net_addr net_len net4]. destruct a; reflexivity.
  - reflexivity.
Qed.

(** ** Words *)
Lemma blank_or_end : forall c, blank c \/ c = 10 \/ c = 35 -> ws c || eol c = true.
Proof. intros c H. unfold ws, eol. destruct H as [[->|[->| ->]]|[->| ->]]; reflexivity. Qed.
Lemma word_chars : forall w, word_ok w -> Forall (fun x => ws x || eol x = false) w.
Proof.
  intros w (_ & _ & _ & H). apply Forall_forall. intros c Hc. destruct (H c Hc) as (A & B & C & D).
  destruct (ws c) eqn:W; [apply ws_iff in W; contradiction|]. unfold eol. lia.
Qed.
Lemma cstr_id : forall w, (forall c, In c w -> 0 < c) -> cstr w = w.
Proof.
  induction w as [|c w IH]; intros H; auto. cbn [cstr]. pose proof (H c (or_introl eq_refl)).
  replace (c =? 0) with false by lia. f_equal. apply IH. intros x Hx. apply H. now right.
Qed.
(** [p'] differs from [p] only in strings and in what is left to read. *)
Definition read_to (p p' : pst) (r : list Z) : Prop := p_cfg p' = p_cfg p /\ p_in p' = r.
Lemma getword_fwd : forall b w x l c p, c :: p_in p = b ++ w ++ x :: l -> Forall blank b -> word_ok w ->
  blank x \/ x = 10 \/ x = 35 ->
  exists t p', getword c p = Good x (t, w) p' /\ read_to p p' l.
Proof.
  intros b w x l c p E B Hw Hx. pose proof (word_chars w Hw) as Fw. destruct Hw as (Ne & Len & Q & Ch).
  destruct w as [|w0 w]; [easy|]. inversion Fw as [|? ? F0 F1]; subst. apply orb_false_iff in F0. destruct F0 as (W0 & E0).
  unfold getword. cbn [app] in E.
  rewrite (skip_ws_app b c (p_in p) w0 (w ++ x :: l) E B W0).
  rewrite E0. cbn [hd] in Q. replace (w0 =? 34) with false by lia. cbn [orb].
  rewrite (word_loop_app (w0 :: w) w0 (w ++ x :: l) 0 x l); auto; [|apply blank_or_end; auto|lia].
  assert (Pos : (x <? -1) = false). { destruct Hx as [[->|[->| ->]]|[->| ->]]; reflexivity. }
  rewrite Pos. rewrite cstr_id by (intros y Hy; apply (Ch y Hy)).
  unfold alloct. eexists _, _. split; [reflexivity|]. split; reflexivity.
Qed.
Lemma getstring_fwd : forall b w x l c p, c :: p_in p = b ++ w ++ x :: l -> Forall blank b -> word_ok w ->
  blank x \/ x = 10 \/ x = 35 ->
  exists t p', getstring c p = Good x (t, w) p' /\ read_to p p' l.
Proof.
  intros b w x l c p E B Hw Hx. pose proof (word_chars w Hw) as Fw. assert (Hw' := Hw). destruct Hw as (Ne & Len & Q & Ch).
  destruct w as [|w0 w]; [easy|]. inversion Fw as [|? ? F0 F1]; subst. apply orb_false_iff in F0. destruct F0 as (W0 & E0).
  unfold getstring. cbn [app] in E.
  rewrite (skip_ws_app b c (p_in p) w0 (w ++ x :: l) E B W0).
  rewrite E0. cbn [hd] in Q. replace (w0 =? 34) with false by lia. cbn [negb].
  destruct (getword_fwd [] (w0 :: w) x l w0 (set_in (w ++ x :: l) p) eq_refl ltac:(constructor) Hw' Hx) as (t & p' & G & A1 & A2).
  exists t, p'. split; [exact G|]. split; [exact A1|exact A2].
Qed.
Lemma free_read : forall t p p' r, read_to p p' r -> read_to p (freet t p') r.
Proof. intros t p p' r (A & B). split; [now rewrite freet_cfg|now rewrite freet_in]. Qed.
Lemma use_read : forall t p p' r, read_to p p' r -> read_to p (uset t p') r.
Proof. intros t p p' r (A & B). split; [now rewrite uset_cfg|now rewrite uset_in]. Qed.
Lemma getconv_fwd : forall A (f : list Z -> option A) b w x l c p v, c :: p_in p = b ++ w ++ x :: l -> Forall blank b -> word_ok w ->
  blank x \/ x = 10 \/ x = 35 -> f w = Some v ->
  exists p', getconv f c p = Good x v p' /\ read_to p p' l.
Proof.
  intros A f b w x l c p v E B Hw Hx F. destruct (getword_fwd b w x l c p E B Hw Hx) as (t & p' & G & R).
  unfold getconv. rewrite G, F. eexists. split; [reflexivity|]. apply free_read, use_read, R.
Qed.

(** The next word of a line *)
Lemma spaced_inv : forall w ws l, spaced (w :: ws) l -> exists b x l',
  l = b ++ w ++ x :: l' /\ Forall blank b /\ word_ok w /\ (blank x \/ x = 10 \/ x = 35) /\ spaced ws (x :: l').
Proof.
  intros w ws l H. inversion H as [|b w' ws' l0 B W S (c & l' & -> & C)]; subst.
  exists b, c, l'. auto.
Qed.
Lemma empty_end : forall l rest c p, empty_line l -> Forall (fun c => 0 <= c) l -> c :: p_in p = l ++ rest ->
  let '(c1, r1) := skip_ws c (p_in p) in eol c1 = true /\ to_eol c1 r1 = gnc1 rest.
Proof.
  intros l rest c p (b & k & -> & B & N & K) F E.
  assert (P : exists x y, k ++ [10] = x :: y /\ ws x = false /\ eol x = true).
  { destruct K as [->|(k' & ->)]; [exists 10, []|exists 35, (k' ++ [10])]; easy. }
  destruct P as (x & y & P1 & P2 & P3). rewrite P1 in *. rewrite <- app_assoc in E. cbn [app] in E.
  rewrite (skip_ws_app b c (p_in p) x (y ++ rest) E B P2). split; auto.
  apply (to_eol_app k x (y ++ rest) rest).
  - change (x :: y ++ rest) with ((x :: y) ++ rest). rewrite <- P1, <- app_assoc. reflexivity.
  - exact N.
  - apply Forall_app in F. destruct F as (_ & F). rewrite <- P1 in F. apply Forall_app in F. apply F.
Qed.

(** ** One clause *)
Definition act_metric v a := mkRes v (fr_src a) (fr_table a) (fr_pref_src a).
Definition sem1 (e : env) (c : clause) (f : filt) : option filt :=
  let a := f_action f in
  match c with
  | CIp n => join_af (afb (net4 n)) (set_fprefix (Some (netp n)) f)
  | CSrcIp n => join_af (afb (net4 n)) (set_fsrc (Some (netp n)) f)
  | CEq l => Some (set_plen (Z.max (f_plen_ge f) l) (Z.min (f_plen_le f) l) f)
  | CLe l => Some (set_plen (f_plen_ge f) (Z.min (f_plen_le f) l) f)
  | CGe l => Some (set_plen (Z.max (f_plen_ge f) l) (f_plen_le f) f)
  | CSrcEq l => Some (set_splen (Z.max (f_splen_ge f) l) (Z.min (f_splen_le f) l) f)
  | CSrcLe l => Some (set_splen (f_splen_ge f) (Z.min (f_splen_le f) l) f)
  | CSrcGe l => Some (set_splen (Z.max (f_splen_ge f) l) (f_splen_le f) f)
  | CNeigh x => Some (set_fneigh (Some (addr_bytes x)) f)
  | CId i => Some (set_fid (Some i) f)
  | CProto n => Some (set_proto n f)
  | CLocal => Some (set_proto (-2) f)
  | CIf name => Some (set_fif (Some (e_ifindex e name)) f)
  | CAllow => Some (set_action (act_metric 0 a) f)
  | CDeny => Some (set_action (act_metric 65535 a) f)
  | CMetric v => Some (set_action (act_metric v a) f)
  | CSrcPrefix n => join_af (afb (net4 n)) (set_action (mkRes (fr_add_metric a) (Some (netp n)) (fr_table a) (fr_pref_src a)) f)
  | CTable v => Some (set_action (mkRes (fr_add_metric a) (fr_src a) v (fr_pref_src a)) f)
  | CPrefSrc x => join_af (afb (is4 x)) (set_action (mkRes (fr_add_metric a) (fr_src a) (fr_table a) (Some (addr_bytes x))) f)
  end.
Definition lens_ok (f : filt) : Prop :=
  0 <= f_plen_ge f <= 128 /\ 0 <= f_plen_le f <= 128 /\ 0 <= f_splen_ge f <= 128 /\ 0 <= f_splen_le f <= 128.
Lemma sem1_lens : forall e c f f', clause_ok c -> lens_ok f -> sem1 e c f = Some f' -> lens_ok f'.
Proof.
  intros e c f f' C L. unfold lens_ok in *.
  destruct c; cbn [sem1 clause_ok] in *; unfold join_af;
    repeat match goal with |- context [if ?b then _ else _] => destruct b end; intros E; try discriminate E;
    injection E as <-; cbn; lia.
Qed.

Ltac kw := unfold filter_kw; cbv zeta;
  repeat match goal with |- context [beq (str ?a) (str ?b)] =>
    let r := eval vm_compute in (beq (str a) (str b)) in change (beq (str a) (str b)) with r; cbv iota end.
Lemma join_af_fprefix : forall af v f, join_af af (set_fprefix v f) = match join_af af f with Some g => Some (set_fprefix v g) | None => None end.
Proof. intros. unfold join_af. cbn [f_af set_fprefix]. destruct (f_af f =? 0); auto. destruct (f_af f =? af); auto. Qed.
Definition kw_result (e : env) (c : clause) (f : filt) (more : list (list Z)) (rest : list Z) (g : cfg) (r : res (filt * option Z)) : Prop :=
  match sem1 e c f with
  | Some f' => exists ifn x l p2, r = Good x (f', ifn) p2 /\ p_cfg p2 = g /\ spaced more l /\ x :: p_in p2 = l ++ rest
  | None => exists p2, r = Bad p2 /\ p_cfg p2 = g
  end.
(** A keyword with one argument *)
Lemma arg_step : forall A (conv : list Z -> option A) (k : A -> option (filt * option Z)) e c f ifn t v more l rest x p g,
  spaced (t :: more) (x :: l) -> p_in p = l ++ rest -> conv t = Some v -> p_cfg p = g ->
  k v = match sem1 e c f with Some f' => Some (f', ifn) | None => None end ->
  kw_result e c f more rest g (with_val (getconv conv x p) k).
Proof.
  intros A conv k e c f ifn t v more l rest x p g S E C G K.
  destruct (spaced_inv _ _ _ S) as (b & y & l' & El & B & W & Y & S').
  destruct (getconv_fwd A conv b t y (l' ++ rest) x p v) as (p' & Gc & R1 & R2); auto.
  { change (x :: p_in p) with ([x] ++ p_in p). rewrite E. change ([x] ++ l ++ rest) with ((x :: l) ++ rest). rewrite El.
    rewrite <- !app_assoc. reflexivity. }
  unfold with_val, kw_result. rewrite Gc, K. destruct (sem1 e c f) as [f'|].
  - exists ifn, y, (y :: l'), p'. split; [reflexivity|]. split; [congruence|]. split; [exact S'|]. rewrite R2. reflexivity.
  - exists p'. split; [reflexivity|congruence].
Qed.
Lemma act_step : forall e c f ifn more l rest x p g f',
  spaced more (x :: l) -> p_in p = l ++ rest -> p_cfg p = g -> sem1 e c f = Some f' ->
  kw_result e c f more rest g (Good x (f', ifn) p).
Proof.
  intros e c f ifn more l rest x p g f' S E G K. unfold kw_result. rewrite K.
  exists ifn, x, (x :: l), p. split; [reflexivity|]. split; [exact G|]. split; [exact S|]. now rewrite E.
Qed.
Lemma kw_step : forall e c ws more line rest ch f ifn p, words_of e c ws -> clause_ok c -> lens_ok f ->
  spaced (ws ++ more) line -> ch :: p_in p = line ++ rest ->
  exists s x t p1, getword ch p = Good x (t, s) p1 /\ p_cfg p1 = p_cfg p /\ (exists a l', line = a :: l') /\
    kw_result e c f more rest (p_cfg p) (filter_kw e s x f ifn (uset t p1)).
Proof.
  intros e c ws more line rest ch f ifn p W C (L1 & L2 & L3 & L4) S E.
  assert (Ews : exists s args, ws = s :: args /\ (args = [] \/ exists t, args = [t])).
  { destruct c; cbn [words_of] in W; try (destruct W as (t & -> & W)); try subst ws; eexists _, _; (split; [reflexivity|]); eauto. }
  destruct Ews as (s & args & -> & Args). cbn [app] in S.
  destruct (spaced_inv _ _ _ S) as (b & x & l & El & B & Ws & X & S').
  destruct (getword_fwd b s x (l ++ rest) ch p) as (t & p1 & Gw & R1 & R2); auto.
  { rewrite E, El, <- !app_assoc. reflexivity. }
  exists s, x, t, p1. split; [exact Gw|]. split; [exact R1|]. split.
  { destruct line; [|eauto]. destruct Ws as (Ne & _). destruct b; [destruct s; [easy|]|]; discriminate El. }
  assert (Q1 : p_in (uset t p1) = l ++ rest) by (rewrite uset_in; exact R2).
  assert (Q2 : p_cfg (uset t p1) = p_cfg p) by (rewrite uset_cfg; exact R1).
  assert (U : forall v, 0 <= v <= 128 -> u8 v = v) by (intros; apply Z.mod_small; lia).
  generalize dependent (uset t p1). intros q Q1 Q2.
  destruct c; cbn [words_of clause_ok] in *.
  all: try (destruct W as (tx & W & R)); injection W as -> ->; cbn [app] in S'; kw.
  all: try (eapply act_step; eauto; fail).
  all: try (eapply arg_step; [exact S'|exact Q1|eapply read_net; eauto|exact Q2|]; unfold netp; cbn [fst snd sem1]; reflexivity).
  all: try (eapply arg_step; [exact S'|exact Q1|eapply read_addr; eauto|exact Q2|]; reflexivity).
  all: try (eapply arg_step; [exact S'|exact Q1|eapply conv_num; [eauto|lia]|exact Q2|]; cbn [sem1]; rewrite ?U by lia; reflexivity).
  - (* id *) eapply arg_step; [exact S'|exact Q1|apply parse_format_eui64; auto|exact Q2|reflexivity].
  - (* if *)
    destruct (spaced_inv _ _ _ S') as (b2 & y & l' & El2 & B2 & W2 & Y & S2).
    destruct (getstring_fwd b2 name y (l' ++ rest) x q) as (t2 & p2 & G2 & R3 & R4); auto.
    { change (x :: p_in q) with ([x] ++ p_in q). rewrite Q1. change ([x] ++ l ++ rest) with ((x :: l) ++ rest). rewrite El2.
      rewrite <- !app_assoc. reflexivity. }
    rewrite G2. unfold with_val, kw_result. cbn [sem1]. exists (Some t2), y, (y :: l'), p2.
    split; [reflexivity|]. split; [congruence|]. split; [exact S2|]. rewrite R4. reflexivity.
  - (* metric *) eapply arg_step; [exact S'|exact Q1|eapply conv_num; [eauto|lia]|exact Q2|]. cbv beta.
    replace (v <=? 0) with false by lia. replace (v >? 65535) with false by lia. reflexivity.
  - (* table *) eapply arg_step; [exact S'|exact Q1|eapply conv_num; [eauto|lia]|exact Q2|]. cbv beta.
    replace (v <=? 0) with false by lia. replace (v >? 65535) with false by lia. reflexivity.
Qed.

(** ** All the clauses *)
Fixpoint semo (e : env) (cs : list clause) (f : filt) : option filt :=
  match cs with [] => Some f | c :: cs => match sem1 e c f with Some f => semo e cs f | None => None end end.
Lemma semo_snoc : forall e cs c f, semo e (cs ++ [c]) f = match semo e cs f with Some g => sem1 e c g | None => None end.
Proof.
  induction cs as [|x cs IH]; intros c f; cbn [app semo].
  - destruct (sem1 e c f); reflexivity.
  - destruct (sem1 e x f); auto.
Qed.
Definition loop_result (o : option filt) (rest : list Z) (g : cfg) (r : res filt) : Prop :=
  match o with
  | Some f => exists c p2, r = Good c f p2 /\ p_cfg p2 = g /\ (c, p_in p2) = gnc1 rest
  | None => exists p2, r = Bad p2 /\ p_cfg p2 = g
  end.
Lemma filter_loop_S : forall e fuel c f ifn p, filter_loop e (S fuel) c f ifn p =
  (let '(c, r) := skip_ws c (p_in p) in
   let p := set_in r p in
   if eol c then let '(c, r) := to_eol c r in Good c f (set_in r p)
   else match getword c p with
   | Bad p => Bad (freet ifn p)
   | Good c (t, s) p =>
       match filter_kw e s c f ifn (uset t p) with
       | Bad p => Bad (freet ifn (freet (Some t) p))
       | Good c (f, ifn) p => filter_loop e fuel c f ifn (freet (Some t) p)
       end
   end).
Proof. reflexivity. Qed.
Lemma loop_clauses : forall e cs wss line rest fuel ch f ifn p, Forall2 (words_of e) cs wss -> Forall clause_ok cs -> lens_ok f ->
  spaced (concat wss) line -> ch :: p_in p = line ++ rest -> (length cs < fuel)%nat ->
  loop_result (semo e cs f) rest (p_cfg p) (filter_loop e fuel ch f ifn p).
Proof.
  induction cs as [|c cs IH]; intros wss line rest fuel ch f ifn p W C L S E Fu; inversion W as [|? ws ? wss' W1 W2]; subst;
    (destruct fuel as [|fuel]; [cbn in Fu; lia|]).
  - cbn [concat] in S. inversion S as [l El Fl|]; subst. rewrite filter_loop_S.
    pose proof (empty_end line rest ch p El Fl E) as K. destruct (skip_ws ch (p_in p)) as (c1, r1). destruct K as (K1 & K2).
    cbv beta iota zeta. rewrite K1, K2. destruct (gnc1 rest) as (c2, r2) eqn:G. cbn [semo loop_result].
    eexists _, _. split; [reflexivity|]. split; [reflexivity|]. now rewrite G.
  - inversion C as [|? ? C1 C2]; subst. cbn [concat] in S.
    assert (Ews : exists s args, ws = s :: args).
    { destruct c; cbn [words_of] in W1; try (destruct W1 as (t & -> & W1)); try subst ws; eauto. }
    destruct Ews as (s0 & args & ->). cbn [app] in S.
    destruct (spaced_inv _ _ _ S) as (b & x0 & l & El & B & Ws & X & _).
    pose proof (word_chars _ Ws) as Wc. destruct s0 as [|w0 w]; [destruct Ws; easy|].
    inversion Wc as [|? ? Wc0 Wc1]; subst. apply orb_false_iff in Wc0. destruct Wc0 as (V1 & V2).
    assert (Sk : skip_ws ch (p_in p) = (w0, w ++ x0 :: l ++ rest)).
    { apply (skip_ws_app b); auto. rewrite E, <- !app_assoc. reflexivity. }
    rewrite filter_loop_S, Sk. cbv beta iota zeta. rewrite V2.
    set (q := set_in (w ++ x0 :: l ++ rest) p).
    assert (S2 : spaced (((w0 :: w) :: args) ++ concat wss') ((w0 :: w) ++ x0 :: l)).
    { change ((w0 :: w) ++ x0 :: l) with ([] ++ (w0 :: w) ++ x0 :: l). cbn [app]. 
      destruct (spaced_inv _ _ _ S) as (b' & x' & l' & El' & B' & _ & X' & S').
      assert (Same : spaced ((w0 :: w) :: args ++ concat wss') ([] ++ (w0 :: w) ++ x' :: l')).
      { constructor; auto. exists x', l'. auto. }
      assert (Eq : (w0 :: w) ++ x0 :: l = (w0 :: w) ++ x' :: l').
      { pose proof (skip_ws_app b (hd 0 (b ++ (w0 :: w) ++ x0 :: l)) (tl (b ++ (w0 :: w) ++ x0 :: l)) w0 (w ++ x0 :: l)) as P1.
        pose proof (skip_ws_app b' (hd 0 (b ++ (w0 :: w) ++ x0 :: l)) (tl (b ++ (w0 :: w) ++ x0 :: l)) w0 (w ++ x' :: l')) as P2.
        assert (Ht : forall z : list Z, z <> [] -> hd 0 z :: tl z = z) by (intros [|? ?]; easy).
        assert (Nz : b ++ (w0 :: w) ++ x0 :: l <> []) by (destruct b; discriminate).
        rewrite (Ht _ Nz) in P1, P2. specialize (P1 eq_refl B V1). specialize (P2 El' B' V1). rewrite P1 in P2.
        injection P2 as P2. cbn [app]. now f_equal. }
      cbn [app] in Eq, Same |- *. rewrite Eq. exact Same. }
    destruct (kw_step e c ((w0 :: w) :: args) (concat wss') ((w0 :: w) ++ x0 :: l) rest w0 f ifn q W1 C1 L S2) as
      (s & x & t & p1 & Gw & G1 & _ & K).
    { unfold q. cbn [p_in set_in app]. rewrite <- app_assoc. reflexivity. }
    rewrite Gw. cbn [semo]. unfold kw_result in K. destruct (sem1 e c f) as [f'|] eqn:Se.
    + destruct K as (ifn' & y & l2 & p2 & K1 & K2 & K3 & K4). rewrite K1.
      pose proof (IH wss' l2 rest fuel y f' ifn' (freet (Some t) p2) W2 C2 (sem1_lens _ _ _ _ C1 L Se) K3) as R.
      rewrite freet_cfg, K2 in R. apply R; [rewrite freet_in; exact K4|cbn in Fu; lia].
    + destruct K as (p2 & K1 & K2). rewrite K1. eexists. split; [reflexivity|]. rewrite !freet_cfg. exact K2.
Qed.

(** ** What the clauses make of a filter *)
Definition pick {A} (g : clause -> option A) (cs : list clause) : option A :=
  fold_left (fun o c => match g c with Some v => Some v | None => o end) cs None.
Lemma pick_snoc : forall A (g : clause -> option A) cs c, pick g (cs ++ [c]) = match g c with Some v => Some v | None => pick g cs end.
Proof. intros. unfold pick. rewrite fold_left_app. reflexivity. Qed.
Lemma pick_none : forall A (g : clause -> option A) cs, pick g cs = None <-> forall c, In c cs -> g c = None.
Proof.
  intros A g cs. induction cs as [|c cs IH] using rev_ind.
  - split; [intros _ c []|reflexivity].
  - rewrite pick_snoc. split.
    + intros H x Hx. apply in_app_or in Hx. destruct (g c) eqn:G; [discriminate H|].
      destruct Hx as [Hx|[<-|[]]]; [apply IH; auto|exact G].
    + intros H. rewrite (H c) by (apply in_or_app; right; now left). apply IH. intros x Hx. apply H. apply in_or_app. now left.
Qed.
Lemma pick_some : forall A (g : clause -> option A) k cs v, k <> 0 -> (forall c, ckind c = k <-> g c <> None) ->
  pick g cs = Some v -> exists c, in_force cs c /\ g c = Some v.
Proof.
  intros A g k cs v K Hk. induction cs as [|c cs IH] using rev_ind; [discriminate|].
  rewrite pick_snoc. destruct (g c) as [v'|] eqn:G.
  - intros E. injection E as ->. exists c. split; [|exact G]. exists cs, []. split; [reflexivity|]. right. intros x [].
  - intros E. destruct (IH E) as (x & (a & b & -> & F) & Gx). exists x. split; [|exact Gx].
    exists a, (b ++ [c]). split; [rewrite <- app_assoc; reflexivity|]. right.
    assert (Kx : ckind x = k) by (apply Hk; congruence).
    destruct F as [F|F]; [congruence|]. intros y Hy. apply in_app_or in Hy. destruct Hy as [Hy|[<-|[]]]; [auto|].
    rewrite Kx. intros Kc. apply Hk in Kc. congruence.
Qed.
Lemma in_force_pick : forall A (g : clause -> option A) k cs c v, k <> 0 -> (forall c, ckind c = k <-> g c <> None) ->
  in_force cs c -> g c = Some v -> pick g cs = Some v.
Proof.
  intros A g k cs c v K Hk (a & b & -> & F) G.
  assert (Kc : ckind c = k) by (apply Hk; congruence). destruct F as [F|F]; [congruence|].
  induction b as [|x b IH] using rev_ind.
  - rewrite pick_snoc, G. reflexivity.
  - change (a ++ c :: b ++ [x]) with (a ++ (c :: b) ++ [x]). rewrite app_assoc, pick_snoc.
    destruct (g x) eqn:Gx.
    + exfalso. apply (F x); [apply in_or_app; right; now left|]. rewrite Kc. apply Hk. congruence.
    + apply IH. intros y Hy. apply F. apply in_or_app. now left.
Qed.
Lemma in_force_in : forall cs c, in_force cs c -> In c cs.
Proof. intros cs c (a & b & -> & _). apply in_or_app. right. now left. Qed.
Lemma len_in_force : forall cs c, In c cs -> ckind c = 0 -> in_force cs c.
Proof. intros cs c H K. apply in_split in H. destruct H as (a & b & ->). exists a, b. auto. Qed.

Definition g_ip c := match c with CIp n => Some (netp n) | _ => None end.
Definition g_sip c := match c with CSrcIp n => Some (netp n) | _ => None end.
Definition g_ne c := match c with CNeigh a => Some (addr_bytes a) | _ => None end.
Definition g_rid c := match c with CId i => Some i | _ => None end.
Definition g_pro c := match c with CProto n => Some n | CLocal => Some (-2) | _ => None end.
Definition g_ifi e c := match c with CIf n => Some (e_ifindex e n) | _ => None end.
Definition g_met c := match c with CAllow => Some 0 | CDeny => Some 65535 | CMetric v => Some v | _ => None end.
Definition g_spr c := match c with CSrcPrefix n => Some (netp n) | _ => None end.
Definition g_tab c := match c with CTable v => Some v | _ => None end.
Definition g_psr c := match c with CPrefSrc a => Some (addr_bytes a) | _ => None end.
Definition lo c := match c with CEq l | CGe l => l | _ => 0 end.
Definition hi c := match c with CEq l | CLe l => l | _ => 128 end.
Definition slo c := match c with CSrcEq l | CSrcGe l => l | _ => 0 end.
Definition shi c := match c with CSrcEq l | CSrcLe l => l | _ => 128 end.
Definition dflt (o : option Z) : Z := match o with Some v => v | None => 0 end.
Record built (e : env) (cs : list clause) (f : filt) : Prop := {
  b_ip : f_prefix f = pick g_ip cs;
  b_sip : f_src f = pick g_sip cs;
  b_ne : f_neigh f = pick g_ne cs;
  b_id : f_id f = pick g_rid cs;
  b_pro : f_proto f = dflt (pick g_pro cs);
  b_ifi : f_if f = pick (g_ifi e) cs;
  b_met : fr_add_metric (f_action f) = dflt (pick g_met cs);
  b_spr : fr_src (f_action f) = pick g_spr cs;
  b_tab : fr_table (f_action f) = dflt (pick g_tab cs);
  b_psr : fr_pref_src (f_action f) = pick g_psr cs;
  b_ge : forall x, f_plen_ge f <= x <-> 0 <= x /\ forall c, In c cs -> lo c <= x;
  b_le : forall x, x <= f_plen_le f <-> x <= 128 /\ forall c, In c cs -> x <= hi c;
  b_sge : forall x, f_splen_ge f <= x <-> 0 <= x /\ forall c, In c cs -> slo c <= x;
  b_sle : forall x, x <= f_splen_le f <-> x <= 128 /\ forall c, In c cs -> x <= shi c;
  b_lens : lens_ok f;
  b_af : (f_af f = 0 /\ forall c, In c cs -> family_of c = None) \/
         (exists b, f_af f = afb b /\ (exists c, In c cs /\ family_of c = Some b) /\
                    forall c x, In c cs -> family_of c = Some x -> x = b)
}.
Lemma snoc_all : forall (P : clause -> Prop) cs c, (forall x, In x (cs ++ [c]) -> P x) <-> P c /\ forall x, In x cs -> P x.
Proof.
  intros P cs c. split.
  - intros H. split; [apply H; apply in_or_app; right; now left|]. intros x Hx. apply H. apply in_or_app. now left.
  - intros (A & B) x Hx. apply in_app_or in Hx. destruct Hx as [Hx|[<-|[]]]; auto.
Qed.
Lemma join_same : forall b f f', join_af (afb b) f = Some f' ->
  (f_af f = 0 \/ f_af f = afb b) /\ f_af f' = afb b /\ f_if f' = f_if f /\ f_id f' = f_id f /\ f_prefix f' = f_prefix f /\ f_plen_ge f' = f_plen_ge f /\
  f_plen_le f' = f_plen_le f /\ f_src f' = f_src f /\ f_splen_ge f' = f_splen_ge f /\ f_splen_le f' = f_splen_le f /\
  f_neigh f' = f_neigh f /\ f_proto f' = f_proto f /\ f_action f' = f_action f.
Proof.
  intros b f f'. unfold join_af. destruct (f_af f =? 0) eqn:E0.
  - intros E. injection E as <-. cbn. repeat split; auto. left. lia.
  - destruct (f_af f =? afb b) eqn:E1; [|discriminate]. intros E. injection E as <-. repeat split; auto; try lia; try (right; lia).
Qed.
Lemma afb_inj : forall a b, afb a = afb b -> a = b.
Proof. intros [|] [|]; auto; discriminate. Qed.
Lemma built0 : forall e, built e [] filt0.
Proof.
  intros e. constructor; try reflexivity; try (intros x; cbn; split; [intros; split; [lia|intros c []]|lia]).
  - unfold lens_ok. cbn. lia.
  - left. split; [reflexivity|intros c []].
Qed.
Lemma built_af_snoc : forall cs c (f f' : filt),
  ((f_af f = 0 /\ forall c, In c cs -> family_of c = None) \/
   (exists b, f_af f = afb b /\ (exists c, In c cs /\ family_of c = Some b) /\ forall c x, In c cs -> family_of c = Some x -> x = b)) ->
  match family_of c with Some b => (f_af f = 0 \/ f_af f = afb b) /\ f_af f' = afb b | None => f_af f' = f_af f end ->
  (f_af f' = 0 /\ forall x, In x (cs ++ [c]) -> family_of x = None) \/
   (exists b, f_af f' = afb b /\ (exists x, In x (cs ++ [c]) /\ family_of x = Some b) /\ forall y x, In y (cs ++ [c]) -> family_of y = Some x -> x = b).
Proof.
  intros cs c f f' H J. destruct (family_of c) as [b|] eqn:Fc.
  - right. exists b. destruct J as (J1 & J2). split; [exact J2|]. split.
    + exists c. split; [apply in_or_app; right; now left|exact Fc].
    + intros y x Hy Fy. apply in_app_or in Hy. destruct Hy as [Hy|[<-|[]]]; [|congruence].
      destruct H as [(H1 & H2)|(b' & H1 & _ & H3)]; [rewrite (H2 y Hy) in Fy; discriminate|].
      assert (b' = b) as ->. { destruct J1 as [J1|J1]; [destruct b'; rewrite J1 in H1; discriminate|]. apply afb_inj. congruence. }
      eapply H3; eauto.
  - destruct H as [(H1 & H2)|(b' & H1 & (x & X1 & X2) & H3)].
    + left. split; [congruence|]. apply snoc_all. auto.
    + right. exists b'. split; [congruence|]. split; [exists x; split; auto; apply in_or_app; now left|].
      intros y z Hy Fy. apply in_app_or in Hy. destruct Hy as [Hy|[<-|[]]]; [eapply H3; eauto|congruence].
Qed.
Lemma snoc_ge : forall (h : clause -> Z) cs c x, (0 <= x /\ forall y, In y (cs ++ [c]) -> h y <= x) <->
  (h c <= x /\ 0 <= x /\ forall y, In y cs -> h y <= x).
Proof. intros. rewrite (snoc_all (fun y => h y <= x)). tauto. Qed.
Lemma snoc_le : forall (h : clause -> Z) cs c x, (x <= 128 /\ forall y, In y (cs ++ [c]) -> x <= h y) <->
  (x <= h c /\ x <= 128 /\ forall y, In y cs -> x <= h y).
Proof. intros. rewrite (snoc_all (fun y => x <= h y)). tauto. Qed.
Lemma built_snoc : forall e cs c f f', clause_ok c -> built e cs f -> sem1 e c f = Some f' -> built e (cs ++ [c]) f'.
Proof.
  intros e cs c f f' C B S. pose proof (sem1_lens _ _ _ _ C (b_lens _ _ _ B) S) as Ls.
  assert (Lf := b_lens _ _ _ B). unfold lens_ok in Lf.
  assert (J : match family_of c with Some b => (f_af f = 0 \/ f_af f = afb b) /\ f_af f' = afb b | None => f_af f' = f_af f end).
  { destruct c; cbn [sem1 family_of] in *; try (injection S as <-; reflexivity);
      apply join_same in S; cbn [f_af set_fprefix set_fsrc set_action] in S; tauto. }
  constructor; auto; [..|eapply built_af_snoc; [apply (b_af _ _ _ B)|exact J]].
  all: try (rewrite pick_snoc).
  all: try (intros x; first [rewrite (snoc_ge lo)|rewrite (snoc_ge slo)|rewrite (snoc_le hi)|rewrite (snoc_le shi)]).
  all: try (rewrite <- (b_ge _ _ _ B)); try (rewrite <- (b_le _ _ _ B)); try (rewrite <- (b_sge _ _ _ B)); try (rewrite <- (b_sle _ _ _ B)).
  all: destruct B as [B1 B2 B3 B4 B5 B6 B7 B8 B9 B10 _ _ _ _ _ _].
  all: destruct c; cbn [sem1 clause_ok g_ip g_sip g_ne g_rid g_pro g_ifi g_met g_spr g_tab g_psr lo hi slo shi dflt] in *.
  all: try (injection S as <-; cbn; first [assumption|reflexivity|lia]).
  all: apply join_same in S; cbn in S; destruct S as (_ & _ & S1 & S2 & S3 & S4 & S5 & S6 & S7 & S8 & S9 & S10 & S11);
       rewrite ?S1, ?S2, ?S3, ?S4, ?S5, ?S6, ?S7, ?S8, ?S9, ?S10, ?S11; cbn; first [assumption|reflexivity|lia].
Qed.
Lemma semo_built : forall e cs f, Forall clause_ok cs -> semo e cs filt0 = Some f -> built e cs f.
Proof.
  intros e cs. induction cs as [|c cs IH] using rev_ind; intros f C S.
  - injection S as <-. apply built0.
  - apply Forall_app in C. destruct C as (C1 & C2). inversion C2; subst. rewrite semo_snoc in S.
    destruct (semo e cs filt0) as [g|]; [|discriminate]. eapply built_snoc; eauto.
Qed.
(** Clauses of two families are refused, others not. *)
Lemma semo_some : forall e cs, Forall clause_ok cs -> (forall c d x y, In c cs -> In d cs -> family_of c = Some x -> family_of d = Some y -> x = y) ->
  exists f, semo e cs filt0 = Some f.
Proof.
  intros e cs. induction cs as [|c cs IH] using rev_ind; intros C H; [now exists filt0|].
  apply Forall_app in C. destruct C as (C1 & C2). inversion C2; subst.
  destruct IH as (g & G); auto. { intros a b x y Ha Hb. apply H; apply in_or_app; now left. }
  rewrite semo_snoc, G. pose proof (b_af _ _ _ (semo_built _ _ _ C1 G)) as A.
  assert (J : forall b, family_of c = Some b -> f_af g = 0 \/ f_af g = afb b).
  { intros b Fc. destruct A as [(A & _)|(b' & A & (x & X1 & X2) & _)]; [now left|]. right. rewrite A. f_equal.
    apply (H x c); auto; apply in_or_app; [now left|right; now left]. }
  assert (JA : forall b (f : filt), f_af f = 0 \/ f_af f = afb b -> exists f', join_af (afb b) f = Some f').
  { intros b f [E|E]; unfold join_af; rewrite E; [eexists; reflexivity|]. rewrite Z.eqb_refl. destruct b; eexists; reflexivity. }
  destruct c; cbn [sem1]; try (eexists; reflexivity); apply JA; cbn; apply J; reflexivity.
Qed.
Lemma semo_none : forall e cs, Forall clause_ok cs -> semo e cs filt0 = None -> forall o, ~ family cs o.
Proof.
  intros e cs C N o F. destruct (semo_some e cs C) as (f & E); [|congruence].
  intros c d x y Hc Hd Fc Fd. destruct o as [b|].
  - destruct F as (F & _). rewrite (F c x), (F d y); auto.
  - destruct (F c Hc) as (K & _). congruence.
Qed.

(** ** Meaning *)
Definition afo (o : option bool) : Z := match o with Some b => afb b | None => 0 end.
Lemma restricts_dec : forall c, {restricts c} + {~ restricts c}.
Proof.
  intros c. destruct c; cbn [restricts]; auto; try (right; tauto); first [apply Z_lt_dec|left; exact Logic.I].
Qed.
Lemma restr_bounds : forall c, clause_ok c -> (restricts c <-> 0 < lo c \/ hi c < 128 \/ 0 < slo c \/ shi c < 128).
Proof. intros c C. destruct c; cbn [clause_ok restricts lo hi slo shi] in *; lia. Qed.
Lemma built_restr : forall e cs f, Forall clause_ok cs -> built e cs f ->
  ((f_plen_le f <? 128) || (f_plen_ge f >? 0) || (f_splen_le f <? 128) || (f_splen_ge f >? 0) = true <-> exists c, In c cs /\ restricts c).
Proof.
  intros e cs f C B. rewrite Forall_forall in C.
  pose proof (b_ge _ _ _ B 0) as G. pose proof (b_le _ _ _ B 128) as L. pose proof (b_sge _ _ _ B 0) as SG. pose proof (b_sle _ _ _ B 128) as SL.
  pose proof (b_lens _ _ _ B) as Ln. unfold lens_ok in Ln. split.
  - intros H. destruct (Exists_dec restricts cs restricts_dec) as [X|X].
    + apply Exists_exists in X. exact X.
    + exfalso. assert (K : forall c, In c cs -> lo c <= 0 /\ 128 <= hi c /\ slo c <= 0 /\ 128 <= shi c).
      { intros c Hc. assert (N : ~ restricts c) by (intros R; apply X; apply Exists_exists; eauto).
        rewrite (restr_bounds c (C c Hc)) in N. lia. }
      assert (f_plen_ge f <= 0) by (apply G; split; [lia|intros c Hc; apply K; auto]).
      assert (128 <= f_plen_le f) by (apply L; split; [lia|intros c Hc; apply K; auto]).
      assert (f_splen_ge f <= 0) by (apply SG; split; [lia|intros c Hc; apply K; auto]).
      assert (128 <= f_splen_le f) by (apply SL; split; [lia|intros c Hc; apply K; auto]). lia.
  - intros (c & Hc & R). apply (restr_bounds c (C c Hc)) in R.
    destruct R as [R|[R|[R|R]]].
    + assert (~ f_plen_ge f <= 0) by (intros X; apply G in X; destruct X as (_ & X); specialize (X c Hc); lia). lia.
    + assert (~ 128 <= f_plen_le f) by (intros X; apply L in X; destruct X as (_ & X); specialize (X c Hc); lia). lia.
    + assert (~ f_splen_ge f <= 0) by (intros X; apply SG in X; destruct X as (_ & X); specialize (X c Hc); lia). lia.
    + assert (~ 128 <= f_splen_le f) by (intros X; apply SL in X; destruct X as (_ & X); specialize (X c Hc); lia). lia.
Qed.
(** The family of the finished filter *)
Lemma finish_family : forall e cs f, Forall clause_ok cs -> built e cs f -> exists o, family cs o /\ f_af (finish_filter f) = afo o.
Proof.
  intros e cs f C B. pose proof (built_restr e cs f C B) as R. unfold finish_filter.
  destruct (b_af _ _ _ B) as [(A1 & A2)|(b & A1 & A2 & A3)].
  - rewrite A1, Z.eqb_refl. destruct ((f_plen_le f <? 128) || _ || _ || _).
    + exists (Some false). split; [|reflexivity]. split.
      * intros c x Hc Fc. rewrite (A2 c Hc) in Fc. discriminate.
      * right. split; [reflexivity|]. split; [exact A2|]. apply R. reflexivity.
    + exists None. split; [|exact A1]. intros c Hc. split; [auto|]. intros Rc.
      assert (false = true) by (apply R; eauto). discriminate.
  - exists (Some b). split; [split; [exact A3|left; exact A2]|]. rewrite A1. destruct b; cbn; exact A1.
Qed.
Lemma family_unique : forall cs o o', family cs o -> family cs o' -> o = o'.
Proof.
  assert (K : forall cs b, family cs (Some b) -> family cs None -> False).
  { intros cs b (_ & [(c & Hc & Fc)|(_ & _ & c & Hc & R)]) N; destruct (N c Hc) as (N1 & N2); [congruence|contradiction]. }
  intros cs [b|] [b'|] F F'; auto; [|exfalso; eauto|exfalso; eauto]. f_equal.
  destruct F as (F1 & [(c & Hc & Fc)|(E & F2 & _)]), F' as (F1' & [(c' & Hc' & Fc')|(E' & F2' & _)]); subst; auto.
  - apply (F1' c); auto.
  - rewrite (F2' c Hc) in Fc. discriminate.
  - rewrite (F2 c' Hc') in Fc'. discriminate.
Qed.
Definition off (b : bool) : Z := if b then 96 else 0.
Lemma finish_fields : forall f, lens_ok f -> f_id (finish_filter f) = f_id f /\ f_prefix (finish_filter f) = f_prefix f /\
  f_src (finish_filter f) = f_src f /\ f_neigh (finish_filter f) = f_neigh f /\ f_if (finish_filter f) = f_if f /\
  f_proto (finish_filter f) = f_proto f /\ f_action (finish_filter f) = f_action f /\
  (f_af (finish_filter f) <> AF_INET -> f_plen_ge (finish_filter f) = f_plen_ge f /\ f_plen_le (finish_filter f) = f_plen_le f /\
     f_splen_ge (finish_filter f) = f_splen_ge f /\ f_splen_le (finish_filter f) = f_splen_le f) /\
  (f_af (finish_filter f) = AF_INET ->
     f_plen_ge (finish_filter f) = (if f_plen_ge f >? 0 then f_plen_ge f + 96 else f_plen_ge f) /\
     f_plen_le (finish_filter f) = (if f_plen_le f <? 128 then f_plen_le f + 96 else f_plen_le f) /\
     f_splen_ge (finish_filter f) = (if f_splen_ge f >? 0 then f_splen_ge f + 96 else f_splen_ge f) /\
     f_splen_le (finish_filter f) = (if f_splen_le f <? 128 then f_splen_le f + 96 else f_splen_le f)).
Proof.
  intros f (L1 & L2 & L3 & L4). unfold finish_filter.
  assert (U : forall x, 0 <= x <= 128 -> u8 (x + 96) = x + 96) by (intros; apply Z.mod_small; lia).
  destruct (f_af f =? 0) eqn:E0.
  - destruct (_ || _ || _ || _); cbn; unfold AF_INET, AF_INET6 in *; repeat split; auto; lia.
  - destruct (f_af f =? AF_INET) eqn:E1; [|cbn; repeat split; auto; unfold AF_INET in *; lia].
    cbn [set_plen set_splen f_id f_prefix f_src f_neigh f_if f_proto f_action f_af f_plen_ge f_plen_le f_splen_ge f_splen_le].
    rewrite !U by lia. unfold AF_INET in *. repeat split; auto; lia.
Qed.
Lemma netp_ok : forall n, net_good n -> addr_ok (fst (netp n)) /\ 0 <= snd (netp n) <= 128.
Proof.
  intros [a l] (G & L). unfold netp. cbn [net_addr net_len fst snd].
  assert (0 <= (if is4 a then 96 else 0) + l <= 128) by (destruct (is4 a); lia). split; [|lia].
  apply normalize_prefix_ok; [exact G|lia].
Qed.
Lemma netp_bits : forall n i, net_good n -> 0 <= i < 128 ->
  abit (fst (netp n)) i = if i <? net_len n then abit (net_addr n) i else false.
Proof.
  intros [a l] i (G & L) Hi. unfold netp. cbn [net_addr net_len fst snd].
  apply normalize_prefix_bits; auto. destruct (is4 a); lia.
Qed.
Lemma inside_netp : forall q m n, net_good n -> (inside q m (fst (netp n)) (snd (netp n)) <-> inside q m (net_addr n) (net_len n)).
Proof.
  intros q m n G. unfold inside. pose proof (netp_ok n G) as (_ & K).
  change (snd (netp n)) with (net_len n) in *. unfold same_bits. split; intros (A & B); (split; [exact A|]); intros i Hi;
    rewrite (B i Hi), (netp_bits n i G) by lia; replace (i <? net_len n) with true by lia; reflexivity.
Qed.

Lemma kind_ip : forall c, ckind c = 1 <-> g_ip c <> None. Proof. intros c. destruct c; cbn; split; congruence. Qed.
Lemma kind_sip : forall c, ckind c = 2 <-> g_sip c <> None. Proof. intros c. destruct c; cbn; split; congruence. Qed.
Lemma kind_ne : forall c, ckind c = 3 <-> g_ne c <> None. Proof. intros c. destruct c; cbn; split; congruence. Qed.
Lemma kind_rid : forall c, ckind c = 4 <-> g_rid c <> None. Proof. intros c. destruct c; cbn; split; congruence. Qed.
Lemma kind_pro : forall c, ckind c = 5 <-> g_pro c <> None. Proof. intros c. destruct c; cbn; split; congruence. Qed.
Lemma kind_ifi : forall e c, ckind c = 6 <-> g_ifi e c <> None. Proof. intros e c. destruct c; cbn; split; congruence. Qed.
Lemma kind_met : forall c, ckind c = 7 <-> g_met c <> None. Proof. intros c. destruct c; cbn; split; congruence. Qed.
Lemma kind_spr : forall c, ckind c = 8 <-> g_spr c <> None. Proof. intros c. destruct c; cbn; split; congruence. Qed.
Lemma kind_tab : forall c, ckind c = 9 <-> g_tab c <> None. Proof. intros c. destruct c; cbn; split; congruence. Qed.
Lemma kind_psr : forall c, ckind c = 10 <-> g_psr c <> None. Proof. intros c. destruct c; cbn; split; congruence. Qed.
Lemma no_kind : forall A (g : clause -> option A) k cs, (forall c, ckind c = k <-> g c <> None) ->
  ((forall c, In c cs -> ckind c <> k) <-> pick g cs = None).
Proof.
  intros A g k cs K. rewrite pick_none. split; intros H c Hc.
  - destruct (g c) eqn:G; auto. exfalso. apply (H c Hc), K. congruence.
  - rewrite K. rewrite (H c Hc). congruence.
Qed.

Lemma fr_range : forall e cs f, Forall clause_ok cs -> built e cs f -> 0 <= fr_add_metric (f_action f) <= 65535.
Proof.
  intros e cs f C B. rewrite (b_met _ _ _ B). destruct (pick g_met cs) as [v|] eqn:P; cbn [dflt]; [|lia].
  destruct (pick_some _ _ 7 _ _ ltac:(lia) kind_met P) as (c & F & G). apply in_force_in in F. rewrite Forall_forall in C.
  specialize (C c F). destruct c; cbn in G, C; try discriminate; injection G as <-; lia.
Qed.
Lemma finish_ok : forall e cs f, Forall clause_ok cs -> built e cs f -> filt_ok (finish_filter f).
Proof.
  intros e cs f C B. pose proof (b_lens _ _ _ B) as L. destruct (finish_fields f L) as (F1 & F2 & F3 & F4 & F5 & F6 & F7 & F8 & F9).
  destruct (finish_family e cs f C B) as (o & _ & A). pose proof (fr_range e cs f C B) as M.
  unfold filt_ok. rewrite F2, F3, F7. rewrite (b_ip _ _ _ B), (b_sip _ _ _ B). split; [rewrite A; destruct o as [[|]|]; cbn; auto|].
  rewrite Forall_forall in C. split; [|split].
  - intros p l P. destruct (pick_some _ _ 1 _ _ ltac:(lia) kind_ip P) as (c & F & G). apply in_force_in in F.
    specialize (C c F). destruct c; cbn in G, C; try discriminate. injection G as <- <-. apply (netp_ok n C).
  - intros p l P. destruct (pick_some _ _ 2 _ _ ltac:(lia) kind_sip P) as (c & F & G). apply in_force_in in F.
    specialize (C c F). destruct c; cbn in G, C; try discriminate. injection G as <- <-. apply (netp_ok n C).
  - unfold lens_ok in L. assert (D : f_af (finish_filter f) = AF_INET \/ f_af (finish_filter f) <> AF_INET) by lia.
    destruct D as [D|D]; [destruct (F9 D) as (-> & -> & -> & ->)|destruct (F8 D) as (-> & -> & -> & ->)].
    + destruct (f_plen_ge f >? 0), (f_plen_le f <? 128), (f_splen_ge f >? 0), (f_splen_le f <? 128); lia.
    + lia.
Qed.
Lemma rule_meaning : forall e cs f id d neigh ifindex proto, Forall clause_ok cs -> built e cs f -> dest_ok d -> one_family d ->
  (rule_holds (finish_filter f) id d neigh ifindex proto <-> applies e cs id d neigh ifindex proto).
Proof.
  intros e cs f id d neigh ifindex proto C B D O.
  pose proof (b_lens _ _ _ B) as L. destruct (finish_fields f L) as (F1 & F2 & F3 & F4 & F5 & F6 & F7 & F8 & F9).
  destruct (finish_family e cs f C B) as (o & Fo & A). pose proof C as Cf. rewrite Forall_forall in Cf.
  destruct D as (D1 & D2 & D3 & D4). unfold lens_ok in L.
  pose proof (b_ge _ _ _ B) as G. pose proof (b_le _ _ _ B) as Le. pose proof (b_sge _ _ _ B) as SG. pose proof (b_sle _ _ _ B) as SL.
  set (v4 := match o with Some b => b | None => false end).
  (* the length bounds *)
  assert (Lens : (o = Some true -> is_ipv4 d) -> (o = Some false -> ~ is_ipv4 d) ->
    ((f_plen_ge (finish_filter f) <= d_plen d <= f_plen_le (finish_filter f) /\
      f_splen_ge (finish_filter f) <= d_splen d <= f_splen_le (finish_filter f)) <->
     (forall c, In c cs -> ckind c = 0 -> holds e v4 c id d neigh ifindex proto))).
  { intros H4 H6.
    assert (R : (f_plen_ge (finish_filter f) <= d_plen d <-> f_plen_ge f <= d_plen d - off v4) /\
                (d_plen d <= f_plen_le (finish_filter f) <-> d_plen d - off v4 <= f_plen_le f) /\
                (f_splen_ge (finish_filter f) <= d_splen d <-> f_splen_ge f <= d_splen d - off v4) /\
                (d_splen d <= f_splen_le (finish_filter f) <-> d_splen d - off v4 <= f_splen_le f)).
    { destruct o as [[|]|]; cbn [afo afb] in A; unfold v4, off.
      - destruct (F9 A) as (-> & -> & -> & ->). specialize (H4 eq_refl). pose proof (O H4). destruct H4 as (H4 & _).
        destruct (f_plen_ge f >? 0) eqn:?, (f_plen_le f <? 128) eqn:?, (f_splen_ge f >? 0) eqn:?, (f_splen_le f <? 128) eqn:?; lia.
      - destruct (F8 ltac:(rewrite A; discriminate)) as (-> & -> & -> & ->). lia.
      - destruct (F8 ltac:(rewrite A; discriminate)) as (-> & -> & -> & ->). lia. }
    destruct R as (R1 & R2 & R3 & R4). rewrite R1, R2, R3, R4, G, Le, SG, SL. split.
    - intros (((_ & P1) & (_ & P2)) & ((_ & P3) & (_ & P4))) c Hc K.
      specialize (P1 c Hc). specialize (P2 c Hc). specialize (P3 c Hc). specialize (P4 c Hc).
      destruct c; cbn [ckind] in K; try discriminate K; cbn [holds lo hi slo shi] in *; unfold off in *; destruct v4; lia.
    - intros H.
      assert (H' : forall c, In c cs -> lo c <= d_plen d - off v4 <= hi c /\ slo c <= d_splen d - off v4 <= shi c \/
                    ~ (0 <= d_plen d - off v4 <= 128 /\ 0 <= d_splen d - off v4 <= 128)).
      { intros c Hc. specialize (Cf c Hc). destruct (ckind c =? 0) eqn:K.
        - specialize (H c Hc ltac:(lia)). destruct c; cbn [ckind] in K; try discriminate K; cbn [holds lo hi slo shi clause_ok] in *; unfold off; destruct v4; lia.
        - assert (lo c = 0 /\ hi c = 128 /\ slo c = 0 /\ shi c = 128) by (destruct c; cbn in *; auto; discriminate). lia. }
      assert (R0 : 0 <= d_plen d - off v4 <= 128 /\ 0 <= d_splen d - off v4 <= 128).
      { destruct o as [[|]|]; unfold v4, off.
        - specialize (H4 eq_refl). pose proof (O H4). destruct H4 as (H4 & _). lia.
        - lia.
        - lia. }
      repeat split; try lia; intros c Hc; destruct (H' c Hc); lia. }
  split.
  - intros [h1 h2 h3 h4 h5 h6 h7 h8 h9 h10]. rewrite A in h1. exists o. split; [exact Fo|].
    assert (H4 : o = Some true -> is_ipv4 d) by (intros ->; apply h1; reflexivity).
    assert (H6 : o = Some false -> ~ is_ipv4 d) by (intros ->; apply h1; reflexivity).
    split; [exact H4|]. split; [exact H6|]. split.
    + intros c Hf. pose proof (in_force_in _ _ Hf) as Hc. specialize (Cf c Hc).
      destruct (ckind c =? 0) eqn:K. { apply (proj1 (Lens H4 H6) (conj h5 h6)); auto. lia. }
      destruct c; cbn [ckind] in K; try discriminate K; cbn [holds clause_ok] in *; try exact Logic.I; clear K.
      * apply inside_netp; auto. apply h3. rewrite F2, (b_ip _ _ _ B). 
        rewrite (in_force_pick _ _ 1 cs (CIp n) (netp n)); auto using kind_ip. now destruct (netp n).
      * apply inside_netp; auto. apply h4. rewrite F3, (b_sip _ _ _ B). 
        rewrite (in_force_pick _ _ 2 cs (CSrcIp n) (netp n)); auto using kind_sip. now destruct (netp n).
      * apply h7. rewrite F4, (b_ne _ _ _ B). apply (in_force_pick _ _ 3 cs (CNeigh a)); auto using kind_ne; lia.
      * apply h2. rewrite F1, (b_id _ _ _ B). apply (in_force_pick _ _ 4 cs (CId i)); auto using kind_rid; lia.
      * rewrite F6, (b_pro _ _ _ B), (in_force_pick _ _ 5 cs (CProto n) n) in h9; auto using kind_pro; [|lia].
        cbn [dflt] in h9. apply h9. lia.
      * rewrite F6, (b_pro _ _ _ B), (in_force_pick _ _ 5 cs CLocal (-2)) in h9; auto using kind_pro; [|lia].
        cbn [dflt] in h9. apply h9. lia.
      * apply h8. rewrite F5, (b_ifi _ _ _ B). apply (in_force_pick _ _ 6 cs (CIf name)); auto using kind_ifi; lia.
    + intros N. apply h10. rewrite F6, (b_pro _ _ _ B).
      apply (no_kind _ _ 5 cs kind_pro) in N. rewrite N. reflexivity.
  - intros (o' & Fo' & H4 & H6 & Hh & Np). rewrite (family_unique _ _ _ Fo' Fo) in *. clear o' Fo'. fold v4 in Hh.
    assert (Ln : f_plen_ge (finish_filter f) <= d_plen d <= f_plen_le (finish_filter f) /\
      f_splen_ge (finish_filter f) <= d_splen d <= f_splen_le (finish_filter f)).
    { apply (Lens H4 H6). intros c Hc K. apply Hh. apply len_in_force; auto. }
    constructor; try tauto.
    + rewrite A. split; intros E.
      * apply H4. destruct o as [[|]|]; cbn in E; try discriminate; reflexivity.
      * apply H6. destruct o as [[|]|]; cbn in E; try discriminate; reflexivity.
    + intros i E. rewrite F1, (b_id _ _ _ B) in E. destruct (pick_some _ _ 4 _ _ ltac:(lia) kind_rid E) as (c & F & Gc).
      specialize (Hh c F). destruct c; cbn in Gc; try discriminate. injection Gc as ->. exact Hh.
    + intros p l E. rewrite F2, (b_ip _ _ _ B) in E. destruct (pick_some _ _ 1 _ _ ltac:(lia) kind_ip E) as (c & F & Gc).
      pose proof (Cf c (in_force_in _ _ F)) as Cc. specialize (Hh c F). destruct c; cbn [g_ip] in Gc; try discriminate.
      cbn [holds clause_ok] in Hh, Cc. apply (inside_netp _ _ _ Cc) in Hh. destruct (netp n). injection Gc as -> ->. exact Hh.
    + intros p l E. rewrite F3, (b_sip _ _ _ B) in E. destruct (pick_some _ _ 2 _ _ ltac:(lia) kind_sip E) as (c & F & Gc).
      pose proof (Cf c (in_force_in _ _ F)) as Cc. specialize (Hh c F). destruct c; cbn [g_sip] in Gc; try discriminate.
      cbn [holds clause_ok] in Hh, Cc. apply (inside_netp _ _ _ Cc) in Hh. destruct (netp n). injection Gc as -> ->. exact Hh.
    + intros i E. rewrite F4, (b_ne _ _ _ B) in E. destruct (pick_some _ _ 3 _ _ ltac:(lia) kind_ne E) as (c & F & Gc).
      specialize (Hh c F). destruct c; cbn in Gc; try discriminate. injection Gc as <-. exact Hh.
    + intros i E. rewrite F5, (b_ifi _ _ _ B) in E. destruct (pick_some _ _ 6 _ _ ltac:(lia) (kind_ifi e) E) as (c & F & Gc).
      specialize (Hh c F). destruct c; cbn in Gc; try discriminate. injection Gc as <-. exact Hh.
    + rewrite F6, (b_pro _ _ _ B). destruct (pick g_pro cs) as [v|] eqn:E; cbn [dflt]; [|lia]. intros _.
      destruct (pick_some _ _ 5 _ _ ltac:(lia) kind_pro E) as (c & F & Gc).
      specialize (Hh c F). destruct c; cbn in Gc; try discriminate; injection Gc as <-; exact Hh.
    + rewrite F6, (b_pro _ _ _ B). intros E. apply Np. apply (no_kind _ _ 5 cs kind_pro).
      destruct (pick g_pro cs) as [v|] eqn:P; auto. cbn [dflt] in E. subst v.
      destruct (pick_some _ _ 5 _ _ ltac:(lia) kind_pro P) as (c & F & Gc).
      pose proof (Cf c (in_force_in _ _ F)) as Cc. destruct c; cbn in Gc, Cc; try discriminate; injection Gc as Gc; lia.
Qed.
Lemma rule_action : forall e cs f, Forall clause_ok cs -> built e cs f -> does cs (f_action (finish_filter f)).
Proof.
  intros e cs f C B. pose proof (b_lens _ _ _ B) as L. destruct (finish_fields f L) as (_ & _ & _ & _ & _ & _ & -> & _).
  rewrite Forall_forall in C. split.
  - intros c F. specialize (C c (in_force_in _ _ F)). destruct c; try exact Logic.I.
    + rewrite (b_met _ _ _ B), (in_force_pick _ _ 7 cs CAllow 0); auto using kind_met; lia.
    + rewrite (b_met _ _ _ B), (in_force_pick _ _ 7 cs CDeny 65535); auto using kind_met; lia.
    + rewrite (b_met _ _ _ B), (in_force_pick _ _ 7 cs (CMetric v) v); auto using kind_met; lia.
    + cbn [clause_ok] in C. exists (fst (netp n)). destruct (netp_ok n C) as (N1 & N2). change (snd (netp n)) with (net_len n) in N2.
      rewrite (b_spr _ _ _ B), (in_force_pick _ _ 8 cs (CSrcPrefix n) (netp n)); auto using kind_spr; [|lia].
      split; [reflexivity|]. split; [exact N1|]. split; intros i Hi; rewrite (netp_bits n i C) by lia.
      * replace (i <? net_len n) with true by lia. reflexivity.
      * replace (i <? net_len n) with false by lia. reflexivity.
    + rewrite (b_tab _ _ _ B), (in_force_pick _ _ 9 cs (CTable v) v); auto using kind_tab; lia.
    + rewrite (b_psr _ _ _ B). apply (in_force_pick _ _ 10 cs (CPrefSrc a)); auto using kind_psr; lia.
  - rewrite (b_met _ _ _ B), (b_spr _ _ _ B), (b_tab _ _ _ B), (b_psr _ _ _ B).
    split; [|split; [|split]]; intros N.
    + apply (no_kind _ _ 7 cs kind_met) in N. rewrite N. reflexivity.
    + apply (no_kind _ _ 8 cs kind_spr) in N. rewrite N. reflexivity.
    + apply (no_kind _ _ 9 cs kind_tab) in N. rewrite N. reflexivity.
    + apply (no_kind _ _ 10 cs kind_psr) in N. rewrite N. reflexivity.
Qed.

(** ** Lines *)
Lemma directive_rule : forall e act kw which c p, rule_words kw which -> g_final (p_cfg p) = false ->
  directive e act kw c p = line_filter e which c p.
Proof.
  intros e act kw which c p [E|[E|[E|[E|[]]]]] G; injection E as <- <-; unfold directive; rewrite G; reflexivity.
Qed.
Lemma spaced_len : forall ws l, spaced ws l -> (length ws <= length l)%nat.
Proof.
  intros ws l H. induction H as [l E F|b w ws l B (Ne & _) S IH _]; [cbn; lia|].
  rewrite !app_length. destruct w; [easy|]. cbn [length]. lia.
Qed.
Lemma concat_len : forall e cs wss, Forall2 (words_of e) cs wss -> (length cs <= length (concat wss))%nat.
Proof.
  intros e cs wss H. induction H as [|c ws cs wss W H IH]; [cbn; lia|]. cbn [concat length]. rewrite app_length.
  assert (1 <= length ws)%nat by (destruct c; cbn [words_of] in W; try (destruct W as (t & -> & W)); try subst ws; cbn; lia). lia.
Qed.
(** A line beginning with the word [kw] *)
Lemma line_fwd : forall e act kw more line rest c p, spaced (kw :: more) line -> c :: p_in p = line ++ rest ->
  exists x t p1 l, parse_config_line e act c p =
     (match directive e act kw x p1 with
      | Bad p => Bad (freet (Some t) p) | Good c a p => Good c a (freet (Some t) p) end) /\
    p_cfg p1 = p_cfg p /\ spaced more (x :: l) /\ p_in p1 = l ++ rest.
Proof.
  intros e act kw more line rest c p S E. destruct (spaced_inv _ _ _ S) as (b & x & l & El & B & W & X & S').
  pose proof (word_chars _ W) as Wc. destruct kw as [|w0 w]; [destruct W; easy|].
  inversion Wc as [|? ? Wc0 Wc1]; subst. apply orb_false_iff in Wc0. destruct Wc0 as (V1 & V2).
  assert (Sk : skip_ws c (p_in p) = (w0, w ++ x :: l ++ rest)).
  { apply (skip_ws_app b); auto. rewrite E, <- !app_assoc. reflexivity. }
  set (q := set_in (w ++ x :: l ++ rest) p).
  destruct (getword_fwd [] (w0 :: w) x (l ++ rest) w0 q) as (t & p1 & G & R1 & R2); auto.
  exists x, t, (uset t p1), l. split.
  - unfold parse_config_line. rewrite Sk. cbv beta iota zeta. rewrite V2. fold q. rewrite G. reflexivity.
  - split; [rewrite uset_cfg; exact R1|]. split; [exact S'|]. rewrite uset_in. exact R2.
Qed.
Lemma rule_line : forall e act kw which cs wss line rest c p, rule_words kw which -> Forall clause_ok cs -> Forall2 (words_of e) cs wss ->
  spaced (kw :: concat wss) line -> c :: p_in p = line ++ rest -> g_final (p_cfg p) = false ->
  match semo e cs filt0 with
  | Some f => exists c' p', parse_config_line e act c p = Good c' (ACT_DONE, None) p' /\ (c', p_in p') = gnc1 rest /\
                p_cfg p' = add_filter which (finish_filter f) (p_cfg p)
  | None => exists p', parse_config_line e act c p = Bad p' /\ p_cfg p' = p_cfg p
  end.
Proof.
  intros e act kw which cs wss line rest c p K C W Sp E G.
  destruct (line_fwd e act kw (concat wss) line rest c p Sp E) as (x & t & p1 & l & P & G1 & S1 & I1).
  rewrite (directive_rule e act kw which x p1 K) in P by congruence.
  unfold line_filter in P. rewrite G1, G in P. unfold parse_filter in P.
  pose proof (loop_clauses e cs wss (x :: l) rest (S (S (length (p_in p1)))) x filt0 None p1 W C) as L.
  assert (Ln : lens_ok filt0) by (unfold lens_ok; cbn; lia).
  specialize (L Ln S1). cbn [app] in L. rewrite I1 in L at 1. specialize (L eq_refl).
  assert (Fu : (length cs < S (S (length (p_in p1))))%nat).
  { pose proof (concat_len _ _ _ W). pose proof (spaced_len _ _ S1). cbn [length] in *. rewrite I1, app_length. lia. }
  specialize (L Fu). unfold loop_result in L. unfold with_cfg, with_val in P. destruct (semo e cs filt0) as [f|].
  - destruct L as (c' & p2 & L1 & L2 & L3). rewrite L1 in P. eexists _, _. split; [exact P|].
    rewrite freet_in, freet_cfg. cbn [p_in p_cfg set_cfg]. split; [exact L3|]. rewrite L2, G1. reflexivity.
  - destruct L as (p2 & L1 & L2). rewrite L1 in P. eexists. split; [exact P|]. rewrite freet_cfg. congruence.
Qed.
Definition means (e : env) (cs : list clause) (f : filt) : Prop :=
  filt_ok f /\ does cs (f_action f) /\
  forall id d neigh ifindex proto, dest_ok d -> one_family d ->
    (filter_match f id d neigh ifindex proto = true <-> applies e cs id d neigh ifindex proto).
Lemma built_means : forall e cs f, Forall clause_ok cs -> semo e cs filt0 = Some f -> means e cs (finish_filter f).
Proof.
  intros e cs f C E. pose proof (semo_built e cs f C E) as B. pose proof (finish_ok e cs f C B) as K.
  split; [exact K|]. split; [exact (rule_action e cs f C B)|].
  intros id d neigh ifindex proto D O. rewrite (filter_match_iff _ _ _ _ _ _ K D). apply rule_meaning; auto.
Qed.
Lemma add_chain : forall which f g w, 0 <= which <= 3 -> chain w (add_filter which f g) = chain w g ++ (if w =? which then [f] else []).
Proof.
  intros which f g w H. unfold chain, add_filter. cbn [g_in g_out g_redist g_inst].
  assert (D : which = 0 \/ which = 1 \/ which = 2 \/ which = 3) by lia.
  destruct (w =? 0) eqn:E0; [assert (w = 0) by lia; subst; destruct D as [->|[->|[->| ->]]]; cbn; now rewrite ?app_nil_r|].
  destruct (w =? 1) eqn:E1; [assert (w = 1) by lia; subst; destruct D as [->|[->|[->| ->]]]; cbn; now rewrite ?app_nil_r|].
  destruct (w =? 2) eqn:E2; [assert (w = 2) by lia; subst; destruct D as [->|[->|[->| ->]]]; cbn; now rewrite ?app_nil_r|].
  destruct (w =? 3) eqn:E3; [assert (w = 3) by lia; subst; destruct D as [->|[->|[->| ->]]]; cbn; now rewrite ?app_nil_r|].
  replace (w =? which) with false by lia. reflexivity.
Qed.
Lemma rule_range : forall kw w, rule_words kw w -> 0 <= w <= 3.
Proof. intros kw w [E|[E|[E|[E|[]]]]]; injection E as <- <-; lia. Qed.
Lemma line_nonempty : forall ws l, spaced ws l -> exists c r, l = c :: r.
Proof.
  intros ws l H. destruct H as [l (b & k & -> & _) F|b w ws l B (Ne & _) _ _].
  - destruct b; [destruct k|]; cbn; eauto.
  - destruct b; [destruct w; [easy|]|]; cbn; eauto.
Qed.
Lemma gnc1_text : forall rest c r, Forall (fun x => 0 <= x) rest -> (c, r) = gnc1 rest -> text c r = rest.
Proof.
  intros [|x l] c r F E; cbn in E; injection E as -> ->; [reflexivity|]. inversion F; subst. apply text_pos. auto.
Qed.
(** The lines of a file *)
Lemma file_rules : forall e rs lines fuel c p, Forall2 (rule_text e) rs lines -> Forall rule_good rs -> rs <> [] ->
  g_final (p_cfg p) = false -> c :: p_in p = concat lines -> (forall x, In x (concat lines) -> 0 <= x) -> (length rs <= fuel)%nat ->
  exists p', file_loop e fuel c p = (true, p') /\ same_rest (p_cfg p) (p_cfg p') /\
    forall w, exists fs, chain w (p_cfg p') = chain w (p_cfg p) ++ fs /\ Forall2 (means e) (rules_of w rs) fs.
Proof.
  intros e rs lines. revert rs. induction lines as [|line lines IH]; intros rs fuel c p R Go Ne G E Nn Fu;
    inversion R as [|r ? rs' ? R1 R2]; subst; [easy|]. inversion Go as [|? ? Go1 Go2]; subst.
  destruct fuel as [|fuel]; [cbn in Fu; lia|].
  destruct R1 as (kw & wss & K & C & W & Sp). cbn [concat] in E.
  pose proof (rule_line e false kw (fst r) (snd r) wss line (concat lines) c p K C W Sp E G) as L.
  destruct (semo e (snd r) filt0) as [f|] eqn:Se; [|destruct Go1 as (o & Fo); exfalso; exact (semo_none _ _ C Se o Fo)].
  destruct L as (c' & p1 & P & I1 & G1). cbn [file_loop]. rewrite P.
  pose proof (built_means e (snd r) f C Se) as M. pose proof (rule_range _ _ K) as Rg.
  destruct rs' as [|r2 rs''].
  - inversion R2; subst. cbn in I1. injection I1 as -> I1. rewrite Z.eqb_refl. exists p1. split; [reflexivity|].
    rewrite G1. split; [unfold same_rest; repeat split; reflexivity|]. intros w. rewrite add_chain by auto.
    exists (if w =? fst r then [finish_filter f] else []). split; [reflexivity|].
    unfold rules_of. cbn [filter]. rewrite (Z.eqb_sym (fst r) w). destruct (w =? fst r); cbn [map]; [constructor; [exact M|constructor]|constructor].
  - assert (Nl : exists x y, concat lines = x :: y /\ 0 <= x).
    { inversion R2 as [|? line2 ? lines2 Q1 Q2]; subst. destruct Q1 as (kw2 & wss2 & _ & _ & _ & Sp2).
      destruct (line_nonempty _ _ Sp2) as (x & y & ->). cbn [concat app]. exists x. eexists. split; [reflexivity|].
      apply Nn. cbn [concat]. apply in_or_app. right. now left. }
    destruct Nl as (x & y & Ex & Px). rewrite Ex in I1. cbn in I1. injection I1 as -> I1.
    replace (x =? -1) with false by lia.
    destruct (IH (r2 :: rs'') fuel x p1 R2 Go2 ltac:(discriminate)) as (p2 & F2 & S2 & M2).
    + rewrite G1. exact G.
    + rewrite Ex, I1. reflexivity.
    + intros z Hz. apply Nn. cbn [concat]. apply in_or_app. now right.
    + cbn [length] in *. lia.
    + exists p2. split; [exact F2|]. split; [rewrite G1 in S2; exact S2|].
      intros w. destruct (M2 w) as (fs & C2 & M3). rewrite G1, add_chain in C2 by auto. rewrite <- app_assoc in C2.
      eexists. split; [exact C2|]. unfold rules_of in *. cbn [filter] in *. rewrite (Z.eqb_sym (fst r) w).
      destruct (w =? fst r); cbn [map app]; [constructor; [exact M|exact M3]|exact M3].
Qed.
(** ** Decisions *)
Lemma means_chain : forall e css fs tl id d neigh ifindex proto, Forall2 (means e) css fs -> dest_ok d -> one_family d ->
  (exists a cs b r, css = a ++ cs :: b /\ (forall x, In x a -> ~ applies e x id d neigh ifindex proto) /\
     applies e cs id d neigh ifindex proto /\ does cs r /\ 0 <= fr_add_metric r <= 65535 /\ do_filter (fs ++ tl) id d neigh ifindex proto = (fr_add_metric r, r)) \/
  ((forall cs, In cs css -> ~ applies e cs id d neigh ifindex proto) /\
   do_filter (fs ++ tl) id d neigh ifindex proto = do_filter tl id d neigh ifindex proto).
Proof.
  intros e css fs tl id d neigh ifindex proto H D O. induction H as [|cs f css fs (M1 & M2 & M3) H IH].
  - right. split; [intros cs []|reflexivity].
  - cbn [app do_filter]. specialize (M3 id d neigh ifindex proto D O). destruct (filter_match f id d neigh ifindex proto).
    + left. exists [], cs, css, (f_action f). split; [reflexivity|]. split; [intros x []|]. split; [apply M3; reflexivity|].
      split; [exact M2|]. destruct M1 as (_ & _ & _ & _ & _ & _ & _ & M1). split; [exact M1|]. rewrite s32_small by exact M1. reflexivity.
    + assert (N : ~ applies e cs id d neigh ifindex proto) by (intros X; apply M3 in X; discriminate).
      destruct IH as [(a & cs' & b & r & -> & A2 & A3 & A4 & A5 & A6)|(A1 & A2)].
      * left. exists (cs :: a), cs', b, r. split; [reflexivity|]. split; [|auto].
        intros x [<-|Hx]; auto.
      * right. split; [|exact A2]. intros x [<-|Hx]; auto.
Qed.
Lemma rule0_match : forall pr id d neigh ifindex proto, dest_ok d ->
  filter_match (rule0 pr) id d neigh ifindex proto = (if pr =? 0 then negb (proto =? -2) && negb (proto =? 3) else proto =? pr).
Proof.
  intros pr id d neigh ifindex proto (D1 & D2 & D3 & D4). unfold filter_match, rule0. cbn.
  destruct (pr =? 0) eqn:E; cbn.
  - unfold RTPROT_BABEL_LOCAL, RTPROT_BOOT. destruct (proto =? -2) eqn:E1, (proto =? 3) eqn:E2; reflexivity.
  - destruct (proto =? 0) eqn:E1, (pr =? proto) eqn:E2, (proto =? pr) eqn:E3; cbn; auto; lia.
Qed.
Lemma input_verdict : forall e css fs id d neigh ifindex, Forall2 (means e) css fs -> dest_ok d -> one_family d ->
  exists r, verdict e css 0 id d neigh ifindex 0 (input_filter fs id d neigh ifindex) r.
Proof.
  intros e css fs id d neigh ifindex H D O. unfold input_filter.
  destruct (means_chain e css fs [] id d neigh ifindex 0 H D O) as [(a & cs & b & r & E & A1 & A2 & A3 & A4 & A5)|(A1 & A2)];
    rewrite app_nil_r in *.
  - rewrite A5. cbn [fst]. exists r. left. exists a, cs, b. replace (fr_add_metric r <? 0) with false by lia. auto.
  - rewrite A2. exists res0. right. auto.
Qed.
Lemma output_verdict : forall e css fs id d ifindex, Forall2 (means e) css fs -> dest_ok d -> one_family d ->
  exists r, verdict e css 0 id d None ifindex 0 (output_filter fs id d ifindex) r.
Proof.
  intros e css fs id d ifindex H D O. unfold output_filter.
  destruct (means_chain e css fs [] id d None ifindex 0 H D O) as [(a & cs & b & r & E & A1 & A2 & A3 & A4 & A5)|(A1 & A2)];
    rewrite app_nil_r in *.
  - rewrite A5. cbn [fst]. exists r. left. exists a, cs, b. replace (fr_add_metric r <? 0) with false by lia. auto.
  - rewrite A2. exists res0. right. auto.
Qed.
Lemma redistribute_verdict : forall e css fs d ifindex proto, Forall2 (means e) css fs -> dest_ok d -> one_family d ->
  let '(v, r) := redistribute_filter (finalise_redistribute fs) d ifindex proto in
  verdict e css (if proto =? -2 then 0 else 65535) None d None ifindex proto v r.
Proof.
  intros e css fs d ifindex proto H D O. unfold redistribute_filter, finalise_redistribute.
  destruct (means_chain e css fs [rule0 RTPROT_BABEL_LOCAL] None d None ifindex proto H D O) as [(a & cs & b & r & E & A1 & A2 & A3 & A4 & A5)|(A1 & A2)].
  - rewrite A5. replace (fr_add_metric r <? 0) with false by lia. left. exists a, cs, b. auto.
  - rewrite A2. cbn [do_filter]. rewrite rule0_match by auto. unfold RTPROT_BABEL_LOCAL. cbn.
    destruct (proto =? -2); right; auto.
Qed.
Lemma install_verdict : forall e css fs id d ifindex, Forall2 (means e) css fs -> dest_ok d -> one_family d ->
  let '(v, r) := install_filter (finalise_install fs) id d ifindex in verdict e css 0 id d None ifindex 0 v r.
Proof.
  intros e css fs id d ifindex H D O. unfold install_filter, finalise_install.
  destruct (means_chain e css fs [rule0 0] id d None ifindex 0 H D O) as [(a & cs & b & r & E & A1 & A2 & A3 & A4 & A5)|(A1 & A2)].
  - rewrite A5. replace (fr_add_metric r <? 0) with false by lia. left. exists a, cs, b. auto.
  - rewrite A2. cbn [do_filter]. rewrite rule0_match by auto. cbn. right. auto.
Qed.

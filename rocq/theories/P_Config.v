(** P_Config.v: configuration lines and files, keys. *)
From Coq Require Import String.
From Verif Require Import Base M_Util M_Filter M_Config S_Config L_Config L_Config2 L_Config3 L_Config4 M_Keys L_Keys.
Close Scope string_scope.
Open Scope Z_scope.

(** Concrete parsers for the examples: no address is understood, no interface exists. *)
Definition g_env : env := mkEnv (fun _ => None) (fun _ => None) (fun _ => 0) (fun _ => 0).
Definition g_cfg (final write : bool) : cfg := mkCfg final write [] [] [] [] [] None [] [] false.
Definition g_p (final write : bool) : pst := mkP [] [] 0 false false (g_cfg final write).
Definition nl : list Z := [10].
Lemma g_heap : forall f w, heap_ok (g_p f w).
Proof. intros. split; constructor. Qed.

(** ** C47: reading a line *)
(** Reading terminates (no loop runs out of fuel), and an accepted line is consumed up to
    its end and no further: what was read is one line. *)
Theorem C47_line : forall e act c p, lex_ok c (p_in p) -> heap_ok p ->
  match parse_config_line e act c p with
  | Good c' _ p' => p_stuck p' = p_stuck p /\ lex_ok c' (p_in p') /\
      exists l, text c (p_in p) = l ++ text c' (p_in p') /\ one_line l (text c' (p_in p'))
  | Bad p' => p_stuck p' = p_stuck p
  end.
Proof.
  intros e act c p L H. pose proof (parse_config_line_ok e act c p L H) as K.
  destruct (parse_config_line e act c p) as [p'|c' a p']; unfold line_ok in K.
  - destruct K as ([] & _). easy.
  - destruct K as ([] & E). split; [easy|]. exact E.
Qed.
Print Assumptions C47_line.
Example C47_line_ex :
  let t := str "link-detect true # yes" ++ nl ++ str "debug 1" ++ nl in
  match parse_config_line g_env false (hd 0 t) (set_in (tl t) (g_p false false)) with
  | Good c' _ p' => text c' (p_in p') = str "debug 1" ++ nl | Bad _ => False end.
Proof. vm_compute. reflexivity. Qed.

(** A whole file: reading it terminates, and when it is accepted all of it was read. *)
Theorem C47_file : forall e l p, Forall (fun x => 0 <= x) l -> heap_ok p ->
  p_stuck (snd (from_file e l p)) = p_stuck p /\
  (fst (from_file e l p) = true -> l <> [] -> p_in (snd (from_file e l p)) = []).
Proof.
  intros e l p B H. destruct (from_file_ok e l p B H) as (A1 & A2). split; [apply A1|]. intros X N. now apply A2.
Qed.
Print Assumptions C47_file.
Example C47_file_ex :
  let t := str "debug 1" ++ nl ++ nl ++ str "# comment" ++ nl ++ str "interface eth0 rxcost 96" ++ nl ++ str "smoothing-half-life 8" in
  let r := from_file g_env t (g_p false false) in
  fst r = true /\ g_log (p_cfg (snd r)) = [SetDebug 1; SetHalfLife 8] /\ map ic_name (g_ifs (p_cfg (snd r))) = [str "eth0"].
Proof. vm_compute. easy. Qed.

(** Words and strings have at most 255 characters. *)
Theorem C47_tokens : forall c p c' t s p', lex_ok c (p_in p) ->
  getword c p = Good c' (t, s) p' \/ getstring c p = Good c' (t, s) p' -> (length s <= 255)%nat.
Proof.
  intros c p c' t s p' L [E|E].
  - pose proof (getword_spec c p L) as G. rewrite E in G. destruct G as (_ & G & _). lia.
  - pose proof (getstring_spec c p L) as G. rewrite E in G. destruct G as (_ & G & _). lia.
Qed.
Print Assumptions C47_tokens.
(** 255 characters are read, 256 are not. *)
Example C47_tokens_ex :
  match getword 97 (set_in (repeat 97 254) (g_p false false)) with Good _ (_, s) _ => Z.of_nat (length s) = 255 | Bad _ => False end /\
  match getword 97 (set_in (repeat 97 255) (g_p false false)) with Good _ _ _ => False | Bad _ => True end.
Proof. vm_compute. easy. Qed.

(** On a read-only connection no line changes anything, and the lines not answered with an
    error are the empty ones and those that consist of one of the four commands (as the C
    library sees it, that is up to a NUL). *)
Theorem C47_read_only : forall e l p a m p', complete_line l -> heap_ok p ->
  g_final (p_cfg p) = true -> g_write (p_cfg p) = false -> from_string e l p = (a, m, p') ->
  p_cfg p' = p_cfg p /\
  (a = -1 \/ m = None /\ (a = 0 /\ empty_line l \/
     exists x w, In (w, a) ro_commands /\ seen_as x w /\ word_line x l)).
Proof. exact from_string_ro. Qed.
Print Assumptions C47_read_only.
Lemma complete_b : forall l, (forallb (fun x => (0 <=? x) && negb (x =? 10)) l = true) -> complete_line (l ++ [10]).
Proof.
  intros l H. exists l. split; [easy|]. rewrite forallb_forall in H. split.
  - intros K. specialize (H _ K). easy.
  - apply Forall_forall. intros x K. specialize (H _ K). apply andb_true_iff in H. destruct H as (H & _). lia.
Qed.
Example C47_read_only_ex :
  complete_line (str " monitor # please" ++ nl) /\ complete_line (str "interface eth0" ++ nl) /\
  fst (fst (from_string g_env (str " monitor # please" ++ nl) (g_p true false))) = ACT_MONITOR /\
  fst (fst (from_string g_env (str "interface eth0" ++ nl) (g_p true false))) = -1 /\
  fst (fst (from_string g_env (str "interface eth0" ++ nl) (g_p true true))) = ACT_DONE.
Proof. split; [now apply complete_b|]. split; [now apply complete_b|]. vm_compute. easy. Qed.

(** The four commands are obeyed, read-only or not. *)
Theorem C47_commands : forall e l p w a, complete_line l -> heap_ok p -> In (w, a) ro_commands -> word_line w l ->
  exists p', from_string e l p = (a, None, p') /\ p_cfg p' = p_cfg p.
Proof. exact from_string_command. Qed.
Print Assumptions C47_commands.
Example C47_commands_ex : word_line (str "quit") (str " quit  # bye" ++ nl) /\ In (str "quit", ACT_QUIT) ro_commands.
Proof.
  split; [|now left]. exists [32], (str "  # bye" ++ nl). split; [reflexivity|]. split; [repeat constructor|].
  exists [32; 32], (str "# bye"). split; [reflexivity|]. split; [constructor; [now left|constructor; [now left|constructor]]|].
  split; [vm_compute; intuition discriminate|]. right. now eexists.
Qed.

(** ** C48: strings are used and freed once *)
(** An accepted line never uses or frees a string that is not live. *)
Theorem C48_accepted : forall e act c p c' a p', lex_ok c (p_in p) -> heap_ok p ->
  parse_config_line e act c p = Good c' a p' -> p_bad p' = p_bad p /\ heap_ok p' /\ incl (p_live p) (p_live p').
Proof.
  intros e act c p c' a p' L H E. pose proof (parse_config_line_ok e act c p L H) as K. rewrite E in K.
  destruct K as ([] & _). auto.
Qed.
Print Assumptions C48_accepted.
(** Neither does a rejected one, unless it begins with "interface" or "default" and contains
    a quotation mark or is longer than 255 characters. *)
Theorem C48_rejected : forall e act c p p', lex_ok c (p_in p) -> heap_ok p ->
  parse_config_line e act c p = Bad p' ->
  (~ In 34 (text c (p_in p)) /\ (length (text c (p_in p)) <= 255)%nat \/
   ~ starts_with (text c (p_in p)) (str "interface") /\ ~ starts_with (text c (p_in p)) (str "default")) ->
  p_bad p' = p_bad p /\ heap_ok p' /\ incl (p_live p) (p_live p').
Proof.
  intros e act c p p' L H E Q. pose proof (parse_config_line_ok e act c p L H) as K. rewrite E in K.
  destruct K as ([] & K). split; [now apply K|auto].
Qed.
Print Assumptions C48_rejected.
Example C48_ex :
  (let t := str "interface eth0 rxcost 96 update-interval" ++ nl in
   match parse_config_line g_env true (hd 0 t) (set_in (tl t) (g_p true true)) with Bad p' => p_bad p' = false | Good _ _ _ => False end) /\
  (let t := str "interface eth0 rxcost 96 update-interval 20" ++ nl in
   match parse_config_line g_env true (hd 0 t) (set_in (tl t) (g_p true true)) with Bad p' => False | Good _ _ p' => p_bad p' = false end).
Proof. vm_compute. easy. Qed.
(** The exception is real: an interface line with a quoted word after an accepted parameter
    frees the parameter's token a second time. *)
Theorem C48_refuted : exists e l p, complete_line l /\ heap_ok p /\ p_bad p = false /\
  p_bad (snd (from_string e l p)) = true.
Proof.
  exists g_env, (str "interface eth0 rxcost 96 ""x""" ++ nl), (g_p true true).
  split; [now apply complete_b|]. split; [apply g_heap|]. split; [easy|]. vm_compute. reflexivity.
Qed.
Print Assumptions C48_refuted.

(** ** C64: rejected lines *)
(** A rejected line leaves the configuration as it was, except that an interface or default
    line may have raised reference counts of keys, and that a line beginning with the name
    of an option may have set it. *)
Theorem C64_rejected : forall e act c p p', lex_ok c (p_in p) -> heap_ok p ->
  parse_config_line e act c p = Bad p' ->
  p_cfg p' = p_cfg p \/
  (exists s, starts_with (text c (p_in p)) s /\
    ((s = str "interface" \/ s = str "default") /\ refs_only (p_cfg p) (p_cfg p') \/ In s opt_names)).
Proof.
  intros e act c p p' L H E. destruct (line_rejected e act c p p' L H E) as [K|(s & S1 & K)]; [now left|].
  right. exists s. split; [easy|]. destruct K as [K|K]; [now left|]. right. unfold mem in K. apply existsb_exists in K.
  destruct K as (x & K & Q). apply beq_true in Q. now subst.
Qed.
Print Assumptions C64_rejected.
Example C64_ex :
  let t := str "in ip 10.0.0.0/8 deny" ++ nl in
  match parse_config_line g_env true (hd 0 t) (set_in (tl t) (g_p false true)) with Bad p' => p_cfg p' = g_cfg false true | Good _ _ _ => False end.
Proof. vm_compute. reflexivity. Qed.
(** An option line with something after its value is answered with an error, yet the option
    is set. *)
Theorem C64_refuted : exists e l p p', complete_line l /\ heap_ok p /\ g_final (p_cfg p) = true /\
  from_string e l p = (-1, None, p') /\ g_log (p_cfg p') = g_log (p_cfg p) ++ [SetBool (str "link-detect") true].
Proof.
  exists g_env, (str "link-detect true junk" ++ nl), (g_p true true).
  eexists. split; [now apply complete_b|]. split; [apply g_heap|]. split; [easy|]. split; [reflexivity|]. vm_compute. reflexivity.
Qed.
Print Assumptions C64_refuted.
(** A rejected interface line keeps a reference to the key it names. *)
Definition g_keyed : pst := snd (from_string g_env (str "key id k type blake2s128 value 00" ++ nl) (g_p true true)).
Theorem C64_leak_refuted : exists e l p p', complete_line l /\ heap_ok p /\
  from_string e l p = (-1, None, p') /\ map k_ref (g_keys (p_cfg p)) = [0] /\ map k_ref (g_keys (p_cfg p')) = [1].
Proof.
  exists g_env, (str "interface eth0 key k rxcost 0" ++ nl), g_keyed.
  eexists. split; [now apply complete_b|]. split.
  { assert (E : p_live g_keyed = [2] /\ p_nxt g_keyed = 7) by (vm_compute; easy). destruct E as (E1 & E2).
    unfold heap_ok. rewrite E1, E2. clear. split; [constructor; [intros []|constructor]|constructor; [reflexivity|constructor]]. }
  split; [vm_compute; reflexivity|]. split; vm_compute; reflexivity.
Qed.
Print Assumptions C64_leak_refuted.

(** ** C53: the reference counts of keys *)
(** While no assertion has failed, every key in use is in the table with a count at least
    the number of interfaces that use it. *)
Theorem C53_count : forall e s, kreach e s -> g_abort (p_cfg (ks_p s)) = false ->
  (forall n i, In (n, Some i) (ks_ifs s) -> exists k, nth_error (g_keys (p_cfg (ks_p s))) i = Some k /\ 0 < k_ref k) /\
  (forall i k, nth_error (g_keys (p_cfg (ks_p s))) i = Some k -> users i (ks_ifs s) <= k_ref k <= 65535).
Proof.
  intros e s R A. pose proof (kinv_reach e s R) as K. split.
  - intros n i H. destruct (kinv_pos s n i K H A) as (r & E & P). unfold ref_at in E.
    destruct (nth_error (g_keys (p_cfg (ks_p s))) i) as [k|]; [|discriminate E]. injection E as <-. now exists k.
  - intros i k E. destruct K as [T U C]. pose proof (nth_In_P _ _ _ _ _ T E) as Q. cbn in Q.
    specialize (C A i (k_ref k)). unfold ref_at in C. rewrite E in C. specialize (C eq_refl). lia.
Qed.
Print Assumptions C53_count.
(** No key ever leaves the table or changes its name. *)
Theorem C53_kept : forall e ev s i k, nth_error (g_keys (p_cfg (ks_p s))) i = Some k ->
  exists k', nth_error (g_keys (p_cfg (ks_p (kstep e ev s)))) i = Some k' /\ k_id k' = k_id k.
Proof. exact kstep_ids. Qed.
Print Assumptions C53_kept.
(** An assertion on a count fails only when a count has reached 65535: a release never
    does. *)
Theorem C53_assertions : forall e ev s, kreach e s -> kallowed ev s -> g_abort (p_cfg (ks_p s)) = false ->
  g_abort (p_cfg (ks_p (kstep e ev s))) = true ->
  exists i k, (nth_error (g_keys (p_cfg (ks_p s))) i = Some k \/
               nth_error (g_keys (p_cfg (ks_p (kstep e ev s)))) i = Some k) /\ 65535 <= k_ref k.
Proof.
  intros e ev s R L A T. destruct (kstep_abort e ev s (kinv_reach e s R) L A T) as (i & r & E & Q).
  exists i. unfold ref_at in E. destruct E as [E|E].
  - destruct (nth_error (g_keys (p_cfg (ks_p s))) i) as [k|]; [|discriminate E]. injection E as <-. exists k. auto.
  - destruct (nth_error (g_keys (p_cfg (ks_p (kstep e ev s)))) i) as [k|]; [|discriminate E]. injection E as <-. exists k. auto.
Qed.
Print Assumptions C53_assertions.
Definition g_s0 : kst := mkKs (g_p true true) [].
Definition g_evs : list kev :=
  [KLine (str "key id k type blake2s128 value 00" ++ nl); KLine (str "key id h type hmac-sha256 value 01" ++ nl);
   KLine (str "interface eth0 key k" ++ nl); KNew (str "eth0"); KUp (str "eth0") (Some 0%nat);
   KNew (str "eth1"); KUp (str "eth1") (Some 1%nat); KUp (str "eth1") (Some 0%nat); KFlush (str "eth0")].
Fixpoint krun (e : env) (evs : list kev) (s : kst) : kst :=
  match evs with [] => s | ev :: evs => krun e evs (kstep e ev s) end.
Definition kallowedb (ev : kev) (s : kst) : bool :=
  match ev with KUp _ (Some j) => (j <? length (g_keys (p_cfg (ks_p s))))%nat | _ => true end.
Fixpoint kallowed_runb (e : env) (evs : list kev) (s : kst) : bool :=
  match evs with [] => true | ev :: evs => kallowedb ev s && kallowed_runb e evs (kstep e ev s) end.
Lemma krun_reach : forall e evs s, kreach e s -> kallowed_runb e evs s = true -> kreach e (krun e evs s).
Proof.
  induction evs as [|ev evs IH]; intros s R A; [exact R|]. cbn [kallowed_runb] in A. apply andb_true_iff in A.
  destruct A as (A & B). cbn [krun]. apply IH; [|exact B]. constructor; [exact R|].
  destruct ev as [| | |n [j|]|]; cbn in *; try easy. now apply Nat.ltb_lt.
Qed.
Example C53_ex : kreach g_env (krun g_env g_evs g_s0) /\ g_abort (p_cfg (ks_p (krun g_env g_evs g_s0))) = false /\
  ks_ifs (krun g_env g_evs g_s0) = [(str "eth1", Some 0%nat)] /\
  map k_ref (g_keys (p_cfg (ks_p (krun g_env g_evs g_s0)))) = [3; 0].
Proof.
  split; [apply krun_reach; [now constructor|vm_compute; reflexivity]|]. vm_compute. easy.
Qed.
(** The count is not the number of users: a key that no interface uses any longer and that
    is in no configuration keeps a count. *)
Theorem C53_refuted : exists e s i k, kreach e s /\ nth_error (g_keys (p_cfg (ks_p s))) i = Some k /\
  users i (ks_ifs s) = 0 /\ Forall (fun ic => ic_key ic = None) (g_ifs (p_cfg (ks_p s))) /\
  g_default (p_cfg (ks_p s)) = None /\ k_ref k = 1.
Proof.
  set (evs := [KLine (str "key id k type blake2s128 value 00" ++ nl); KLine (str "key id k type blake2s128 value 01" ++ nl)]).
  exists g_env, (krun g_env evs g_s0), 0%nat. eexists. split; [apply krun_reach; [now constructor|vm_compute; reflexivity]|].
  split; [vm_compute; reflexivity|]. split; [vm_compute; reflexivity|]. split; [vm_compute; constructor|]. split; vm_compute; reflexivity.
Qed.
Print Assumptions C53_refuted.
(** Redefining a key 65536 times makes the daemon abort. *)
Theorem C53_abort_refuted : forall id ty v g, g_keys g = [] -> g_abort g = false ->
  exists n, g_abort (Nat.iter n (add_key id ty v) g) = true.
Proof.
  intros id ty v g E A. assert (N : exists n, Z.of_nat n = 65535) by (exists (Z.to_nat 65535); now rewrite Z2Nat.id).
  destruct N as (n & N). destruct (add_key_many id ty v g n E A) as (K1 & K2); [lia|].
  exists (S (S n)). change (Nat.iter (S (S n)) (add_key id ty v) g) with (add_key id ty v (Nat.iter (S n) (add_key id ty v) g)).
  pose proof (add_key_again id ty v _ _ K1 eq_refl) as Q. cbn [k_ref] in Q. rewrite N in Q. exact Q.
Qed.
Print Assumptions C53_abort_refuted.

(** P_Local.v: the control sockets. *)
From Coq Require Import String.
From Verif Require Import Base M_Config S_Config M_Local S_Local L_Local P_Config.
Close Scope string_scope.
Open Scope Z_scope.

(** ** C49: every line once, in order *)
(** However the text a client sends is split into reads, the lines processed are the
    complete lines of the text, each once and in order, and what is kept is what follows
    the last end of line.  (All writes succeed.) *)
Theorem C49_lines : forall e s p ds log s2 p2, reading e s p ds log s2 p2 -> ~ In 10 (k_buf s) ->
  lines_of (k_buf s ++ concat ds) (map v_line log) (k_buf s2) /\ obey e (map v_line log) p (map v_act log) p2.
Proof. exact reading_spec. Qed.
Print Assumptions C49_lines.
(** So two ways of splitting the same text give the same lines, actions and state. *)
Theorem C49_splits : forall e s p ds1 log1 s1 p1 ds2 log2 s2 p2, ~ In 10 (k_buf s) -> concat ds1 = concat ds2 ->
  reading e s p ds1 log1 s1 p1 -> reading e s p ds2 log2 s2 p2 ->
  map v_line log1 = map v_line log2 /\ map v_act log1 = map v_act log2 /\ k_buf s1 = k_buf s2 /\ p1 = p2.
Proof.
  intros e s p ds1 log1 s1 p1 ds2 log2 s2 p2 N E R1 R2.
  destruct (reading_spec _ _ _ _ _ _ _ R1 N) as (A1 & A2). destruct (reading_spec _ _ _ _ _ _ _ R2 N) as (B1 & B2).
  rewrite E in A1. destruct (lines_of_fun _ _ _ A1 _ _ B1) as (E1 & E2). rewrite E1 in B2.
  destruct (obey_fun _ _ _ _ _ A2 _ _ B2) as (E3 & E4). auto.
Qed.
Print Assumptions C49_splits.
Definition k_s0 : sock := mkSock 5 [] false false.
Definition rd1 (d : list Z) (sp : sock * pst) : lr := local_read g_env (RData d) (fun _ => WOk) (fst sp) (snd sp) 0.
Lemma rg1 : forall s p d, d <> [] -> Z.of_nat (length (k_buf s)) + Z.of_nat (length d) <= BUFSIZE ->
  forall ds log s2 p2, reading g_env (lr_sock (rd1 d (s, p))) (lr_p (rd1 d (s, p))) ds log s2 p2 ->
  reading g_env s p (d :: ds) (lr_log (rd1 d (s, p)) ++ log) s2 p2.
Proof. intros. eapply rg_read; eauto. Qed.
Example C49_ex : exists log s2 p2,
  reading g_env k_s0 (g_p true true) [str "moni"; str "tor" ++ nl ++ str "flush in"; str "terface x" ++ nl ++ str "qu"] log s2 p2 /\
  map v_line log = [str "monitor" ++ nl; str "flush interface x" ++ nl] /\ map v_act log = [ACT_MONITOR; ACT_NO] /\
  k_buf s2 = str "qu".
Proof.
  eexists _, _, _. split.
  - apply rg1; [easy|vm_compute; congruence|]. apply rg1; [easy|vm_compute; congruence|].
    apply rg1; [easy|vm_compute; congruence|]. constructor.
  - vm_compute. easy.
Qed.

(** The receive buffer never holds more than its size. *)
Theorem C49_bounded : forall e r ws s p k, Z.of_nat (length (k_buf s)) <= 1024 ->
  Z.of_nat (length (k_buf (lr_sock (local_read e r ws s p k)))) <= 1024.
Proof. exact read_len. Qed.
Print Assumptions C49_bounded.
(** The connection stays the same one; it is sent every change if the last line that asks
    for this says so; it is closed exactly when there was a line to end it. *)
Theorem C49_switches : forall e s p ds log s2 p2, reading e s p ds log s2 p2 ->
  k_fd s2 = k_fd s /\ switched (k_mon s) (map v_act log) (k_mon s2) /\
  (k_shut s2 = true <-> k_shut s = true \/ In ACT_QUIT (map v_act log)).
Proof. exact reading_sock. Qed.
Print Assumptions C49_switches.
Example C49_switches_ex : exists log s2 p2,
  reading g_env k_s0 (g_p true true) [str "monitor" ++ nl ++ str "unmon"; str "itor" ++ nl ++ str "monitor" ++ nl ++ str "quit" ++ nl] log s2 p2 /\
  map v_act log = [ACT_MONITOR; ACT_UNMONITOR; ACT_MONITOR; ACT_QUIT] /\ k_mon s2 = true /\ k_shut s2 = true.
Proof.
  eexists _, _, _. split; [apply rg1; [easy|vm_compute; easy|]; apply rg1; [easy|vm_compute; easy|]; apply rg_nil|].
  vm_compute. easy.
Qed.
(** A buffer full of a line without end: the next read closes the connection without having
    processed anything. *)
Theorem C49_overlong : forall e r ws s p k, Z.of_nat (length (k_buf s)) = 1024 ->
  let x := local_read e r ws s p k in
  lr_rc x = -1 /\ lr_again x = false /\ k_shut (lr_sock x) = true /\ lr_p x = p /\ lr_log x = [].
Proof. intros e r ws s p k H. unfold local_read. rewrite H. now cbn. Qed.
Print Assumptions C49_overlong.
Example C49_overlong_ex :
  let x := rd1 (repeat 97 2000) (k_s0, g_p true true) in
  lr_rc x = 1 /\ Z.of_nat (length (k_buf (lr_sock x))) = 1024 /\ lr_log x = [].
Proof. vm_compute. easy. Qed.

(** The reply to a line is the one its action calls for, as long as the lines before it in
    the same read were accepted (and were not quit). *)
Theorem C49_replies : forall e r ws s p k l1 v l2,
  lr_log (local_read e r ws s p k) = l1 ++ v :: l2 -> Forall neutral l1 ->
  exists q m q', from_string e (v_line v) q = (v_act v, m, q') /\ reply_due (v_act v) m (v_reply v).
Proof.
  intros e r ws s p k l1 v l2. unfold local_read.
  destruct (_ >=? BUFSIZE); [intros E; now destruct l1|]. destruct r as [d| |]; [|intros E; now destruct l1|intros E; now destruct l1].
  cbv zeta. intros E F.
  match type of E with lr_log (lines ?e ?ws ?f ?r ?s ?p ?k ?l) = _ => destruct (lines_replies e ws f s p k l) as (new & A & B) end.
  rewrite A in E. cbn [app] in E. exact (B _ _ _ E F).
Qed.
Print Assumptions C49_replies.
Example C49_replies_ex : map v_reply (lr_log (rd1 (str "monitor" ++ nl ++ str "junk" ++ nl) (k_s0, g_p true true))) =
  [str "ok" ++ nl; str "bad" ++ nl].
Proof. vm_compute. reflexivity. Qed.
(** In general the reply is not that of the line: after an error in the same read, an
    accepted line is answered with an error as well. *)
Theorem C49_reply_refuted : exists e d s p v1 v2, lr_log (local_read e (RData d) (fun _ => WOk) s p 0) = [v1; v2] /\
  (exists q, fst (fst (from_string e (v_line v2) q)) = v_act v2) /\ v_act v2 = ACT_MONITOR /\ v_reply v2 = str "bad" ++ nl.
Proof.
  exists g_env, (str "junk" ++ nl ++ str "monitor" ++ nl), k_s0, (g_p true true).
  eexists _, _. split; [vm_compute; reflexivity|]. split; [exists (g_p true true); vm_compute; reflexivity|]. split; vm_compute; reflexivity.
Qed.
Print Assumptions C49_reply_refuted.
(** When the reply cannot be written in time and more text arrives, the line is processed
    a second time. *)
Theorem C49_twice_refuted : exists e s p l d x1 x2,
  x1 = local_read e (RData l) (fun _ => WFail true) s p 0 /\
  x2 = local_read e (RData d) (fun _ => WOk) (lr_sock x1) (lr_p x1) 0 /\
  lr_rc x1 = -1 /\ lr_again x1 = true /\
  lines_of (l ++ d) [l] d /\ map v_line (lr_log x1 ++ lr_log x2) = [l; l] /\
  g_log (p_cfg (lr_p x2)) = [FlushInterface (str "x"); FlushInterface (str "x")].
Proof.
  exists g_env, k_s0, (g_p true true), (str "flush interface x" ++ nl), (str "q").
  eexists _, _. split; [reflexivity|]. split; [reflexivity|]. split; [vm_compute; reflexivity|].
  split; [vm_compute; reflexivity|]. split.
  { change (lines_of (str "flush interface x" ++ 10 :: str "q") [str "flush interface x" ++ [10]] (str "q")).
    constructor; [vm_compute; intuition discriminate|]. constructor. vm_compute; intuition discriminate. }
  split; vm_compute; reflexivity.
Qed.
Print Assumptions C49_twice_refuted.

(** ** C65: serving the control sockets ends *)
(** If no read and no write answers "try again", one pass over the sockets ends, and reads
    each socket at most once. *)
Theorem C65_serve_ends : forall e ready rs ws l p, (forall j, rs j <> RFail true) -> (forall k, ws k <> WFail true) ->
  exists l' p' log, serve e ready rs ws (S (length l)) 0 l p 0 0 [] = Some (l', p', log) /\ (length log <= length l)%nat.
Proof.
  intros e ready rs ws l p R W. destruct (serve_ends e ready rs ws R W (S (length l)) 0 l p 0%nat 0%nat []) as (l' & p' & log & A & B).
  - lia.
  - exists l', p', log. split; [exact A|]. simpl in B. lia.
Qed.
Print Assumptions C65_serve_ends.
Example C65_ex : exists l' p' log,
  serve g_env [5; 6; 7] (fun j => match j with O => RData (str "monitor" ++ nl) | 1%nat => REof | _ => RData (str "dump" ++ nl) end)
    (fun _ => WOk) 4 0 [k_s0; mkSock 6 [] false false; mkSock 7 [] false false] (g_p true true) 0 0 [] = Some (l', p', log) /\
  map k_fd l' = [5; 7] /\ map fst log = [5; 6].
Proof. eexists _, _, _. split; [vm_compute; reflexivity|]. vm_compute. easy. Qed.
(** A client that sends a line and does not read the replies stops the daemon: the pass
    never ends. *)
Theorem C65_refuted : exists e ready rs ws l p, forall fuel, serve e ready rs ws fuel 0 l p 0 0 [] = None.
Proof.
  exists g_env, [5], (fun j => match j with O => RData (str "monitor" ++ nl) | _ => RFail true end), (fun _ => WFail true), [k_s0], (g_p true true).
  intros [|fuel]; [easy|]. cbn [serve nth_error].
  change (existsb (Z.eqb (k_fd k_s0)) [5]) with true. cbv iota zeta.
  set (x := local_read _ _ _ _ _ _).
  assert (X : lr_rc x = -1 /\ lr_again x = true /\ k_fd (lr_sock x) = 5 /\ Z.of_nat (length (k_buf (lr_sock x))) = 8) by (vm_compute; easy).
  destruct X as (X1 & X2 & X3 & X4). rewrite X1, X2. cbn [Z.leb Z.ltb Z.compare andb].
  apply (serve_stalls _ _ _ _ (lr_sock x)).
  - rewrite X3. now left.
  - rewrite X4. reflexivity.
  - intros [|n] Hn; [lia|easy].
  - reflexivity.
Qed.
Print Assumptions C65_refuted.

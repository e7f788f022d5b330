(** L_Auth.v: challenges and packet counters. *)
From Coq Require Import Bool.
From Verif Require Import Base M_Util S_Util M_Filter M_Types M_Neigh M_Wire M_Auth S_Auth L_Util.

(** The readings of the clock: positive, normalised, never decreasing. *)
Fixpoint mono (now : timeval) (l : list timeval) : Prop :=
  tv_ok now /\ 0 < us now /\ match l with [] => True | t :: l => us now <= us t /\ mono t l end.

Definition pend (s : ast) : Prop :=
  exists mid t0 older, a_log s = mid ++ NRequest (pc_nonce (a_pc s)) t0 :: older /\
    Forall (fun x => is_request x = false /\ is_honoured x = false) mid /\
    us (pc_deadline (a_pc s)) = us t0 + 30000000.

Record AI (s : ast) : Prop := {
  AI_clk : mono (a_now s) (a_clk s);
  AI_tv : tv_ok (pc_deadline (a_pc s)) /\ tv_ok (pc_req_lim (a_pc s)) /\ tv_ok (pc_rep_lim (a_pc s));
  AI_pend : pc_deadline (a_pc s) = tv0 \/ pend s;
  AI_lim : forall n t, In (NRequest n t) (a_log s) -> us t + 300000 <= us (pc_req_lim (a_pc s));
  AI_ch : challenges_ok (a_log s);
  AI_sp : spaced (a_log s);
  AI_ct : counters_ok (a_log s);
  AI_pc : forall newer m i p older, a_log s = newer ++ NAccept m i p :: older ->
    Forall (fun x => is_honoured x = false) newer ->
    pc_index (a_pc s) = Some i /\ p <= (if m then pc_m (a_pc s) else pc_u (a_pc s))
}.

Lemma AI_gettime : forall s, AI s -> AI (a_gettime s).
Proof.
  intros s [A1 A2 A3 A4 A5 A6 A7 A8]. unfold a_gettime. destruct (a_clk s) as [|t l] eqn:E.
  - constructor; auto. rewrite E. auto.
  - constructor; auto. cbn. cbn in A1. destruct A1 as (_ & _ & _ & M). auto.
Qed.
Lemma AI_found : forall b s, AI s -> AI (set_a_found b s).
Proof. intros b s [A1 A2 A3 A4 A5 A6 A7 A8]. constructor; auto. Qed.
Lemma AI_random : forall s r s', AI s -> a_random s = (r, s') -> AI s' /\ a_pc s' = a_pc s /\ a_now s' = a_now s.
Proof.
  intros s r s' [A1 A2 A3 A4 A5 A6 A7 A8]. unfold a_random. destruct (a_rnd s) as [|x l].
  - intros E. injection E as <- <-. split; [constructor; auto|auto].
  - intros E. injection E as <- <-. split; [constructor; auto|auto].
Qed.

(** A note which is neither a request, nor an honoured reply, nor an acceptance *)
Lemma challenges_cons : forall x log, is_honoured x = false -> challenges_ok log -> challenges_ok (x :: log).
Proof.
  intros x log H C newer n t older E. destruct newer as [|y newer].
  - injection E as -> _. discriminate.
  - injection E as <- E. eapply C; eauto.
Qed.
Lemma spaced_cons : forall x log, is_request x = false -> spaced log -> spaced (x :: log).
Proof.
  intros x log H C newer n t mid n' t' older E. destruct newer as [|y newer].
  - injection E as -> _. discriminate.
  - injection E as <- E. eapply C; eauto.
Qed.
Lemma counters_cons : forall x log, (forall m i p, x <> NAccept m i p) -> counters_ok log -> counters_ok (x :: log).
Proof.
  intros x log H C newer m i p mid i' p' older E. destruct newer as [|y newer].
  - injection E as -> _. destruct (H m i p eq_refl).
  - injection E as <- E. eapply C; eauto.
Qed.

Lemma now_ok : forall s, AI s -> tv_ok (a_now s) /\ 0 < us (a_now s).
Proof. intros s A. pose proof (AI_clk s A) as M. destruct (a_clk s); cbn in M; tauto. Qed.

Lemma gettime_later : forall s, AI s -> us (a_now s) <= us (a_now (a_gettime s)).
Proof.
  intros s A. pose proof (AI_clk s A) as M. unfold a_gettime. destruct (a_clk s) as [|t l]; [lia|].
  cbn. cbn in M. tauto.
Qed.

Lemma gettime_pc : forall s, a_pc (a_gettime s) = a_pc s.
Proof. intros s. unfold a_gettime. destruct (a_clk s); auto. Qed.
Lemma gettime_log : forall s, a_log (a_gettime s) = a_log s.
Proof. intros s. unfold a_gettime. destruct (a_clk s); auto. Qed.

Lemma AI_request : forall s, AI s -> AI (send_challenge_request s).
Proof.
  intros s A0. unfold send_challenge_request.
  pose proof (AI_gettime s A0) as A. set (s1 := a_gettime s) in *. clearbody s1. clear A0 s.
  destruct (timeval_compare (a_now s1) (pc_req_lim (a_pc s1)) <=? 0) eqn:C; [auto|].
  destruct (a_random s1) as [r s2] eqn:R. destruct (AI_random s1 r s2 A R) as (A2 & P2 & N2).
  destruct r as [n|]; [|auto].
  assert (C2 : us (pc_req_lim (a_pc s2)) < us (a_now s2)).
  { rewrite P2, N2. rewrite timeval_compare_us in C; [|apply (now_ok s1 A)|apply (AI_tv s1 A)].
    destruct (us (a_now s1) ?= us (pc_req_lim (a_pc s1))) eqn:X; try discriminate.
    apply Z.compare_gt_iff in X. auto. }
  clear C R A P2 N2 s1.
  set (s3 := set_a_pc (set_pc_nonce n (a_pc s2)) s2).
  assert (G1 : us (a_now s2) <= us (a_now (a_gettime s3))).
  { pose proof (AI_clk s2 A2) as M. unfold a_gettime, s3. cbn [a_clk set_a_pc]. destruct (a_clk s2) as [|t l]; [cbn; lia|].
    cbn. cbn in M. tauto. }
  assert (G2 : mono (a_now (a_gettime s3)) (a_clk (a_gettime s3))).
  { pose proof (AI_clk s2 A2) as M. unfold a_gettime, s3. cbn [a_clk set_a_pc]. destruct (a_clk s2) as [|t l] eqn:E.
    - cbn. rewrite E. exact M.
    - cbn. cbn in M. tauto. }
  rewrite gettime_pc.
  assert (L3 : a_log (a_gettime s3) = a_log s2) by (rewrite gettime_log; auto).
  destruct A2 as [A1 A2 A3 A4 A5 A6 A7 A8].
  assert (T : tv_ok (a_now (a_gettime s3))).
  { destruct (a_clk (a_gettime s3)); cbn in G2; tauto. }
  set (t := a_now (a_gettime s3)) in *.
  destruct (timeval_add_msec_us t 30000 T ltac:(lia)) as [D1 D2].
  destruct (timeval_add_msec_us t 300 T ltac:(lia)) as [E1 E2].
  constructor; cbn [a_note set_a_pc a_now a_clk a_pc a_log]; rewrite ?L3.
  - exact G2.
  - cbn. split; [exact D1|]. split; [exact E1|]. apply A2.
  - right. exists [], t, (a_log s2). cbn [app a_note set_a_pc a_log a_pc]. rewrite L3.
    split; [reflexivity|]. split; [constructor|]. cbn. rewrite D2. lia.
  - intros n0 t0 [X|X].
    + injection X as <- <-. cbn. rewrite E2. lia.
    + specialize (A4 _ _ X). cbn. rewrite E2. lia.
  - apply challenges_cons; auto.
  - intros newer n0 t0 mid n' t' older E. destruct newer as [|y newer].
    + injection E as <- <- E. specialize (A4 n' t'). rewrite E in A4.
      specialize (A4 ltac:(apply in_or_app; right; left; reflexivity)). lia.
    + injection E as <- E. eapply A6; eauto.
  - apply counters_cons; auto. discriminate.
  - intros newer m i p older E F. destruct newer as [|y newer]; [discriminate|]. injection E as <- E.
    inversion F; subst. exact (A8 newer m i p older E H2).
Qed.

Lemma AI_reply : forall n s, AI s -> AI (send_challenge_reply n s).
Proof.
  intros n s A0. unfold send_challenge_reply.
  pose proof (AI_gettime s A0) as A. set (s1 := a_gettime s) in *. clearbody s1. clear A0 s.
  destruct (_ <=? 0); [auto|].
  pose proof (AI_gettime s1 A) as A'. set (s2 := a_gettime s1) in *. clearbody s2. clear A s1.
  pose proof (now_ok s2 A') as [N1 N2].
  destruct A' as [A1 A2 A3 A4 A5 A6 A7 A8].
  constructor; cbn [a_note set_a_pc a_now a_clk a_pc a_log]; auto.
  - cbn. split; [apply A2|]. split; [apply A2|]. apply timeval_add_msec_us; [auto|lia].
  - destruct A3 as [A3|(mid & t0 & older & E & F & D)]; [left; auto|]. right.
    exists (NReply n (a_now s2) :: mid), t0, older. cbn. rewrite E. split; [auto|]. split; [constructor; auto|]. exact D.
  - intros n0 t0 [X|X]; [discriminate|]. exact (A4 n0 t0 X).
  - apply challenges_cons; auto.
  - apply spaced_cons; auto.
  - apply counters_cons; auto. discriminate.
  - intros newer m i p older E F. destruct newer as [|y newer]; [discriminate|]. injection E as <- E.
    inversion F; subst. exact (A8 newer m i p older E H2).
Qed.

Lemma AI_challenge_reply : forall pkt m len s c s' c', AI s -> challenge_reply pkt m len s c = Ret (s', c') ->
  AI s' /\ (sc_ok c' = true -> sc_ok c = true \/ exists n t, a_log s' = NHonoured n t :: a_log s) /\
  (a_log s' = a_log s \/ exists n t, a_log s' = NHonoured n t :: a_log s) /\ sc_pc c' = sc_pc c /\ a_pc s' = set_pc_deadline (pc_deadline (a_pc s')) (a_pc s) /\
  (sc_ok c = true -> sc_ok c' = true) /\ (sc_ok c' = false -> a_log s' = a_log s).
Proof.
  intros pkt m len s c s' c' A0 E. unfold challenge_reply in E.
  pose proof (AI_gettime _ (AI_found true s A0)) as A.
  assert (P : a_pc (a_gettime (set_a_found true s)) = a_pc s) by (rewrite gettime_pc; auto).
  assert (L : a_log (a_gettime (set_a_found true s)) = a_log s) by (rewrite gettime_log; auto).
  set (s1 := a_gettime (set_a_found true s)) in *. clearbody s1. cbv zeta in E.
  assert (Dn : forall p : pcst, p = set_pc_deadline (pc_deadline p) p) by (intros []; auto).
  assert (Same : Ret (s1, c) = Ret (s', c') ->
     AI s' /\ (sc_ok c' = true -> sc_ok c = true \/ exists n t, a_log s' = NHonoured n t :: a_log s) /\
     (a_log s' = a_log s \/ exists n t, a_log s' = NHonoured n t :: a_log s) /\ sc_pc c' = sc_pc c /\
     a_pc s' = set_pc_deadline (pc_deadline (a_pc s')) (a_pc s) /\
     (sc_ok c = true -> sc_ok c' = true) /\ (sc_ok c' = false -> a_log s' = a_log s)).
  { intros X. injection X as <- <-. split; [auto|]. split; [auto|]. split; [auto|]. split; [auto|].
    split; [rewrite P; apply Dn|]. auto. }
  destruct (timeval_compare (a_now s1) (pc_deadline (a_pc s1)) >? 0) eqn:C; [apply Same; auto|].
  destruct (len =? 8); [|apply Same; auto].
  destruct (rds pkt (m + 2) len) as [n| |]; cbn [bind] in E; [|discriminate..].
  destruct (memcmp (pc_nonce (a_pc s1)) n =? 0) eqn:M; [|apply Same; auto]. clear Same.
  injection E as <- <-. apply Z.eqb_eq, memcmp_0 in M.
  pose proof (now_ok s1 A) as [N1 N2].
  assert (C' : us (a_now s1) <= us (pc_deadline (a_pc s1))).
  { rewrite timeval_compare_us in C; [|auto|apply (AI_tv s1 A)].
    destruct (Z.compare_spec (us (a_now s1)) (us (pc_deadline (a_pc s1)))) as [X|X|X]; [lia|lia|discriminate]. }
  destruct A as [A1 A2 A3 A4 A5 A6 A7 A8].
  split; [|split; [|split; [|split; [|split; [|split]]]]].
  - constructor; cbn [a_note set_a_pc a_now a_clk a_pc a_log]; auto.
    + cbn. split; [unfold tv_ok, tv0; cbn [tv_usec]; lia|]. apply A2.
    + intros n0 t0 [X|X]; [discriminate|]. exact (A4 n0 t0 X).
    + intros newer n0 t0 older E. destruct newer as [|y newer]; [|injection E as <- E; eapply A5; eauto].
      injection E as <- <- <-. destruct A3 as [A3|(mid & tq & older & E & F & D)].
      { exfalso. rewrite A3 in C'. unfold us in C' at 2. cbn in C'. lia. }
      exists mid, tq, older. rewrite <- M. split; [auto|]. split; [auto|]. lia.
    + apply spaced_cons; auto.
    + apply counters_cons; auto. discriminate.
    + intros newer m0 i p older E F. destruct newer as [|y newer]; [discriminate|]. injection E as <- E.
      inversion F; subst. discriminate.
  - intros _. right. exists n, (a_now s1). cbn. rewrite L. auto.
  - right. exists n, (a_now s1). cbn. rewrite L. auto.
  - auto.
  - cbn. rewrite P. reflexivity.
  - auto.
  - cbn. discriminate.
Qed.

(** The loop: the log grows by honoured replies only, and one was honoured if and only
    if the scan says so. *)
Lemma AI_loop : forall pkt bodylen mcast f i s c s' c', AI s ->
  pre_loop pkt bodylen mcast f i s c = Ret (s', c') ->
  AI s' /\ exists add, a_log s' = add ++ a_log s /\
    (sc_ok c' = true -> sc_ok c = true \/ exists n t, In (NHonoured n t) add) /\
    (sc_ok c' = false -> add = []) /\ (sc_ok c = true -> sc_ok c' = true) /\
    Forall (fun x => is_honoured x = true) add.
Proof.
  intros pkt bodylen mcast f. induction f as [|f IH]; intros i s c s' c' A E; cbn [pre_loop] in E.
  - destruct (i <? bodylen); [discriminate|]. injection E as <- <-. split; auto. exists []. auto.
  - assert (Stop : Ret (s, c) = Ret (s', c') -> AI s' /\ exists add, a_log s' = add ++ a_log s /\
      (sc_ok c' = true -> sc_ok c = true \/ exists n t, In (NHonoured n t) add) /\
      (sc_ok c' = false -> add = []) /\ (sc_ok c = true -> sc_ok c' = true) /\
      Forall (fun x => is_honoured x = true) add).
    { intros X. injection X as <- <-. split; auto. exists []. auto. }
    destruct (i <? bodylen); [|auto].
    destruct (rd pkt (4 + i)) as [t| |]; cbn [bind] in E; [|discriminate..].
    destruct (t =? MESSAGE_PAD1); [eauto|].
    destruct (i + 2 >? bodylen); [auto|].
    destruct (rd pkt (4 + i + 1)) as [len| |]; cbn [bind] in E; [|discriminate..].
    destruct (i + len + 2 >? bodylen); [auto|].
    destruct (t =? MESSAGE_PC).
    { destruct (sc_pc c); [eauto|]. destruct (len <? 4); [auto|]. destruct (len >? 36); [auto|].
      destruct (rd32 pkt (4 + i + 2)) as [pc| |]; cbn [bind] in E; [|discriminate..].
      destruct (rds pkt (4 + i + 6) (len - 4)) as [ix| |]; cbn [bind] in E; [|discriminate..].
      apply IH in E; auto. }
    destruct (t =? MESSAGE_CHALLENGE_REQUEST).
    { destruct mcast; [eauto|]. destruct (len >? 192); [auto|].
      destruct (rds pkt (4 + i + 2) len) as [n| |]; cbn [bind] in E; [|discriminate..].
      apply IH in E; auto. }
    destruct (t =? MESSAGE_CHALLENGE_REPLY); [|eauto].
    destruct (len >? 192); [auto|].
    destruct (challenge_reply pkt (4 + i) len s c) as [[s1 c1]| |] eqn:CR; cbn [bind] in E; [|discriminate..].
    destruct (AI_challenge_reply _ _ _ _ _ _ _ A CR) as (A1 & K1 & K2 & K3 & K4 & K5 & K6).
    cbn [fst snd] in E. destruct (IH _ _ _ _ _ A1 E) as (A' & add & L & H1 & H2 & H3 & H4).
    split; auto. destruct K2 as [K2|(n & t0 & K2)].
    + exists add. rewrite L, K2. split; [auto|]. split; [|split; [auto|split; [auto|auto]]].
      intros X. destruct (H1 X) as [Y|Y]; [|auto]. destruct (K1 Y) as [Z0|(n & t0 & Z0)]; [auto|].
      exfalso. rewrite K2 in Z0. apply (f_equal (@length note)) in Z0. cbn in Z0. lia.
    + exists (add ++ [NHonoured n t0]). rewrite L, K2, <- app_assoc. split; [auto|].
      split; [|split; [|split]].
      * intros _. right. exists n, t0. apply in_or_app. right. left. auto.
      * intros X. destruct (sc_ok c1) eqn:Y; [rewrite H3 in X by auto; discriminate|].
        rewrite (K6 eq_refl) in K2. apply (f_equal (@length note)) in K2. cbn in K2. lia.
      * auto.
      * apply Forall_app. auto.
Qed.

Lemma honoured_in : forall n t l, In (NHonoured n t) l -> ~ Forall (fun x => is_honoured x = false) l.
Proof. intros n t l H F. rewrite Forall_forall in F. specialize (F _ H). discriminate. Qed.

(** Accepting a packet *)
Lemma AI_accept : forall (s : ast) (mcast : bool) index pc pcs, AI s ->
  pc_deadline pcs = pc_deadline (a_pc s) -> pc_nonce pcs = pc_nonce (a_pc s) ->
  pc_req_lim pcs = pc_req_lim (a_pc s) -> pc_rep_lim pcs = pc_rep_lim (a_pc s) ->
  pc_index pcs = Some index ->
  ((exists n t older, a_log s = NHonoured n t :: older) /\ pc_m pcs = pc /\ pc_u pcs = pc \/
   pc_index (a_pc s) = Some index /\ (if mcast then pc_m (a_pc s) else pc_u (a_pc s)) < pc /\
   pc_m pcs = (if mcast then pc else pc_m (a_pc s)) /\ pc_u pcs = (if mcast then pc_u (a_pc s) else pc)) ->
  AI (a_note (NAccept mcast index pc) (set_a_pc pcs s)).
Proof.
  intros s mcast index pc pcs [A1 A2 A3 A4 A5 A6 A7 A8] E1 E2 E3 E4 E5 H.
  constructor; cbn [a_note set_a_pc a_now a_clk a_pc a_log]; rewrite ?E1, ?E3, ?E4; auto.
  - destruct A3 as [A3|(mid & t0 & older & E & F & D)]; [left; auto|]. right.
    exists (NAccept mcast index pc :: mid), t0, older. cbn [a_note set_a_pc a_log a_pc app]. rewrite E2, E.
    split; [auto|]. split; [constructor; auto|]. rewrite E1. exact D.
  - intros n0 t0 [X|X]; [discriminate|]. exact (A4 n0 t0 X).
  - apply challenges_cons; auto.
  - apply spaced_cons; auto.
  - intros newer m i p mid i' p' older E. destruct newer as [|y newer]; [|injection E as <- E; eapply A7; eauto].
    injection E as <- <- <- E. destruct H as [((n & t & older' & L) & _)|(H1 & H2 & _)].
    + destruct mid as [|y mid]; cbn [app] in E; rewrite L in E.
      * discriminate.
      * injection E as <- E. right. exists n, t. left. auto.
    + destruct (Forall_dec (fun x => is_honoured x = false) (fun x => bool_dec (is_honoured x) false) mid) as [F|F].
      * left. destruct (A8 mid mcast i' p' older E F) as [X1 X2]. split; [congruence|lia].
      * right. apply neg_Forall_Exists_neg in F; [|intros x; apply bool_dec].
        apply Exists_exists in F. destruct F as (x & Hx & Fx). destruct x; cbn in Fx; try congruence. eauto.
  - intros newer m i p older E F. destruct newer as [|y newer].
    + injection E as <- <- <- E. split; [auto|]. destruct H as [(_ & X1 & X2)|(_ & _ & X1 & X2)]; rewrite X1, X2; destruct mcast; lia.
    + injection E as <- E. inversion F as [|? ? _ F']; subst.
      destruct H as [((n & t & older' & L) & _)|(H1 & H2 & X1 & X2)].
      * exfalso. rewrite L in E. destruct newer as [|z newer]; [discriminate|]. injection E as <- _.
        inversion F'; subst. discriminate.
      * destruct (A8 newer m i p older E F') as [Y1 Y2]. split; [congruence|].
        rewrite X1, X2. destruct m, mcast; lia.
Qed.

Lemma AI_preparse : forall pkt bodylen mcast s s' ok, AI s ->
  preparse_packet pkt bodylen mcast s = Ret (s', ok) ->
  AI s' /\ exists add, a_log s' = add ++ a_log s /\
    (ok = true -> exists index pc, In (NAccept mcast index pc) add) /\
    (ok = false -> forall m index pc, ~ In (NAccept m index pc) add).
Proof.
  intros pkt bodylen mcast s s' ok A E. unfold preparse_packet in E.
  destruct (pre_loop pkt bodylen mcast (S (Z.to_nat bodylen)) 0 s (mkScan None None false)) as [[s1 c]| |] eqn:L;
    cbn [bind] in E; [|discriminate..]. cbn [fst snd] in E. injection E as E.
  destruct (AI_loop _ _ _ _ _ _ _ _ _ A L) as (A1 & add & E1 & H1 & H2 & _ & H4). cbn [sc_ok] in *.
  assert (Na : forall m index pc, ~ In (NAccept m index pc) add).
  { intros m index pc X. rewrite Forall_forall in H4. specialize (H4 _ X). discriminate. }
  unfold pre_decide in E.
  (* after the counter check *)
  assert (G : forall (s2 : ast) (accept : bool) nonce, AI s2 ->
     (exists add2, a_log s2 = add2 ++ a_log s1 /\
        (accept = true -> exists index pc, In (NAccept mcast index pc) add2) /\
        (accept = false -> forall m index pc, ~ In (NAccept m index pc) add2)) ->
     (match nonce with Some n => send_challenge_reply n (set_a_found true s2) | None => s2 end, accept) = (s', ok) ->
     AI s' /\ exists add, a_log s' = add ++ a_log s /\
       (ok = true -> exists index pc, In (NAccept mcast index pc) add) /\
       (ok = false -> forall m index pc, ~ In (NAccept m index pc) add)).
  { intros s2 accept nonce A2 (add2 & L2 & P1 & P2) X. injection X as X <-.
    assert (Y : AI s' /\ (a_log s' = a_log s2 \/ exists n t, a_log s' = NReply n t :: a_log s2)).
    { destruct nonce as [n|]; [|subst s'; auto].
      pose proof (AI_found true s2 A2) as A3. subst s'. split; [apply AI_reply; auto|].
      unfold send_challenge_reply. destruct (_ <=? 0).
      - left. rewrite gettime_log. auto.
      - right. exists n. eexists. cbn. rewrite !gettime_log. reflexivity. }
    destruct Y as [Y1 Y2]. split; auto. destruct Y2 as [Y2|(n & t & Y2)].
    - exists (add2 ++ add). rewrite Y2, L2, E1, <- app_assoc. split; [auto|]. split.
      + intros K. destruct (P1 K) as (ix & pc & Hi). exists ix, pc. apply in_or_app. auto.
      + intros K m ix pc Hi. apply in_app_or in Hi. destruct Hi as [Hi|Hi]; [exact (P2 K _ _ _ Hi)|exact (Na _ _ _ Hi)].
    - exists (NReply n t :: add2 ++ add). rewrite Y2, L2, E1. cbn [app]. rewrite <- app_assoc. split; [auto|]. split.
      + intros K. destruct (P1 K) as (ix & pc & Hi). exists ix, pc. right. apply in_or_app. auto.
      + intros K m ix pc [Hi|Hi]; [discriminate|].
        apply in_app_or in Hi. destruct Hi as [Hi|Hi]; [exact (P2 K _ _ _ Hi)|exact (Na _ _ _ Hi)]. }
  destruct (sc_pc c) as [[pc index]|].
  2:{ apply (G s1 false (sc_nonce c)); auto. exists []. split; [auto|]. split; [discriminate|auto]. }
  destruct (sc_ok c) eqn:Ok.
  { eapply G; [| |exact E].
    - apply AI_accept; auto. left. split; [|auto].
      destruct (H1 eq_refl) as [X|(n & t & X)]; [discriminate|].
      destruct add as [|y add]; [destruct X|]. inversion H4 as [|? ? Y _]; subst.
      destruct y as [| |n' t'|]; try discriminate. exists n', t', (add ++ a_log s). rewrite E1. auto.
    - exists [NAccept mcast index pc]. split; [auto|]. split; [|discriminate].
      intros _. exists index, pc. left. auto. }
  assert (Rq : AI (send_challenge_request (set_a_found true s1)) /\
    exists add2, a_log (send_challenge_request (set_a_found true s1)) = add2 ++ a_log s1 /\
      (false = true -> exists index pc, In (NAccept mcast index pc) add2) /\
      (false = false -> forall m index pc, ~ In (NAccept m index pc) add2)).
  { split; [apply AI_request, AI_found; auto|]. unfold send_challenge_request.
    set (s2 := a_gettime (set_a_found true s1)).
    assert (L2 : a_log s2 = a_log s1) by (unfold s2; rewrite gettime_log; auto).
    destruct (_ <=? 0). { exists []. split; [auto|]. split; [discriminate|auto]. }
    unfold a_random. destruct (a_rnd s2) as [|[n|] l].
    - exists []. split; [auto|]. split; [discriminate|auto].
    - eexists [_]. cbn [a_note a_log set_a_pc app]. rewrite gettime_log. cbn [a_log set_a_pc]. rewrite L2.
      split; [reflexivity|]. split; [discriminate|]. intros _ m ix p [X|[]]. discriminate.
    - exists []. split; [auto|]. split; [discriminate|auto]. }
  cbv zeta in E.
  destruct (pc_index (a_pc (set_a_found true s1))) as [ix|] eqn:Ix.
  2:{ eapply G; [apply Rq|apply Rq|exact E]. }
  destruct ((zlen ix =? zlen index) && (memcmp index ix =? 0)) eqn:Same.
  2:{ eapply G; [apply Rq|apply Rq|exact E]. }
  apply andb_true_iff in Same. destruct Same as [_ Same]. apply Z.eqb_eq, memcmp_0 in Same. subst ix.
  destruct (pc <=? (if mcast then pc_m (a_pc (set_a_found true s1)) else pc_u (a_pc (set_a_found true s1)))) eqn:Pc.
  { eapply (G (set_a_found true s1) false None); [apply AI_found; auto| |exact E].
    exists []. split; [auto|]. split; [discriminate|auto]. }
  eapply G; [| |exact E].
  - apply AI_accept; [apply AI_found; auto|destruct mcast; auto..|].
    right. split; [auto|]. split; [destruct mcast; lia|]. destruct mcast; auto.
  - exists [NAccept mcast index pc]. split; [auto|]. split; [|discriminate].
    intros _. exists index, pc. left. auto.
Qed.

(** ** All executions *)

(** The life of a neighbour: packets with a valid MAC (any bytes), at any time, with any
    random nonces. *)
Inductive areach : ast -> Prop :=
| ar_new : forall now clk rnd, mono now clk -> areach (mkA now clk rnd new_pc false [])
| ar_time : forall s t clk rnd, areach s -> us (a_now s) <= us t -> mono t clk ->
    areach (mkA t clk rnd (a_pc s) (a_found s) (a_log s))
| ar_pkt : forall s pkt bodylen mcast s' ok, areach s ->
    preparse_packet pkt bodylen mcast s = Ret (s', ok) -> areach s'.

Theorem areach_AI : forall s, areach s -> AI s.
Proof.
  induction 1 as [now clk rnd M|s t clk rnd R IH T M|s pkt bodylen mcast s' ok R IH E].
  - constructor; cbn [a_now a_clk a_pc a_log]; auto.
    + unfold new_pc, tv_ok, tv0; cbn; lia.
    + intros n t [].
    + intros newer n t older E. destruct newer; discriminate.
    + intros newer n t mid n' t' older E. destruct newer; discriminate.
    + intros newer m i p mid i' p' older E. destruct newer; discriminate.
    + intros newer m i p older E. destruct newer; discriminate.
  - destruct IH as [A1 A2 A3 A4 A5 A6 A7 A8]. constructor; auto.
  - eapply AI_preparse; eauto.
Qed.

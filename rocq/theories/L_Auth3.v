(** L_Auth3.v: which TLVs of the packet the pre-parser uses. *)
From Coq Require Import Bool.
From Verif Require Import Base M_Util S_Util M_Filter M_Types M_Neigh M_Wire M_Auth S_Auth S_Wire L_Wire L_Wire2 L_Auth L_Auth2.

Definition is_pc (f : Z * list Z) : bool := fst f =? 17.

Lemma be32_join : forall a b c d, byte_ok a -> byte_ok b -> byte_ok c -> byte_ok d -> be32 (un32 a b c d) = [a; b; c; d].
Proof. intros a b c d A B C D. unfold be32, un32, byte_ok in *. f_equal; [lia|f_equal; [lia|f_equal; [lia|f_equal; lia]]]. Qed.

Lemma rds_win : forall pkt m a v c, win pkt m (a ++ v ++ c) -> rds pkt (m + zlen a) (zlen v) = Ret v.
Proof.
  intros pkt m a v c W. apply win_app in W. apply (rds_le pkt (m + zlen a) v (m + zlen a) 0 (zlen v) W ltac:(lia)).
  unfold rds. destruct (zlen v <=? 0) eqn:L0.
  - destruct v; [auto|]. rewrite zlen_cons in L0. pose proof (zlen_nonneg _ v). lia.
  - replace (_ && _) with true by lia. change (Z.to_nat 0) with 0%nat. cbn [skipn].
    unfold zlen. rewrite Nat2Z.id, firstn_all. auto.
Qed.

Lemma pre_loop_uses : forall b fs full, frames b fs full -> forall pkt b0 mcast f s c s' c',
  win pkt 4 (b0 ++ b) -> bytes_ok b ->
  pre_loop pkt (zlen b0 + zlen b) mcast f (zlen b0) s c = Ret (s', c') ->
  (forall pc ix, sc_pc c' = Some (pc, ix) ->
     sc_pc c = Some (pc, ix) \/ (sc_pc c = None /\ 0 <= pc < 4294967296 /\ find is_pc fs = Some (17, be32 pc ++ ix))) /\
  (forall add n t, a_log s' = add ++ a_log s -> In (NHonoured n t) add -> In (19, n) fs) /\
  (exists add, a_log s' = add ++ a_log s) /\
  (sc_ok c' = true -> sc_ok c = true \/ exists n, In (19, n) fs).
Proof.
  induction 1 as [|b l e Fr IH|t n v b l e Ht Hn Fr IH|t Ht|t n b Ht Hn];
    intros pkt b0 mcast f s c s' c' W B E; (destruct f as [|f]; cbn [pre_loop] in E).
  all: assert (Fin : forall l0, Ret (s, c) = Ret (s', c') ->
      (forall pc ix, sc_pc c' = Some (pc, ix) ->
         sc_pc c = Some (pc, ix) \/ (sc_pc c = None /\ 0 <= pc < 4294967296 /\ find is_pc l0 = Some (17, be32 pc ++ ix))) /\
      (forall add n t, a_log s' = add ++ a_log s -> In (NHonoured n t) add -> In (19, n) l0) /\
      (exists add, a_log s' = add ++ a_log s) /\
      (sc_ok c' = true -> sc_ok c = true \/ exists n, In (19, n) l0))
    by (intros l0 X; injection X as <- <-; split; [auto|]; split;
        [intros add n0 t0 La; destruct add as [|y add];
          [intros []|exfalso; apply (f_equal (@length _)) in La; cbn [app length] in La; rewrite app_length in La; lia]
        |split; [exists []; auto|auto]]).
  1,2: rewrite zlen_nil in E; replace (zlen b0 <? zlen b0 + 0) with false in E by lia; apply Fin; auto.
  - destruct (_ <? _); [discriminate|]. apply Fin; auto.
  - rewrite zlen_cons in E. pose proof (zlen_nonneg _ b) as Nb. pose proof (zlen_nonneg _ b0) as Nb0.
    replace (zlen b0 <? zlen b0 + (1 + zlen b)) with true in E by lia. cbv zeta in E.
    rewrite (rd_win _ _ _ _ W) in E by (rewrite zlen_app, zlen_cons; lia).
    cbn [bind] in E. replace (nth (Z.to_nat (zlen b0)) (b0 ++ 0 :: b) 0) with 0 in E
      by (unfold zlen; rewrite Nat2Z.id, nth_middle; auto).
    unfold MESSAGE_PAD1 in E. cbn [Z.eqb] in E. inversion B; subst.
    replace (zlen b0 + (1 + zlen b)) with (zlen (b0 ++ [0]) + zlen b) in E by (rewrite zlen_app, zlen_cons, zlen_nil; lia).
    replace (zlen b0 + 1) with (zlen (b0 ++ [0])) in E by (rewrite zlen_app, zlen_cons, zlen_nil; lia).
    eapply IH; [|auto|exact E]. rewrite <- app_assoc. auto.
  - destruct (_ <? _); [discriminate|]. apply Fin; auto.
  - pose proof (zlen_nonneg _ b) as Nb. pose proof (zlen_nonneg _ b0) as Nb0.
    pose proof (zlen_nonneg _ v) as Nv. change (Z.of_nat (length v)) with (zlen v) in Hn.
    rewrite !zlen_cons, zlen_app in E.
    replace (zlen b0 <? zlen b0 + (1 + (1 + (zlen v + zlen b)))) with true in E by lia. cbv zeta in E.
    rewrite (rd_win _ _ _ _ W) in E by (rewrite zlen_app, !zlen_cons, zlen_app; lia).
    cbn [bind] in E. replace (nth (Z.to_nat (zlen b0)) (b0 ++ t :: n :: v ++ b) 0) with t in E
      by (unfold zlen; rewrite Nat2Z.id, nth_middle; auto).
    unfold MESSAGE_PAD1 in E. replace (t =? 0) with false in E by lia.
    replace (zlen b0 + 2 >? zlen b0 + (1 + (1 + (zlen v + zlen b)))) with false in E by lia.
    replace (4 + zlen b0 + 1) with (4 + (zlen b0 + 1)) in E by lia.
    rewrite (rd_win _ _ _ _ W) in E by (rewrite zlen_app, !zlen_cons, zlen_app; lia).
    cbn [bind] in E. replace (nth (Z.to_nat (zlen b0 + 1)) (b0 ++ t :: n :: v ++ b) 0) with n in E
      by (unfold zlen; rewrite app_nth2 by lia;
          replace (Z.to_nat (Z.of_nat (length b0) + 1) - length b0)%nat with 1%nat by lia; auto).
    replace (zlen b0 + n + 2 >? zlen b0 + (1 + (1 + (zlen v + zlen b)))) with false in E by lia.
    assert (Bv : bytes_ok v /\ bytes_ok b).
    { inversion B as [|? ? _ B']; subst. inversion B' as [|? ? _ B'']; subst. apply bytes_ok_app in B''. auto. }
    destruct Bv as [Bv Bb]. subst n.
    assert (W' : win pkt 4 ((b0 ++ t :: zlen v :: v) ++ b)) by (rewrite <- app_assoc; cbn [app]; auto).
    assert (Wv : win pkt (4 + zlen (b0 ++ [t; zlen v])) v).
    { apply win_app with (c := b). rewrite <- app_assoc. exact W. }
    assert (Lw : zlen (b0 ++ [t; zlen v]) = zlen b0 + 2) by (rewrite zlen_app, !zlen_cons, zlen_nil; lia).
    rewrite Lw in Wv.
    assert (E1 : zlen b0 + (1 + (1 + (zlen v + zlen b))) = zlen (b0 ++ t :: zlen v :: v) + zlen b)
      by (rewrite zlen_app, !zlen_cons; lia).
    assert (E2 : zlen b0 + zlen v + 2 = zlen (b0 ++ t :: zlen v :: v))
      by (rewrite zlen_app, !zlen_cons; lia).
    rewrite E1, E2 in E.
    assert (Step : forall s1 c1,
      pre_loop pkt (zlen (b0 ++ t :: zlen v :: v) + zlen b) mcast f (zlen (b0 ++ t :: zlen v :: v)) s1 c1 = Ret (s', c') ->
      (forall pc ix, sc_pc c1 = Some (pc, ix) ->
        sc_pc c = Some (pc, ix) \/ (sc_pc c = None /\ 0 <= pc < 4294967296 /\ t = 17 /\ v = be32 pc ++ ix)) ->
      (sc_pc c1 = None -> t <> 17) ->
      (exists add1, a_log s1 = add1 ++ a_log s /\ forall n t', In (NHonoured n t') add1 -> t = 19 /\ v = n) ->
      (sc_ok c1 = true -> sc_ok c = true \/ t = 19) ->
      (sc_pc c1 = None -> sc_pc c = None) ->
      (forall pc ix, sc_pc c' = Some (pc, ix) ->
         sc_pc c = Some (pc, ix) \/ (sc_pc c = None /\ 0 <= pc < 4294967296 /\ find is_pc ((t, v) :: l) = Some (17, be32 pc ++ ix))) /\
      (forall add n t0, a_log s' = add ++ a_log s -> In (NHonoured n t0) add -> In (19, n) ((t, v) :: l)) /\
      (exists add, a_log s' = add ++ a_log s) /\
      (sc_ok c' = true -> sc_ok c = true \/ exists n, In (19, n) ((t, v) :: l))).
    { intros s1 c1 Es K1 K2 (add1 & K3 & K4) K5 K6.
      destruct (IH pkt _ mcast f s1 c1 s' c' W' Bb Es) as (J1 & J2 & (add2 & J3) & J4). split; [|split; [|split]].
      - intros pc ix Hc. destruct (J1 pc ix Hc) as [X|(X1 & Xr & X2)].
        + destruct (K1 _ _ X) as [Y|(Y1 & Yr & Y2 & Y3)]; [auto|]. right. split; [auto|]. split; [exact Yr|].
          cbn [find]. unfold is_pc at 1. cbn [fst]. rewrite Y2. cbn. subst v. auto.
        + right. split; [auto|]. split; [exact Xr|]. cbn [find]. unfold is_pc at 1. cbn [fst]. pose proof (K2 X1).
          replace (t =? 17) with false by lia. exact X2.
      - intros add n t0 La Hi.
        assert (add = add2 ++ add1).
        { apply (app_inv_tail (a_log s)). rewrite <- La, J3, K3, app_assoc. auto. }
        subst add. apply in_app_or in Hi. destruct Hi as [Hi|Hi].
        + right. eapply J2; eauto.
        + left. destruct (K4 _ _ Hi) as [-> ->]. auto.
      - exists (add2 ++ add1). rewrite J3, K3, app_assoc. auto.
      - intros X. destruct (J4 X) as [Y|(n & Y)].
        + destruct (K5 Y) as [Z1| ->]; [auto|]. right. exists v. left. auto.
        + right. exists n. right. auto. }
    assert (Self : exists add1, a_log s = add1 ++ a_log s /\ forall n t', In (NHonoured n t') add1 -> t = 19 /\ v = n).
    { exists []. split; [auto|]. intros ? ? []. }
    destruct (t =? MESSAGE_PC) eqn:T1.
    { destruct (sc_pc c) as [x|] eqn:Sc.
      - eapply Step; eauto; try rewrite Sc; auto. discriminate.
      - destruct (zlen v <? 4) eqn:L4; [apply Fin; auto|]. destruct (zlen v >? 36); [apply Fin; auto|].
        destruct v as [|x1 [|x2 [|x3 [|x4 v]]]];
          try (rewrite ?zlen_cons, ?zlen_nil in L4; lia).
        assert (Hx : byte_ok x1 /\ byte_ok x2 /\ byte_ok x3 /\ byte_ok x4).
        { clear - Bv. unfold bytes_ok in Bv. rewrite !Forall_cons_iff in Bv. tauto. }
        assert (Er : rd32 pkt (4 + zlen b0 + 2) = Ret (un32 x1 x2 x3 x4)).
        { replace (4 + zlen b0 + 2) with (4 + (zlen b0 + 2) + 0) by lia. unfold rd32.
          assert (forall j, 0 <= j < 4 -> rd pkt (4 + (zlen b0 + 2) + 0 + j) = Ret (nth (Z.to_nat j) [x1; x2; x3; x4] 0)).
          { intros j J. replace (4 + (zlen b0 + 2) + 0 + j) with (4 + (zlen b0 + 2) + j) by lia.
            rewrite (rd_win _ _ _ j Wv) by (rewrite !zlen_cons; pose proof (zlen_nonneg _ v); lia).
            f_equal. assert (C4 : j = 0 \/ j = 1 \/ j = 2 \/ j = 3) by lia. destruct C4 as [->|[->|[->| ->]]]; reflexivity. }
          pose proof (H 0 ltac:(lia)) as H0. replace (4 + (zlen b0 + 2) + 0 + 0) with (4 + (zlen b0 + 2) + 0) in H0 by lia.
          rewrite H0, !H by lia. reflexivity. }
        rewrite Er in E. cbn [bind] in E.
        assert (Ex : rds pkt (4 + zlen b0 + 6) (zlen (x1 :: x2 :: x3 :: x4 :: v) - 4) = Ret v).
        { replace (4 + zlen b0 + 6) with ((4 + (zlen b0 + 2)) + zlen [x1; x2; x3; x4]) by (rewrite !zlen_cons, zlen_nil; lia).
          replace (zlen (x1 :: x2 :: x3 :: x4 :: v) - 4) with (zlen v) by (rewrite !zlen_cons; lia).
          apply rds_win with (c := []). rewrite app_nil_r. exact Wv. }
        rewrite Ex in E. cbn [bind] in E.
        eapply Step; [exact E|..]; cbn [sc_pc sc_ok]; auto.
        + intros pc ix Hp. injection Hp as <- <-. right. split; [auto|]. split; [unfold un32, byte_ok in *; lia|]. split; [unfold MESSAGE_PC in T1; lia|].
          rewrite be32_join by tauto. reflexivity.
        + discriminate. }
    assert (T1' : t <> 17) by (unfold MESSAGE_PC in T1; lia).
    destruct (t =? MESSAGE_CHALLENGE_REQUEST) eqn:T2.
    { destruct mcast; [eapply Step; eauto|]. destruct (zlen v >? 192); [apply Fin; auto|].
      destruct (rds pkt (4 + zlen b0 + 2) (zlen v)); cbn [bind] in E; [|discriminate..].
      eapply Step; [exact E|..]; cbn [sc_pc sc_ok]; auto. }
    destruct (t =? MESSAGE_CHALLENGE_REPLY) eqn:T3; [|eapply Step; eauto].
    destruct (zlen v >? 192); [apply Fin; auto|].
    assert (Ev : rds pkt (4 + zlen b0 + 2) (zlen v) = Ret v).
    { replace (4 + zlen b0 + 2) with ((4 + (zlen b0 + 2)) + zlen (@nil Z)) by (rewrite zlen_nil; lia).
      apply rds_win with (c := []). rewrite app_nil_r. exact Wv. }
    unfold challenge_reply in E. cbv zeta in E. rewrite Ev in E.
    assert (Lg : a_log (a_gettime (set_a_found true s)) = a_log s) by (rewrite gettime_log; auto).
    assert (Self2 : exists add1, a_log (a_gettime (set_a_found true s)) = add1 ++ a_log s /\
      forall n t', In (NHonoured n t') add1 -> t = 19 /\ v = n).
    { exists []. split; [auto|]. intros ? ? []. }
    destruct (_ >? 0); [eapply Step; [exact E|..]; auto|].
    destruct (zlen v =? 8); [|eapply Step; [exact E|..]; auto]. cbn [bind] in E.
    destruct (memcmp _ _ =? 0); [|eapply Step; [exact E|..]; auto]. cbn [bind fst snd] in E.
    eapply Step; [exact E|..]; cbn [sc_pc sc_ok]; auto.
    + exists [NHonoured v (a_now (a_gettime (set_a_found true s)))]. split.
      * cbn [a_note a_log set_a_pc]. rewrite Lg. auto.
      * intros n t' [X|[]]. injection X as <- <-. split; [unfold MESSAGE_CHALLENGE_REPLY in T3; lia|auto].
    + intros _. right. unfold MESSAGE_CHALLENGE_REPLY in T3. lia.
  - destruct (_ <? _); [discriminate|]. apply Fin; auto.
  - rewrite zlen_cons, zlen_nil in E. pose proof (zlen_nonneg _ b0) as Nb0.
    replace (zlen b0 <? zlen b0 + (1 + 0)) with true in E by lia. cbv zeta in E.
    rewrite (rd_win _ _ _ _ W) in E by (rewrite zlen_app, zlen_cons, zlen_nil; lia).
    cbn [bind] in E. replace (nth (Z.to_nat (zlen b0)) (b0 ++ [t]) 0) with t in E
      by (unfold zlen; rewrite Nat2Z.id, nth_middle; auto).
    unfold MESSAGE_PAD1 in E. replace (t =? 0) with false in E by lia.
    replace (zlen b0 + 2 >? zlen b0 + (1 + 0)) with true in E by lia. apply Fin; auto.
  - destruct (_ <? _); [discriminate|]. apply Fin; auto.
  - change (Z.of_nat (length b)) with (zlen b) in Hn.
    pose proof (zlen_nonneg _ b) as Nb. pose proof (zlen_nonneg _ b0) as Nb0. rewrite !zlen_cons in E.
    replace (zlen b0 <? zlen b0 + (1 + (1 + zlen b))) with true in E by lia. cbv zeta in E.
    rewrite (rd_win _ _ _ _ W) in E by (rewrite zlen_app, !zlen_cons; lia).
    cbn [bind] in E. replace (nth (Z.to_nat (zlen b0)) (b0 ++ t :: n :: b) 0) with t in E
      by (unfold zlen; rewrite Nat2Z.id, nth_middle; auto).
    unfold MESSAGE_PAD1 in E. replace (t =? 0) with false in E by lia.
    replace (zlen b0 + 2 >? zlen b0 + (1 + (1 + zlen b))) with false in E by lia.
    replace (4 + zlen b0 + 1) with (4 + (zlen b0 + 1)) in E by lia.
    rewrite (rd_win _ _ _ _ W) in E by (rewrite zlen_app, !zlen_cons; lia).
    cbn [bind] in E. replace (nth (Z.to_nat (zlen b0 + 1)) (b0 ++ t :: n :: b) 0) with n in E
      by (unfold zlen; rewrite app_nth2 by lia;
          replace (Z.to_nat (Z.of_nat (length b0) + 1) - length b0)%nat with 1%nat by lia; auto).
    replace (zlen b0 + n + 2 >? zlen b0 + (1 + (1 + zlen b))) with true in E by lia. apply Fin; auto.
Qed.

(** The counters and the index change only when the packet is accepted. *)
Lemma pre_loop_pc : forall pkt bodylen mcast f i s c s' c',
  pre_loop pkt bodylen mcast f i s c = Ret (s', c') ->
  pc_u (a_pc s') = pc_u (a_pc s) /\ pc_m (a_pc s') = pc_m (a_pc s) /\ pc_index (a_pc s') = pc_index (a_pc s).
Proof.
  intros pkt bodylen mcast f. induction f as [|f IH]; intros i s c s' c' E; cbn [pre_loop] in E.
  { destruct (i <? bodylen); [discriminate|]. injection E as <- <-. auto. }
  destruct (i <? bodylen); [|injection E as <- <-; auto]. cbv zeta in E.
  destruct (rd pkt (4 + i)) as [t| |]; cbn [bind] in E; [|discriminate..].
  destruct (t =? MESSAGE_PAD1); [eauto|]. destruct (i + 2 >? bodylen); [injection E as <- <-; auto|].
  destruct (rd pkt (4 + i + 1)) as [len| |]; cbn [bind] in E; [|discriminate..].
  destruct (i + len + 2 >? bodylen); [injection E as <- <-; auto|].
  destruct (t =? MESSAGE_PC).
  { destruct (sc_pc c); [eauto|]. destruct (len <? 4); [injection E as <- <-; auto|].
    destruct (len >? 36); [injection E as <- <-; auto|].
    destruct (rd32 _ _); cbn [bind] in E; [|discriminate..].
    destruct (rds _ _ _); cbn [bind] in E; [|discriminate..]. eauto. }
  destruct (t =? MESSAGE_CHALLENGE_REQUEST).
  { destruct mcast; [eauto|]. destruct (len >? 192); [injection E as <- <-; auto|].
    destruct (rds _ _ _); cbn [bind] in E; [|discriminate..]. eauto. }
  destruct (t =? MESSAGE_CHALLENGE_REPLY); [|eauto]. destruct (len >? 192); [injection E as <- <-; auto|].
  destruct (challenge_reply pkt (4 + i) len s c) as [[s1 c1]| |] eqn:Cr; cbn [bind fst snd] in E; [|discriminate..].
  apply IH in E. assert (G : a_pc (a_gettime (set_a_found true s)) = a_pc s).
  { unfold a_gettime. destruct (a_clk (set_a_found true s)); auto. }
  unfold challenge_reply in Cr. cbv zeta in Cr. rewrite G in Cr.
  destruct (_ >? 0); [injection Cr as <- <-; rewrite G in E; auto|].
  destruct (len =? 8); [|injection Cr as <- <-; rewrite G in E; auto].
  destruct (rds _ _ _); cbn [bind] in Cr; [|discriminate..].
  destruct (memcmp _ _ =? 0); injection Cr as <- <-; [|rewrite G in E; auto].
  cbn in E. try rewrite G in E. auto.
Qed.

Lemma gettime_pc : forall s, a_pc (a_gettime s) = a_pc s.
Proof. intros s. unfold a_gettime. destruct (a_clk s); auto. Qed.
Lemma request_pc : forall s, pc_u (a_pc (send_challenge_request s)) = pc_u (a_pc s) /\
  pc_m (a_pc (send_challenge_request s)) = pc_m (a_pc s) /\
  pc_index (a_pc (send_challenge_request s)) = pc_index (a_pc s).
Proof.
  intros s. unfold send_challenge_request. rewrite gettime_pc. destruct (_ <=? 0); [rewrite gettime_pc; auto|].
  unfold a_random. destruct (a_rnd (a_gettime s)) as [|[n|] r];
    cbn [a_pc a_note set_a_pc]; rewrite ?gettime_pc; cbn; rewrite ?gettime_pc; auto.
Qed.
Lemma reply_pc : forall n s, pc_u (a_pc (send_challenge_reply n s)) = pc_u (a_pc s) /\
  pc_m (a_pc (send_challenge_reply n s)) = pc_m (a_pc s) /\
  pc_index (a_pc (send_challenge_reply n s)) = pc_index (a_pc s).
Proof.
  intros n s. unfold send_challenge_reply. destruct (_ <=? 0); [rewrite gettime_pc; auto|].
  cbn [a_pc a_note set_a_pc]. rewrite !gettime_pc. auto.
Qed.

Lemma preparse_refused : forall pkt bodylen mcast s s', preparse_packet pkt bodylen mcast s = Ret (s', false) ->
  pc_u (a_pc s') = pc_u (a_pc s) /\ pc_m (a_pc s') = pc_m (a_pc s) /\ pc_index (a_pc s') = pc_index (a_pc s).
Proof.
  intros pkt bodylen mcast s s' E. unfold preparse_packet in E.
  destruct (pre_loop _ _ _ _ _ _ _) as [[s1 c]| |] eqn:L; cbn [bind fst snd] in E; [|discriminate..].
  apply pre_loop_pc in L. injection E as E.
  assert (R : forall s2 nonce, pc_u (a_pc s2) = pc_u (a_pc s) /\ pc_m (a_pc s2) = pc_m (a_pc s) /\ pc_index (a_pc s2) = pc_index (a_pc s) ->
    let s3 := match nonce with Some n => send_challenge_reply n (set_a_found true s2) | None => s2 end in
    pc_u (a_pc s3) = pc_u (a_pc s) /\ pc_m (a_pc s3) = pc_m (a_pc s) /\ pc_index (a_pc s3) = pc_index (a_pc s)).
  { intros s2 nonce (X1 & X2 & X3). cbv zeta. destruct nonce as [n|]; [|auto].
    destruct (reply_pc n (set_a_found true s2)) as (Y1 & Y2 & Y3). rewrite Y1, Y2, Y3. auto. }
  assert (Q : let s3 := send_challenge_request (set_a_found true s1) in
    pc_u (a_pc s3) = pc_u (a_pc s) /\ pc_m (a_pc s3) = pc_m (a_pc s) /\ pc_index (a_pc s3) = pc_index (a_pc s)).
  { cbv zeta. destruct (request_pc (set_a_found true s1)) as (Y1 & Y2 & Y3). rewrite Y1, Y2, Y3. exact L. }
  unfold pre_decide in E. destruct (sc_pc c) as [[pc ix]|]; [|injection E as <-; apply R; auto].
  destruct (sc_ok c); [discriminate|]. cbv zeta in E.
  destruct (pc_index (a_pc (set_a_found true s1))) as [i|]; [|injection E as <-; apply R; auto].
  destruct (_ && _); [|injection E as <-; apply R; auto].
  destruct (pc <=? _); [|discriminate]. injection E as <-. exact L.
Qed.

(** An accepted packet: what is logged is its first PC TLV, and the challenge it
    completes, if any, is in it. *)
Lemma preparse_accepted : forall pkt n mcast s s' fs full, bytes_ok pkt -> 0 <= n -> 4 + n <= zlen pkt ->
  frames (firstn (Z.to_nat n) (skipn 4 pkt)) fs full -> 
  preparse_packet pkt n mcast s = Ret (s', true) ->
  exists pc ix tl hon, 0 <= pc < 4294967296 /\ find is_pc fs = Some (17, be32 pc ++ ix) /\
    a_log s' = tl ++ NAccept mcast ix pc :: hon ++ a_log s /\
    (forall nn t, ~ In (NHonoured nn t) tl) /\ (forall m i p, ~ In (NAccept m i p) hon) /\
    (forall nn t, In (NHonoured nn t) hon -> In (19, nn) fs).
Proof.
  intros pkt n mcast s s' fs full B N0 L Fr E. unfold preparse_packet in E.
  set (b := firstn (Z.to_nat n) (skipn 4 pkt)) in *.
  assert (Lb : zlen b = n) by (unfold b, zlen in *; rewrite firstn_length, skipn_length; lia).
  assert (Bb : bytes_ok b) by (apply bytes_ok_firstn, bytes_ok_skipn; auto).
  assert (W : win pkt 4 ([] ++ b)).
  { exists (firstn 4 pkt), (skipn (Z.to_nat n) (skipn 4 pkt)). split.
    - cbn [app]. unfold b. rewrite firstn_skipn, firstn_skipn. auto.
    - unfold zlen in *. rewrite firstn_length. lia. }
  destruct (pre_loop _ _ _ _ _ _ _) as [[s1 c]| |] eqn:Lp; cbn [bind fst snd] in E; [|discriminate..].
  assert (Lp' : pre_loop pkt (zlen (@nil Z) + zlen b) mcast (S (Z.to_nat n)) (zlen (@nil Z)) s (mkScan None None false) = Ret (s1, c)).
  { rewrite zlen_nil, Lb. exact Lp. }
  destruct (pre_loop_uses _ _ _ Fr pkt [] mcast _ _ _ _ _ W Bb Lp') as (H1 & H2 & (hon & H3) & H4).
  assert (Hn : forall m i p, ~ In (NAccept m i p) hon).
  { clear - Lp H3. revert H3. revert Lp. generalize (S (Z.to_nat n)) as f. generalize 0 as i.
    generalize (mkScan None None false) as c0. intros c0 i f. revert i s c0 hon.
    induction f as [|f IH]; intros i s c0 hon E Lg m ix p Hi; cbn [pre_loop] in E.
    { destruct (i <? n); [discriminate|]. injection E as <- <-.
      destruct hon as [|y hon]; [destruct Hi|]. apply (f_equal (@length _)) in Lg. cbn [app length] in Lg. rewrite app_length in Lg. lia. }
    assert (Z0 : forall (l : list note) hon, l = hon ++ l -> hon = []).
    { intros l h X. destruct h as [|y h]; [auto|]. apply (f_equal (@length _)) in X. cbn [app length] in X. rewrite app_length in X. lia. }
    assert (Stop : Ret (s, c0) = Ret (s1, c) -> False).
    { intros X. injection X as <- <-. rewrite (Z0 _ _ Lg) in Hi. destruct Hi. }
    destruct (i <? n); [|auto]. cbv zeta in E.
    destruct (rd pkt (4 + i)) as [t| |]; cbn [bind] in E; [|discriminate..].
    destruct (t =? MESSAGE_PAD1); [eapply IH; eauto|]. destruct (i + 2 >? n); [auto|].
    destruct (rd pkt (4 + i + 1)) as [len| |]; cbn [bind] in E; [|discriminate..].
    destruct (i + len + 2 >? n); [auto|].
    destruct (t =? MESSAGE_PC).
    { destruct (sc_pc c0); [eapply IH; eauto|]. destruct (len <? 4); [auto|].
      destruct (len >? 36); [auto|].
      destruct (rd32 _ _); cbn [bind] in E; [|discriminate..].
      destruct (rds _ _ _); cbn [bind] in E; [|discriminate..]. eapply IH; eauto. }
    destruct (t =? MESSAGE_CHALLENGE_REQUEST).
    { destruct mcast; [eapply IH; eauto|]. destruct (len >? 192); [auto|].
      destruct (rds _ _ _); cbn [bind] in E; [|discriminate..]. eapply IH; eauto. }
    destruct (t =? MESSAGE_CHALLENGE_REPLY); [|eapply IH; eauto]. destruct (len >? 192); [auto|].
    destruct (challenge_reply pkt (4 + i) len s c0) as [[s2 c2]| |] eqn:Cr; cbn [bind fst snd] in E; [|discriminate..].
    assert (G : a_log s2 = a_log s \/ exists nn tt, a_log s2 = NHonoured nn tt :: a_log s).
    { unfold challenge_reply in Cr. cbv zeta in Cr.
      destruct (_ >? 0); [injection Cr as <- <-; rewrite gettime_log; auto|].
      destruct (len =? 8); [|injection Cr as <- <-; rewrite gettime_log; auto].
      destruct (rds _ _ _) as [nn| |]; cbn [bind] in Cr; [|discriminate..].
      destruct (memcmp _ _ =? 0); injection Cr as <- <-; [|rewrite gettime_log; auto].
      right. exists nn, (a_now (a_gettime (set_a_found true s))). cbn [a_log a_note set_a_pc]. rewrite gettime_log. auto. }
    destruct G as [G|(nn & tt & G)].
    - eapply (IH _ _ _ hon E); [rewrite G; auto|exact Hi].
    - assert (X : exists h2, a_log s1 = h2 ++ a_log s2).
      { clear - E. revert E. generalize (i + len + 2) as j. revert s2 c2.
        assert (M : forall f j s2 c2, pre_loop pkt n mcast f j s2 c2 = Ret (s1, c) -> exists h2, a_log s1 = h2 ++ a_log s2).
        { clear. induction f as [|f IH]; intros j s2 c2 E; cbn [pre_loop] in E.
          { destruct (j <? n); [discriminate|]. injection E as <- <-. exists []. auto. }
          destruct (j <? n); [|injection E as <- <-; exists []; auto]. cbv zeta in E.
          destruct (rd pkt (4 + j)) as [t| |]; cbn [bind] in E; [|discriminate..].
          destruct (t =? MESSAGE_PAD1); [eauto|]. destruct (j + 2 >? n); [injection E as <- <-; exists []; auto|].
          destruct (rd pkt (4 + j + 1)) as [len| |]; cbn [bind] in E; [|discriminate..].
          destruct (j + len + 2 >? n); [injection E as <- <-; exists []; auto|].
          destruct (t =? MESSAGE_PC).
          { destruct (sc_pc c2); [eauto|]. destruct (len <? 4); [injection E as <- <-; exists []; auto|].
            destruct (len >? 36); [injection E as <- <-; exists []; auto|].
            destruct (rd32 _ _); cbn [bind] in E; [|discriminate..].
            destruct (rds _ _ _); cbn [bind] in E; [|discriminate..]. apply IH in E. exact E. }
          destruct (t =? MESSAGE_CHALLENGE_REQUEST).
          { destruct mcast; [eauto|]. destruct (len >? 192); [injection E as <- <-; exists []; auto|].
            destruct (rds _ _ _); cbn [bind] in E; [|discriminate..]. apply IH in E. exact E. }
          destruct (t =? MESSAGE_CHALLENGE_REPLY); [|eauto]. destruct (len >? 192); [injection E as <- <-; exists []; auto|].
          destruct (challenge_reply pkt (4 + j) len s2 c2) as [[s3 c3]| |] eqn:Cr; cbn [bind fst snd] in E; [|discriminate..].
          apply IH in E. destruct E as (h2 & E).
          unfold challenge_reply in Cr. cbv zeta in Cr.
          destruct (_ >? 0); [injection Cr as <- <-; exists h2; rewrite E, gettime_log; auto|].
          destruct (len =? 8); [|injection Cr as <- <-; exists h2; rewrite E, gettime_log; auto].
          destruct (rds _ _ _) as [nn| |]; cbn [bind] in Cr; [|discriminate..].
          destruct (memcmp _ _ =? 0); injection Cr as <- <-; [|exists h2; rewrite E, gettime_log; auto].
          eexists (h2 ++ [_]). rewrite E. cbn [a_log a_note set_a_pc]. rewrite gettime_log, <- app_assoc. reflexivity. }
        intros s2 c2 j E. eauto. }
      destruct X as (h2 & X). rewrite G in X.
      assert (hon = h2 ++ [NHonoured nn tt]).
      { apply (app_inv_tail (a_log s)). rewrite <- Lg, X, <- app_assoc. reflexivity. }
      subst hon. apply in_app_or in Hi. destruct Hi as [Hi|[Hi|[]]]; [|discriminate].
      eapply (IH _ _ _ h2 E); [rewrite G; auto|exact Hi]. }
  injection E as E. unfold pre_decide in E.
  destruct (sc_pc c) as [[pc ix]|] eqn:Sc; [|discriminate].
  destruct (H1 pc ix eq_refl) as [X|(_ & Rg & Fd)]; [discriminate|]. exists pc, ix.
  assert (Rp : forall s2 nonce, exists tl,
    a_log (match nonce with Some nn => send_challenge_reply nn (set_a_found true s2) | None => s2 end) = tl ++ a_log s2 /\
    (forall m i p, ~ In (NAccept m i p) tl) /\ (forall nn t, ~ In (NHonoured nn t) tl)).
  { intros s2 nonce. destruct nonce as [nn|]; [|exists []; split; [auto|]; split; intros; intros []].
    unfold send_challenge_reply. destruct (_ <=? 0).
    - exists []. rewrite gettime_log. split; [auto|]. split; intros; intros [].
    - eexists [_]. cbn [a_log a_note set_a_pc app]. rewrite !gettime_log. split; [reflexivity|].
      split; intros; intros [X|[]]; discriminate. }
  assert (Done : forall s2 nonce, a_log s2 = NAccept mcast ix pc :: a_log s1 ->
    match nonce with Some nn => send_challenge_reply nn (set_a_found true s2) | None => s2 end = s' ->
    exists tl hon, 0 <= pc < 4294967296 /\ find is_pc fs = Some (17, be32 pc ++ ix) /\
    a_log s' = tl ++ NAccept mcast ix pc :: hon ++ a_log s /\
    (forall nn t, ~ In (NHonoured nn t) tl) /\ (forall m i p, ~ In (NAccept m i p) hon) /\
    (forall nn t, In (NHonoured nn t) hon -> In (19, nn) fs)).
  { intros s2 nonce X1 X2. destruct (Rp s2 nonce) as (tl & Y1 & Y2 & Y3). rewrite X2, X1, H3 in Y1.
    exists tl, hon. split; [auto|]. split; [auto|]. split; [auto|]. split; [auto|]. split; [auto|].
    intros nn t Hi. eapply H2; eauto. }
  destruct (sc_ok c); [injection E as E; eapply Done; [|exact E]; auto|]. cbv zeta in E.
  destruct (pc_index _) as [i|]; [|discriminate].
  destruct (_ && _); [|discriminate]. destruct (pc <=? _); [discriminate|].
  injection E as E. eapply Done; [|exact E]. auto.
Qed.

(** ** Later states *)
Inductive asteps : ast -> ast -> Prop :=
| as_refl : forall s, asteps s s
| as_time : forall s s1 t clk rnd, asteps s s1 -> us (a_now s1) <= us t -> mono t clk ->
    asteps s (mkA t clk rnd (a_pc s1) (a_found s1) (a_log s1))
| as_pkt : forall s s1 pkt n mcast s' ok, asteps s s1 ->
    preparse_packet pkt n mcast s1 = Ret (s', ok) -> asteps s s'.

Lemma asteps_reach : forall s s', asteps s s' -> areach s -> areach s'.
Proof.
  induction 1 as [s|s s1 t clk rnd H IH T M|s s1 pkt n mcast s' ok H IH E]; intros R; [auto| |].
  - exact (ar_time _ _ _ _ (IH R) T M).
  - exact (ar_pkt _ _ _ _ _ _ (IH R) E).
Qed.
Lemma asteps_log : forall s s', asteps s s' -> areach s -> exists add, a_log s' = add ++ a_log s.
Proof.
  induction 1 as [s|s s1 t clk rnd H IH T M|s s1 pkt n mcast s' ok H IH E]; intros R.
  - exists []. auto.
  - destruct (IH R) as (add & A). exists add. exact A.
  - destruct (IH R) as (add & A).
    destruct (AI_preparse _ _ _ _ _ _ (areach_AI _ (asteps_reach _ _ H R)) E) as (_ & add2 & A2 & _).
    exists (add2 ++ add). rewrite A2, A, app_assoc. auto.
Qed.

Lemma no_replay : forall s mcast pkt n fs full s1 s2 pkt' n' fs' full' s3,
  areach s -> bytes_ok pkt -> 0 <= n -> 4 + n <= zlen pkt -> frames (firstn (Z.to_nat n) (skipn 4 pkt)) fs full ->
  bytes_ok pkt' -> 0 <= n' -> 4 + n' <= zlen pkt' -> frames (firstn (Z.to_nat n') (skipn 4 pkt')) fs' full' ->
  preparse_packet pkt n mcast s = Ret (s1, true) -> asteps s1 s2 ->
  preparse_packet pkt' n' mcast s2 = Ret (s3, true) ->
  exists pc ix pc' ix', 0 <= pc < 4294967296 /\ 0 <= pc' < 4294967296 /\
    find is_pc fs = Some (17, be32 pc ++ ix) /\ find is_pc fs' = Some (17, be32 pc' ++ ix') /\
    ((ix' = ix /\ pc < pc') \/ exists add nn t, a_log s3 = add ++ a_log s1 /\ In (NHonoured nn t) add).
Proof.
  intros s mcast pkt n fs full s1 s2 pkt' n' fs' full' s3 R B N0 L Fr B' N0' L' Fr' E St E'.
  destruct (preparse_accepted _ _ _ _ _ _ _ B N0 L Fr E) as (pc & ix & tl & hon & Rg1 & F1 & Lg1 & T1 & _ & _).
  destruct (preparse_accepted _ _ _ _ _ _ _ B' N0' L' Fr' E') as (pc' & ix' & tl' & hon' & Rg2 & F2 & Lg2 & T2 & _ & _).
  assert (R1 : areach s1) by (eapply ar_pkt; eauto).
  assert (R2 : areach s2) by (eapply asteps_reach; eauto).
  assert (R3 : areach s3) by (eapply ar_pkt; eauto).
  destruct (asteps_log _ _ St R1) as (mid & Lg).
  exists pc, ix, pc', ix'. split; [auto|]. split; [auto|]. split; [auto|]. split; [auto|].
  pose proof (AI_ct _ (areach_AI _ R3)) as C. unfold counters_ok in C.
  specialize (C tl' mcast ix' pc' (hon' ++ mid ++ tl) ix pc (hon ++ a_log s)).
  destruct C as [[X1 X2]|(nn & t & X)].
  - rewrite Lg2, Lg, Lg1. rewrite <- !app_assoc. reflexivity.
  - left. auto.
  - right. exists (tl' ++ NAccept mcast ix' pc' :: hon' ++ mid), nn, t. split.
    + rewrite Lg2, Lg. rewrite <- !app_assoc. cbn [app]. rewrite <- app_assoc. reflexivity.
    + rewrite !in_app_iff in X. apply in_or_app. right. right. apply in_or_app.
      destruct X as [X|[X|X]]; [auto|auto|exfalso; eapply T1; eauto].
Qed.

Lemma preparse_adopts : forall pkt n mcast s s' fs full, areach s -> bytes_ok pkt -> 0 <= n -> 4 + n <= zlen pkt ->
  frames (firstn (Z.to_nat n) (skipn 4 pkt)) fs full -> preparse_packet pkt n mcast s = Ret (s', true) ->
  exists pc ix, find is_pc fs = Some (17, be32 pc ++ ix) /\ pc_index (a_pc s') = Some ix /\
    (if mcast then pc_m (a_pc s') else pc_u (a_pc s')) = pc /\
    ((pc_index (a_pc s) = Some ix /\ (if mcast then pc_m (a_pc s) else pc_u (a_pc s)) < pc) \/
     exists nn t older newer, a_log s' = newer ++ NHonoured nn t :: older ++ a_log s /\ In (19, nn) fs).
Proof.
  intros pkt n mcast s s' fs full R B N0 L Fr E. unfold preparse_packet in E.
  set (b := firstn (Z.to_nat n) (skipn 4 pkt)) in *.
  assert (Lb : zlen b = n) by (unfold b, zlen in *; rewrite firstn_length, skipn_length; lia).
  assert (Bb : bytes_ok b) by (apply bytes_ok_firstn, bytes_ok_skipn; auto).
  assert (W : win pkt 4 ([] ++ b)).
  { exists (firstn 4 pkt), (skipn (Z.to_nat n) (skipn 4 pkt)). split.
    - cbn [app]. unfold b. rewrite firstn_skipn, firstn_skipn. auto.
    - unfold zlen in *. rewrite firstn_length. lia. }
  destruct (pre_loop _ _ _ _ _ _ _) as [[s1 c]| |] eqn:Lp; cbn [bind fst snd] in E; [|discriminate..].
  assert (Lp' : pre_loop pkt (zlen (@nil Z) + zlen b) mcast (S (Z.to_nat n)) (zlen (@nil Z)) s (mkScan None None false) = Ret (s1, c)).
  { rewrite zlen_nil, Lb. exact Lp. }
  destruct (pre_loop_uses _ _ _ Fr pkt [] mcast _ _ _ _ _ W Bb Lp') as (H1 & H2 & (hon & H3) & H4).
  destruct (pre_loop_pc _ _ _ _ _ _ _ _ _ Lp) as (Q1 & Q2 & Q3).
  destruct (AI_loop _ _ _ _ _ _ _ _ _ (areach_AI _ R) Lp) as (_ & add & La & Hk & _).
  injection E as E. unfold pre_decide in E.
  destruct (sc_pc c) as [[pc ix]|] eqn:Sc; [|discriminate].
  destruct (H1 pc ix eq_refl) as [X|(_ & Rg & Fd)]; [discriminate|]. exists pc, ix. split; [exact Fd|].
  assert (Rp : forall s2 nonce s3,
    match nonce with Some nn => send_challenge_reply nn (set_a_found true s2) | None => s2 end = s3 ->
    pc_index (a_pc s3) = pc_index (a_pc s2) /\ pc_u (a_pc s3) = pc_u (a_pc s2) /\ pc_m (a_pc s3) = pc_m (a_pc s2) /\
    exists tl, a_log s3 = tl ++ a_log s2).
  { intros s2 nonce s3 <-. destruct nonce as [nn|]; [|repeat split; auto; exists []; auto].
    destruct (reply_pc nn (set_a_found true s2)) as (Y1 & Y2 & Y3). rewrite Y1, Y2, Y3. repeat split; auto.
    unfold send_challenge_reply. destruct (_ <=? 0).
    - exists []. rewrite gettime_log. auto.
    - eexists [_]. cbn [a_log a_note set_a_pc app]. rewrite !gettime_log. reflexivity. }
  destruct (sc_ok c) eqn:Ok.
  { injection E as E. destruct (Rp _ _ _ E) as (P1 & P2 & P3 & tl & P4). rewrite P1, P2, P3.
    split; [reflexivity|]. split; [destruct mcast; reflexivity|]. right.
    destruct (Hk eq_refl) as [X|(nn & t & X)]; [discriminate|].
    apply in_split in X. destruct X as (x1 & x2 & X). exists nn, t, x2, (tl ++ NAccept mcast ix pc :: x1). split.
    - rewrite P4. cbn [a_log a_note set_a_pc]. rewrite La, X, <- !app_assoc. reflexivity.
    - eapply H2; [exact La|]. rewrite X. apply in_or_app. right. left. reflexivity. }
  cbv zeta in E.
  destruct (pc_index (a_pc (set_a_found true s1))) as [i|] eqn:Ix; [|discriminate].
  destruct ((zlen i =? zlen ix) && (memcmp ix i =? 0)) eqn:Same; [|discriminate].
  apply andb_true_iff in Same. destruct Same as [_ Same]. apply Z.eqb_eq, memcmp_0 in Same. subst i.
  destruct (pc <=? _) eqn:Le; [discriminate|].
  injection E as E. destruct (Rp _ _ _ E) as (P1 & P2 & P3 & tl & P4). rewrite P1, P2, P3.
  cbn [a_pc set_a_found] in *. rewrite <- Q3, <- Q1, <- Q2.
  split; [destruct mcast; exact Ix|]. split; [destruct mcast; reflexivity|]. left. split; [exact Ix|].
  destruct mcast; lia.
Qed.

(** ** C16 *)
Lemma no_mac_nothing : forall key (mac : key -> list Z -> option (list Z)) port k c to_ pkt s,
  addr_ok (r_from c) -> bytes_ok pkt -> 4 <= zlen pkt ->
  (forall a h b, pkt = a ++ (16 :: zlen h :: h) ++ b -> 4 + body_len pkt <= zlen a ->
     mac k (r_from c ++ port ++ to_ ++ port ++ firstn 4 pkt ++ body pkt) <> Some h) ->
  parse_packet_key mac port k false c to_ pkt s = Ret (s, None).
Proof.
  intros key mac port k c to_ pkt s A B L H. unfold parse_packet_key.
  destruct (parse_header_ok c pkt B L) as (E & N1 & N2). rewrite E. cbn [bind].
  destruct (babel_header c pkt); [|reflexivity].
  destruct (check_loop_total key mac port (r_from c) to_ pkt (body_len pkt) k (S (length pkt)) (body_len pkt + 4) (-1) B
              ltac:(lia) ltac:(unfold zlen in *; lia)) as (rc & Ec).
  unfold check_hmac. rewrite Ec. cbn [bind negb].
  destruct (rc <=? 0) eqn:R; [reflexivity|]. exfalso.
  assert (rc = 1).
  { destruct (check_loop_range key mac port (r_from c) to_ pkt (body_len pkt) k _ _ _ _ ltac:(auto) Ec) as [X|[X|X]]; lia. }
  subst rc.
  destruct (check_loop_sound key mac port (r_from c) to_ pkt (body_len pkt) k _ (body_len pkt + 4) (-1) B ltac:(lia) ltac:(lia) Ec)
      as (a & h & b & X1 & X2 & X3). exact (H a h b X1 ltac:(lia) X3).
Qed.

Lemma refused_nothing : forall key (mac : key -> list Z -> option (list Z)) port k c to_ pkt s r,
  addr_ok (r_from c) -> bytes_ok pkt -> 4 <= zlen pkt -> babel_header c pkt = true ->
  parse_packet_key mac port k false c to_ pkt s = Ret r ->
  (forall s', preparse_packet pkt (body_len pkt) (at_ to_ 0 =? 255) s <> Ret (s', true)) ->
  snd r = None /\ pc_u (a_pc (fst r)) = pc_u (a_pc s) /\ pc_m (a_pc (fst r)) = pc_m (a_pc s) /\
  pc_index (a_pc (fst r)) = pc_index (a_pc s).
Proof.
  intros key mac port k c to_ pkt s r A B L Hd E H. unfold parse_packet_key in E.
  destruct (parse_header_ok c pkt B L) as (Eh & N1 & N2). rewrite Eh, Hd in E. cbn [bind] in E.
  destruct (check_hmac _ _ _ _ _ _ _ _) as [rc| |]; cbn [bind negb] in E; [|discriminate..].
  destruct (rc <=? 0); [injection E as <-; auto|].
  destruct (preparse_packet pkt (body_len pkt) (at_ to_ 0 =? 255) s) as [[s1 ok]| |] eqn:Ep; cbn [bind fst snd] in E; [|discriminate..].
  destruct ok; [exfalso; eapply H; eauto|]. injection E as <-. cbn [fst snd]. split; [auto|].
  eapply preparse_refused; eauto.
Qed.

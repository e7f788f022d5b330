(** L_Buf5.v: the histories of a buffer, datagram by datagram. *)
From Verif Require Import Base M_Util S_Util L_Util M_Filter M_Types M_Wire S_Wire L_Wire L_Wire2 M_Auth L_Auth2 M_Buf S_Buf L_Codec L_Buf L_Buf2 L_Buf3 L_Buf4.

Lemma in_sub : forall (A : Type) (P : A -> bool) l x, In x (filter P l) -> In x l.
Proof. intros A P l x H. apply filter_In in H. tauto. Qed.

Lemma frames_fun : forall b l e, frames b l e -> forall l' e', frames b l' e' -> l = l' /\ e = e'.
Proof.
  induction 1 as [|b l e H IH|t n w b l e Nt Nn H IH|t Nt|t n b Nt Lt]; intros l' e' H'.
  - inversion H'. auto.
  - inversion H'; subst; try congruence. auto.
  - inversion H' as [|? ? ? ?|t' n' w' b' l1 e1 Nt' Nn' H1 Eq|? ? Eq|t' n' b' Nt' Lt' Eq]; subst; try congruence.
    + assert (w = w') as ->.
      { assert (Q : length w = length w') by lia. match goal with X : w' ++ b' = w ++ b |- _ => rename X into Ap end.
        assert (Y : firstn (length w') (w' ++ b') = firstn (length w') (w ++ b)) by (rewrite Ap; auto).
        rewrite firstn_app, firstn_all, Nat.sub_diag, firstn_O, app_nil_r in Y.
        rewrite <- Q in Y. rewrite firstn_app, firstn_all, Nat.sub_diag, firstn_O, app_nil_r in Y. auto. }
      match goal with X : w' ++ b' = w' ++ b |- _ => apply app_inv_head in X; subst end.
      destruct (IH _ _ H1) as [-> ->]. auto.
    + rewrite app_length in *. lia.
  - inversion H'; subst; try congruence. auto.
  - inversion H'; subst; try congruence; auto. rewrite app_length in *. lia.
Qed.

Section Mac.
Variable key : Type.
Variable mac : key -> list Z -> option (list Z).
Notation env := (benv key).

Definition own_of (s : est) : bool := match e_mc s with None => true | Some _ => false end.
Lemma own_none : forall s, own_of s = true -> e_mc s = None.
Proof. intros s. unfold own_of. destruct (e_mc s); [discriminate|auto]. Qed.

Section Env.
Variable v : env.
Variable c : rctx.
Hypothesis VOK : env_ok key mac v.
Hypothesis FROM : addr_ok (r_from c).
Hypothesis LL : linklocal (r_from c) = true.

Lemma history : forall s l, start_ok key v s -> Forall (op_ok (keyed key v)) l ->
  binv key v c (own_of s) (bsteps key mac v s l) (all_wanted key mac c v s l) (flat_map raw_wanted l).
Proof.
  intros s l St O. pose proof (b_start key mac v c VOK (own_of s) s St (own_none s)) as B.
  exact (b_steps key mac v c VOK FROM LL (own_of s) l s [] [] B O).
Qed.

Lemma not_bad : forall own s E R, binv key v c own s E R -> e_bad s = false /\ zlen (e_buf s) <= v_size v /\
  Forall (fun pkt => zlen pkt <= 4 + v_size v) (e_sent s).
Proof.
  intros own s E R B. pose proof (binv_avail key v c own s E R B) as [_ A]. destruct B as (E1 & E2 & R1 & R2 & F & _ & _ & S & C).
  split; [apply C|]. split; [auto|]. destruct S as (P & _). eapply Forall_impl; [|exact P]. intros pkt (_ & X & _). lia.
Qed.

Lemma drained : forall own s E R, binv key v c own s E R -> fresh s ->
  Forall (fun pkt => exists a, parse_packet c pkt = Ret a) (e_sent s) /\
  untimed (flat_map (fun pkt => match parse_packet c pkt with Ret a => a | _ => [] end) (e_sent s)) = E /\
  exists fss, Forall2 (fun pkt fs => frames (body pkt) fs true) (e_sent s) fss /\ filter is_raw (concat fss) = R.
Proof.
  intros own s E R (E1 & E2 & R1 & R2 & F & -> & -> & (P & A & fss & X1 & X2) & C) Fr.
  assert (F0 : F None = []).
  { pose proof (c_buf _ _ _ _ _ _ _ _ C) as Cb. destruct Fr as (Fb & _). rewrite Fb in Cb.
    destruct (F None) as [|[t w] l]; [auto|discriminate Cb]. }
  assert (Y : E2 = [] /\ R2 = []).
  { pose proof (c_acts _ _ _ _ _ _ _ _ C None Logic.I) as Ca. pose proof (c_raw _ _ _ _ _ _ _ _ C None) as Cr.
    rewrite F0 in Ca, Cr. auto. }
  destruct Y as [-> ->]. rewrite !app_nil_r. split; [|split].
  - eapply Forall_impl; [|exact P]. intros pkt (_ & _ & X). exact X.
  - exact A.
  - exists fss. split; [|auto]. clear - X1. induction X1 as [|x y a b [H _] _ IH]; constructor; auto.
Qed.

Lemma padded : forall own s E R, binv key v c own s E R -> own = true -> v_probe v = true ->
  Forall (fun pkt => forall fs, frames (body pkt) fs true -> In MESSAGE_HELLO (map fst fs) -> zlen pkt = 4 + v_size v) (e_sent s).
Proof.
  intros own s E R (E1 & E2 & R1 & R2 & F & -> & -> & (P & A & fss & X1 & X2) & C) Ow Pr.
  clear - X1 Ow Pr. induction X1 as [|x y a b [H1 H2] _ IH]; constructor; auto.
  intros fs Fs. rewrite (proj1 (frames_fun _ _ _ H1 _ _ Fs)) in *. auto.
Qed.
End Env.

(** ** What an operation is made of *)
Section Micro.
Variable v : env.

(** changes that send nothing and leave the interface alone *)
Definition edits (s s' : est) : Prop :=
  e_sent s' = e_sent s /\ e_hseq s' = e_hseq s /\ e_ipv4 s' = e_ipv4 s /\ e_lls s' = e_lls s /\ e_mc s' = e_mc s /\
  e_pc s' = e_pc s /\ e_index s' = e_index s /\ e_rndb s' = e_rndb s.
Inductive bm : est -> est -> Prop :=
| bm_refl : forall s, bm s s
| bm_edit : forall s s' s2, bm s s' -> edits s' s2 -> bm s s2
| bm_flush : forall s s', bm s s' -> bm s (flushbuf key mac v s').

Lemma bm_trans : forall a b c, bm a b -> bm b c -> bm a c.
Proof. intros a b c H1 H2. induction H2; eauto using bm_refl, bm_edit, bm_flush. Qed.

Ltac ed := unfold edits, schedule_flush, schedule_flush_now, schedule_flush_ms, set_timeout_ms, jitter0, e_random, e_gettime, bad_if;
  repeat (match goal with |- context [match ?x with _ => _ end] => destruct x eqn:? end); cbn; auto 12.

Lemma bm_put : forall a s l, bm a s -> bm a (put key v l s).
Proof. intros a s l H. eapply bm_edit; [exact H|]. unfold put. ed. Qed.
Lemma bm_puts : forall a s l o n, bm a s -> bm a (puts key v l o n s).
Proof. intros a s l o n H. eapply bm_edit; [apply bm_put; exact H|]. unfold puts. ed. Qed.
Lemma ed_trans : forall a b c, edits a b -> edits b c -> edits a c.
Proof. unfold edits. intros a b c H1 H2. intuition congruence. Qed.
Lemma ed_rnd : forall s, edits s (snd (e_random s)).
Proof. intros s. unfold e_random. destruct (e_rnd s); ed. Qed.
Lemma ed_ms : forall m s, edits s (schedule_flush_ms m s).
Proof.
  intros m s. unfold schedule_flush_ms, set_timeout_ms. destruct (_ && _); [unfold edits; auto 12|].
  pose proof (ed_rnd s) as R. destruct (e_random s) as [r s1]. cbn [snd] in R. exact R.
Qed.
Lemma ed_flush : forall s, edits s (schedule_flush key v s).
Proof.
  intros s. unfold schedule_flush, jitter0. pose proof (ed_rnd s) as R. destruct (e_random s) as [r s1]. cbn [snd] in R.
  eapply ed_trans; [exact R|apply ed_ms].
Qed.
Lemma ed_now : forall s, edits s (schedule_flush_now s).
Proof.
  intros s. unfold schedule_flush_now. pose proof (ed_rnd s) as R. destruct (e_random s) as [r s1]. cbn [snd] in R.
  eapply ed_trans; [exact R|apply ed_ms].
Qed.
Lemma bm_end : forall a s t n, bm a s -> bm a (end_message key v t n s).
Proof.
  intros a s t n H. eapply bm_edit; [exact H|]. unfold end_message. cbv zeta. eapply ed_trans; [|apply ed_flush]. ed.
Qed.
Lemma bm_space : forall a s n, bm a s -> bm a (ensure_space key mac v n s).
Proof. intros a s n H. unfold ensure_space. cbv zeta. destruct (_ <? _); [apply bm_flush|]; auto. Qed.
Lemma bm_start : forall a s t n, bm a s -> bm a (start_message key mac v t n s).
Proof. intros a s t n H. apply bm_put, bm_space, H. Qed.
Lemma bm_set : forall a s s', bm a s -> edits s s' -> bm a s'.
Proof. intros. eapply bm_edit; eauto. Qed.
Lemma bm_set_id : forall a s x, bm a s -> bm a (set_e_id x s).
Proof. intros a s x H. refine (bm_set a s _ H _). ed. Qed.
Lemma bm_set_nh : forall a s x, bm a s -> bm a (set_e_nh x s).
Proof. intros a s x H. refine (bm_set a s _ H _). ed. Qed.
Lemma bm_set_prefix : forall a s x, bm a s -> bm a (set_e_prefix x s).
Proof. intros a s x H. refine (bm_set a s _ H _). ed. Qed.
Lemma bm_set_hello : forall a s x, bm a s -> bm a (set_e_hello x s).
Proof. intros a s x H. refine (bm_set a s _ H _). ed. Qed.
Lemma bm_set_now : forall a s x, bm a s -> bm a (set_e_now x s).
Proof. intros a s x H. refine (bm_set a s _ H _). ed. Qed.
Hint Resolve bm_set_id bm_set_nh bm_set_prefix bm_set_hello bm_set_now bm_put bm_puts bm_end bm_space bm_start bm_flush bm_refl : bm.

Lemma bm_nh : forall a s i, bm a s -> bm a (buffer_nh key mac v i s).
Proof.
  intros a s i H. unfold buffer_nh. destruct (match e_nh s with None => true | Some n => negb (beq_n 4 n i) end); [|auto].
  cbv zeta. auto 8 with bm.
Qed.
Lemma bm_id : forall a s id p v4 r f, bm a s -> bm a (snd (buffer_id key mac v id p v4 r f s)).
Proof.
  intros a s id p v4 r f H. unfold buffer_id. destruct (match e_id s with None => true | Some i => negb (beq id i) end); [|auto].
  destruct ((r =? 128) && _); cbn [snd]; auto 8 with bm.
Qed.
Lemma bm_tlv : forall a s ae v4 d f o q m i, bm a s -> bm a (buffer_update_tlv key mac v ae v4 d f o q m i s).
Proof.
  intros a s ae v4 d f o q m i H. unfold buffer_update_tlv. cbv zeta.
  assert (X : forall b x y l o n, bm a x -> bm a (if b : bool then puts key v l o n (put key v y x) else x)).
  { intros [] x y l o1 n Hx; auto with bm. }
  destruct (bit f 128); auto 10 with bm.
Qed.
Lemma bm_update : forall a s id d q m i, bm a s -> bm a (buffer_update key mac v id d q m i s).
Proof.
  intros a s id d q m i H. unfold buffer_update. cbv zeta.
  pose proof (bm_space a s (20 + 12 + 28 + 18) H) as H1. set (s1 := ensure_space key mac v (20 + 12 + 28 + 18) s) in *. clearbody s1.
  destruct ((d_plen d >=? 96) && v4mapped (d_prefix d)).
  - destruct (e_ipv4 s1) as [x|].
    + pose proof (bm_nh a s1 x H1) as H2. set (s2 := buffer_nh key mac v x s1) in *. clearbody s2.
      pose proof (bm_id a s2 id (d_prefix d) true (d_plen d - 96) 0 H2) as H3.
      destruct (buffer_id key mac v id (d_prefix d) true (d_plen d - 96) 0 s2) as [fl s3]. cbn [snd] in H3. apply bm_tlv, H3.
    + destruct (negb (v_46 v)); [auto|].
      pose proof (bm_id a s1 id (d_prefix d) true (d_plen d - 96) 0 H1) as H3.
      destruct (buffer_id key mac v id (d_prefix d) true (d_plen d - 96) 0 s1) as [fl s3]. cbn [snd] in H3. apply bm_tlv, H3.
  - match goal with |- context [buffer_id key mac v id (d_prefix d) false (d_plen d) ?f s1] => pose proof (bm_id a s1 id (d_prefix d) false (d_plen d) f H1) as H3;
      destruct (buffer_id key mac v id (d_prefix d) false (d_plen d) f s1) as [fl s3] end. cbn [snd] in H3. apply bm_tlv, H3.
Qed.
Lemma bm_src : forall a s d, bm a s -> bm a (put_src key v d s).
Proof. intros a s d H. unfold put_src. cbv zeta. destruct (is_default _ _); auto with bm. Qed.
Lemma bm_prefix : forall a s d, bm a s -> bm a (put_prefix key v d s).
Proof. intros a s d H. unfold put_prefix. cbv zeta. destruct (_ && _); auto with bm. Qed.
Hint Resolve bm_src bm_prefix : bm.
Lemma bm_ihu : forall a s rx i ad rtt, bm a s -> bm a (buffer_ihu key mac v rx i ad rtt s).
Proof.
  intros a s rx i ad rtt H. unfold buffer_ihu. cbv zeta. apply bm_end. destruct rtt as [[x y]|]; [apply bm_put|]; destruct (linklocal ad); auto with bm.
Qed.
Lemma bm_bhello : forall a s u q i, bm a s -> bm a (buffer_hello key mac v u q i s).
Proof.
  intros a s u q i H. unfold buffer_hello. cbv zeta. apply bm_end.
  assert (X : bm a (set_e_hello (zlen (e_buf (start_message key mac v MESSAGE_HELLO (if v_ts v then 12 else 6) s)) - 2)
                     (start_message key mac v MESSAGE_HELLO (if v_ts v then 12 else 6) s))).
  { auto with bm. }
  destruct (v_ts v); auto with bm.
Qed.
Lemma bm_gt : forall a s, bm a s -> bm a (e_gettime s).
Proof. intros a s H. eapply bm_set; [exact H|]. ed. Qed.
Hint Resolve bm_gt : bm.

Definition hello_due (s : est) (o : bop) : bool :=
  match o with BHello _ _ force => negb ((e_hello s >=? 0) && negb force) | _ => false end.

Lemma bstep_bm : forall s o, exists s0, bm s s0 /\
  match o with
  | BHello u i f => if hello_due s o then bm (set_e_hseq (seqno_plus (e_hseq s0) 1) s0) (bstep key mac v s o)
                    else bstep key mac v s o = s0
  | BIpv4 x => s0 = s /\ bstep key mac v s o = set_e_ipv4 x s
  | BLls x => s0 = s /\ bstep key mac v s o = set_e_lls x s
  | BMc h => s0 = s /\ bstep key mac v s o = match e_mc s with None => s | Some _ => set_e_mc (Some h) s end
  | _ => bstep key mac v s o = s0
  end.
Proof.
  intros s o. destruct o; unfold hello_due; cbn [bstep].
  - eexists. split; [|reflexivity]. apply bm_update, bm_refl.
  - eexists. split; [|reflexivity]. unfold buffer_wildcard_retraction. cbv zeta. auto 8 with bm.
  - eexists. split; [|reflexivity]. unfold buffer_request. destruct o; cbv zeta; auto 8 with bm.
  - eexists. split; [|reflexivity]. unfold buffer_mh_request. cbv zeta. auto 8 with bm.
  - unfold send_hello_buf. destruct ((e_hello s >=? 0) && negb force); cbn [negb].
    + exists s. auto using bm_refl.
    + exists (if e_hello s >=? 0 then flushbuf key mac v s else s). split; [destruct (e_hello s >=? 0); auto with bm|].
      apply bm_bhello, bm_refl.
  - eexists. split; [|reflexivity]. apply bm_ihu, bm_refl.
  - eexists. split; [|reflexivity]. unfold send_ack. cbv zeta.
    assert (X : bm s (end_message key v MESSAGE_ACK 2 (put key v (be16 nonce) (start_message key mac v MESSAGE_ACK 2 s)))) by auto with bm.
    revert X. generalize (end_message key v MESSAGE_ACK 2 (put key v (be16 nonce) (start_message key mac v MESSAGE_ACK 2 s))).
    intros s1 X. pose proof (ed_rnd s1) as R. destruct (e_random s1) as [r s2]. cbn [snd] in R.
    eapply bm_set; [exact X|]. eapply ed_trans; [exact R|apply ed_ms].
  - eexists. split; [|reflexivity]. unfold buffer_challenge_request. cbv zeta. eapply bm_set; [|apply ed_now]. auto 8 with bm.
  - eexists. split; [|reflexivity]. unfold buffer_challenge_reply. cbv zeta. eapply bm_set; [|apply ed_now]. auto 8 with bm.
  - eexists. split; [|reflexivity]. auto with bm.
  - eexists. split; [|reflexivity]. auto with bm.
  - eexists. split; [|reflexivity]. auto with bm.
  - exists s. auto using bm_refl.
  - exists s. auto using bm_refl.
  - exists s. auto using bm_refl.
Qed.

(** ** flushbuf leaves the interface alone *)
Lemma pc_keeps : forall s, keeps s (send_pc key v s) /\ e_sent (send_pc key v s) = e_sent s.
Proof.
  intros s. unfold send_pc, keeps. destruct (_ <? _); [auto 8|]. cbv zeta.
  assert (X : forall s1, e_hseq s1 = e_hseq s /\ e_ipv4 s1 = e_ipv4 s /\ e_lls s1 = e_lls s /\ e_mc s1 = e_mc s /\ e_sent s1 = e_sent s ->
    let s' := set_e_pc (u32 (e_pc s1 + 1)) (puts key v (e_index s1) 0 8 (put key v (MESSAGE_PC :: 12 :: be32 (e_pc s1)) s1)) in
    (e_hseq s' = e_hseq s /\ e_ipv4 s' = e_ipv4 s /\ e_lls s' = e_lls s /\ e_mc s' = e_mc s) /\ e_sent s' = e_sent s).
  { intros s1 (A & B & C & D & F). cbv zeta. unfold puts, put, bad_if.
    repeat (match goal with |- context [if ?b then _ else _] => destruct b end); cbn; auto. }
  destruct (e_pc s =? 0).
  - unfold e_randomb. destruct (e_rndb s) as [|[i|] l]; cbn; auto 8. apply (X (set_e_index i (set_e_rndb l s))). cbn. auto.
  - apply X. auto.
Qed.
Lemma fill_keeps : forall s, keeps s (fill_rtt key v s) /\ e_sent (fill_rtt key v s) = e_sent s.
Proof.
  intros s. unfold fill_rtt, keeps, e_gettime. cbv zeta. destruct (_ && _); [|auto 8]. destruct (_ >? _); [cbn; auto 8|].
  destruct (_ && _); [|auto 8]. destruct (e_clk s); cbn; auto 8.
Qed.
Lemma bad_keeps : forall b s, keeps s (bad_if b s) /\ e_sent (bad_if b s) = e_sent s.
Proof. intros [] s; unfold keeps; cbn; auto 8. Qed.
Lemma kp_trans : forall a b c, keeps a b -> keeps b c -> keeps a c.
Proof. unfold keeps. intros a b c H1 H2. intuition congruence. Qed.
Lemma kp_refl : forall a, keeps a a.
Proof. unfold keeps. auto. Qed.

(** the datagrams *)
Definition datagram (s : est) (pkt : list Z) : Prop :=
  exists body trailer padding, pkt = (42 :: 2 :: be16 (zlen body)) ++ body ++ trailer ++ padding /\
    match v_key v with
    | None => trailer = []
    | Some k => add_hmac key mac (v_port v) (e_lls s) (v_dst v) (42 :: 2 :: be16 (zlen body)) body (v_size v) k = Some trailer
    end.
Lemma flush_sends : forall s, let s' := flushbuf key mac v s in keeps s s' /\
  (e_sent s' = e_sent s \/ exists pkt, e_sent s' = e_sent s ++ [pkt] /\ datagram s pkt).
Proof.
  intros s. cbv zeta. unfold flushbuf. pose proof (bad_keeps (zlen (e_buf s) >? v_size v) s) as (K0 & S0).
  set (s0 := bad_if (zlen (e_buf s) >? v_size v) s) in *. clearbody s0.
  destruct (zlen (e_buf s0) >? 0); [|cbn; split; [destruct K0 as (? & ? & ? & ?); unfold keeps; cbn; auto|left; auto]].
  assert (X : let s1 := match v_key v with Some _ => send_pc key v s0 | None => s0 end in keeps s0 s1 /\ e_sent s1 = e_sent s0).
  { cbv zeta. destruct (v_key v); [apply pc_keeps|split; [apply kp_refl|auto]]. }
  cbv zeta in X. destruct X as (K1 & S1). set (s1 := match v_key v with Some _ => send_pc key v s0 | None => s0 end) in *. clearbody s1.
  pose proof (fill_keeps s1) as (K2 & S2). assert (Lf : zlen (e_buf (fill_rtt key v s1)) = zlen (e_buf s1)).
  { unfold fill_rtt, e_gettime. cbv zeta. destruct (_ && _) eqn:Ec; [|auto]. destruct (_ >? _) eqn:Eg; [cbn; auto|].
    assert (0 <= e_hello s1) by (apply andb_true_iff in Ec; lia).
    assert (e_hello s1 + 14 <= zlen (e_buf s1)) by lia.
    destruct ((at_ _ _ =? SUBTLV_PADN) && _); [|auto]. unfold zlen in *. destruct (e_clk s1); cbn [e_buf set_e_buf set_e_now set_e_clk e_now e_clk]; 
    rewrite !app_length, firstn_length, skipn_length;
    match goal with |- context [be32 ?x] => change (length (be32 x)) with 4%nat end; change (length [SUBTLV_TIMESTAMP; 4]) with 2%nat; lia. }
  rewrite <- Lf. set (s2 := fill_rtt key v s1) in *. clearbody s2. clear Lf.
  pose proof (kp_trans _ _ _ K0 (kp_trans _ _ _ K1 K2)) as K. assert (Sn : e_sent s2 = e_sent s) by congruence.
  assert (Ls : e_lls s2 = e_lls s) by apply K. rewrite Ls.
  destruct (match v_key v with None => Some [] | Some k => add_hmac key mac (v_port v) (e_lls s) (v_dst v) (42 :: 2 :: be16 (zlen (e_buf s2))) (e_buf s2) (v_size v) k end) as [tl|] eqn:At;
    [|split; [exact K|left; auto]].
  cbv zeta. pose proof (bad_keeps (zlen (e_buf s2) + zlen tl >? v_size v) s2) as (K3 & S3).
  assert (Bf : e_buf (bad_if (zlen (e_buf s2) + zlen tl >? v_size v) s2) = e_buf s2) by (unfold bad_if; destruct (_ >? _); auto).
  set (s3 := bad_if (zlen (e_buf s2) + zlen tl >? v_size v) s2) in *. clearbody s3. rewrite Bf.
  split.
  - pose proof (kp_trans _ _ _ K K3) as (? & ? & ? & ?). unfold keeps. cbn. auto.
  - right. eexists. split; [cbn [buf_reset e_sent set_e_sent set_e_timeout set_e_prefix set_e_nh set_e_id set_e_hello set_e_buf];
      rewrite S3, Sn; reflexivity|].
    exists (e_buf s2), tl. eexists. split; [reflexivity|]. destruct (v_key v); [exact At|]. injection At as <-. auto.
Qed.

Lemma bm_sends : forall s s', bm s s' -> keeps s s' /\ exists l, e_sent s' = e_sent s ++ l /\ Forall (datagram s) l.
Proof.
  induction 1 as [s|s s' s2 B (K & l & Sn & F) Ed|s s' B (K & l & Sn & F)].
  - split; [apply kp_refl|]. exists []. rewrite app_nil_r. auto.
  - unfold edits in Ed. unfold keeps in *. split; [intuition congruence|]. exists l. split; [intuition congruence|auto].
  - pose proof (flush_sends s') as (K2 & Q). cbv zeta in K2, Q. split; [eapply kp_trans; eauto|].
    assert (Dg : forall pkt, datagram s' pkt -> datagram s pkt).
    { intros pkt. unfold datagram. destruct K as (_ & _ & -> & _). auto. }
    destruct Q as [->|(pkt & -> & D)]; [eauto|]. exists (l ++ [pkt]). rewrite Sn, app_assoc. split; [auto|]. apply Forall_app. auto.
Qed.

Lemma step_sends : forall s o, exists l, e_sent (bstep key mac v s o) = e_sent s ++ l /\ Forall (datagram s) l.
Proof.
  intros s o. pose proof (bstep_bm s o) as (s0 & B & M). pose proof (bm_sends _ _ B) as (K & l & Sn & F).
  assert (Zz : exists l, e_sent s = e_sent s ++ l /\ Forall (datagram s) l) by (exists []; rewrite app_nil_r; auto).
  destruct o; try (rewrite M; eauto; fail).
  - destruct (hello_due s _).
    + pose proof (bm_sends _ _ M) as (K2 & l2 & S2 & F2). exists (l ++ l2). rewrite S2. cbn [set_e_hseq e_sent]. rewrite Sn, app_assoc. split; [auto|].
      apply Forall_app. split; [auto|]. eapply Forall_impl; [|exact F2]. intros pkt. unfold datagram. cbn [set_e_hseq e_lls].
      destruct K as (_ & _ & -> & _). auto.
    + rewrite M. eauto.
  - destruct M as [-> ->]. auto.
  - destruct M as [-> ->]. auto.
  - destruct M as [-> ->]. destruct (e_mc s); auto.
Qed.

(** on an interface with a key, all datagrams verify *)
Lemma step_signed : forall s o k src lls, (forall k' m d, mac k' m = Some d -> zlen d <= 32) ->
  v_key v = Some k -> e_lls s = src :: lls -> exists l, e_sent (bstep key mac v s o) = e_sent s ++ l /\
  Forall (fun pkt => exists n, firstn 4 pkt = 42 :: 2 :: be16 n /\ 0 <= n <= zlen pkt - 4 /\
    check_hmac key mac (v_port v) src (v_dst v) pkt n k = Ret 1) l.
Proof.
  intros s o k src lls Hm Vk Ll. destruct (step_sends s o) as (l & Sn & F). exists l. split; [auto|].
  eapply Forall_impl; [|exact F]. intros pkt (body & tl & pad & -> & A). rewrite Vk, Ll in A.
  exists (zlen body). split; [reflexivity|]. split.
  - unfold zlen. rewrite !app_length. change (length (42 :: 2 :: be16 (Z.of_nat (length body)))) with 4%nat. lia.
  - exact (signed_verifies key mac (v_port v) src lls (v_dst v) body (v_size v) k tl pad Hm A).
Qed.

(** ** The interface, operation by operation *)
Definition ipv4_after (a : option (list Z)) (o : bop) : option (list Z) := match o with BIpv4 x => x | _ => a end.
Lemma step_env : forall s o, e_ipv4 (bstep key mac v s o) = ipv4_after (e_ipv4 s) o /\
  e_hseq (bstep key mac v s o) = if hello_due s o then seqno_plus (e_hseq s) 1 else e_hseq s.
Proof.
  intros s o. pose proof (bstep_bm s o) as (s0 & B & M). pose proof (bm_sends _ _ B) as ((K1 & K2 & _) & _).
  destruct o; try (rewrite M; split; [exact K2|exact K1]).
  - destruct (hello_due s _).
    + pose proof (bm_sends _ _ M) as ((L1 & L2 & _) & _). rewrite L1, L2. cbn. rewrite K1, K2. auto.
    + rewrite M. auto.
  - destruct M as [-> ->]. auto.
  - destruct M as [-> ->]. auto.
  - destruct M as [-> ->]. destruct (e_mc s); auto.
Qed.
End Micro.
End Mac.

(** L_Buf6.v: the deadline of acknowledgements; timestamps; what is to be understood,
    without reference to the state of the buffer. *)
From Verif Require Import Base M_Util S_Util L_Util M_Filter M_Types M_Wire S_Wire L_Wire L_Wire2 M_Auth L_Auth2 M_Buf S_Buf L_Codec L_Buf L_Buf2 L_Buf3 L_Buf4 L_Buf5.

(** ** Timers *)
Lemma minus_msec_lt : forall a b m, tv_ok a -> tv_ok b -> timeval_minus_msec a b < m -> m <= 2000000000 ->
  us a < us b + 1000 * m.
Proof.
  intros [s1 u1] [s2 u2] m A B. unfold tv_ok, us, timeval_minus_msec in *. cbn [tv_sec tv_usec] in *.
  destruct (s1 <? s2) eqn:E1; [lia|]. destruct (s1 - s2 >? 2000000) eqn:E2; [lia|].
  destruct (s1 >? s2) eqn:E3.
  - intros H Hm. unfold u32 in H.
    rewrite (Z.mod_small ((s1 - s2) * 1000)) in H by lia.
    pose proof (Z.quot_rem' (u1 - u2) 1000) as Q.
    assert (R : -1000 < Z.rem (u1 - u2) 1000 < 1000) by (pose proof (Z.rem_bound_abs (u1 - u2) 1000); lia).
    assert (P : 0 < u1 - u2 \/ u1 - u2 <= 0) by lia.
    destruct P as [P|P].
    + pose proof (Z.rem_nonneg (u1 - u2) 1000 ltac:(lia) ltac:(lia)).
      rewrite Z.mod_small in H by lia. lia.
    + pose proof (Z.rem_nonpos (u1 - u2) 1000 ltac:(lia) ltac:(lia)). rewrite Z.mod_small in H by lia. lia.
  - intros H Hm. assert (s1 = s2) by lia. subst s2. destruct (u1 <=? u2) eqn:E4; lia.
Qed.

Definition clock_ok (t : timeval) : Prop := tv_ok t /\ 1 <= tv_sec t.
Record timed (s : est) : Prop := mkTimed {
  t_timeout : tv_ok (e_timeout s); t_now : clock_ok (e_now s);
  t_clk : Forall clock_ok (e_clk s); t_rnd : Forall (fun r => 0 <= r) (e_rnd s) }.

Lemma timed_same : forall s s', timed s -> e_timeout s' = e_timeout s -> e_now s' = e_now s -> e_clk s' = e_clk s ->
  e_rnd s' = e_rnd s -> timed s'.
Proof. intros s s' [] A B C D. constructor; rewrite ?A, ?B, ?C, ?D; auto. Qed.
Lemma timed_random : forall s, timed s -> timed (snd (e_random s)) /\ 0 <= fst (e_random s) /\
  e_now (snd (e_random s)) = e_now s /\ e_timeout (snd (e_random s)) = e_timeout s.
Proof.
  intros s T. unfold e_random. destruct (e_rnd s) as [|r l] eqn:Q; cbn [fst snd].
  - split; [exact T|]. split; [lia|auto].
  - destruct T as [A B C D]. rewrite Q in D. inversion D; subst. split; [constructor; auto|]. auto.
Qed.
Lemma timed_gettime : forall s, timed s -> timed (e_gettime s).
Proof.
  intros s [A B C D]. unfold e_gettime. destruct (e_clk s) as [|t l] eqn:E; [constructor; auto; rewrite E; constructor|].
  inversion C; subst. constructor; auto.
Qed.
Lemma add_sec : forall t m, clock_ok t -> 0 <= m -> 1 <= tv_sec (timeval_add_msec t m).
Proof.
  intros [a b] m [T1 T2] M. unfold tv_ok, timeval_add_msec in *. cbn [tv_sec tv_usec] in *.
  pose proof (Z.quot_pos m 1000 M ltac:(lia)). destruct (_ <? _); cbn [tv_sec]; lia.
Qed.
Lemma timed_ms : forall m s, timed s -> 0 <= m -> timed (schedule_flush_ms m s) /\ e_now (schedule_flush_ms m s) = e_now s.
Proof.
  intros m s T M. unfold schedule_flush_ms. destruct (_ && _); [auto|]. unfold set_timeout_ms.
  pose proof (timed_random s T) as (T1 & R & N & O). destruct (e_random s) as [r s1]. cbn [fst snd] in *.
  split; [|exact N]. destruct T1. constructor; auto. cbn [set_e_timeout e_timeout].
  apply timeval_add_msec_us; [apply t_now0|]. apply roughly_nonneg; auto.
Qed.
(** schedule_flush_ms meets its deadline *)
Lemma ms_deadline : forall m s, timed s -> 0 <= m <= 1000000 -> let s' := schedule_flush_ms m s in
  tv_sec (e_timeout s') <> 0 /\ 4 * us (e_timeout s') <= 4 * us (e_now s') + 5000 * m.
Proof.
  intros m s T M. cbv zeta. unfold schedule_flush_ms.
  destruct (negb (tv_sec (e_timeout s) =? 0) && (timeval_minus_msec (e_timeout s) (e_now s) <? m)) eqn:E.
  - apply andb_true_iff in E. destruct E as [E1 E2]. split; [lia|].
    pose proof (minus_msec_lt (e_timeout s) (e_now s) m (t_timeout _ T) (proj1 (t_now _ T))). lia.
  - unfold set_timeout_ms. pose proof (timed_random s T) as (T1 & R & N & O). destruct (e_random s) as [r s1]. cbn [fst snd] in *.
    cbn [set_e_timeout e_timeout e_now]. pose proof (roughly_nonneg m r R ltac:(lia)) as [Q1 Q2].
    pose proof (t_now _ T1) as C. split; [pose proof (add_sec _ _ C Q1); lia|].
    pose proof (proj2 (timeval_add_msec_us (e_now s1) (roughly m r) (proj1 C) Q1)). lia.
Qed.

Section Mac.
Variable key : Type.
Variable mac : key -> list Z -> option (list Z).
Notation env := (benv key).
Variable v : env.

Lemma timed_put : forall l s, timed s -> timed (put key v l s).
Proof. intros l s T. unfold put, bad_if. destruct (_ >? _); (apply (timed_same s); [exact T|reflexivity..]). Qed.
Lemma timed_puts : forall w o n s, timed s -> timed (puts key v w o n s).
Proof.
  intros w o n s T. unfold puts, bad_if. pose proof (timed_put (firstn (Z.to_nat n) (skipn (Z.to_nat o) w)) s T) as P.
  destruct (_ || _); [|exact P]. apply (timed_same _ _ P); reflexivity.
Qed.
Lemma timed_pc : forall s, timed s -> timed (send_pc key v s).
Proof.
  intros s T. unfold send_pc. destruct (_ <? _); [auto|]. cbv zeta.
  assert (X : forall s1, timed s1 -> timed (set_e_pc (u32 (e_pc s1 + 1)) (puts key v (e_index s1) 0 8 (put key v (MESSAGE_PC :: 12 :: be32 (e_pc s1)) s1)))).
  { intros s1 T1. refine (timed_same _ _ (timed_puts (e_index s1) 0 8 _ (timed_put (MESSAGE_PC :: 12 :: be32 (e_pc s1)) s1 T1)) _ _ _ _); reflexivity. }
  destruct (e_pc s =? 0); [|auto]. unfold e_randomb. destruct (e_rndb s) as [|[i|] l].
  - auto.
  - apply X. apply (timed_same _ _ T); reflexivity.
  - apply (timed_same _ _ T); reflexivity.
Qed.
Lemma timed_fill : forall s, timed s -> timed (fill_rtt key v s).
Proof.
  intros s T. unfold fill_rtt. destruct (_ && _); [|auto]. cbv zeta. destruct (_ >? _); [apply (timed_same _ _ T); reflexivity|].
  destruct ((at_ _ _ =? SUBTLV_PADN) && _); [|auto]. apply (timed_same _ _ (timed_gettime _ T)); reflexivity.
Qed.
Lemma timed_bad : forall b s, timed s -> timed (bad_if b s).
Proof. intros [] s T; [|auto]. apply (timed_same _ _ T); reflexivity. Qed.
Lemma timed_reset : forall s, timed s -> timed (buf_reset s).
Proof. intros s []. constructor; auto. cbn. unfold tv_ok. cbn. lia. Qed.
Lemma timed_flush : forall s, timed s -> timed (flushbuf key mac v s).
Proof.
  intros s T. unfold flushbuf. pose proof (timed_bad (zlen (e_buf s) >? v_size v) s T) as T0.
  set (s0 := bad_if (zlen (e_buf s) >? v_size v) s) in *. clearbody s0.
  destruct (zlen (e_buf s0) >? 0); [|apply timed_reset; auto].
  assert (T1 : timed (match v_key v with Some _ => send_pc key v s0 | None => s0 end)) by (destruct (v_key v); auto using timed_pc).
  set (s1 := match v_key v with Some _ => send_pc key v s0 | None => s0 end) in *. clearbody s1.
  pose proof (timed_fill s1 T1) as T2. cbv zeta.
  match goal with |- timed (match ?m with _ => _ end) => destruct m as [tl|] end; [|auto].
  apply timed_reset. apply (timed_same _ _ (timed_bad (zlen (e_buf (fill_rtt key v s1)) + zlen tl >? v_size v) _ T2)); reflexivity.
Qed.
Lemma timed_end : forall t n s, 0 <= v_flush v -> timed s -> timed (end_message key v t n s).
Proof.
  intros t n s Fl T. unfold end_message. cbv zeta. match goal with |- timed (schedule_flush key v (bad_if ?b s)) => pose proof (timed_bad b s T) as T1;
    set (s1 := bad_if b s) in *; clearbody s1 end.
  unfold schedule_flush, jitter0. pose proof (timed_random s1 T1) as (T2 & R & _). destruct (e_random s1) as [r s2]. cbn [fst snd] in *.
  apply timed_ms; [auto|]. apply roughly_nonneg; auto. apply Z.div_pos; lia.
Qed.

Lemma ack_deadline : forall nonce interval s, timed s -> 0 <= v_flush v -> 0 <= interval < 65536 ->
  let s' := send_ack key mac v nonce interval s in
  tv_sec (e_timeout s') <> 0 /\ us (e_timeout s') <= us (e_now s') + 10000 * interval.
Proof.
  intros nonce interval s T Fl Hi. cbv zeta. unfold send_ack. cbv zeta.
  assert (T1 : timed (end_message key v MESSAGE_ACK 2 (put key v (be16 nonce) (start_message key mac v MESSAGE_ACK 2 s)))).
  { apply timed_end; [auto|]. apply timed_put. unfold start_message. apply timed_put. unfold ensure_space. cbv zeta.
    destruct (_ <? _); [apply timed_flush|]; auto. }
  revert T1. generalize (end_message key v MESSAGE_ACK 2 (put key v (be16 nonce) (start_message key mac v MESSAGE_ACK 2 s))). intros s1 T1.
  pose proof (timed_random s1 T1) as (T2 & R & _). destruct (e_random s1) as [r s2]. cbn [fst snd] in *.
  pose proof (roughly_nonneg (interval * 6) r R ltac:(lia)) as [Q1 Q2].
  pose proof (ms_deadline (roughly (interval * 6) r) s2 T2 ltac:(lia)) as [D1 D2]. cbv zeta in D1, D2. split; [exact D1|]. lia.
Qed.

(** ** What is to be understood *)
Lemma plain_ok : forall c l s, filter (fun a => negb (is_hello a)) (all_wanted key mac c v s l) = others_wanted c (v_46 v) (e_ipv4 s) l.
Proof.
  intros c l. induction l as [|o l IH]; intros s; [reflexivity|]. cbn [all_wanted others_wanted].
  rewrite filter_app, IH. destruct (step_env key mac v s o) as [-> _].
  destruct o; try reflexivity; cbn [wanted ipv4_after filter is_hello negb app].
  - destruct (is4 d); [|reflexivity]. destruct (e_ipv4 s); [reflexivity|]. destruct (v_46 v && r_46 c); reflexivity.
  - destruct ((e_hello s >=? 0) && negb force); reflexivity.
  - destruct (existsb _ _); reflexivity.
Qed.

Lemma hello_seq : forall c l s, map hello_no (filter is_hello (all_wanted key mac c v s l)) =
    map (fun k => (e_hseq s + Z.of_nat k) mod 65536) (seq 1 (length (filter is_hello (all_wanted key mac c v s l)))) /\
  (length (filter forced l) <= length (filter is_hello (all_wanted key mac c v s l)) <= length (filter asked l))%nat.
Proof.
  intros c l. induction l as [|o l IH]; intros s; [cbn; auto|]. cbn [all_wanted]. rewrite filter_app.
  destruct (IH (bstep key mac v s o)) as [I1 I2]. destruct (step_env key mac v s o) as [_ Hq]. rewrite Hq in I1.
  set (A := filter is_hello (all_wanted key mac c v (bstep key mac v s o) l)) in *. clearbody A.
  assert (Z0 : forall o, filter is_hello (wanted c (v_46 v) (e_hello s >=? 0) (e_hseq s) (e_ipv4 s) o) =
     match o with BHello u iv f => if hello_due s o then [AHello u ((e_hseq s + 1) mod 65536) (Z.min iv 65535) None] else [] | _ => [] end).
  { intros []; try reflexivity; cbn [wanted].
    - destruct (is4 d); [|reflexivity]. destruct (e_ipv4 s); [reflexivity|]. destruct (v_46 v && r_46 c); reflexivity.
    - unfold hello_due. destruct ((e_hello s >=? 0) && negb force); reflexivity.
    - destruct (existsb _ _); reflexivity. }
  rewrite Z0. destruct o; cbn [app]; try (cbn [hello_due filter forced asked] in *; split; [exact I1|exact I2]).
  cbn [filter asked]. unfold forced at 1. cbn [hello_due]. cbn [hello_due] in I1.
  destruct ((e_hello s >=? 0) && negb force) eqn:D; cbn [negb app map length] in *.
  - split; [exact I1|]. assert (force = false) as -> by (destruct force; [rewrite andb_false_r in D; discriminate|auto]). lia.
  - split.
    + rewrite I1. cbn [seq map hello_no]. f_equal. rewrite <- (seq_shift (length A) 1), map_map. apply map_ext. intros k.
      unfold seqno_plus. change 65535 with (Z.ones 16). rewrite Z.land_ones by lia. change (2 ^ 16) with 65536.
      rewrite Zplus_mod_idemp_l. f_equal. lia.
    + destruct force; cbn [length]; lia.
Qed.
End Mac.

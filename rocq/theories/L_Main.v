(** L_Main.v: proofs about the main loop. *)
From Verif Require Import Base M_Util S_Util L_Util M_Main S_Main.

(** ** Clock *)
Lemma gettimes_from : forall l off prev, Forall (fun t => prev <= tv_sec t) (gettimes (off, prev) l).
Proof.
  induction l as [|x l IH]; intros off prev; cbn [gettimes]; [constructor|]. destruct x as [tv|]; cbn [gettime1]; [|apply IH].
  destruct (prev >? tv_sec tv + off) eqn:E.
  - constructor; [cbn; lia|apply IH].
  - assert (L : prev <= tv_sec tv + off) by lia. constructor; [exact L|]. eapply Forall_impl; [|apply IH]. intros t H. cbv beta in *. lia.
Qed.
Lemma gettimes_mono : forall l off prev, ForallOrdPairs (fun a b => tv_sec a <= tv_sec b) (gettimes (off, prev) l).
Proof.
  induction l as [|x l IH]; intros off prev; cbn [gettimes]; [constructor|]. destruct x as [tv|]; cbn [gettime1]; [|apply IH].
  destruct (prev >? tv_sec tv + off); constructor; try apply IH; cbn [tv_sec]; apply gettimes_from.
Qed.
(** While the system clock does not step back, time elapses as it does. *)
Lemma gettimes_app : forall l l' st, exists st', gettimes st (l ++ l') = gettimes st l ++ gettimes st' l'.
Proof.
  induction l as [|x l IH]; intros l' st; cbn [app gettimes]; [exists st; reflexivity|].
  destruct (gettime1 st x) as [st1 o] eqn:E. destruct (IH l' st1) as (st' & H). exists st'.
  destruct o; rewrite H; reflexivity.
Qed.
Lemma gettime_step : forall off prev a b t t' st1 st2,
  gettime1 (off, prev) (Some a) = (st1, Some t) -> gettime1 st1 (Some b) = (st2, Some t') -> tv_sec a <= tv_sec b ->
  tv_sec t' - tv_sec t = tv_sec b - tv_sec a /\ tv_usec t = tv_usec a /\ tv_usec t' = tv_usec b.
Proof.
  intros off prev a b t t' st1 st2. unfold gettime1.
  destruct (prev >? tv_sec a + off) eqn:E1; intros H1; injection H1 as <- <-;
    (destruct (_ >? tv_sec b + _) eqn:E2; intros H2; injection H2 as <- <-); cbn [tv_sec tv_usec]; lia.
Qed.

(** ** Receive buffer *)
Lemma resize_grows : forall size ok cur, cur <= resize_receive_buffer size ok cur.
Proof. intros. unfold resize_receive_buffer. destruct (size <=? cur) eqn:E; [lia|]. destruct ok; lia. Qed.
Lemma resize_fits : forall size cur, size <= resize_receive_buffer size true cur.
Proof. intros. unfold resize_receive_buffer. destruct (size <=? cur) eqn:E; lia. Qed.
Lemma up_all_grows : forall l cur, cur <= up_all l cur.
Proof.
  unfold up_all. induction l as [|x l IH]; intros cur; cbn [fold_left]; [lia|].
  eapply Z.le_trans; [apply (resize_grows (used_mtu (fst x)) (snd x))|apply IH].
Qed.
Lemma up_all_fits : forall l cur m, In (m, true) l -> used_mtu m <= up_all l cur.
Proof.
  induction l as [|x l IH]; intros cur m H; [destruct H|]. unfold up_all. cbn [fold_left]. fold (up_all l (resize_receive_buffer (used_mtu (fst x)) (snd x) cur)).
  destruct H as [-> |H]; [|apply IH; auto]. cbn [fst snd]. eapply Z.le_trans; [apply (resize_fits (used_mtu m) cur)|apply up_all_grows].
Qed.

(** ** Timers *)
(** [a] is at least as early as [b]. *)
Definition sooner (a b : timeval) : Prop := forall u, deadline b = Some u -> exists v, deadline a = Some v /\ v <= u.
Lemma sooner_refl : forall a, sooner a a.
Proof. intros a u H. exists u. split; [exact H|lia]. Qed.
Lemma sooner_trans : forall a b c, sooner a b -> sooner b c -> sooner a c.
Proof. intros a b c H K u Hu. destruct (K u Hu) as (v & Hv & L). destruct (H v Hv) as (x & Hx & L'). exists x. split; [exact Hx|lia]. Qed.
Lemma min_sooner : forall a b, tv_ok a -> tv_ok b -> tv_ok (timeval_min a b) /\ sooner (timeval_min a b) a /\ sooner (timeval_min a b) b.
Proof.
  intros a b Ha Hb. destruct (timeval_min_spec a b Ha Hb) as (D & C). split; [destruct C as [C|C]; rewrite C; assumption|].
  split; intros u Hu; rewrite D, Hu; [destruct (deadline b) as [v|]|destruct (deadline a) as [v|]]; cbn [opt_min]; eexists; split; try reflexivity; lia.
Qed.
Lemma min_sec_sooner : forall a s r, tv_ok a -> s <> 0 -> 0 <= r -> let m := timeval_min_sec a s r in
  tv_ok m /\ sooner m a /\ deadline m <> None /\ tv_sec m <= s.
Proof.
  intros a s r Ha Hs Hr. destruct (timeval_min_sec_spec a s r Ha Hs Hr) as (A & B & C & D & _). cbv zeta.
  split; [exact A|]. split; [|split; [exact B|exact C]]. intros u Hu. specialize (D u Hu).
  unfold deadline in *. destruct (tv_sec (timeval_min_sec a s r) =? 0); [contradiction|]. eexists. split; [reflexivity|exact D].
Qed.
Definition it_ok (i : iftimers) : Prop := tv_ok (it_buf i) /\ tv_ok (it_hello i) /\ tv_ok (it_update i) /\ tv_ok (it_flush i).
Lemma wake_if_sooner : forall tv i, tv_ok tv -> it_ok i -> tv_ok (wake_if tv i) /\ sooner (wake_if tv i) tv /\
  (it_up i = true -> sooner (wake_if tv i) (it_buf i) /\ sooner (wake_if tv i) (it_hello i) /\ sooner (wake_if tv i) (it_update i) /\
     sooner (wake_if tv i) (it_flush i)).
Proof.
  intros tv i H (H1 & H2 & H3 & H4). unfold wake_if. destruct (it_up i).
  2:{ split; [exact H|]. split; [apply sooner_refl|discriminate]. }
  destruct (min_sooner tv (it_buf i) H H1) as (A1 & B1 & C1).
  destruct (min_sooner _ (it_hello i) A1 H2) as (A2 & B2 & C2).
  destruct (min_sooner _ (it_update i) A2 H3) as (A3 & B3 & C3).
  destruct (min_sooner _ (it_flush i) A3 H4) as (A4 & B4 & C4).
  split; [exact A4|]. split; [eauto using sooner_trans|]. intros _. repeat (split; [eauto using sooner_trans|]). exact C4.
Qed.
Lemma wake_ifs_sooner : forall l tv, tv_ok tv -> (forall i, In i l -> it_ok i) ->
  tv_ok (fold_left wake_if l tv) /\ sooner (fold_left wake_if l tv) tv /\
  forall i, In i l -> it_up i = true -> let w := fold_left wake_if l tv in
    sooner w (it_buf i) /\ sooner w (it_hello i) /\ sooner w (it_update i) /\ sooner w (it_flush i).
Proof.
  induction l as [|x l IH]; intros tv H Hl; cbn [fold_left].
  - split; [exact H|]. split; [apply sooner_refl|]. intros i [].
  - destruct (wake_if_sooner tv x H (Hl x (or_introl eq_refl))) as (A & B & C).
    destruct (IH (wake_if tv x) A (fun i Hi => Hl i (or_intror Hi))) as (A' & B' & C').
    split; [exact A'|]. split; [eauto using sooner_trans|]. intros i [-> |Hi] U; [|apply C'; auto].
    destruct (C U) as (D1 & D2 & D3 & D4). cbv zeta. repeat (split; [eauto using sooner_trans|]). eauto using sooner_trans.
Qed.
Lemma mins_sooner : forall l tv, tv_ok tv -> (forall t, In t l -> tv_ok t) ->
  tv_ok (fold_left timeval_min l tv) /\ sooner (fold_left timeval_min l tv) tv /\
  forall t, In t l -> sooner (fold_left timeval_min l tv) t.
Proof.
  induction l as [|x l IH]; intros tv H Hl; cbn [fold_left].
  - split; [exact H|]. split; [apply sooner_refl|]. intros i [].
  - destruct (min_sooner tv x H (Hl x (or_introl eq_refl))) as (A & B & C).
    destruct (IH (timeval_min tv x) A (fun i Hi => Hl i (or_intror Hi))) as (A' & B' & C').
    split; [exact A'|]. split; [eauto using sooner_trans|]. intros i [-> |Hi]; [eauto using sooner_trans|auto].
Qed.

Lemma sooner_sec : forall a b s, tv_ok a -> tv_ok b -> deadline b <> None -> tv_sec b <= s -> sooner a b -> deadline a <> None /\ tv_sec a <= s.
Proof.
  intros a b s Ha Hb Db Hs So. destruct (deadline b) as [u|] eqn:E; [|contradiction]. destruct (So u E) as (v & Hv & L).
  unfold deadline, us, tv_ok in *. destruct (tv_sec b =? 0); [discriminate E|]. destruct (tv_sec a =? 0); [discriminate Hv|].
  injection E as <-. injection Hv as <-. split; [discriminate|]. lia.
Qed.
Lemma wake_spec : forall T r1 r2 r3, timers_ok T -> 0 <= r1 -> 0 <= r2 -> 0 <= r3 ->
  let w := wake T r1 r2 r3 in
  tv_ok w /\ deadline w <> None /\ (forall u, pending_at T u -> us w <= u) /\ (forall s, pending_sec T s -> tv_sec w <= s).
Proof.
  intros T r1 r2 r3 (O1 & O2 & O3 & O4 & O5 & O6 & O7 & O8) R1 R2 R3. cbv zeta. unfold wake.
  destruct (min_sooner (t_nb T) (t_if T) O1 O2) as (A1 & B1 & C1). set (a1 := timeval_min (t_nb T) (t_if T)) in *.
  destruct (min_sec_sooner a1 (t_expiry T) r1 A1 O6 R1) as (A2 & B2 & C2 & D2). set (a2 := timeval_min_sec a1 _ _) in *.
  destruct (min_sec_sooner a2 (t_srcexp T) r2 A2 O7 R2) as (A3 & B3 & C3 & D3). set (a3 := timeval_min_sec a2 _ _) in *.
  assert (K : exists a4, (if t_interval T >? 0 then timeval_min_sec a3 (t_dump T) r3 else a3) = a4 /\ tv_ok a4 /\ sooner a4 a3 /\
     deadline a4 <> None /\ (t_interval T > 0 -> tv_sec a4 <= t_dump T)).
  { destruct (t_interval T >? 0) eqn:E.
    - destruct (min_sec_sooner a3 (t_dump T) r3 A3 O8 R3) as (A4 & B4 & C4 & D4). eexists. split; [reflexivity|]. auto.
    - exists a3. split; [reflexivity|]. split; [exact A3|]. split; [apply sooner_refl|]. split; [exact C3|]. intros H. lia. }
  destruct K as (a4 & -> & A4 & B4 & C4 & D4).
  destruct (min_sooner a4 (t_resend T) A4 O3) as (A5 & B5 & C5). set (a5 := timeval_min a4 _) in *.
  destruct (wake_ifs_sooner (t_ifs T) a5 A5 O4) as (A6 & B6 & C6). set (a6 := fold_left wake_if _ _) in *.
  destruct (mins_sooner (t_nbufs T) a6 A6 O5) as (A7 & B7 & C7). set (a7 := fold_left timeval_min _ _) in *.
  assert (S5 : sooner a7 a5) by eauto using sooner_trans. assert (S4 : sooner a7 a4) by eauto using sooner_trans.
  assert (S3 : sooner a7 a3) by eauto using sooner_trans. assert (S2 : sooner a7 a2) by eauto using sooner_trans.
  assert (S1 : sooner a7 a1) by eauto using sooner_trans.
  assert (Q : forall t u, sooner a7 t -> set_for t u -> us a7 <= u).
  { intros t u So (N & E). destruct (So u) as (v & Hv & L).
    - unfold deadline. replace (tv_sec t =? 0) with false by lia. congruence.
    - unfold deadline in Hv. destruct (tv_sec a7 =? 0); [discriminate Hv|]. injection Hv as <-. exact L. }
  split; [exact A7|]. split; [destruct (sooner_sec a7 a4 (tv_sec a4) A7 A4 C4 ltac:(lia) S4); assumption|]. split.
  - intros u H. destruct H as [H|H|H|i Hi U H|t Ht H].
    + eapply Q; [|exact H]. eauto using sooner_trans.
    + eapply Q; [|exact H]. eauto using sooner_trans.
    + eapply Q; [|exact H]. eauto using sooner_trans.
    + destruct (C6 i Hi U) as (E1 & E2 & E3 & E4). destruct H as [H|[H|[H|H]]]; (eapply Q; [|exact H]); eauto using sooner_trans.
    + eapply Q; [|exact H]. auto.
  - intros s [-> |[-> |(Ti & ->)]].
    + destruct (sooner_sec a7 a2 (t_expiry T) A7 A2 C2 D2 S2). assumption.
    + destruct (sooner_sec a7 a3 (t_srcexp T) A7 A3 C3 D3 S3). assumption.
    + destruct (sooner_sec a7 a4 (t_dump T) A7 A4 C4 (D4 Ti) S4). assumption.
Qed.

(** Where the wake-up time comes from *)
Lemma min_from : forall a b, timeval_min a b = a \/ (timeval_min a b = b /\ tv_sec b <> 0).
Proof. intros a b. unfold timeval_min. destruct (tv_sec b =? 0) eqn:E; auto. destruct (_ || _); auto. right. split; [reflexivity|lia]. Qed.
Lemma min_sec_from : forall a s r, timeval_min_sec a s r = a \/ tv_sec (timeval_min_sec a s r) = s.
Proof. intros a s r. unfold timeval_min_sec. destruct (_ || _); cbn; auto. Qed.
Lemma wake_if_from : forall tv i, wake_if tv i = tv \/ (it_up i = true /\ tv_sec (wake_if tv i) <> 0 /\
  (wake_if tv i = it_buf i \/ wake_if tv i = it_hello i \/ wake_if tv i = it_update i \/ wake_if tv i = it_flush i)).
Proof.
  intros tv i. unfold wake_if. destruct (it_up i); auto.
  destruct (min_from (timeval_min (timeval_min (timeval_min tv (it_buf i)) (it_hello i)) (it_update i)) (it_flush i)) as [E|(E & N)];
    [rewrite E; clear E|rewrite E; auto 10].
  destruct (min_from (timeval_min (timeval_min tv (it_buf i)) (it_hello i)) (it_update i)) as [E|(E & N)]; [rewrite E; clear E|rewrite E; auto 10].
  destruct (min_from (timeval_min tv (it_buf i)) (it_hello i)) as [E|(E & N)]; [rewrite E; clear E|rewrite E; auto 10].
  destruct (min_from tv (it_buf i)) as [E|(E & N)]; [rewrite E; clear E|rewrite E; auto 10]. auto.
Qed.
Lemma wake_ifs_from : forall l tv, fold_left wake_if l tv = tv \/ exists n i, nth_error l n = Some i /\ it_up i = true /\
  tv_sec (fold_left wake_if l tv) <> 0 /\
  (fold_left wake_if l tv = it_buf i \/ fold_left wake_if l tv = it_hello i \/ fold_left wake_if l tv = it_update i \/
   fold_left wake_if l tv = it_flush i).
Proof.
  induction l as [|x l IH]; intros tv; cbn [fold_left]; auto. destruct (IH (wake_if tv x)) as [E|(n & i & H)].
  - rewrite E. destruct (wake_if_from tv x) as [E'|(U & N & H)]; [left; exact E'|]. right. exists O, x. auto.
  - right. exists (S n), i. exact H.
Qed.
Lemma mins_from : forall l tv, fold_left timeval_min l tv = tv \/ exists n, nth_error l n = Some (fold_left timeval_min l tv) /\
  tv_sec (fold_left timeval_min l tv) <> 0.
Proof.
  induction l as [|x l IH]; intros tv; cbn [fold_left]; auto. destruct (IH (timeval_min tv x)) as [E|(n & H)].
  - rewrite E. destruct (min_from tv x) as [E'|(E' & N)]; [left; exact E'|]. right. exists O. cbn. rewrite E'. auto.
  - right. exists (S n). exact H.
Qed.
Lemma cmp_neg : forall a b, tv_ok a -> tv_ok b -> (timeval_compare a b <? 0) = (us a <? us b).
Proof. intros a b Ha Hb. rewrite timeval_compare_us; auto. destruct (Z.compare_spec (us a) (us b)); lia. Qed.
Lemma cmp_pos : forall a b, tv_ok a -> tv_ok b -> (timeval_compare a b >? 0) = (us b <? us a).
Proof. intros a b Ha Hb. rewrite timeval_compare_us; auto. destruct (Z.compare_spec (us a) (us b)); lia. Qed.
Lemma cmp_ge : forall a b, tv_ok a -> tv_ok b -> (timeval_compare a b >=? 0) = (us b <=? us a).
Proof. intros a b Ha Hb. rewrite timeval_compare_us; auto. destruct (Z.compare_spec (us a) (us b)); lia. Qed.

Lemma awake_due : forall T now r1 r2 r3, timers_ok T -> tv_ok now -> 0 <= r1 -> 0 <= r2 -> 0 <= r3 ->
  us (wake T r1 r2 r3) <= us now ->
  (exists a, due T now a = true) \/ us (t_nb T) = us now \/ us (t_if T) = us now.
Proof.
  intros T now r1 r2 r3 (O1 & O2 & O3 & O4 & O5 & O6 & O7 & O8) On R1 R2 R3. unfold wake.
  set (a1 := timeval_min (t_nb T) (t_if T)). set (a2 := timeval_min_sec a1 _ _). set (a3 := timeval_min_sec a2 _ _).
  set (a4 := if t_interval T >? 0 then _ else _). set (a5 := timeval_min a4 _). set (a6 := fold_left wake_if _ _).
  intros H.
  assert (Le : forall s u, tv_ok u -> tv_sec u = s -> us u <= us now -> tv_sec now >= s) by (unfold tv_ok, us in *; intros; lia).
  destruct (mins_from (t_nbufs T) a6) as [E|(n & E & N)].
  2:{ left. exists (AFlushNbBuf n). cbn [due]. rewrite E. rewrite cmp_ge; auto; [|apply O5; eapply nth_error_In; eauto]. apply andb_true_intro. split; lia. }
  rewrite E in H. clear E. destruct (wake_ifs_from (t_ifs T) a5) as [E|(n & i & E & U & N & K)].
  2:{ left. fold a6 in N, K. destruct (O4 i (nth_error_In _ _ E)) as (P1 & P2 & P3 & P4). destruct K as [K|[K|[K|K]]]; rewrite K in H, N.
      - exists (AFlushBuf n). cbn [due]. rewrite E, U, cmp_ge; auto. cbn [andb]. apply andb_true_intro. split; lia.
      - exists (AHello n). cbn [due]. rewrite E, U, cmp_ge; auto. cbn [andb]. lia.
      - exists (AUpdate n). cbn [due]. rewrite E, U, cmp_ge; auto. cbn [andb]. lia.
      - exists (AFlushUpdates n). cbn [due]. rewrite E, U, cmp_ge; auto. cbn [andb]. lia. }
  fold a6 in E. rewrite E in H. clear E. destruct (min_from a4 (t_resend T)) as [E|(E & N)]; fold a5 in E; rewrite E in H; clear E.
  2:{ left. exists AResend. cbn [due]. rewrite cmp_ge; auto. apply andb_true_intro. split; lia. }
  destruct (min_sooner (t_nb T) (t_if T) O1 O2) as (A1 & _). fold a1 in A1.
  destruct (min_sec_sooner a1 (t_expiry T) r1 A1 O6 R1) as (A2 & _). fold a2 in A2.
  destruct (min_sec_sooner a2 (t_srcexp T) r2 A2 O7 R2) as (A3 & _). fold a3 in A3.
  assert (Ex : us a2 <= us now -> (exists a, due T now a = true) \/ us (t_nb T) = us now \/ us (t_if T) = us now).
  { clear H. intros H. destruct (min_sec_from a1 (t_expiry T) r1) as [E|E]; fold a2 in E.
    - rewrite E in H. destruct (min_from (t_nb T) (t_if T)) as [E'|(E' & _)]; fold a1 in E'; rewrite E' in H.
      + destruct (Z.eq_dec (us (t_nb T)) (us now)); auto. left. exists ACheckNeighbours. cbn [due]. rewrite cmp_neg; auto. lia.
      + destruct (Z.eq_dec (us (t_if T)) (us now)); auto. left. exists ACheckInterfaces. cbn [due]. rewrite cmp_neg; auto. lia.
    - left. exists AExpireRoutes. cbn [due]. pose proof (Le _ _ A2 E H). lia. }
  assert (Sx : us a3 <= us now -> (exists a, due T now a = true) \/ us (t_nb T) = us now \/ us (t_if T) = us now).
  { clear H. intros H. destruct (min_sec_from a2 (t_srcexp T) r2) as [E|E]; fold a3 in E.
    - rewrite E in H. auto.
    - left. exists AExpireSources. cbn [due]. pose proof (Le _ _ A3 E H). lia. }
  unfold a4 in H. destruct (t_interval T >? 0) eqn:Ti; [|auto].
  destruct (min_sec_from a3 (t_dump T) r3) as [E|E]; [rewrite E in H; auto|].
  destruct (min_sec_sooner a3 (t_dump T) r3 A3 O8 R3) as (A4 & _).
  left. exists ADump. cbn [due]. rewrite Ti. pose proof (Le _ _ A4 E H). cbn [andb]. lia.
Qed.

(** ** State file *)
Lemma scan_digits_app : forall l l' acc any, Forall (fun c => isdigit_ c = true) l ->
  scan_digits (l ++ l') acc any = scan_digits l' (fold_left (fun a c => a * 10 + (c - 48)) l acc) (any || negb (match l with [] => true | _ => false end)).
Proof.
  induction l as [|c l IH]; intros l' acc any H; cbn [app scan_digits fold_left].
  - rewrite orb_false_r. reflexivity.
  - inversion H; subst. rewrite H2, IH by assumption. rewrite orb_true_r. destruct l; reflexivity.
Qed.

(** The state file: what a shutdown writes is read back. *)
Lemma dec_fuel_z : forall f v, 0 <= v < 10 ^ Z.of_nat f -> (0 < f)%nat ->
  fold_left (fun a c => a * 10 + (c - 48)) (dec_fuel f v []) 0 = v.
Proof.
  induction f; simpl dec_fuel; intros v Hv Hf; [lia|].
  destruct (v / 10 =? 0) eqn:E.
  - simpl. lia.
  - rewrite dec_fuel_app, fold_left_app.
    assert (0 < f)%nat by (destruct f; [simpl in Hv; lia|lia]).
    rewrite IHf; [simpl; lia| |auto]. rewrite Nat2Z.inj_succ, Z.pow_succ_r in Hv by lia. lia.
Qed.
Lemma dec_fuel_len : forall f v, (length (dec_fuel f v []) <= f)%nat.
Proof.
  induction f; intros v; simpl dec_fuel; [simpl; lia|]. destruct (v / 10 =? 0); [simpl; lia|].
  rewrite dec_fuel_app, app_length. specialize (IHf (v / 10)). simpl. lia.
Qed.
Lemma skip_spaces_digit : forall c l, isdigit_ c = true -> skip_spaces (c :: l) = c :: l.
Proof.
  intros c l H. cbn [skip_spaces]. unfold isdigit_ in H.
  match goal with |- (if ?b then _ else _) = _ => destruct b eqn:E; [exfalso; unfold isspace_ in E; revert E; lia|reflexivity] end.
Qed.
Lemma scan_dec : forall s, 0 <= s <= 65535 -> scan_d (firstn 99 (dec s ++ [10])) = Some s.
Proof.
  intros s H. unfold dec. pose proof (dec_fuel_digits 10 s ltac:(lia)) as D.
  pose proof (dec_fuel_nonempty 10 s ltac:(lia)) as NE. pose proof (dec_fuel_len 10 s) as L.
  assert (V : fold_left (fun a c => a * 10 + (c - 48)) (dec_fuel 10 s []) 0 = s).
  { apply dec_fuel_z; [|lia]. change (10 ^ Z.of_nat 10) with 10000000000. lia. }
  revert D NE L V. generalize (dec_fuel 10 s []). intros l D NE L V.
  rewrite firstn_all2 by (rewrite app_length; cbn [length]; lia).
  unfold scan_d. destruct l as [|c l]; [destruct NE; reflexivity|].
  assert (Dc : isdigit_ c = true) by (inversion D; assumption). cbn [app]. rewrite skip_spaces_digit by exact Dc.
  assert (R : 48 <= c <= 57) by (unfold isdigit_ in Dc; lia).
  destruct (c =? 45) eqn:E1; [lia|]. destruct (c =? 43) eqn:E2; [lia|].
  change (c :: l ++ [10]) with ((c :: l) ++ [10]). rewrite scan_digits_app by exact D. cbn [orb negb scan_digits].
  change (isdigit_ 10) with false. cbv iota. rewrite V. f_equal.
  change (2 ^ 63) with 9223372036854775808. rewrite Z.min_r by lia. rewrite Z.max_r by lia.
  unfold s32. rewrite Z.mod_small by lia. cbv zeta. replace (s <? 2147483648) with true by (symmetry; apply Z.ltb_lt; lia). reflexivity.
Qed.

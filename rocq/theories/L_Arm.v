(** L_Arm.v: updates that wait to be sent have a timer, and a place. *)
From Verif Require Import Base M_Util S_Util L_Util M_Slot M_Source M_Filter M_Types M_Neigh S_Neigh M_State M_Table M_Msg M_Route M_Xroute M_Daemon.
From Verif Require Import S_World L_Msg L_Daemon L_Send L_Request L_Pend S_Arm.
Import M_Daemon.

(** ** The invariant *)
Definition weak (i : iface) : Prop :=
  tv_ok (if_flush_timeout i) /\ 0 <= if_hello_interval i /\ Z.of_nat (length (if_pend i)) <= if_bufsize i.
Definition armed (now : timeval) (i : iface) : Prop :=
  if_pend i <> [] -> tv_sec (if_flush_timeout i) <> 0 /\ us (if_flush_timeout i) <= us now + 6250000.
Definition clk (w : world) : Prop := tv_ok (w_now w) /\ 1 <= tv_sec (w_now w).
(** [armP x]: all but those of interface [x] have a timer *)
Definition armP (x : Z) (w : world) : Prop :=
  clk w /\ NoDup (map if_id (w_ifs w)) /\ forall i, In i (w_ifs w) -> weak i /\ (if_id i <> x -> armed (w_now w) i).
Definition armI (w : world) : Prop :=
  clk w /\ NoDup (map if_id (w_ifs w)) /\ forall i, In i (w_ifs w) -> weak i /\ armed (w_now w) i.
Lemma armI_P x w : armI w -> armP x w.
Proof. intros (A & B & C). split; [exact A|]. split; [exact B|]. intros i Hi. destruct (C i Hi). auto. Qed.
Lemma armP_same x w w' : w_now w' = w_now w -> w_ifs w' = w_ifs w -> armP x w -> armP x w'.
Proof. unfold armP, clk. intros -> ->. auto. Qed.
Lemma armI_same w w' : w_now w' = w_now w -> w_ifs w' = w_ifs w -> armI w -> armI w'.
Proof. unfold armI, clk. intros -> ->. auto. Qed.
Lemma ids_map_if x f w : (forall i, if_id (f i) = if_id i) -> map if_id (w_ifs (map_if x f w)) = map if_id (w_ifs w).
Proof. intros F. unfold map_if. cbn [w_ifs set_w_ifs]. rewrite map_map. apply map_ext. intros i. destruct (if_id i =? x); auto. Qed.
Lemma In_map_if x f w i : In i (w_ifs (map_if x f w)) -> exists j, In j (w_ifs w) /\ i = (if if_id j =? x then f j else j).
Proof. unfold map_if. cbn [w_ifs set_w_ifs]. intros H. apply in_map_iff in H. destruct H as (j & <- & H). eauto. Qed.
Lemma get_if_uniq x w i j : NoDup (map if_id (w_ifs w)) -> get_if x w = Some i -> In j (w_ifs w) -> if_id j = x -> j = i.
Proof.
  unfold get_if. induction (w_ifs w) as [|a l IH]; intros N G H E; [destruct H|]. cbn [map find] in *.
  inversion N as [|? ? N1 N2]; subst. destruct (if_id a =? if_id j) eqn:Q.
  - injection G as <-. destruct H as [->|H]; [reflexivity|]. exfalso. apply N1. apply Z.eqb_eq in Q. rewrite Q. apply in_map. exact H.
  - destruct H as [->|H]; [rewrite Z.eqb_refl in Q; discriminate Q|]. apply IH; auto.
Qed.
Lemma ids_map_if' i w : map if_id (w_ifs (map_if (if_id i) (fun _ => i) w)) = map if_id (w_ifs w).
Proof. unfold map_if. cbn [w_ifs set_w_ifs]. rewrite map_map. apply map_ext. intros j. destruct (if_id j =? if_id i) eqn:E; auto. lia. Qed.
Lemma NoDup_app_one (A : Type) (l : list A) x : NoDup l -> ~ In x l -> NoDup (l ++ [x]).
Proof.
  induction l as [|a l IH]; intros N H; cbn; [constructor; [intros []|constructor]|]. inversion N; subst. constructor.
  - intros X. apply in_app_or in X. destruct X as [X|[<-|[]]]; [contradiction|]. apply H. left. reflexivity.
  - apply IH; auto. intros X. apply H. right. exact X.
Qed.
Lemma NoDup_map_filter (A B : Type) (g : A -> B) f l : NoDup (map g l) -> NoDup (map g (filter f l)).
Proof.
  induction l as [|a l IH]; cbn; intros N; [exact N|]. inversion N as [|? ? N1 N2]; subst. destruct (f a); cbn; auto. constructor; auto.
  intros X. apply N1. apply in_map_iff in X. destruct X as (y & E & X). apply filter_In in X. rewrite <- E. apply in_map, X.
Qed.
(** changing one interface *)
Lemma armP_map x f w : (forall i, if_id (f i) = if_id i) -> (forall i, In i (w_ifs w) -> if_id i = x -> weak i -> weak (f i)) ->
  armP x w -> armP x (map_if x f w).
Proof.
  intros F H (A & B & C). split; [exact A|]. split; [rewrite ids_map_if; auto|]. intros i Hi. apply In_map_if in Hi.
  destruct Hi as (j & Hj & ->). destruct (C j Hj) as (C1 & C2). destruct (if_id j =? x) eqn:E.
  - split; [apply H; auto; lia|]. rewrite F. intros N. lia.
  - split; [exact C1|]. intros N. apply C2, N.
Qed.
Lemma armI_map x f w : (forall i, if_id (f i) = if_id i) ->
  (forall i, In i (w_ifs w) -> if_id i = x -> weak i -> weak (f i) /\ armed (w_now w) (f i)) ->
  armP x w -> armI (map_if x f w).
Proof.
  intros F H (A & B & C). split; [exact A|]. split; [rewrite ids_map_if; auto|]. intros i Hi. apply In_map_if in Hi.
  destruct Hi as (j & Hj & ->). destruct (C j Hj) as (C1 & C2). destruct (if_id j =? x) eqn:E.
  - apply H; auto; lia.
  - split; [exact C1|]. apply C2. lia.
Qed.
Lemma flush_fold_now i l : forall w last, w_now (fst (fold_left (flush1 i) l (w, last))) = w_now w.
Proof. intros. apply (L_Resend.flush_fold_satq i l w last). Qed.

(** flushupdates leaves nothing waiting *)
Lemma arm_flush x w : armP x w -> armI (flushupdates x w).
Proof.
  intros H. pose proof H as (A & B & C). unfold flushupdates. destruct (get_if x w) as [i|] eqn:G.
  - assert (K : forall w2, armP x w2 -> (forall j, In j (w_ifs w2) -> if_id j = x -> if_pend j = []) -> armI (map_if x (set_if_flush_timeout tv0) w2)).
    { intros w2 H2 E. apply armI_map; auto. intros j Hj Ej (W1 & W2 & W3). split.
      - split; [unfold tv_ok; cbn; lia|]. split; [exact W2|exact W3].
      - intros N. exfalso. apply N. apply (E j Hj Ej). }
    assert (P1 : armP x (map_if x (fun x => set_if_pend [] (set_if_bufsize 0 x)) w)).
    { apply armP_map; auto. intros j _ _ (W1 & W2 & W3). split; [exact W1|]. split; [exact W2|]. cbn. lia. }
    assert (E1 : forall j, In j (w_ifs (map_if x (fun x => set_if_pend [] (set_if_bufsize 0 x)) w)) -> if_id j = x -> if_pend j = []).
    { intros j Hj Ej. apply In_map_if in Hj. destruct Hj as (k & Hk & ->). destruct (if_id k =? x) eqn:E; [reflexivity|]. lia. }
    destruct (if_pend i) as [|d l] eqn:Pe.
    + apply K; [exact H|]. intros j Hj Ej. rewrite (get_if_uniq x w i j); auto.
    + destruct (negb (if_up i)); [apply K; auto|]. apply K.
      * revert P1. apply armP_same; [rewrite flush_fold_now; reflexivity|rewrite flush_fold_ifs; reflexivity].
      * rewrite flush_fold_ifs. exact E1.
  - split; [exact A|]. split; [exact B|]. intros i Hi. cbn [w_ifs fault] in Hi. destruct (C i Hi) as (C1 & C2).
    split; [exact C1|]. apply C2. intros E. unfold get_if in G. eapply find_none in G; [|exact Hi]. cbv beta in G. lia.
Qed.
Lemma jitter_bound i u w ms w1 : 0 <= if_hello_interval i -> update_jitter i u w = (ms, w1) ->
  0 <= ms <= 5000 /\ w_now w1 = w_now w /\ w_ifs w1 = w_ifs w.
Proof.
  unfold update_jitter. intros H E. destruct (rand w) as [r w2] eqn:R. apply rand_rest in R. destruct R as (R1 & R2 & R3).
  injection E as <- <-. pose proof (roughly_nonneg (Z.min (if_hello_interval i) (if u then 100 else 4000)) r R1 ltac:(destruct u; lia)) as (J1 & J2).
  split; [destruct u; lia|auto].
Qed.
Lemma arm_schedule x u w : armP x w -> armI (schedule_update_flush x u w).
Proof.
  intros H. pose proof H as (A & B & C). unfold schedule_update_flush. destruct (get_if x w) as [i|] eqn:G.
  - pose proof (find_some _ _ G) as (Gi & Ge). cbv beta in Ge. destruct (C i Gi) as ((W1 & W2 & W3) & _).
    destruct (update_jitter i u w) as [ms w1] eqn:J. apply jitter_bound in J; auto. destruct J as (J1 & J2 & J3). destruct A as (A1 & A2).
    destruct (negb (tv_sec (if_flush_timeout i) =? 0) && _) eqn:K.
    + apply (armI_same w); auto. split; [split; auto|]. split; [exact B|]. intros j Hj. destruct (C j Hj) as (C1 & C2). split; [exact C1|].
      destruct (Z.eq_dec (if_id j) x) as [E|E]; [|apply C2; exact E]. rewrite (get_if_uniq x w i j); auto. intros _.
      apply andb_prop in K. destruct K as (K1 & K2). split; [destruct (tv_sec (if_flush_timeout i) =? 0) eqn:Z0; [discriminate K1|lia]|].
      rewrite J2 in K2. destruct (timeval_minus_msec_spec (if_flush_timeout i) (w_now w) W1 A1) as (S1 & S2 & S3 & S4).
      destruct (Z_le_gt_dec (us (if_flush_timeout i)) (us (w_now w))); [lia|].
      destruct (Z_gt_le_dec (tv_sec (if_flush_timeout i) - tv_sec (w_now w)) 2000000) as [X|X]; [rewrite S3 in K2 by lia; lia|].
      specialize (S2 ltac:(lia) X). lia.
    + unfold set_timeout. destruct (rand w1) as [r w2] eqn:R. apply rand_rest in R. destruct R as (R1 & R2 & R3).
      pose proof (roughly_nonneg ms r R1 ltac:(lia)) as (Q1 & Q2). rewrite J2.
      destruct (timeval_add_msec_us (w_now w) (roughly ms r) A1 Q1) as (T1 & T2).
      apply armI_map; auto.
      * intros j _ _ (V1 & V2 & V3). split; [split; [exact T1|split; [exact V2|exact V3]]|]. intros _. cbn [if_flush_timeout set_if_flush_timeout].
        rewrite T2, R2, J2. split; [|lia]. unfold tv_ok, us in *. lia.
      * revert H. apply armP_same; congruence.
  - split; [exact A|]. split; [exact B|]. intros i Hi. cbn [w_ifs fault] in Hi. destruct (C i Hi) as (C1 & C2).
    split; [exact C1|]. apply C2. intros E. unfold get_if in G. eapply find_none in G; [|exact Hi]. cbv beta in G. lia.
Qed.
Lemma flush_size x w i : get_if x w = Some i -> if_pend i <> [] -> exists i', get_if x (flushupdates x w) = Some i' /\ if_bufsize i' = 0.
Proof.
  intros G N. unfold flushupdates. rewrite G. destruct (if_pend i) as [|d l] eqn:Pe; [congruence|].
  pose proof (get_if_map x (fun x => set_if_pend [] (set_if_bufsize 0 x)) w i (fun x => eq_refl) G) as G1.
  destruct (negb (if_up i)).
  - eexists. split; [apply get_if_map; eauto|]. reflexivity.
  - eexists. split; [apply get_if_map; auto; unfold get_if in *; rewrite flush_fold_ifs; exact G1|]. reflexivity.
Qed.
Lemma arm_buffer x d w : armP x w -> armP x (buffer_update x d w).
Proof.
  intros H. unfold buffer_update. destruct (get_if x w) as [i|] eqn:G; [|exact H]. cbv zeta.
  set (w1 := if _ && _ then _ else w). set (size := Z.max _ _).
  assert (Sz : 4 <= size) by (unfold size; lia).
  assert (P1 : armP x w1 /\ forall j, In j (w_ifs w1) -> if_id j = x -> if_bufsize j <> 0 -> Z.of_nat (length (if_pend j)) < if_bufsize j).
  { unfold w1. pose proof H as (A & B & C). destruct (_ && _) eqn:K.
    - split; [apply armI_P, arm_flush, H|].
      intros j Hj Ej Nz. pose proof (arm_flush x w H) as (_ & B' & C').
      assert (Np : if_pend i <> []) by (intros X; rewrite X in K; discriminate K).
      destruct (flush_size x w i G Np) as (i' & G' & Z').
      rewrite (get_if_uniq x _ i' j B' G' Hj Ej) in Nz. exfalso. apply Nz, Z'.
    - split; [exact H|]. intros j Hj Ej Nz. rewrite (get_if_uniq x w i j B G Hj Ej) in *.
      pose proof (find_some _ _ G) as (Gi & _). destruct (C i Gi) as ((_ & _ & W3) & _).
      destruct (Z.of_nat (length (if_pend i)) >? 0) eqn:N0; cbn [andb] in K; lia. }
  destruct P1 as (P1 & P2). apply armP_map.
  - intros j. cbv zeta. destruct (if_bufsize j =? 0); reflexivity.
  - intros j Hj Ej (W1 & W2 & W3). cbv zeta. destruct (if_bufsize j =? 0) eqn:Z0.
    + split; [exact W1|]. split; [exact W2|]. cbn. lia.
    + split; [exact W1|]. split; [exact W2|]. specialize (P2 j Hj Ej ltac:(lia)). cbn [if_pend if_bufsize set_if_pend].
      rewrite app_length. cbn [length]. lia.
  - exact P1.
Qed.

(** ** Every function *)
Definition armq (w w' : world) : Prop := w_now w' = w_now w /\ (armI w -> armI w').
Lemma armq_refl w : armq w w.
Proof. split; auto. Qed.
Lemma armq_trans a b c : armq a b -> armq b c -> armq a c.
Proof. intros (A & B) (C & D). split; [congruence|auto]. Qed.
Lemma armq_same w w' : w_now w' = w_now w -> w_ifs w' = w_ifs w -> armq w w'.
Proof. intros A B. split; [exact A|]. apply armI_same; auto. Qed.
Lemma fold_m {A} (f : world -> A -> world) l : (forall w a, armq w (f w a)) -> forall w, armq w (fold_left f l w).
Proof.
  intros H. induction l as [|a l IH]; intros w; cbn; [apply armq_refl|]. eapply armq_trans; [apply H|apply IH].
Qed.
Lemma fold_m_fst {A B} (f : world * B -> A -> world * B) l : 
  (forall w a, armq (fst w) (fst (f w a))) -> forall x, armq (fst x) (fst (fold_left f l x)).
Proof.
  intros H. induction l as [|a l IH]; intros w; cbn; [apply armq_refl|]. eapply armq_trans; [apply H|apply IH].
Qed.
Lemma fold_m_snd {A B} (f : B * world -> A -> B * world) l :
  (forall w a, armq (snd w) (snd (f w a))) -> forall x, armq (snd x) (snd (fold_left f l x)).
Proof.
  intros H. induction l as [|a l IH]; intros w; cbn; [apply armq_refl|]. eapply armq_trans; [apply H|apply IH].
Qed.

#[local] Ltac mm1 :=
  match goal with
  | |- armq ?x ?x => apply armq_refl
  | |- armq _ (let '(_, _) := ?x in _) => rewrite (surjective_pairing x)
  | |- armq _ (snd (let '(_, _) := ?x in _)) => rewrite (surjective_pairing x)
  | |- armq _ (fst (let '(_, _) := ?x in _)) => rewrite (surjective_pairing x)
  | |- armq _ (if ?c then _ else _) => destruct c
  | |- armq _ (match ?x with _ => _ end) => destruct x
  | |- armq _ (snd (if ?c then _ else _)) => destruct c
  | |- armq _ (fst (if ?c then _ else _)) => destruct c
  | |- armq _ (snd (match ?x with _ => _ end)) => destruct x
  | |- armq _ (fst (match ?x with _ => _ end)) => destruct x
  | |- armq _ _ => eapply armq_trans; [|solve [eauto 2 with adb nocore]]
  end; cbv beta iota zeta; cbn [fst snd].
#[local] Ltac mm := intros; cbv beta iota zeta; cbn [fst snd]; repeat mm1.
#[local] Ltac mtriv := intros; apply armq_same; reflexivity.
Lemma a_fault w : armq w (fault w). Proof. mtriv. Qed.
Lemma a_nofuel w : armq w (nofuel w). Proof. mtriv. Qed.
Lemma a_map_nb i f w : armq w (map_nb i f w). Proof. mtriv. Qed.
Lemma a_map_ptr p f w : armq w (map_ptr p f w). Proof. mtriv. Qed.
Lemma a_rt t w : armq w (set_w_rt t w). Proof. mtriv. Qed.
Lemma a_nbs x w : armq w (set_w_nbs x w). Proof. mtriv. Qed.
Lemma a_srcs x w : armq w (set_w_srcs x w). Proof. mtriv. Qed.
Lemma a_next x w : armq w (set_w_next x w). Proof. mtriv. Qed.
Lemma a_xr x w : armq w (set_w_xr x w). Proof. mtriv. Qed.
Lemma a_rsd x w : armq w (set_w_rsd x w). Proof. mtriv. Qed.
Lemma a_rsdt x w : armq w (set_w_rsd_time x w). Proof. mtriv. Qed.
Lemma a_rnd x w : armq w (set_w_rnd x w). Proof. mtriv. Qed.
Lemma a_kresp x w : armq w (set_w_kresp x w). Proof. mtriv. Qed.
#[local] Hint Resolve a_map_ptr a_rt a_fault a_nofuel a_map_nb a_nbs a_srcs
  a_next a_xr a_rsd a_rsdt a_rnd a_kresp : adb.

Lemma a_rand w : armq w (snd (rand w)). Proof. unfold rand. mm. Qed.
#[local] Hint Resolve a_rand : adb.
Lemma a_recompute w : armq w (recompute_resend_time w). Proof. mtriv. Qed.
#[local] Hint Resolve a_recompute : adb.
Lemma a_record k d s i p dl w : armq w (record_resend k d s i p dl w).
Proof. unfold record_resend. mm. Qed.
Lemma a_satisfy d s i p w : armq w (satisfy_request d s i p w).
Proof. unfold satisfy_request. mm. Qed.
Lemma a_expire_resend w : armq w (expire_resend w).
Proof. unfold expire_resend. mm. Qed.
Lemma a_emit b t w : armq w (emit b t w). Proof. mtriv. Qed.
#[local] Hint Resolve a_emit : adb.
Lemma a_jitter i u w : armq w (snd (update_jitter i u w)).
Proof. unfold update_jitter. mm. Qed.
Lemma a_timeout i w : armq w (snd (set_timeout i w)).
Proof. unfold set_timeout. mm. Qed.
#[local] Hint Resolve a_record a_satisfy a_expire_resend a_jitter a_timeout : adb.
Lemma armq_retr_fold l : forall w, armq w (fold_left (fun w b => emit b (TWildRetract (w_seqno w)) w) l w).
Proof. apply fold_m. intros w b. apply a_emit. Qed.
Lemma buffer_now x d w : w_now (buffer_update x d w) = w_now w.
Proof. apply (L_Resend.buffer_update_satq x d w). Qed.
Lemma a_flushupdates i w : armq w (flushupdates i w).
Proof. split; [apply (L_Resend.flushupdates_satq i w)|]. intros H. apply arm_flush, armI_P, H. Qed.
#[local] Hint Resolve a_flushupdates : adb.
Lemma a_suf i u w : armq w (schedule_update_flush i u w).
Proof. split; [apply (L_Resend.schedule_satq i u w)|]. intros H. apply arm_schedule, armI_P, H. Qed.
#[local] Hint Resolve a_suf : adb.
Lemma a_sui i u d w : armq w (send_update_if i u d w).
Proof.
  unfold send_update_if. destruct (get_if i w) as [x|]; [|apply a_fault]. destruct (negb (if_up x)); [apply armq_refl|].
  split; [rewrite (proj1 (L_Resend.schedule_satq i u _)); apply buffer_now|]. intros H. apply arm_schedule, arm_buffer, armI_P, H.
Qed.
#[local] Hint Resolve a_sui : adb.
Lemma a_self i w : armq w (send_self_update_if i w).
Proof. unfold send_self_update_if. apply fold_m. mm. Qed.
#[local] Hint Resolve a_self : adb.
Lemma wild_fold i s l : forall w,
  let w' := fold_left (fun w r => let is_ss := negb (is_default (k_src (r_src r)) (k_splen (r_src r))) in
                                  if eqb is_ss s then buffer_update i (rdest r) w else w) l w in
  w_now w' = w_now w /\ (armP i w -> armP i w').
Proof.
  induction l as [|r l IH]; intros w; cbn [fold_left]; [auto|]. cbv zeta in *. 
  match goal with |- context [fold_left _ l ?z] => destruct (IH z) as (A & B) end. 
  split; [rewrite A|intros H; apply B]; destruct (eqb _ s); auto; [apply buffer_now|apply arm_buffer, H].
Qed.
Lemma a_wild i u s w : armq w (send_update_wild i u s w).
Proof.
  unfold send_update_wild. destruct (get_if i w) as [x|]; [|apply a_fault]. destruct (negb (if_up x)); [apply armq_refl|]. cbv zeta.
  destruct (a_self i w) as (S1 & S2). pose proof (wild_fold i s (installed_stream (send_self_update_if i w)) (send_self_update_if i w)) as F. cbv zeta in F.
  set (w2 := fold_left _ _ (send_self_update_if i w)) in *. clearbody w2. destruct F as (F1 & F2).
  unfold set_timeout. destruct (rand w2) as [r w3] eqn:R. apply rand_rest in R. destruct R as (R1 & R2 & R3).
  set (w4 := map_if _ _ w3).
  assert (N4 : w_now w4 = w_now w) by (unfold w4; cbn; congruence).
  split; [rewrite (proj1 (L_Resend.schedule_satq i u w4)); exact N4|].
  intros H. apply arm_schedule. unfold w4. apply armP_map.
  - reflexivity.
  - intros j _ _ X. exact X.
  - apply (armP_same i w2); [congruence|exact R3|]. apply F2, armI_P, S2, H.
Qed.
#[local] Hint Resolve a_wild : adb.
Lemma a_full i u w : armq w (send_update_full i u w).
Proof. unfold send_update_full. mm. Qed.
Lemma a_sua u d w : armq w (send_update_all u d w).
Proof.
  assert (H : armq w (fold_left (fun w i => send_update_if i u d w) (map if_id (w_ifs w)) w))
    by (apply fold_m; mm).
  unfold send_update_all. cbv zeta. mm; exact H.
Qed.
#[local] Hint Resolve a_full a_sua : adb.
Lemma a_sur d w : armq w (send_update_resend d w).
Proof. unfold send_update_resend. mm. Qed.
Lemma a_retr i w : armq w (send_wildcard_retraction i w).
Proof. unfold send_wildcard_retraction. mm. apply armq_retr_fold. Qed.
Lemma a_sr b i d w : armq w (send_request b i d w).
Proof. unfold send_request. mm.  Qed.
#[local] Hint Resolve a_sur a_retr a_sr : adb.
Lemma a_smr d i w : armq w (send_multicast_request_if d i w).
Proof. unfold send_multicast_request_if. mm. eapply armq_trans; [|apply fold_m; mm]. mm. Qed.
#[local] Hint Resolve a_smr : adb.
Lemma a_smra d w : armq w (send_multicast_request_all d w).
Proof. unfold send_multicast_request_all. apply fold_m. mm. Qed.
Lemma a_sunr n d w : armq w (send_unicast_request n d w).
Proof. unfold send_unicast_request. mm. Qed.
Lemma a_smh b i d s id h w : armq w (send_multihop_request b i d s id h w).
Proof. unfold send_multihop_request. mm.  Qed.
#[local] Hint Resolve a_smra a_sunr a_smh : adb.
Lemma a_smmh d s id h i w : armq w (send_multicast_multihop_request_if d s id h i w).
Proof. unfold send_multicast_multihop_request_if. mm. eapply armq_trans; [|apply fold_m; mm]. mm. Qed.
#[local] Hint Resolve a_smmh : adb.
Lemma a_smm p d s id h w : armq w (send_multicast_multihop_request p d s id h w).
Proof. unfold send_multicast_multihop_request. destruct p; mm. apply fold_m. mm. Qed.
Lemma a_sumh n d s id h w : armq w (send_unicast_multihop_request n d s id h w).
Proof. unfold send_unicast_multihop_request. mm. Qed.
#[local] Hint Resolve a_smm a_sumh : adb.
Lemma a_resend1 w k : armq w (do_resend1 w k).
Proof. unfold do_resend1. mm. Qed.
Lemma a_resend w : armq w (do_resend w).
Proof. unfold do_resend. eapply armq_trans; [|apply a_recompute]. apply fold_m. apply a_resend1. Qed.
#[local] Hint Resolve a_resend : adb.

(** route.c *)
Lemma a_kresp1 w : armq w (snd (kresp1 w)). Proof. unfold kresp1. mm. Qed.
Lemma a_ktrace e w : armq w (ktrace e w). Proof. mtriv. Qed.
#[local] Hint Resolve a_kresp1 a_ktrace : adb.
Lemma a_kr1 a t d p g i m w : armq w (snd (kernel_route1 a t d p g i m w)).
Proof. unfold kernel_route1. mm. Qed.
#[local] Hint Resolve a_kr1 : adb.
Lemma a_krm t d p g i m a b c e w : armq w (snd (kernel_route_modify t d p g i m a b c e w)).
Proof. unfold kernel_route_modify. mm. Qed.
#[local] Hint Resolve a_krm : adb.
Lemma a_cra r i m w : armq w (snd (change_route_add r i m w)).
Proof. unfold change_route_add. destruct (inst_filter r i w) as [[? ?] ?]. mm. Qed.
Lemma a_crf r i m w : armq w (snd (change_route_flush r i m w)).
Proof. unfold change_route_flush. destruct (inst_filter r i w) as [[? ?] ?]. mm. Qed.
Lemma a_crm r i m a b c w : armq w (snd (change_route_modify r i m a b c w)).
Proof. unfold change_route_modify. destruct (inst_filter r i w) as [[? ?] ?]. mm. Qed.
#[local] Hint Resolve a_cra a_crf a_crm : adb.
Lemma a_mi d p w : armq w (move_installed d p w).
Proof. unfold move_installed. mm. Qed.
Lemma a_ins r w : armq w (insert_route r w).
Proof. unfold insert_route. mm. Qed.
Lemma a_selected r w o w1 : armq w1 (selected r w o w1). Proof. mtriv. Qed.
#[local] Hint Resolve a_mi a_ins a_selected : adb.
Lemma a_install p w : armq w (install_route p w).
Proof. unfold install_route. mm. Qed.
Lemma a_uninstall p w : armq w (uninstall_route p w).
Proof. unfold uninstall_route. mm. Qed.
#[local] Hint Resolve a_install a_uninstall : adb.
Lemma a_switch o p w : armq w (switch_routes o p w).
Proof. unfold switch_routes. mm. Qed.
#[local] Hint Resolve a_switch : adb.
Lemma a_smoothed p w : armq w (snd (smoothed_metric p w)).
Proof. unfold smoothed_metric. mm. Qed.
#[local] Hint Resolve a_smoothed : adb.
Lemma a_chm p a b c w : armq w (change_route_metric p a b c w).
Proof. unfold change_route_metric. mm. Qed.
#[local] Hint Resolve a_chm : adb.
Lemma a_retract p w : armq w (retract_route p w).
Proof. unfold retract_route. mm. Qed.
#[local] Hint Resolve a_retract : adb.
Lemma a_best_step f e bw q : armq (snd bw) (snd (best_step f e bw q)).
Proof. unfold best_step. destruct bw as [b w]. mm. Qed.
Lemma a_best_from f e w l : armq w (snd (best_from f e w l)).
Proof.
  induction l as [|r l IH]; cbn [best_from]; [apply armq_refl|].
  destruct (acceptable r f e w); [|exact IH].
  rewrite (surjective_pairing (fold_left _ _ _)). cbn [snd]. refine (fold_m_snd (best_step f e) (map r_ptr l) _ (r_ptr r, w)). apply a_best_step.
Qed.
Lemma a_best d f e w : armq w (snd (find_best_route d f e w)).
Proof. apply a_best_from. Qed.
#[local] Hint Resolve a_best : adb.
Lemma a_trig p k m w : armq w (send_triggered_update p k m w).
Proof. unfold send_triggered_update. mm. Qed.
#[local] Hint Resolve a_trig : adb.
Lemma a_ci p i w : armq w (consider_install p i w).
Proof. unfold consider_install. mm. Qed.
#[local] Hint Resolve a_ci : adb.
Lemma a_consider p w : armq w (consider_route p w).
Proof. unfold consider_route. mm. Qed.
#[local] Hint Resolve a_consider : adb.
Lemma a_changed p k m w : armq w (route_changed p k m w).
Proof. unfold route_changed. mm. Qed.
Lemma a_srr d s id w : armq w (send_request_resend d s id w).
Proof. unfold send_request_resend. mm. eapply armq_trans; [|apply fold_m; mm]. mm. Qed.
#[local] Hint Resolve a_changed a_srr : adb.
Lemma a_lost k m w : armq w (route_lost k m w).
Proof. unfold route_lost. mm. Qed.
Lemma a_retain k w : armq w (retain_source k w).
Proof. unfold retain_source. mm. Qed.
Lemma a_release k w : armq w (release_source k w).
Proof. unfold release_source. mm. Qed.
Lemma a_unlink d p w : armq w (unlink_route d p w).
Proof. unfold unlink_route. mm. Qed.
#[local] Hint Resolve a_lost a_retain a_release a_unlink : adb.
Lemma a_flush p w : armq w (flush_route p w).
Proof. unfold flush_route. mm. Qed.
#[local] Hint Resolve a_flush : adb.
Lemma a_flush_slot f : forall i w, armq w (flush_slot f i w).
Proof. induction f as [|f IH]; intros i w; cbn [flush_slot]; [apply a_nofuel|]. mm; (eapply armq_trans; [|apply IH]); mm. Qed.
Lemma a_fal n : forall w, armq w (flush_all_loop n w).
Proof. induction n as [|n IH]; intros w; cbn [flush_all_loop]; [apply armq_refl|]. eapply armq_trans; [|apply IH]. apply a_flush_slot. Qed.
Lemma a_flush_sel f s : forall i w, armq w (flush_sel f s i w).
Proof. induction f as [|f IH]; intros i w; cbn [flush_sel]; [apply a_nofuel|]. mm; (eapply armq_trans; [|apply IH]); mm. Qed.
Lemma a_urm p w : armq w (update_route_metric p w).
Proof. unfold update_route_metric. mm. Qed.
#[local] Hint Resolve a_urm : adb.
Lemma a_walk_slot k s f : (forall p w, armq w (f p w)) ->
  forall p w, armq w (walk_slot k s f p w).
Proof.
  intros H. induction k as [|k IH]; intros p w; cbn [walk_slot]; [apply a_nofuel|].
  mm; try (eapply armq_trans; [|apply IH]); mm; try apply H.
Qed.
Lemma a_walk_slots n k s f : (forall p w, armq w (f p w)) ->
  forall i w, armq w (walk_slots n k s f i w).
Proof.
  intros H. induction n as [|n IH]; intros i w; cbn [walk_slots]; [apply armq_refl|].
  mm; try (eapply armq_trans; [|apply IH]); mm. apply a_walk_slot, H.
Qed.
Lemma a_unm n c w : armq w (update_neighbour_metric n c w).
Proof. unfold update_neighbour_metric. mm. apply a_walk_slots, a_urm. Qed.
Lemma a_uim n w : armq w (update_interface_metric n w).
Proof. apply a_walk_slots, a_urm. Qed.
Lemma a_retract1 p w : armq w (retract1 p w).
Proof. unfold retract1. mm. Qed.
Lemma a_rnr n w : armq w (retract_neighbour_routes n w).
Proof. apply a_walk_slots, a_retract1. Qed.
#[local] Hint Resolve a_unm a_uim a_rnr : adb.
Lemma a_unf n f s m k w : armq w (send_unfeasible_request n f s m k w).
Proof. unfold send_unfeasible_request. mm. Qed.
#[local] Hint Resolve a_unf : adb.
Lemma a_uk r k f s a m c d h n w : armq w (update_known r k f s a m c d h n w).
Proof. unfold update_known. mm. Qed.
#[local] Hint Resolve a_uk : adb.
Lemma a_update id d s m iv n nh w : armq w (update_route id d s m iv n nh w).
Proof. unfold update_route. mm. Qed.
Lemma a_expire f : forall i p w, armq w (expire_loop f i p w).
Proof.
  induction f as [|f IH]; intros i p w; cbn [expire_loop]; [apply a_nofuel|].
  destruct p; mm; try (eapply armq_trans; [|apply IH]); mm.
Qed.
Lemma a_nbr n w : armq w (flush_neighbour n w).
Proof. unfold flush_neighbour. mm. apply a_flush_sel. Qed.
#[local] Hint Resolve a_nbr : adb.
Lemma a_check1 mw n : armq (snd mw) (snd (check_neighbour1 mw n)).
Proof. unfold check_neighbour1. destruct mw as [m w]. mm. Qed.
Lemma a_check w : armq w (snd (check_neighbours w)).
Proof. unfold check_neighbours. eapply armq_trans; [|apply (fold_m_snd check_neighbour1); apply a_check1]. apply armq_refl. Qed.

(** xroute.c *)
Lemma a_addx d m i p w : armq w (snd (add_xroute d m i p w)).
Proof. unfold add_xroute. mm. Qed.
Lemma a_flushx i s w : armq w (flush_xroute i s w).
Proof. unfold flush_xroute. mm. Qed.
Lemma a_mod i k u w : armq w (modify_xroute i k u w).
Proof. unfold modify_xroute. mm. Qed.
Lemma a_dup k w : armq w (flush_duplicate_route k w).
Proof. unfold flush_duplicate_route. mm. Qed.
#[local] Hint Resolve a_addx a_flushx a_mod a_dup : adb.
Lemma a_notify a k w : armq w (kernel_route_notify a k w).
Proof. unfold kernel_route_notify. mm. Qed.
Lemma a_merge f s : forall rs j w, armq w (merge f rs j s w).
Proof.
  induction f as [|f IH]; intros rs j w; cbn [merge]; [apply a_nofuel|].
  destruct rs; mm; try (eapply armq_trans; [|apply IH]); mm.
Qed.
Lemma a_scan a r s w : armq w (check_xroutes a r s w).
Proof. apply a_merge. Qed.

(** the daemon *)
Lemma a_on_nb n f w : armq w (on_nb n f w).
Proof. unfold on_nb. destruct (get_nb n w) as [nb|]; [|apply a_fault]. destruct (f nb). mm. Qed.
Lemma a_myseqno w : armq w (update_myseqno w). Proof. mtriv. Qed.
#[local] Hint Resolve a_myseqno : adb.
Lemma a_request n d hop s id w : armq w (handle_request n d hop s id w).
Proof.
  unfold handle_request.
  assert (B : armq w (snd (find_best_route d false (Some n) w))) by apply a_best.
  destruct (find_best_route d false (Some n) w) as [b w1]. cbn [snd] in B.
  destruct (find_installed d w); mm; try exact B. 
Qed.
#[local] Hint Resolve a_request a_on_nb : adb.
Lemma a_find a i w : armq w (find_neighbour a i w).
Proof. unfold find_neighbour. mm. Qed.
Lemma a_hello n u q iv w : armq w (recv_hello n u q iv w).
Proof. apply a_on_nb. Qed.
Lemma a_ihu n c iv w : armq w (recv_ihu n c iv w).
Proof. apply a_on_nb. Qed.
Lemma a_rtt n a b w : armq w (recv_rtt n a b w).
Proof. unfold recv_rtt. mm. Qed.
Lemma a_recv_request n d w : armq w (recv_request n d w).
Proof. unfold recv_request. mm. Qed.

Lemma armed_later t t' i : us t <= us t' -> armed t i -> armed t' i.
Proof. intros L H N. destruct (H N). split; [auto|lia]. Qed.
Lemma run1_arm ev w : allowed ev w -> orderly ev w -> armI w -> armI (run1 ev w).
Proof.
  intros A O H.
  assert (Q : forall w', armq w w' -> armI w') by (intros w' (_ & X); auto).
  destruct ev; cbn [run1 orderly allowed] in *.
  - destruct H as ((H1 & H2) & H3 & H4). split; [split; cbn [w_now set_w_now]; [exact A|unfold tv_ok, us in *; lia]|]. split; [exact H3|].
    intros i Hi. destruct (H4 i Hi) as (X & Y). split; [exact X|]. eapply armed_later; [exact O|exact Y].
  - apply Q; apply armq_same; reflexivity.
  - apply Q; apply a_update.
  - apply Q; apply a_rnr.
  - apply Q; apply a_recv_request.
  - apply Q; apply a_request.
  - apply Q; apply a_hello.
  - apply Q; apply armq_same; reflexivity.
  - apply Q; apply a_ihu.
  - apply Q; apply a_rtt.
  - apply Q; apply a_find.
  - apply Q; apply armq_same; reflexivity.
  - apply Q; apply a_check.
  - destruct O as (O1 & O2). destruct H as (H1 & H3 & H4). split; [exact H1|]. split; [rewrite ids_map_if'; auto|].
    intros j Hj. apply In_map_if in Hj. destruct Hj as (k & Hk & ->). destruct (H4 k Hk) as ((X1 & X2 & X3) & Y).
    destruct (if_id k =? if_id i) eqn:E; [|split; [split; auto|exact Y]]. apply Z.eqb_eq in E. destruct (O2 k Hk E) as (P1 & [(P2 & P3)|(P2 & P3)]).
    + split; [split; [rewrite P1; exact X1|split; [exact O1|rewrite P2, P3; exact X3]]|]. intros N. rewrite P1. apply Y. rewrite <- P2. exact N.
    + split; [split; [rewrite P1; exact X1|split; [exact O1|rewrite P2, P3; cbn; lia]]|]. intros N. contradiction.
  - destruct A as (A & _). destruct O as (O1 & O2 & O3 & O4). destruct H as (H1 & H3 & H4). split; [exact H1|]. cbn [w_ifs set_w_ifs]. split.
    + rewrite map_app. cbn [map]. apply NoDup_app_one; auto.
    + intros j Hj. apply in_app_or in Hj. destruct Hj as [Hj|[<-|[]]]; [apply H4, Hj|]. split.
      * split; [rewrite O4; unfold tv_ok; cbn; lia|]. split; [exact O1|]. rewrite O2, O3. cbn. lia.
      * intros N. contradiction.
  - destruct H as (H1 & H3 & H4). split; [exact H1|]. cbn [w_ifs set_w_ifs]. split.
    + apply NoDup_map_filter, H3.
    + intros j Hj. apply filter_In in Hj. apply H4, Hj.
  - apply Q; apply a_uim.
  - apply Q; apply a_flush_sel.
  - apply Q; apply a_expire.
  - apply Q; apply a_srcs.
  - apply Q; apply a_notify.
  - apply Q; apply a_scan.
  - apply Q; apply a_flushupdates.
  - apply Q; destruct d; [apply a_sui|apply a_full].
  - apply Q; apply a_sua.
  - apply Q; apply a_self.
  - apply Q; apply a_retr.
  - apply Q; apply a_smr.
  - apply Q; apply a_resend.
  - apply Q; apply a_expire_resend.
  - apply Q; apply a_myseqno.
  - apply Q; apply a_fal.
Qed.
Lemma oreach_reach c w : oreach c w -> reach c w.
Proof. induction 1; [apply reach_boot; auto|apply reach_run; auto]. Qed.
Lemma oreach_arm c w : oreach c w -> armI w.
Proof.
  induction 1 as [now ifs seqno N F T S T1 U Hh|w ev R IH A O].
  - split; [split; auto|]. split; [exact N|]. intros i Hi. cbn [w_ifs boot] in Hi. rewrite Forall_forall in U, Hh.
    destruct (U i Hi) as (U1 & U2 & U3). split.
    + split; [rewrite U3; unfold tv_ok; cbn; lia|]. split; [apply Hh, Hi|]. rewrite U1, U2. cbn. lia.
    + intros X. contradiction.
  - apply run1_arm; auto.
Qed.

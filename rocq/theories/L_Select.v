(** L_Select.v: smoothing, selection and loss of routes are quiet chains. *)
From Verif Require Import Base M_Util S_Util L_Util M_Slot L_Slot M_Source S_Source L_Source
  M_Filter M_Types M_Neigh M_State M_Table M_Msg M_Route S_World L_Table L_Step L_Msg L_Smooth L_Quiet.
From Coq Require Import Permutation.

(** ** Smoothing *)

(** Only smoothing happened. *)
Definition rsm (r r' : route) : Prop := core r' = core r /\ r_installed r' = r_installed r.
Record smw (w w' : world) : Prop := mkSmw {
  sm_eq : w' = set_w_rt (w_rt w') (set_w_rnd (w_rnd w') w);
  sm_rt : Forall2 (Forall2 rsm) (w_rt w) (w_rt w') }.

Lemma Forall2_refl : forall A (R : A -> A -> Prop) l, (forall x, R x x) -> Forall2 R l l.
Proof. induction l; constructor; auto. Qed.
Lemma Forall2_trans : forall A (R : A -> A -> Prop), (forall x y z, R x y -> R y z -> R x z) ->
  forall a b c, Forall2 R a b -> Forall2 R b c -> Forall2 R a c.
Proof. intros A R T a b c H. revert c. induction H; intros c G; inversion G; subst; constructor; eauto. Qed.
Lemma rsm_refl : forall r, rsm r r. Proof. split; auto. Qed.
Lemma rsm_trans : forall x y z, rsm x y -> rsm y z -> rsm x z.
Proof. intros x y z (A & B) (C & D). split; congruence. Qed.
Lemma smw_refl : forall w, smw w w.
Proof. intros. split; [destruct w; auto|]. apply Forall2_refl. intros. apply Forall2_refl. apply rsm_refl. Qed.
Lemma smw_trans : forall a b c, smw a b -> smw b c -> smw a c.
Proof.
  intros a b c (E1 & R1) (E2 & R2). split.
  - rewrite E2 at 1. rewrite E1 at 1. reflexivity.
  - eapply Forall2_trans; eauto. intros x y z. apply Forall2_trans. apply rsm_trans.
Qed.
Lemma Forall2_map : forall A (R : A -> A -> Prop) f l, (forall x, In x l -> R x (f x)) -> Forall2 R l (map f l).
Proof. induction l; intros H; constructor; [apply H; simpl; auto|apply IHl; intros; apply H; simpl; auto]. Qed.
Lemma smw_map_ptr : forall p f rnd w, (forall r, rsm r (f r)) -> smw w (map_ptr p f (set_w_rnd rnd w)).
Proof.
  intros p f rnd w H. split; [destruct w; reflexivity|]. cbn. apply Forall2_map. intros l _.
  apply Forall2_map. intros r _. destruct (is_ptr p r); auto. apply rsm_refl.
Qed.
Lemma smw_srcs : forall w w', smw w w' -> w_srcs w' = w_srcs w.
Proof. intros w w' H. rewrite (sm_eq _ _ H). reflexivity. Qed.
Lemma smw_now : forall w w', smw w w' -> w_now w' = w_now w.
Proof. intros w w' H. rewrite (sm_eq _ _ H). reflexivity. Qed.
Lemma smw_cfg : forall w w', smw w w' -> w_cfg w' = w_cfg w.
Proof. intros w w' H. rewrite (sm_eq _ _ H). reflexivity. Qed.
Lemma smw_xr : forall w w', smw w w' -> w_xr w' = w_xr w.
Proof. intros w w' H. rewrite (sm_eq _ _ H). reflexivity. Qed.
Lemma smw_nb_if : forall w w' n, smw w w' -> nb_if n w' = nb_if n w.
Proof. intros w w' n H. rewrite (sm_eq _ _ H). reflexivity. Qed.

Lemma feasible_core : forall r r' w w', core r' = core r -> w_srcs w' = w_srcs w -> w_now w' = w_now w ->
  feasible r' w' = feasible r w.
Proof.
  intros r r' w w' C S N. apply core_fields in C. unfold feasible, src_of, sec.
  destruct C as (_ & -> & -> & _ & _ & -> & _). rewrite S, N. auto.
Qed.
Lemma acceptable_core : forall r r' f x w w', core r' = core r -> w_srcs w' = w_srcs w -> w_now w' = w_now w ->
  acceptable r' f x w' = acceptable r f x w.
Proof.
  intros r r' f x w w' C S N. unfold acceptable. rewrite (feasible_core r r' w w'); auto.
  apply core_fields in C. unfold route_expired, sec. rewrite N.
  destruct C as (_ & _ & _ & _ & _ & _ & -> & _ & -> & ->). auto.
Qed.

Lemma route_metric_rng : forall r, route_rng r -> 0 <= route_metric r <= INFINITY.
Proof. intros r (A & B & C & _). unfold route_metric, u16_ok, INFINITY in *. lia. Qed.

Lemma smooth_upd_rsm : forall m t r, rsm r (smooth_upd m t r).
Proof. intros. split; reflexivity. Qed.

Lemma smoothed_spec : forall e w p r, W e w -> find_ptr p w = Some r ->
  exists m rnd, let w1 := map_ptr p (smooth_upd m (sec w)) (set_w_rnd rnd w) in
    smoothed_metric p w = (m, w1) /\ quiet e w w1 /\ smw w w1 /\
    find_ptr p w1 = Some (smooth_upd m (sec w) r) /\
    smooth (sec w) (c_half_life (w_cfg w)) (route_metric r) (r_smoothed r) (r_smoothed_time r) (w_rnd w)
      = (m, sec w, rnd, true).
Proof.
  intros e w p r Hw F. assert (Hr : In r (all_routes w)) by (apply find_ptr_In in F; tauto).
  pose proof (W_rng _ _ Hw r Hr) as R.
  destruct (smooth (sec w) (c_half_life (w_cfg w)) (route_metric r) (r_smoothed r) (r_smoothed_time r) (w_rnd w))
    as [[[m t] rnd] ok] eqn:E.
  pose proof E as E'. apply smooth_spec in E'; [|apply R|apply route_metric_rng; auto|left; apply (W_hl _ _ Hw)].
  destruct E' as (B & -> & ->). exists m, rnd. cbv zeta.
  assert (U : u16_ok m).
  { eapply between_u16; [| |exact B]; [apply R|]. pose proof (route_metric_rng r R). unfold u16_ok, INFINITY in *. lia. }
  split; [unfold smoothed_metric; rewrite F, E; reflexivity|].
  split; [apply quiet_step; eapply S_smooth; eauto|].
  split; [apply smw_map_ptr; intros; apply smooth_upd_rsm|].
  split; [|reflexivity]. rewrite find_ptr_map_ptr by auto.
  change (find_ptr p (set_w_rnd rnd w)) with (find_ptr p w). rewrite F. cbn [option_map]. unfold upd_route.
  replace (is_ptr p r) with true; auto. apply find_ptr_ptr in F. unfold is_ptr. lia.
Qed.

(** The smoothed metric has been brought up to date. *)
Definition settled (w : world) (r : route) : Prop :=
  forall rnd, smooth (sec w) (c_half_life (w_cfg w)) (route_metric r) (r_smoothed r) (r_smoothed_time r) rnd
    = (r_smoothed r, sec w, rnd, true).

Lemma smooth_idem : forall now hl metric sm t rnd sm' rnd',
  smooth now hl metric sm t rnd = (sm', now, rnd', true) ->
  forall rnd2, smooth now hl metric sm' now rnd2 = (sm', now, rnd2, true).
Proof.
  intros now hl metric sm t rnd sm' rnd' H rnd2. unfold smooth in *.
  destruct ((hl <=? 0) || (metric >=? INFINITY) || (t >? now) || (sm =? metric)) eqn:C.
  - inversion H; subst. rewrite Z.eqb_refl, orb_true_r. auto.
  - destruct (smooth1 (S (Z.to_nat (now - t))) now hl metric sm t rnd) as [[sm1 t1] r1].
    destruct (smooth2 (S (Z.to_nat (now - t1))) now (two_hl hl) metric sm1 t1 r1 true) as [[[sm2 t2] r2] ok].
    inversion H as [[H1 H2 H3 H4]]. clear H. rewrite H1.
    assert (Hl : (hl <=? 0) = false /\ (metric >=? INFINITY) = false) by (rewrite !orb_false_iff in C; tauto).
    destruct Hl as (L1 & L2). rewrite L1, L2. cbn [orb].
    replace (now >? now) with false by (symmetry; lia). cbn [orb].
    destruct (sm' =? metric) eqn:M; [replace sm' with metric by lia; auto|].
    cbn [smooth1]. replace (now <=? now - hl) with false by (symmetry; lia).
    cbn [smooth2]. replace (now <? now) with false by (symmetry; lia).
    destruct ((metric - sm2 >? -4) && (metric - sm2 <? 4)) eqn:D; [lia|].
    subst sm2. rewrite D, Z.eqb_refl. rewrite !andb_true_r. auto.
Qed.

Lemma settled_after : forall e w p r, W e w -> find_ptr p w = Some r ->
  exists m rnd, let w1 := map_ptr p (smooth_upd m (sec w)) (set_w_rnd rnd w) in
    smoothed_metric p w = (m, w1) /\ quiet e w w1 /\ smw w w1 /\
    find_ptr p w1 = Some (smooth_upd m (sec w) r) /\ settled w1 (smooth_upd m (sec w) r) /\
    (settled w r -> smooth_upd m (sec w) r = smooth_upd (r_smoothed r) (sec w) r).
Proof.
  intros e w p r Hw F. destruct (smoothed_spec e w p r Hw F) as (m & rnd & E & Q & S & F1 & Sm).
  exists m, rnd. cbv zeta. split; auto. split; auto. split; auto. split; auto. split.
  - intros rnd2. cbn. apply (smooth_idem _ _ _ _ _ _ _ _ Sm rnd2).
  - intros St. specialize (St (w_rnd w)). rewrite Sm in St. inversion St; subst. auto.
Qed.

Lemma find_other : forall p q f w, (forall r, r_ptr (f r) = r_ptr r) -> p <> q ->
  find_ptr q (map_ptr p f w) = find_ptr q w.
Proof.
  intros p q f w K N. rewrite find_ptr_map_ptr by auto. destruct (find_ptr q w) as [r|] eqn:F; auto.
  cbn. unfold upd_route. apply find_ptr_ptr in F. replace (is_ptr p r) with false; auto.
  unfold is_ptr. symmetry. apply Z.eqb_neq. lia.
Qed.

Lemma settled_sm : forall w w' r, smw w w' -> settled w r -> settled w' r.
Proof.
  intros w w' r S H rnd. unfold sec. rewrite (smw_now _ _ S), (smw_cfg _ _ S). apply H.
Qed.

(** ** find_best_route *)
Section Best.
Variable (feas : bool) (ex : option Z) (e : list skey).

(** [done]: the eligible routes seen so far; [b] the best of them. *)
Definition BI (w0 : world) (done : list Z) (b : Z) (w : world) : Prop :=
  W e w /\ quiet e w0 w /\ smw w0 w /\ In b done /\
  forall x, In x done -> exists rx rb,
    find_ptr x w = Some rx /\ find_ptr b w = Some rb /\
    acceptable rx feas ex w = true /\ acceptable rb feas ex w = true /\
    (x = b \/ (settled w rx /\ settled w rb /\ r_smoothed rb <= r_smoothed rx)).

Definition is_elig (w : world) (q : Z) : bool :=
  match find_ptr q w with Some r => acceptable r feas ex w | None => false end.


Lemma best_step_inv : forall w0 done b w q, BI w0 done b w -> find_ptr q w <> None -> ~ In q done ->
  let '(b', w') := best_step feas ex (b, w) q in
  BI w0 (if is_elig w q then done ++ [q] else done) b' w'.
Proof.
  intros w0 done b w q (Hw & Q & S & Hb & H) Hq Nq. unfold best_step, is_elig.
  destruct (find_ptr q w) as [r|] eqn:F; [|contradiction].
  destruct (acceptable r feas ex w) eqn:A; [|split; auto].
  destruct (settled_after e w q r Hw F) as (m1 & rnd1 & E1 & Q1 & S1 & F1 & T1 & _).
  rewrite E1. set (w1 := map_ptr q (smooth_upd m1 (sec w)) (set_w_rnd rnd1 w)) in *.
  pose proof (quiet_W _ _ _ Q1 Hw) as Hw1.
  destruct (H b Hb) as (rb & rb' & Fb & Fb' & _ & Ab & _). rewrite Fb in Fb'. inversion Fb'; subst rb'. clear Fb'.
  assert (Nqb : q <> b) by congruence.
  assert (Fb1 : find_ptr b w1 = Some rb).
  { unfold w1. rewrite find_other; auto. }
  destruct (settled_after e w1 b rb Hw1 Fb1) as (m2 & rnd2 & E2 & Q2 & S2 & F2 & T2 & U2).
  rewrite E2. set (w2 := map_ptr b (smooth_upd m2 (sec w1)) (set_w_rnd rnd2 w1)) in *.
  pose proof (quiet_W _ _ _ Q2 Hw1) as Hw2.
  assert (Fq2 : find_ptr q w2 = Some (smooth_upd m1 (sec w) r)).
  { unfold w2. rewrite find_other; auto. }
  pose proof (settled_sm _ _ _ S2 T1) as T1'.
  assert (S12 : smw w w2) by (eapply smw_trans; eauto).
  assert (Aq : acceptable (smooth_upd m1 (sec w) r) feas ex w2 = true).
  { rewrite (acceptable_core r) with (w := w); auto using smw_srcs, smw_now. }
  assert (Abb : acceptable (smooth_upd m2 (sec w1) rb) feas ex w2 = true).
  { rewrite (acceptable_core rb) with (w := w); auto using smw_srcs, smw_now. }
  (* the others are unchanged *)
  assert (Ho : forall x, In x done -> x <> b -> exists rx, find_ptr x w2 = Some rx /\
     acceptable rx feas ex w2 = true /\ settled w2 rx /\ m2 <= r_smoothed rx).
  { intros x Hx Nx. destruct (H x Hx) as (rx & rb2 & Fx & Fb2 & Ax & _ & [C|(C1 & C2 & C3)]); [contradiction|].
    rewrite Fb in Fb2. inversion Fb2; subst rb2. exists rx.
    assert (x <> q) by congruence.
    split; [|split; [|split]].
    - unfold w2. rewrite find_other by auto. unfold w1. change (find_ptr x (map_ptr q (smooth_upd m1 (sec w)) (set_w_rnd rnd1 w)) = Some rx).
      rewrite find_other by auto. exact Fx.
    - rewrite (acceptable_core rx) with (w := w); auto using smw_srcs, smw_now.
    - eapply settled_sm; eauto.
    - assert (St : settled w1 rb) by (eapply settled_sm; eauto). apply U2 in St.
      apply (f_equal r_smoothed) in St. cbn in St. rewrite St. auto. }
  split; [auto|]. split; [eapply quiet_trans; [exact Q|]; eapply quiet_trans; eauto|].
  split; [eapply smw_trans; eauto|].
  destruct (m1 <? m2) eqn:C.
  - split; [apply in_or_app; simpl; auto|]. intros x Hx. apply in_app_or in Hx.
    destruct Hx as [Hx|[<-|[]]].
    + destruct (Z.eq_dec x b) as [->|N].
      * exists (smooth_upd m2 (sec w1) rb), (smooth_upd m1 (sec w) r).
        split; auto. split; auto. split; auto. split; auto. right. split; auto. split; auto.
        cbn. lia.
      * destruct (Ho x Hx N) as (rx & X1 & X2 & X3 & X4). exists rx, (smooth_upd m1 (sec w) r).
        split; auto. split; auto. split; auto. split; auto. right. split; auto. split; auto. cbn. lia.
    + exists (smooth_upd m1 (sec w) r), (smooth_upd m1 (sec w) r). auto 8.
  - split; [apply in_or_app; simpl; auto|]. intros x Hx. apply in_app_or in Hx.
    destruct Hx as [Hx|[<-|[]]].
    + destruct (Z.eq_dec x b) as [->|N].
      * exists (smooth_upd m2 (sec w1) rb), (smooth_upd m2 (sec w1) rb). auto 8.
      * destruct (Ho x Hx N) as (rx & X1 & X2 & X3 & X4). exists rx, (smooth_upd m2 (sec w1) rb).
        auto 10.
    + exists (smooth_upd m1 (sec w) r), (smooth_upd m2 (sec w1) rb).
      split; auto. split; auto. split; auto. split; auto. right. split; auto. split; auto. cbn. lia.
Qed.

Lemma best_fold : forall w0 l done b w, W e w0 -> BI w0 done b w -> (forall q, In q l -> find_ptr q w0 <> None) ->
  NoDup l -> (forall q, In q l -> ~ In q done) ->
  let '(b', w') := fold_left (best_step feas ex) l (b, w) in
  BI w0 (done ++ filter (is_elig w0) l) b' w'.
Proof.
  intros w0 l. induction l as [|q l IH]; intros done b w Hw0 I F N D; cbn [fold_left filter].
  - rewrite app_nil_r. auto.
  - assert (Fq : find_ptr q w <> None).
    { pose proof I as (Hw & Q & _). specialize (F q (or_introl eq_refl)). destruct (find_ptr q w0) as [r|] eqn:E; [|contradiction].
      destruct (quiet_find _ _ _ _ _ Hw0 Q E) as (r' & -> & _). discriminate. }
    pose proof (best_step_inv w0 done b w q I Fq (D q (or_introl eq_refl))) as I'.
    destruct (best_step feas ex (b, w) q) as [b1 w1].
    assert (Eq : is_elig w q = is_elig w0 q).
    { unfold is_elig. destruct (find_ptr q w0) as [r|] eqn:E; [|exfalso; apply (F q); simpl; auto].
      pose proof I as (Hw & Q & S & _). destruct (quiet_find _ _ _ _ _ Hw0 Q E) as (r' & -> & C).
      apply acceptable_core; auto using smw_srcs, smw_now. }
    inversion N; subst.
    assert (D' : forall x, In x l -> ~ In x (if is_elig w0 q then done ++ [q] else done)).
    { intros x Hx. destruct (is_elig w0 q); [|apply D; simpl; auto]. intros Hi. apply in_app_or in Hi.
      destruct Hi as [Hi|[<-|[]]]; [|contradiction]. apply (D x); simpl; auto. }
    rewrite Eq in I'.
    specialize (IH (if is_elig w0 q then done ++ [q] else done) b1 w1 Hw0 I' (fun x Hx => F x (or_intror Hx)) H2 D').
    destruct (fold_left (best_step feas ex) l (b1, w1)) as [b' w'].
    destruct (is_elig w0 q); auto. rewrite <- app_assoc in IH. auto.
Qed.

Lemma slot_ptrs : forall w d, rt_wf (w_rt w) -> NoDup (map r_ptr (slot_of d w)).
Proof.
  intros w d Wf. destruct (slot_of_cases d w Wf) as [(E & _)|(H & _)]; [rewrite E; constructor|].
  apply in_split in H. destruct H as (A & B & E). pose proof (wf_ptrs _ Wf) as N. rewrite E in N.
  eapply NoDup_concat_slot; eauto.
Qed.
Lemma slot_In : forall w d r, rt_wf (w_rt w) -> In r (slot_of d w) -> In r (all_routes w).
Proof.
  intros w d r Wf H. destruct (slot_of_cases d w Wf) as [(E & _)|(G & _)]; [rewrite E in H; contradiction|].
  apply in_concat. eauto.
Qed.

(** The eligible routes of a slot *)
Definition elig (w : world) (d : dest) : list Z :=
  map r_ptr (filter (fun r => acceptable r feas ex w) (slot_of d w)).

Lemma elig_ptrs : forall w l, rt_wf (w_rt w) -> (forall r, In r l -> In r (all_routes w)) ->
  filter (is_elig w) (map r_ptr l) = map r_ptr (filter (fun r => acceptable r feas ex w) l).
Proof.
  intros w l Wf. induction l as [|a l IH]; intros H; auto. cbn [map filter].
  assert (E : is_elig w (r_ptr a) = acceptable a feas ex w).
  { unfold is_elig. rewrite (proj2 (find_ptr_iff (r_ptr a) w a Wf)); auto. split; auto. apply H. simpl. auto. }
  rewrite E, IH by (intros; apply H; simpl; auto). destruct (acceptable a feas ex w); auto.
Qed.

Lemma find_best_spec : forall w d, W e w ->
  match find_best_route d feas ex w with
  | (None, w') => w' = w /\ elig w d = []
  | (Some b, w') => BI w (elig w d) b w'
  end.
Proof.
  intros w d Hw. pose proof (W_rt _ _ Hw) as Wf. unfold find_best_route, elig.
  pose proof (slot_ptrs w d Wf) as N. pose proof (fun r => slot_In w d r Wf) as I.
  revert N I. generalize (slot_of d w). induction l as [|r l IH]; intros N I; [simpl; auto|].
  cbn [map] in N. inversion N; subst. cbn [filter best_from].
  destruct (acceptable r feas ex w) eqn:A.
  - assert (F : find_ptr (r_ptr r) w = Some r).
    { apply find_ptr_iff; auto. split; auto. apply I. simpl. auto. }
    assert (B0 : BI w [r_ptr r] (r_ptr r) w).
    { split; auto. split; [apply quiet_refl|]. split; [apply smw_refl|]. split; [simpl; auto|].
      intros x [<-|[]]. exists r, r. auto 8. }
    pose proof (best_fold w (map r_ptr l) [r_ptr r] (r_ptr r) w Hw B0) as G.
    rewrite elig_ptrs in G; auto; [|intros; apply I; simpl; auto].
    destruct (fold_left (best_step feas ex) (map r_ptr l) (r_ptr r, w)) as [b w'].
    apply G; auto.
    + intros q Hq. apply in_map_iff in Hq. destruct Hq as (x & <- & Hx).
      rewrite (proj2 (find_ptr_iff (r_ptr x) w x Wf)); [discriminate|]. split; auto. apply I. simpl. auto.
    + intros q Hq [<-|[]]. contradiction.
  - apply IH; auto. intros; apply I; simpl; auto.
Qed.

(** What the callers need *)
Lemma find_best_chain : forall w d b w1, W e w -> find_best_route d feas ex w = (b, w1) ->
  quiet e w w1 /\ smw w w1 /\
  match b with
  | None => True
  | Some q => exists r, find_ptr q w1 = Some r /\ acceptable r feas ex w1 = true /\
      exists r0, In r0 (slot_of d w) /\ r_ptr r0 = q /\ core r = core r0
  end.
Proof.
  intros w d b w1 Hw E. pose proof (find_best_spec w d Hw) as S. rewrite E in S. destruct b as [q|].
  - destruct S as (Hw1 & Q & S & Hq & H). split; auto. split; auto.
    destruct (H q Hq) as (r & _ & F & _ & A & _). exists r. split; auto. split; auto.
    unfold elig in Hq. apply in_map_iff in Hq. destruct Hq as (x & Ex & Hx). apply filter_In in Hx.
    destruct Hx as (Hx & _). exists x. split; auto. split; auto.
    assert (Fx : find_ptr q w = Some x).
    { apply find_ptr_iff; [apply (W_rt _ _ Hw)|]. split; auto. eapply slot_In; eauto. apply (W_rt _ _ Hw). }
    destruct (quiet_find _ _ _ _ _ Hw Q Fx) as (r' & F' & C). congruence.
  - destruct S as (-> & _). split; [apply quiet_refl|]. split; [apply smw_refl|auto].
Qed.
End Best.

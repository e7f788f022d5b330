(** L_Smooth.v: metric smoothing (route.c:652-709). *)
From Verif Require Import Base M_Util L_Util M_Source M_Filter M_Types M_State M_Table M_Msg M_Route S_World.

Definition between (a b x : Z) : Prop := Z.min a b <= x <= Z.max a b.

Lemma rnd1_nonneg : forall l r l', rnd1 l = (r, l') -> 0 <= r.
Proof.
  unfold rnd1. intros l r l' H. destruct l; inversion H; subst; [lia|].
  apply Z.mod_pos_bound. lia.
Qed.

(** A step of a fraction num/den <= 4/5 of roughly the difference stays between. *)
Lemma roughly_frac : forall d r num den, 0 <= r -> 0 < den -> 0 <= num -> 5 * num <= 4 * den ->
  between 0 d (Z.quot (roughly d r * num) den).
Proof.
  assert (Pos : forall d r num den, 0 <= d -> 0 <= r -> 0 < den -> 0 <= num -> 5 * num <= 4 * den ->
     0 <= Z.quot (roughly d r * num) den <= d).
  { intros d r num den Hd Hr Hden Hn Hf. destruct (roughly_nonneg d r Hr Hd) as (A & B).
    rewrite Z.quot_div_nonneg by nia. split.
    - apply Z.div_pos; nia.
    - apply Z.div_le_upper_bound; [auto|]. nia. }
  intros d r num den Hr Hden Hn Hf. unfold between. destruct (Z_le_gt_dec 0 d) as [H|H].
  - specialize (Pos d r num den H Hr Hden Hn Hf). lia.
  - specialize (Pos (- d) r num den ltac:(lia) Hr Hden Hn Hf).
    rewrite roughly_opp in Pos by lia.
    replace (roughly d r * num) with (- (- roughly d r * num)) by ring.
    rewrite Z.quot_opp_l by lia. lia.
Qed.

Lemma u16_id : forall x, 0 <= x < 65536 -> u16 x = x.
Proof. intros. unfold u16. apply Z.mod_small. auto. Qed.

Lemma step_between : forall metric sm r num den, u16_ok sm -> u16_ok metric ->
  0 <= r -> 0 < den -> 0 <= num -> 5 * num <= 4 * den ->
  between sm metric (u16 (sm + Z.quot (roughly (metric - sm) r * num) den)).
Proof.
  intros metric sm r num den Hs Hm Hr H1 H2 H3.
  pose proof (roughly_frac (metric - sm) r num den Hr H1 H2 H3) as B.
  unfold between, u16_ok in *. rewrite u16_id; lia.
Qed.

Lemma between_u16 : forall a b x, u16_ok a -> u16_ok b -> between a b x -> u16_ok x.
Proof. unfold between, u16_ok. lia. Qed.
Lemma between_trans : forall sm m x y, between sm m x -> between x m y -> between sm m y.
Proof. unfold between. lia. Qed.

Lemma smooth1_spec : forall fuel now hl metric sm t rnd sm' t' rnd',
  0 < hl -> u16_ok sm -> u16_ok metric -> t <= now -> (Z.to_nat (now - t) < fuel)%nat ->
  smooth1 fuel now hl metric sm t rnd = (sm', t', rnd') ->
  between sm metric sm' /\ now - hl < t' <= now.
Proof.
  induction fuel as [|f IH]; intros now hl metric sm t rnd sm' t' rnd' Hhl Hs Hm Ht Hf; [lia|].
  cbn [smooth1]. destruct (t <=? now - hl) eqn:C.
  - destruct (rnd1 rnd) as [r rnd1'] eqn:R. apply rnd1_nonneg in R. intros H.
    pose proof (step_between metric sm r 1 2 Hs Hm R ltac:(lia) ltac:(lia) ltac:(lia)) as B.
    rewrite Z.mul_1_r in B. apply IH in H; auto; try lia.
    + destruct H as (H1 & H2). split; auto. eapply between_trans; eauto.
    + apply (between_u16 sm metric); auto.
  - intros H. inversion H; subst. unfold between. lia.
Qed.

Lemma two_hl_bounds : forall hl, 2 <= hl -> 65536 <= two_hl hl /\ 5 * (two_hl hl - 65536) <= 4 * 65536 /\
  (hl <> 2 -> two_hl hl - 65536 <= 17034).
Proof.
  intros hl H. unfold two_hl. destruct (hl <=? 0) eqn:E0; [lia|]. destruct (hl =? 1) eqn:E1; [lia|].
  destruct (hl =? 2) eqn:E2; [lia|]. destruct (hl =? 3) eqn:E3; [lia|].
  destruct (hl =? 4) eqn:E4; [lia|].
  assert (0 <= 45426 / hl <= 45426 / 5).
  { split; [apply Z.div_pos; lia|]. apply Z.div_le_compat_l; lia. }
  replace (45426 / 5) with 9085 in H0 by reflexivity. lia.
Qed.

Lemma roughly_abs : forall d r, 0 <= r -> 4 * Z.abs (roughly d r) <= 5 * Z.abs d.
Proof.
  intros d r Hr. destruct (Z_le_gt_dec 0 d) as [H|H].
  - destruct (roughly_nonneg d r Hr H). lia.
  - destruct (roughly_nonneg (- d) r Hr ltac:(lia)) as (A & B). rewrite roughly_opp in * by lia. lia.
Qed.

Lemma smooth2_spec : forall fuel now two metric sm t rnd ok sm' t' rnd' ok',
  65536 <= two -> 5 * (two - 65536) <= 4 * 65536 -> u16_ok sm -> u16_ok metric ->
  5 * Z.abs (metric - sm) * (two - 65536) <= 4 * 2147483647 ->
  t <= now -> (Z.to_nat (now - t) < fuel)%nat ->
  smooth2 fuel now two metric sm t rnd ok = (sm', t', rnd', ok') ->
  between sm metric sm' /\ t' = now /\ ok' = ok.
Proof.
  induction fuel as [|f IH]; intros now two metric sm t rnd ok sm' t' rnd' ok' H1 H2 Hs Hm Ho Ht Hf; [lia|].
  cbn [smooth2]. destruct (t <? now) eqn:C.
  - destruct (rnd1 rnd) as [r rnd1'] eqn:R. apply rnd1_nonneg in R. intros H.
    pose proof (step_between metric sm r (two - 65536) 65536 Hs Hm R ltac:(lia) ltac:(lia) ltac:(lia)) as B.
    assert (O : int_ok (roughly (metric - sm) r * (two - 65536)) = true).
    { pose proof (roughly_abs (metric - sm) r R).
      assert (Z.abs (roughly (metric - sm) r * (two - 65536)) <= 2147483647).
      { rewrite Z.abs_mul, (Z.abs_eq (two - 65536)) by lia. nia. }
      unfold int_ok. lia. }
    rewrite O, andb_true_r in H.
    apply IH in H; auto; try lia.
    + destruct H as (A & E1 & E2). split; [|auto]. eapply between_trans; eauto.
    + apply (between_u16 sm metric); auto.
    + unfold between in B. nia.
  - intros H. inversion H; subst. unfold between. split; [lia|]. split; [lia|auto].
Qed.

Lemma smooth_spec : forall now hl metric sm t rnd sm' t' rnd' ok,
  u16_ok sm -> 0 <= metric <= INFINITY ->
  (hl <> 2 \/ Z.abs (metric - sm) <= 63286) ->
  smooth now hl metric sm t rnd = (sm', t', rnd', ok) ->
  between sm metric sm' /\ ok = true /\ t' = now.
Proof.
  intros now hl metric sm t rnd sm' t' rnd' ok Hs Hm Ho. unfold smooth.
  assert (Hm' : u16_ok metric) by (unfold u16_ok, INFINITY in *; lia).
  destruct ((hl <=? 0) || (metric >=? INFINITY) || (t >? now) || (sm =? metric)) eqn:C.
  { intros H; inversion H; subst. unfold between. split; [lia|auto]. }
  destruct (smooth1 _ now hl metric sm t rnd) as [[sm1 t1] r1] eqn:E1.
  apply smooth1_spec in E1; auto; try lia. destruct E1 as (B1 & T1).
  assert (Hs1 : u16_ok sm1) by (apply (between_u16 sm metric); auto).
  destruct (smooth2 _ now (two_hl hl) metric sm1 t1 r1 true) as [[[sm2 t2] r2] ok2] eqn:E2.
  assert (S2 : between sm metric sm2 /\ t2 = now /\ ok2 = true).
  { destruct (Z.eq_dec hl 1) as [->|N1].
    - assert (t1 = now) by lia. subst t1. cbn [smooth2] in E2.
      replace (now <? now) with false in E2 by (symmetry; apply Z.ltb_irrefl).
      inversion E2; subst. auto.
    - destruct (two_hl_bounds hl ltac:(lia)) as (A1 & A2 & A3).
      apply smooth2_spec in E2; auto; try lia.
      + destruct E2 as (B2 & T2 & O2). split; auto. eapply between_trans; eauto.
      + destruct Ho as [Ho|Ho].
        * specialize (A3 Ho). unfold u16_ok in *. nia.
        * assert (Z.abs (metric - sm1) <= 63286) by (unfold between in B1; lia).
          destruct (Z.eq_dec hl 2) as [->|N2].
          -- change (two_hl 2) with 92682. nia.
          -- specialize (A3 N2). nia. }
  destruct S2 as (B2 & -> & ->). intros H. inversion H; subst. rewrite Z.eqb_refl. split; [|auto].
  destruct (_ && _); auto. unfold between in *. lia.
Qed.

(** What it is when smoothing does not apply *)
Lemma smooth_exact : forall now hl metric sm t rnd,
  hl <= 0 \/ metric = INFINITY -> fst (fst (fst (smooth now hl metric sm t rnd))) = metric.
Proof.
  intros now hl metric sm t rnd H. unfold smooth.
  replace ((hl <=? 0) || (metric >=? INFINITY) || (t >? now) || (sm =? metric)) with true by
    (symmetry; rewrite !orb_true_iff; destruct H; [left; left; left|left; left; right]; lia).
  reflexivity.
Qed.

(** Progress: a half-life brings it at least 3/8 of the way, up to rounding. *)
Lemma half_step : forall metric sm r, u16_ok sm -> u16_ok metric -> 0 <= r ->
  8 * Z.abs (metric - u16 (sm + Z.quot (roughly (metric - sm) r) 2)) <= 5 * Z.abs (metric - sm) + 8.
Proof.
  assert (Pos : forall d r, 0 <= d -> 0 <= r -> 8 * (d - Z.quot (roughly d r) 2) <= 5 * d + 8).
  { intros d r Hd Hr. rewrite Z.quot_div_nonneg; [|apply roughly_nonneg; auto|lia].
    unfold roughly. destruct (d <? 0) eqn:E; [lia|]. unfold roughly_pos. destruct (d <=? 1) eqn:E1.
    - assert (d = 0 \/ d = 1) as [->| ->] by lia; cbn; lia.
    - pose proof (Z.mod_pos_bound r (d / 2) ltac:(lia)). 
      assert (d * 3 / 4 >= (3 * d - 3) / 4) by lia. lia. }
  intros metric sm r Hs Hm Hr.
  pose proof (step_between metric sm r 1 2 Hs Hm Hr ltac:(lia) ltac:(lia) ltac:(lia)) as B.
  rewrite Z.mul_1_r in B. pose proof (roughly_frac (metric - sm) r 1 2 Hr ltac:(lia) ltac:(lia) ltac:(lia)) as B'.
  rewrite Z.mul_1_r in B'. unfold between in B, B'. rewrite u16_id in * by (unfold u16_ok in *; lia).
  destruct (Z_le_gt_dec 0 (metric - sm)) as [H|H].
  - specialize (Pos (metric - sm) r H Hr). lia.
  - specialize (Pos (- (metric - sm)) r ltac:(lia) Hr). rewrite roughly_opp in Pos by lia. rewrite Z.quot_opp_l in Pos by lia. lia.
Qed.

Lemma smooth_progress : forall now hl metric sm t rnd sm' t' rnd' ok,
  u16_ok sm -> 0 <= metric <= INFINITY -> (hl <> 2 \/ Z.abs (metric - sm) <= 63286) -> t + hl <= now ->
  smooth now hl metric sm t rnd = (sm', t', rnd', ok) ->
  8 * Z.abs (metric - sm') <= 5 * Z.abs (metric - sm) + 8.
Proof.
  intros now hl metric sm t rnd sm' t' rnd' ok Hs Hm Ho Ht E.
  assert (Hm' : u16_ok metric) by (unfold u16_ok, INFINITY in *; lia).
  unfold smooth in E. destruct ((hl <=? 0) || (metric >=? INFINITY) || (t >? now) || (sm =? metric)) eqn:C.
  { inversion E; subst. lia. }
  destruct (smooth1 (S (Z.to_nat (now - t))) now hl metric sm t rnd) as [[sm1 t1] r1] eqn:E1.
  assert (P1 : 8 * Z.abs (metric - sm1) <= 5 * Z.abs (metric - sm) + 8 /\ u16_ok sm1 /\ now - hl < t1 <= now /\ between sm metric sm1).
  { pose proof E1 as E1'. apply smooth1_spec in E1'; auto; try lia. destruct E1' as (B & T).
    split; [|split; [apply (between_u16 sm metric); auto|auto]].
    cbn [smooth1] in E1. destruct (t <=? now - hl) eqn:Ct; [|lia].
    destruct (rnd1 rnd) as [r rnd1'] eqn:R. apply rnd1_nonneg in R.
    pose proof (half_step metric sm r Hs Hm' R) as Hh.
    pose proof (step_between metric sm r 1 2 Hs Hm' R ltac:(lia) ltac:(lia) ltac:(lia)) as B2. rewrite Z.mul_1_r in B2.
    assert (U2 : u16_ok (u16 (sm + Z.quot (roughly (metric - sm) r) 2))) by (apply (between_u16 sm metric); auto).
    apply smooth1_spec in E1; auto; try lia. destruct E1 as (B3 & _). unfold between in B3. lia. }
  destruct P1 as (P1 & Hs1 & T1 & B1).
  destruct (smooth2 (S (Z.to_nat (now - t1))) now (two_hl hl) metric sm1 t1 r1 true) as [[[sm2 t2] r2] ok2] eqn:E2.
  assert (S2 : between sm1 metric sm2).
  { destruct (Z.eq_dec hl 1) as [->|N1].
    - assert (t1 = now) by lia. subst t1. cbn [smooth2] in E2.
      replace (now <? now) with false in E2 by (symmetry; apply Z.ltb_irrefl).
      inversion E2; subst. unfold between. lia.
    - destruct (two_hl_bounds hl ltac:(lia)) as (A1 & A2 & A3).
      apply smooth2_spec in E2; auto; try lia.
      + apply E2.
      + destruct Ho as [Ho|Ho].
        * specialize (A3 Ho). unfold u16_ok in *. nia.
        * assert (Z.abs (metric - sm1) <= 63286) by (unfold between in B1; lia).
          destruct (Z.eq_dec hl 2) as [->|N2].
          -- change (two_hl 2) with 92682. nia.
          -- specialize (A3 N2). nia. }
  inversion E; subst. unfold between in S2. destruct (_ && _); lia.
Qed.

(** P_Smooth.v: metric smoothing (C29). *)
From Verif Require Import Base M_Util S_Util M_Source M_Filter M_Types M_Neigh M_State M_Table M_Msg M_Route M_Xroute M_Daemon
  S_Source S_Filter S_Neigh S_World L_Table L_Step L_Smooth L_Quiet L_Select L_Daemon L_Inv X_Run.

(** C29: asking for the smoothed metric of a route of a reachable daemon *)
Theorem C29_smoothing : forall c w r m w', c_half_life c <> 2 -> reach c w -> In r (all_routes w) ->
  smoothed_metric (r_ptr r) w = (m, w') ->
  (** between the previous value and the metric *)
  Z.min (r_smoothed r) (metric_of r) <= m <= Z.max (r_smoothed r) (metric_of r) /\
  (** exact without smoothing and for retracted routes *)
  (c_half_life c <= 0 \/ metric_of r = 65535 -> m = metric_of r) /\
  (** it is recorded, as of now, and nothing else about the route changes *)
  (exists r', In r' (all_routes w') /\ r_smoothed r' = m /\ r_smoothed_time r' = now_s w /\
     set_r_smoothed (r_smoothed r) (set_r_smoothed_time (r_smoothed_time r) r') = r) /\
  (** no overflow and no failed assertion *)
  w_bad w' = false.
Proof.
  intros c w r m w' Hc R Hr E. destruct (reach_W c w Hc R) as (Hw & Ec).
  assert (F : find_ptr (r_ptr r) w = Some r) by (apply find_ptr_iff; [apply (W_rt _ _ Hw)|auto]).
  destruct (smoothed_spec [] w (r_ptr r) r Hw F) as (m1 & rnd & E1 & Q & _ & F1 & Sm).
  rewrite E1 in E. inversion E as [[Em Ew]]. subst m1. rewrite Ew in *. clear E.
  pose proof Sm as B. apply smooth_spec in B;
    [|apply (W_rng _ _ Hw); auto|apply route_metric_rng; apply (W_rng _ _ Hw); auto|left; apply (W_hl _ _ Hw)].
  change (route_metric r) with (metric_of r) in *.
  split; [apply B|]. split; [|split].
  - intros H. pose proof (smooth_exact (sec w) (c_half_life (w_cfg w)) (metric_of r) (r_smoothed r) (r_smoothed_time r) (w_rnd w)) as X.
    rewrite Sm in X. cbn [fst] in X. apply X. rewrite Ec. unfold INFINITY. tauto.
  - exists (smooth_upd m (sec w) r). split; [apply find_ptr_In in F1; apply F1|]. repeat split. destruct r; reflexivity.
  - pose proof (quiet_W _ _ _ Q Hw) as Hw'. apply (W_bad _ _ Hw').
Qed.
Print Assumptions C29_smoothing.

(** A half-life later at least three eighths of the difference has gone, up to rounding. *)
Theorem C29_progress : forall c w r m w', c_half_life c <> 2 -> reach c w -> In r (all_routes w) ->
  smoothed_metric (r_ptr r) w = (m, w') -> r_smoothed_time r + c_half_life c <= now_s w ->
  8 * Z.abs (metric_of r - m) <= 5 * Z.abs (metric_of r - r_smoothed r) + 8.
Proof.
  intros c w r m w' Hc R Hr E Ht. destruct (reach_W c w Hc R) as (Hw & Ec).
  assert (F : find_ptr (r_ptr r) w = Some r) by (apply find_ptr_iff; [apply (W_rt _ _ Hw)|auto]).
  destruct (smoothed_spec [] w (r_ptr r) r Hw F) as (m1 & rnd & E1 & Q & _ & F1 & Sm).
  rewrite E1 in E. inversion E as [[Em Ew]]. subst m1.
  apply (smooth_progress _ _ _ _ _ _ _ _ _ _) in Sm; auto.
  - apply (W_rng _ _ Hw); auto.
  - apply route_metric_rng; apply (W_rng _ _ Hw); auto.
  - left; apply (W_hl _ _ Hw).
  - rewrite Ec. auto.
Qed.
Print Assumptions C29_progress.

(** The computation itself, for every half-life: with 2 the difference must be moderate. *)
Theorem C29_every_half_life : forall now hl metric sm t rnd m t' rnd' ok,
  0 <= sm < 65536 -> 0 <= metric <= 65535 -> hl <> 2 \/ Z.abs (metric - sm) <= 63286 ->
  smooth now hl metric sm t rnd = (m, t', rnd', ok) ->
  Z.min sm metric <= m <= Z.max sm metric /\ t' = now /\ ok = true.
Proof.
  intros now hl metric sm t rnd m t' rnd' ok A B H E. apply smooth_spec in E; auto. unfold between in E. tauto.
Qed.
Print Assumptions C29_every_half_life.

(** With a half-life of 2 seconds a large drop of the metric overflows. *)
Theorem C29_half_life_2_refuted : exists now metric sm t rnd,
  0 <= sm < 65536 /\ 0 <= metric <= 65535 /\ t <= now /\
  snd (smooth now 2 metric sm t rnd) = false.
Proof. exists 1001, 100, 65535, 1000, [32716]. repeat split; try lia; vm_compute; try reflexivity; intros; discriminate. Qed.
Print Assumptions C29_half_life_2_refuted.

(** The route of 10.1.0.0/16 through the second neighbour is caught converging. *)
Definition x_sm : world := run [EvOracle [5; 1000] []; EvIhu 2 1000 1200; EvClock (mkTv 1065 0)] x_w2.
Example C29_ex : reach x_conf x_sm /\ c_half_life x_conf = 4 /\ now_s x_sm = 1065 /\
  map (fun r => (r_neigh r, metric_of r, r_smoothed r, r_smoothed_time r)) (all_routes x_sm)
    = [(2, 1100, 264, 1060); (1, 396, 423, 1060); (1, 96, 1143, 1030)] /\
  map (fun r => fst (smoothed_metric (r_ptr r) x_sm)) (all_routes x_sm) = [651; 411; 113].
Proof.
  split; [apply reach_list; [apply x_reach2|vm_compute; reflexivity]|]. split; [reflexivity|].
  split; [vm_compute; reflexivity|]. split; vm_compute; reflexivity.
Qed.

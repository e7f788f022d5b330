(** P_Expire.v: C33, the periodic expiration pass. *)
From Verif Require Import Base M_Util M_Source M_Types M_State M_Table M_Route M_Daemon S_World L_Table L_Step L_Chain2
  L_Flush L_Inv L_Daemon L_Expire X_Run.

(** The pass ends, what it leaves has been refreshed within its hold time, and it
    adds no route: each route it leaves was there, with the same source, neighbour,
    next hop, refresh time and hold time. *)
Theorem C33_expired : forall c w, c_half_life c <> 2 -> reach c w ->
  let w' := run1 EvExpireRoutes w in
  w_fuel w' = w_fuel w /\
  forall r, In r (all_routes w') ->
    now_s w - r_time r <= r_hold_time r /\
    exists r0, In r0 (all_routes w) /\ r_src r0 = r_src r /\ r_neigh r0 = r_neigh r /\
      r_nexthop r0 = r_nexthop r /\ r_time r0 = r_time r /\ r_hold_time r0 = r_hold_time r.
Proof.
  intros c w Hl Re. destruct (reach_W c w Hl Re) as (Hw & _). cbv zeta. cbn [run1].
  destruct (expire_spec [] w Hw) as (E & L). split; [apply E|]. intros r Hr. split.
  - rewrite Forall_forall in L. specialize (L r Hr). unfold live in L. change (sec w) with (now_s w) in L. lia.
  - destruct (expire_from w r Hw Hr) as (x & Hx & Ex). exists x. split; auto.
    pose proof (f_equal r_src Ex). pose proof (f_equal r_neigh Ex). pose proof (f_equal r_nexthop Ex).
    pose proof (f_equal r_time Ex). pose proof (f_equal r_hold_time Ex). cbn in *. auto 10.
Qed.
Print Assumptions C33_expired.

(** A route refreshed within 7/8 of its hold time stays. *)
Theorem C33_kept : forall c w r, c_half_life c <> 2 -> reach c w -> In r (all_routes w) ->
  r_time r <= now_s w -> 8 * (now_s w - r_time r) <= 7 * r_hold_time r ->
  exists r', In r' (all_routes (run1 EvExpireRoutes w)) /\ dest_of r' = dest_of r /\ r_src r' = r_src r /\
    r_neigh r' = r_neigh r /\ r_nexthop r' = r_nexthop r /\ r_time r' = r_time r /\ r_hold_time r' = r_hold_time r.
Proof.
  intros c w r Hl Re Hr T1 T2. destruct (reach_W c w Hl Re) as (Hw & _). cbn [run1].
  pose proof (W_rng _ _ Hw r Hr) as (_ & _ & _ & _ & _ & Rg).
  destruct (expire_kept w r Hw Hr) as (y & Hy & Ey).
  { split; [exact T1|]. change (sec w) with (now_s w). rewrite Z.quot_div_nonneg by lia.
    assert (now_s w - r_time r <= (r_hold_time r * 7) / 8) by (apply Z.div_le_lower_bound; lia). lia. }
  exists y. split; auto.
  pose proof (f_equal r_src Ey) as E1. pose proof (f_equal r_neigh Ey). pose proof (f_equal r_nexthop Ey).
  pose proof (f_equal r_time Ey). pose proof (f_equal r_hold_time Ey). cbn in *. unfold dest_of. rewrite E1. auto 10.
Qed.
Print Assumptions C33_kept.

(** Three routes, two of them refreshed 89 seconds ago with a hold time of 96. *)
Definition h_w : world := run [EvClock (mkTv 1090 0)] x_w2.
Lemma h_reach : reach x_conf h_w.
Proof. apply reach_list; [apply x_reach2|]. vm_compute. reflexivity. Qed.
Example C33_ex :
  map (fun r => (r_neigh r, now_s h_w - r_time r, r_hold_time r, r_installed r)) (all_routes h_w)
    = [(2, 30, 96, true); (1, 89, 96, false); (1, 89, 96, true)] /\
  map (fun r => (r_neigh r, r_installed r)) (all_routes (run1 EvExpireRoutes h_w)) = [(2, true)].
Proof. split; vm_compute; reflexivity. Qed.

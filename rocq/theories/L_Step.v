(** L_Step.v: the elementary changes of the daemon's state, and the invariant of
    the state that they preserve. *)
From Verif Require Import Base M_Util S_Util L_Util M_Slot L_Slot M_Source S_Source L_Source
  M_Filter M_Types M_Neigh S_Neigh M_State M_Table M_Msg M_Route S_World L_Table L_Resend.
From Coq Require Import Sorting.Sorted Permutation.

(** ** Changes made by the sending functions *)

(** What they do not change in an interface. *)
Definition ifstat (i : iface) : iface :=
  set_if_pend [] (set_if_bufsize 0 (set_if_flush_timeout tv0 (set_if_update_timeout tv0
    (set_if_last_update 0 i)))).

(** What they may do to the source table: update the feasibility distance of
    announced (selected) routes. *)
Inductive srcs_evo (rt : list (list route)) (now : Z) (t : list source) : list source -> Prop :=
| evo_refl : srcs_evo rt now t t
| evo_upd : forall t' r, srcs_evo rt now t t' -> In r (concat rt) -> r_installed r = true ->
    srcs_evo rt now t (update_source now (r_src r) (r_seqno r) (route_metric r) t').

Record frame (w w' : world) : Prop := mkFrame {
  f_now : w_now w' = w_now w;
  f_cfg : w_cfg w' = w_cfg w;
  f_ifs : map ifstat (w_ifs w') = map ifstat (w_ifs w);
  f_nbs : w_nbs w' = w_nbs w;
  f_srcs : srcs_evo (w_rt w) (sec w) (w_srcs w) (w_srcs w');
  f_rt : w_rt w' = w_rt w;
  f_next : w_next w' = w_next w;
  f_xr : w_xr w' = w_xr w;
  f_seqno : w_seqno w' = w_seqno w;
  f_kresp : w_kresp w' = w_kresp w;
  f_ktr : w_ktr w' = w_ktr w;
  f_sel : w_sel w' = w_sel w;
  f_rsd : forall i, In (Some i) (map rs_ifp (w_rsd w')) ->
      In (Some i) (map rs_ifp (w_rsd w)) \/ In i (map if_id (w_ifs w));
  f_evo : rsd_evo w w';
  f_bad : w_bad w' = w_bad w;
  f_fuel : w_fuel w' = w_fuel w }.

Lemma frame_refl : forall w, frame w w.
Proof. intros. constructor; auto; [constructor|apply evo_refl'; auto]. Qed.

Lemma ifstat_ids : forall a b, map ifstat a = map ifstat b -> map if_id a = map if_id b.
Proof.
  intros a b H. assert (E : forall l, map if_id l = map if_id (map ifstat l)).
  { intros l. rewrite map_map. apply map_ext. reflexivity. }
  rewrite (E a), (E b), H. auto.
Qed.

Lemma srcs_evo_trans : forall rt now a b c, srcs_evo rt now a b -> srcs_evo rt now b c -> srcs_evo rt now a c.
Proof. intros rt now a b c H1 H2. induction H2; auto. constructor; auto. Qed.

Lemma frame_trans : forall a b c, frame a b -> frame b c -> frame a c.
Proof.
  intros a b c F G. destruct F, G. constructor; try congruence.
  - eapply srcs_evo_trans; eauto. unfold sec in *. rewrite <- f_now0, <- f_rt0. auto.
  - intros i Hi. apply f_rsd1 in Hi. rewrite (ifstat_ids _ _ f_ifs0) in Hi. destruct Hi; auto.
  - eapply evo_trans; eauto.
Qed.

(** ** The invariant *)

Definition xsorted (l : list xroute) : Prop := ksorted dest_compare x_dest l.

(** [e] are the references to source entries held in local variables. *)
Record W (e : list skey) (w : world) : Prop := mkWf {
  W_rt : rt_wf (w_rt w);
  W_next : forall r, In r (all_routes w) -> r_ptr r < w_next w;
  W_srcs : ssorted (w_srcs w);
  W_cnt : forall s, In s (w_srcs w) ->
      s_count s = Z.of_nat (users (s_key s) w + count_occ skey_dec e (s_key s));
  W_ref : forall k, In k (map r_src (all_routes w)) \/ In k e -> In k (map s_key (w_srcs w));
  W_ifs : NoDup (map if_id (w_ifs w));
  W_nbs : NoDup (map n_id (w_nbs w));
  W_nbif : forall n, In n (w_nbs w) -> In (n_if n) (map if_id (w_ifs w));
  W_nb : forall r, In r (all_routes w) -> In (r_neigh r) (map n_id (w_nbs w));
  W_rng : forall r, In r (all_routes w) -> route_rng r;
  W_xr : xsorted (w_xr w);
  W_rsd : forall i, In (Some i) (map rs_ifp (w_rsd w)) -> In i (map if_id (w_ifs w));
  W_few : Z.of_nat (length (w_nbs w)) < 65000;
  W_bad : w_bad w = false;
  W_hl : c_half_life (w_cfg w) <> 2 }.

(** ** Elementary steps.  The flag is [true] for the quiet steps, which change
    only selection, smoothing and messages. *)
Definition st : Type := (list skey * world)%type.

Definition smooth_upd (sm t : Z) (r : route) : route := set_r_smoothed sm (set_r_smoothed_time t r).
Definition metric_upd (c : conf) (now refmetric cost add : Z) (r : route) : route :=
  let r1 := set_r_refmetric (u16 refmetric) (set_r_cost (u16 cost) (set_r_add_metric (u16 add) r)) in
  if c_half_life c =? 0
  then set_r_smoothed (route_metric r1) (set_r_smoothed_time now r1) else r1.

Definition better_than (rn ro : route) : Prop :=
  route_metric rn < INFINITY /\
  (route_metric ro >= INFINITY \/
   (route_metric rn <= route_metric ro /\ r_smoothed rn < r_smoothed ro)).

(** What a metric is made of. *)
Definition metric_args (w : world) (ref cost add : Z) : Prop :=
  u16_ok ref /\
  (cost = INFINITY \/ exists n i, In n (w_nbs w) /\ In (ifstat i) (map ifstat (w_ifs w)) /\
     cost = neighbour_cost (w_now w) i n) /\
  (add = 0 \/ exists id d addr ifx, add = input_filter (c_infs (w_cfg w)) id d addr ifx).

Inductive mstep : bool -> st -> st -> Prop :=
| S_frame : forall e w w', frame w w' -> mstep true (e, w) (e, w')
| S_smooth : forall e w p r sm t rnd, find_ptr p w = Some r ->
    smooth (sec w) (c_half_life (w_cfg w)) (route_metric r) (r_smoothed r) (r_smoothed_time r) (w_rnd w)
      = (sm, t, rnd, true) -> u16_ok sm ->
    mstep true (e, w) (e, map_ptr p (smooth_upd sm t) (set_w_rnd rnd w))
| S_inst : forall e w p r n i rc w1, find_ptr p w = Some r -> r_installed r = false ->
    feasible r w = true -> find_installed (rdest r) w = None -> nb_if (r_neigh r) w = Some (n, i) ->
    change_route_add r i (metric_to_kernel (w_cfg w) (route_metric r)) w = (rc, w1) ->
    (rc <? 0) && negb (rc =? - EEXIST) = false ->
    mstep true (e, w) (e, move_installed (rdest r) p (map_ptr p (set_r_installed true) (selected r w None w1)))
| S_instfail : forall e w p r n i rc w1, find_ptr p w = Some r -> r_installed r = false ->
    nb_if (r_neigh r) w = Some (n, i) ->
    change_route_add r i (metric_to_kernel (w_cfg w) (route_metric r)) w = (rc, w1) ->
    (rc <? 0) && negb (rc =? - EEXIST) = true ->
    mstep true (e, w) (e, w1)
| S_uninst : forall e w p r n i, find_ptr p w = Some r -> r_installed r = true ->
    nb_if (r_neigh r) w = Some (n, i) ->
    mstep true (e, w) (e, snd (change_route_flush r i (metric_to_kernel (w_cfg w) (route_metric r))
                                (map_ptr p (set_r_installed false) w)))
| S_switch : forall e w o p ro rn no io nn inw rc w1,
    find_ptr o w = Some ro -> find_ptr p w = Some rn ->
    r_installed ro = true -> r_installed rn = false -> dest_of ro = dest_of rn ->
    feasible rn w = true -> better_than rn ro ->
    nb_if (r_neigh ro) w = Some (no, io) -> nb_if (r_neigh rn) w = Some (nn, inw) ->
    change_route_modify ro io (metric_to_kernel (w_cfg w) (route_metric ro))
      (r_nexthop rn) (if_ifindex inw) (metric_to_kernel (w_cfg w) (route_metric rn)) w = (rc, w1) ->
    (rc <? 0) = false ->
    mstep true (e, w) (e, move_installed (rdest rn) p (map_ptr p (set_r_installed true)
                            (map_ptr o (set_r_installed false) (selected rn w (Some ro) w1))))
| S_modfail : forall e w p r n i newgate newifindex newmetric rc w1,
    find_ptr p w = Some r -> r_installed r = true -> nb_if (r_neigh r) w = Some (n, i) ->
    change_route_modify r i (metric_to_kernel (w_cfg w) (route_metric r)) newgate newifindex newmetric w = (rc, w1) ->
    (rc <? 0) = true ->
    (exists r', In r' (all_routes w) /\ dest_of r' = dest_of r /\ r_nexthop r' = newgate) ->
    mstep true (e, w) (e, w1)
| S_metric : forall e w p r n i ref cost add rc w1 sm t rnd,
    find_ptr p w = Some r -> nb_if (r_neigh r) w = Some (n, i) ->
    (if r_installed r && negb (metric_to_kernel (w_cfg w) (route_metric r) =?
                               metric_to_kernel (w_cfg w) (Z.min (ref + cost + add) INFINITY))
     then change_route_modify r i (metric_to_kernel (w_cfg w) (route_metric r)) (r_nexthop r)
            (if_ifindex i) (metric_to_kernel (w_cfg w) (Z.min (ref + cost + add) INFINITY)) w
     else (0, w)) = (rc, w1) -> (rc <? 0) = false ->
    smooth (sec w) (c_half_life (w_cfg w)) (route_metric r) (r_smoothed r) (r_smoothed_time r) (w_rnd w)
      = (sm, t, rnd, true) -> u16_ok sm -> metric_args w ref cost add ->
    mstep false (e, w) (e, map_ptr p (metric_upd (w_cfg w) (sec w) ref cost add)
                             (map_ptr p (smooth_upd sm t) (set_w_rnd rnd w1)))
| S_touch : forall e w p seqno tm hold, u16_ok seqno -> 15 <= hold ->
    mstep false (e, w) (e, map_ptr p (fun r => set_r_seqno seqno (set_r_time tm (set_r_hold_time hold r))) w)
| S_find : forall e w k q, u16_ok q ->
    mstep false (e, w) (e, set_w_srcs (snd (find_source (sec w) k true q (w_srcs w))) w)
| S_retain : forall e w k s, get_src k (w_srcs w) = Some s ->
    mstep false (e, w) (k :: e, set_w_srcs (map_src k retain1 (w_srcs w)) w)
| S_release : forall e w k,
    mstep false (k :: e, w) (e, set_w_srcs (map_src k release1 (w_srcs w)) w)
| S_setsrc : forall e w p r k, find_ptr p w = Some r -> dest_of_key k = dest_of r ->
    mstep false (k :: e, w) (r_src r :: e, map_ptr p (set_r_src k) w)
| S_unlink : forall e w p r, find_ptr p w = Some r -> r_installed r = false ->
    mstep false (e, w) (r_src r :: e, unlink_route (rdest r) p w)
| S_xr : forall e w l, xsorted l ->
    (forall x, In x l -> In (x_dest x) (map x_dest (w_xr w)) \/
                         martian_prefix (d_prefix (x_dest x)) (d_plen (x_dest x)) = false) ->
    mstep false (e, w) (e, set_w_xr l w)
| S_myseqno : forall e w, mstep false (e, w) (e, update_myseqno w)
| S_nb : forall e w n f, (forall x, n_id (f x) = n_id x /\ n_if (f x) = n_if x /\ n_addr (f x) = n_addr x) ->
    (forall x, In x (w_nbs w) -> n_id x = n -> tv_ok (w_now w) -> neigh_ok x -> neigh_ok (f x)) ->
    mstep false (e, w) (e, map_nb n f w)
| S_delnb : forall e w n, (forall r, In r (all_routes w) -> r_neigh r <> n) ->
    mstep false (e, w) (e, set_w_nbs (filter (fun x => negb (n_id x =? n)) (w_nbs w)) w)
| S_nofuel : forall e w, mstep false (e, w) (e, nofuel w).

(** Adding a route to the table; only update_route does this. *)
Inductive istep : st -> st -> Prop :=
| I_insert : forall e w r, r_ptr r = w_next w -> r_installed r = false -> route_rng r ->
    dvalid (dest_of r) -> In (r_neigh r) (map n_id (w_nbs w)) ->
    (forall r', In r' (all_routes w) -> dest_of r' = dest_of r -> r_neigh r' <> r_neigh r) ->
    istep (r_src r :: e, w) (e, insert_route r (set_w_next (w_next w + 1) w)).

Inductive star (q : bool) : st -> st -> Prop :=
| star_refl : forall s, star q s s
| star_step : forall b s t u, (b = true \/ q = false) -> mstep b s t -> star q t u -> star q s u.

Lemma star_trans : forall q s t u, star q s t -> star q t u -> star q s u.
Proof. induction 1; intros; auto. econstructor; eauto. Qed.
Lemma star_one : forall b s t, mstep b s t -> star b s t.
Proof. intros. apply star_step with (b := b) (t := t); [destruct b; auto|auto|constructor]. Qed.
Lemma star_weak : forall q s t, star q s t -> star false s t.
Proof. induction 1; [constructor|]. econstructor; eauto. Qed.
Lemma star_quiet : forall s t, mstep true s t -> forall q, star q s t.
Proof. intros s t H q. econstructor; [left; reflexivity|eauto|constructor]. Qed.
Lemma star_loud : forall b s t, mstep b s t -> star false s t.
Proof. intros. econstructor; eauto. constructor. Qed.

(** ** The kernel functions change only the kernel's part of the state *)
Definition kframe (w w' : world) : Prop := exists a b, w' = set_w_kresp a (set_w_ktr b w).
Lemma kframe_refl : forall w, kframe w w.
Proof. intros. exists (w_kresp w), (w_ktr w). destruct w. reflexivity. Qed.
Lemma kframe_trans : forall a b c, kframe a b -> kframe b c -> kframe a c.
Proof. intros a b c (x & y & ->) (x' & y' & ->). exists x', y'. reflexivity. Qed.
Lemma kframe_trace : forall e w, kframe w (ktrace e w).
Proof. intros. unfold ktrace. exists (w_kresp w), (w_ktr w ++ [e]). destruct w. reflexivity. Qed.
Lemma kframe_resp : forall w e w1, kresp1 w = (e, w1) -> kframe w w1.
Proof.
  intros w e w1. unfold kresp1. destruct (w_kresp w) eqn:E; intros H; inversion H; subst.
  - apply kframe_refl.
  - exists l, (w_ktr w). destruct w; reflexivity.
Qed.
Lemma kernel_route1_frame : forall a t d ps g i m w rc w1,
  kernel_route1 a t d ps g i m w = (rc, w1) -> kframe w w1.
Proof.
  unfold kernel_route1. intros a t d ps g i m w rc w1.
  destruct (negb (family_ok d g)); [intros H; inversion H; apply kframe_trace|].
  destruct (_ && _); [intros H; inversion H; apply kframe_trace|].
  destruct (_ && _); [intros H; inversion H; apply kframe_refl|].
  destruct (kresp1 w) as [x w2] eqn:E. intros H. inversion H; subst.
  eapply kframe_trans; [eapply kframe_resp; eauto|apply kframe_trace].
Qed.
Lemma kernel_route_modify_frame : forall t d ps g i m ng ni nm nt w rc w1,
  kernel_route_modify t d ps g i m ng ni nm nt w = (rc, w1) -> kframe w w1.
Proof.
  unfold kernel_route_modify. intros t d ps g i m ng ni nm nt w rc w1.
  destruct (negb (family_ok d g)); [intros H; inversion H; apply kframe_trace|].
  destruct (_ && _); [intros H; inversion H; apply kframe_refl|].
  destruct (kernel_route1 false t d ps g i m w) as [x w2] eqn:E1.
  destruct (kernel_route1 true nt d ps ng ni nm w2) as [y w3] eqn:E2.
  intros H. inversion H; subst.
  eapply kframe_trans; eapply kernel_route1_frame; eauto.
Qed.
Lemma change_route_add_frame : forall r i m w rc w1, change_route_add r i m w = (rc, w1) -> kframe w w1.
Proof.
  unfold change_route_add. intros r i m w rc w1. destruct (inst_filter r i w) as [[d t] p].
  destruct d; [intros H; inversion H; apply kframe_refl|apply kernel_route1_frame].
Qed.
Lemma change_route_flush_frame : forall r i m w rc w1, change_route_flush r i m w = (rc, w1) -> kframe w w1.
Proof.
  unfold change_route_flush. intros r i m w rc w1. destruct (inst_filter r i w) as [[d t] p].
  apply kernel_route1_frame.
Qed.
Lemma change_route_modify_frame : forall r i m g ni nm w rc w1,
  change_route_modify r i m g ni nm w = (rc, w1) -> kframe w w1.
Proof.
  unfold change_route_modify. intros r i m g ni nm w rc w1. destruct (inst_filter r i w) as [[d t] p].
  apply kernel_route_modify_frame.
Qed.

(** ** Preservation of the invariant *)

(** Changes of components the invariant does not look at, or looks at weakly. *)
Lemma srcs_evo_keys : forall rt now t t', srcs_evo rt now t t' ->
  map s_key t' = map s_key t /\ map s_count t' = map s_count t.
Proof.
  induction 1 as [|t' r H [IH1 IH2] Hr Hi]; auto. unfold update_source, map_src. rewrite !map_map. split.
  - rewrite <- IH1. apply map_ext. intros s. unfold update_source1.
    destruct (skey_eqb _ _); auto. destruct (_ >=? _); auto.
  - rewrite <- IH2. apply map_ext. intros s. unfold update_source1.
    destruct (skey_eqb _ _); auto. destruct (_ >=? _); auto.
Qed.

Lemma ksorted_keys : forall A K (cmp : K -> K -> Z) (key : A -> K) l l',
  map key l' = map key l -> ksorted cmp key l -> ksorted cmp key l'.
Proof.
  intros A K cmp key. induction l; destruct l'; intros E S; try discriminate; auto.
  simpl in E. injection E as E1 E2. apply sorted_cons_iff in S. destruct S as (S & C).
  apply sorted_cons_iff. split; [apply IHl; auto|].
  intros y Hy. apply (in_map key) in Hy. rewrite E2 in Hy. apply in_map_iff in Hy.
  destruct Hy as (z & E & Hz). unfold klt in *. rewrite E1, <- E. apply C. auto.
Qed.

Lemma in_counts : forall (t t' : list source) s', map s_key t' = map s_key t ->
  map s_count t' = map s_count t -> In s' t' ->
  exists s, In s t /\ s_key s = s_key s' /\ s_count s = s_count s'.
Proof.
  induction t; destruct t'; intros s' E1 E2 H; try discriminate; [contradiction|].
  simpl in *. injection E1 as A1 A2. injection E2 as B1 B2. destruct H as [<-|H].
  - exists a. auto.
  - destruct (IHt t' s' A2 B2 H) as (x & Hx & Ex). exists x. auto.
Qed.

Lemma W_same : forall e w w',
  w_rt w' = w_rt w -> w_next w <= w_next w' ->
  map s_key (w_srcs w') = map s_key (w_srcs w) -> map s_count (w_srcs w') = map s_count (w_srcs w) ->
  map if_id (w_ifs w') = map if_id (w_ifs w) ->
  map n_id (w_nbs w') = map n_id (w_nbs w) -> map n_if (w_nbs w') = map n_if (w_nbs w) ->
  xsorted (w_xr w') ->
  (forall i, In (Some i) (map rs_ifp (w_rsd w')) ->
      In (Some i) (map rs_ifp (w_rsd w)) \/ In i (map if_id (w_ifs w))) ->
  w_bad w' = w_bad w -> c_half_life (w_cfg w') <> 2 ->
  W e w -> W e w'.
Proof.
  intros e w w' Ert En Es Ec Ei Eb Ef Ex Er Ebad Ehl [].
  assert (Ea : all_routes w' = all_routes w) by (unfold all_routes; congruence).
  constructor; rewrite ?Ert, ?Ea; auto.
  - intros r Hr. specialize (W_next0 r Hr). lia.
  - eapply ksorted_keys; eauto.
  - intros s' Hs. destruct (in_counts _ _ _ Es Ec Hs) as (s & Hs' & E1 & E2).
    rewrite <- E2, <- E1, (W_cnt0 s Hs'). unfold users. rewrite Ea. auto.
  - intros k Hk. rewrite Es. auto.
  - congruence.
  - congruence.
  - intros n Hn. apply (in_map n_if) in Hn. rewrite Ef in Hn. apply in_map_iff in Hn.
    destruct Hn as (m & E & Hm). rewrite Ei, <- E. auto.
  - intros r Hr. rewrite Eb. auto.
  - intros i Hi. rewrite Ei. destruct (Er i Hi); auto.
  - apply (f_equal (@length Z)) in Eb. rewrite !map_length in Eb. rewrite Eb. auto.
  - congruence.
Qed.

Lemma W_frame : forall e w w', frame w w' -> W e w -> W e w'.
Proof.
  intros e w w' F Hw. destruct (srcs_evo_keys _ _ _ _ (f_srcs _ _ F)) as (K & C).
  apply W_same with (w := w); auto; try (destruct F; try congruence; try lia).
  - apply ifstat_ids. auto.
  - rewrite f_xr0. apply (W_xr _ _ Hw).
  - auto.
  - rewrite f_cfg0. apply (W_hl _ _ Hw).
Qed.

Lemma W_kframe : forall e w w', kframe w w' -> W e w -> W e w'.
Proof.
  intros e w w' (a & b & ->) Hw. eapply W_same; try exact Hw; cbn; auto; try lia.
  - apply (W_xr _ _ Hw).
  - apply (W_hl _ _ Hw).
Qed.

(** Changes of the route table that keep, for each route, pointer, source,
    neighbour and ranges. *)
Lemma W_routes : forall e w rt',
  rt_wf rt' ->
  Permutation (map (fun r => (r_ptr r, r_src r, r_neigh r)) (concat rt'))
              (map (fun r => (r_ptr r, r_src r, r_neigh r)) (concat (w_rt w))) ->
  (forall r, In r (concat rt') -> route_rng r) ->
  W e w -> W e (set_w_rt rt' w).
Proof.
  intros e w rt' Wf P R Hw.
  assert (Hin : forall r', In r' (concat rt') -> exists r, In r (all_routes w) /\
      r_ptr r = r_ptr r' /\ r_src r = r_src r' /\ r_neigh r = r_neigh r').
  { intros r' Hr'. apply (in_map (fun r => (r_ptr r, r_src r, r_neigh r))) in Hr'.
    eapply Permutation_in in Hr'; eauto. apply in_map_iff in Hr'. destruct Hr' as (r & E & Hr).
    injection E as E1 E2 E3. exists r. unfold all_routes. auto. }
  assert (Psrc : Permutation (map r_src (concat rt')) (map r_src (all_routes w))).
  { apply (Permutation_map (fun x => snd (fst x))) in P. rewrite !map_map in P. exact P. }
  destruct Hw. constructor; cbn; auto; unfold all_routes; cbn [w_rt set_w_rt].
  - intros r Hr. destruct (Hin r Hr) as (x & Hx & E1 & _). rewrite <- E1. auto.
  - intros s Hs. rewrite (W_cnt0 s Hs). f_equal. f_equal. unfold users, all_routes. cbn [w_rt set_w_rt].
    symmetry. rewrite (Permutation_count_occ skey_dec) in Psrc. apply Psrc.
  - intros k [Hk|Hk]; auto. apply W_ref0. left. eapply Permutation_in; eauto.
  - intros r Hr. destruct (Hin r Hr) as (x & Hx & _ & _ & E). rewrite <- E. auto.
Qed.

Lemma map_id_ext : forall A B (f : A -> B) (g : A -> A) l, (forall x, f (g x) = f x) ->
  map f (map g l) = map f l.
Proof. intros. rewrite map_map. apply map_ext. auto. Qed.

(** In-place changes *)
Lemma W_map_ptr : forall e w p f,
  (forall r, r_ptr (f r) = r_ptr r /\ r_src (f r) = r_src r /\ r_neigh (f r) = r_neigh r) ->
  (forall r, r_installed (f r) = r_installed r) ->
  (forall r, In r (all_routes w) -> r_ptr r = p -> route_rng r -> route_rng (f r)) ->
  W e w -> W e (map_ptr p f w).
Proof.
  intros e w p f K I R Hw. unfold map_ptr. apply W_routes; auto.
  - apply map_ptr_wf; auto; [|apply (W_rt _ _ Hw)].
    intros r. destruct (K r) as (A & B & C). unfold dest_of. rewrite A, B, C. auto.
  - rewrite <- concat_map, map_id_ext; auto. intros r. destruct (is_ptr p r); auto.
    destruct (K r) as (-> & -> & ->). auto.
  - intros r. rewrite <- concat_map. intros H. apply in_map_iff in H. destruct H as (x & <- & Hx).
    destruct (is_ptr p x) eqn:E; [|apply (W_rng _ _ Hw); auto].
    apply R; auto; [unfold is_ptr in E; lia|apply (W_rng _ _ Hw); auto].
Qed.

(** Selecting a route: it moves to the head of its slot. *)
Lemma rset_installed_keeps : forall b, keeps (set_r_installed b).
Proof. intros b r. auto. Qed.

Lemma rsorted_map_ptr : forall p f w, keeps f -> rt_wf (w_rt w) -> rsorted (w_rt (map_ptr p f w)).
Proof.
  intros p f w K Wf. unfold map_ptr. cbn [w_rt set_w_rt]. unfold rsorted.
  apply sorted_map; [|apply (wf_sorted _ Wf)].
  intros l Hl. unfold hd_key. destruct (wf_slot _ _ Wf Hl) as (N & _).
  change (map (fun r1 => if is_ptr p r1 then f r1 else r1) l) with (map (upd_route p f) l).
  rewrite hd_map by auto. destruct (keeps_upd p f K (hd r0 l)) as (_ & -> & _). auto.
Qed.

Lemma NoDup_map_ptr : forall p f w, keeps f -> NoDup (map r_ptr (all_routes w)) ->
  NoDup (map r_ptr (all_routes (map_ptr p f w))).
Proof.
  intros. rewrite all_map_ptr, map_id_ext; auto. intros r. apply (keeps_upd p f H r).
Qed.

Lemma move_installed_split : forall w A l1 r l2 B,
  rsorted (w_rt w) -> NoDup (map r_ptr (all_routes w)) -> w_rt w = A ++ (l1 ++ r :: l2) :: B ->
  hd_key (l1 ++ r :: l2) = ckey (rdest r) ->
  move_installed (rdest r) (r_ptr r) w = set_w_rt (A ++ (r :: l1 ++ l2) :: B) w.
Proof.
  intros w A l1 r l2 B S N E K. unfold move_installed.
  rewrite (find_route_slot_in _ w A (l1 ++ r :: l2) B S E K), Nat2Z.id, E, nth_middle', upd_middle.
  unfold move_front. rewrite move_front_split; auto.
  unfold all_routes in N. rewrite E in N. eapply NoDup_concat_slot; eauto.
Qed.

Lemma hd_key_app : forall l1 r l2 r', dest_of r' = dest_of r ->
  hd_key (l1 ++ r' :: l2) = hd_key (l1 ++ r :: l2).
Proof. intros [|h t] r l2 r' D; unfold hd_key; simpl; congruence. Qed.

(** rest of a slot from which a route is taken *)
Lemma slot_rest : forall l1 r l2, slot_wf (l1 ++ r :: l2) ->
  NoDup (map r_neigh (r :: l1 ++ l2)) /\
  (forall x, In x (l1 ++ l2) -> dest_of x = dest_of r) /\ dvalid (dest_of r).
Proof.
  intros l1 r l2 (_ & D & V & N & _). repeat split.
  - eapply Permutation_NoDup; [|exact N]. apply Permutation_map.
    symmetry. apply Permutation_middle.
  - intros x Hx. apply D; apply in_or_app; simpl; auto. apply in_app_or in Hx. tauto.
  - apply V. apply in_or_app; simpl; auto.
Qed.

Lemma front_slot_wf : forall l1 r l2 r', slot_wf (l1 ++ r :: l2) ->
  dest_of r' = dest_of r -> r_neigh r' = r_neigh r ->
  (forall x, In x (l1 ++ l2) -> r_installed x = false) -> slot_wf (r' :: l1 ++ l2).
Proof.
  intros l1 r l2 r' S Ed En I. destruct (slot_rest _ _ _ S) as (N & D & V). repeat split.
  - discriminate.
  - intros x y Hx Hy. assert (G : forall z, In z (r' :: l1 ++ l2) -> dest_of z = dest_of r).
    { intros z [<-|Hz]; auto. }
    rewrite (G x), (G y); auto.
  - intros x [<-|Hx]; [rewrite Ed; auto|rewrite (D x); auto].
  - simpl in *. rewrite En. auto.
  - simpl. auto.
Qed.

Lemma inst_split : forall w w1 p r, rt_wf (w_rt w) -> w_rt w1 = w_rt w ->
  find_ptr p w = Some r ->
  exists A l1 l2 B, w_rt w = A ++ (l1 ++ r :: l2) :: B /\
    slot_wf (l1 ++ r :: l2) /\
    move_installed (rdest r) p (map_ptr p (set_r_installed true) w1) =
      set_w_rt (A ++ (set_r_installed true r :: l1 ++ l2) :: B) w1.
Proof.
  intros w w1 p r Wf E H. apply find_ptr_iff in H; auto. destruct H as (Hr & Hp).
  destruct (route_split _ _ Hr) as (A & l1 & l2 & B & Es).
  exists A, l1, l2, B. split; auto. split; [eapply wf_slot; eauto; rewrite Es; apply in_or_app; simpl; auto|].
  subst p. set (w2 := map_ptr (r_ptr r) (set_r_installed true) w1).
  assert (Wf1 : rt_wf (w_rt w1)) by (rewrite E; auto).
  assert (E2 : w_rt w2 = A ++ (l1 ++ set_r_installed true r :: l2) :: B).
  { apply map_ptr_split; [apply (wf_ptrs _ Wf1)|]. congruence. }
  change (rdest r) with (rdest (set_r_installed true r)).
  change (r_ptr r) with (r_ptr (set_r_installed true r)).
  rewrite (move_installed_split w2 A l1 (set_r_installed true r) l2 B); auto.
  - apply rsorted_map_ptr; auto using rset_installed_keeps.
  - apply NoDup_map_ptr; auto using rset_installed_keeps. apply (wf_ptrs _ Wf1).
  - rewrite hd_key_app with (r := r); auto. rewrite (slot_key _ r); auto.
    + apply (wf_slot (w_rt w)); auto. rewrite Es. apply in_or_app; simpl; auto.
    + apply in_or_app; simpl; auto.
Qed.

Lemma route_rng_installed : forall b r, route_rng r -> route_rng (set_r_installed b r).
Proof. intros b r H. exact H. Qed.

Lemma perm_front : forall A l1 (r r' : route) l2 B (f : route -> Z * skey * Z), f r' = f r ->
  Permutation (map f (concat (A ++ (r' :: l1 ++ l2) :: B)))
              (map f (concat (A ++ (l1 ++ r :: l2) :: B))).
Proof.
  intros. rewrite !concat_mid, !map_app. apply Permutation_app_head. apply Permutation_app_tail.
  cbn [map]. rewrite !map_app, H. cbn [map]. apply Permutation_middle.
Qed.

Lemma front_wf : forall A l1 r l2 B r', rt_wf (A ++ (l1 ++ r :: l2) :: B) ->
  r_ptr r' = r_ptr r -> dest_of r' = dest_of r -> r_neigh r' = r_neigh r ->
  (forall x, In x (l1 ++ l2) -> r_installed x = false) ->
  rt_wf (A ++ (r' :: l1 ++ l2) :: B).
Proof.
  intros A l1 r l2 B r' Wf Ep Ed En I.
  assert (S : slot_wf (l1 ++ r :: l2)) by (eapply wf_slot; eauto; apply in_or_app; simpl; auto).
  eapply replace_wf; eauto.
  - eapply front_slot_wf; eauto.
  - rewrite (slot_key (l1 ++ r :: l2) r); auto; [|apply in_or_app; simpl; auto].
    unfold hd_key. simpl. congruence.
  - eapply Permutation_NoDup; [|apply (wf_ptrs _ Wf)]. apply Permutation_sym.
    rewrite !concat_mid, !map_app. apply Permutation_app_head. apply Permutation_app_tail.
    cbn [map]. rewrite !map_app, Ep. cbn [map]. apply Permutation_middle.
Qed.

Lemma none_installed_rest : forall w A l1 r l2 B, rt_wf (w_rt w) ->
  w_rt w = A ++ (l1 ++ r :: l2) :: B -> find_installed (rdest r) w = None ->
  forall x, In x (l1 ++ l2) -> r_installed x = false.
Proof.
  intros w A l1 r l2 B Wf E F x Hx.
  assert (S : slot_wf (l1 ++ r :: l2)) by (eapply wf_slot; eauto; rewrite E; apply in_or_app; simpl; auto).
  destruct (r_installed x) eqn:I; auto.
  destruct (slot_rest _ _ _ S) as (_ & D & V).
  assert (G : find_installed (rdest r) w = Some x); [|congruence].
  apply find_installed_iff; auto. split; [|split; auto; apply D; auto].
  unfold all_routes. rewrite E, concat_mid. apply in_or_app. right. apply in_or_app. left.
  apply in_app_or in Hx. apply in_or_app. simpl. tauto.
Qed.

Lemma W_inst : forall e w w1 p r, W e w -> W e w1 -> w_rt w1 = w_rt w -> find_ptr p w = Some r ->
  find_installed (rdest r) w = None ->
  W e (move_installed (rdest r) p (map_ptr p (set_r_installed true) w1)).
Proof.
  intros e w w1 p r Hw Hw1 E F I. pose proof (W_rt _ _ Hw) as Wf.
  destruct (inst_split w w1 p r Wf E F) as (A & l1 & l2 & B & Es & S & ->).
  pose proof (none_installed_rest w A l1 r l2 B Wf Es I) as N.
  apply W_routes; auto.
  - rewrite Es in Wf. eapply front_wf; eauto.
  - rewrite E, Es. apply perm_front. reflexivity.
  - intros x Hx. rewrite concat_mid in Hx. apply in_app_or in Hx.
    assert (G : forall y, In y (concat A) \/ In y (l1 ++ r :: l2) \/ In y (concat B) -> route_rng y).
    { intros y Hy. apply (W_rng _ _ Hw). unfold all_routes. rewrite Es, concat_mid. rewrite !in_app_iff in *. tauto. }
    destruct Hx as [Hx|Hx]; [apply G; auto|]. cbn [app] in Hx. destruct Hx as [<-|Hx].
    + apply route_rng_installed. apply G. right. left. apply in_or_app. simpl. auto.
    + apply G. rewrite !in_app_iff in *. simpl. tauto.
Qed.

Lemma W_uninst : forall e w p, W e w -> W e (map_ptr p (set_r_installed false) w).
Proof.
  intros e w p Hw. unfold map_ptr. apply W_routes; auto.
  - apply (map_ptr_uninst_wf p w). apply (W_rt _ _ Hw).
  - rewrite <- concat_map, map_id_ext; auto. intros r. destruct (is_ptr p r); auto.
  - intros r. rewrite <- concat_map. intros H. apply in_map_iff in H. destruct H as (x & <- & Hx).
    apply (W_rng _ _ Hw) in Hx. destruct (is_ptr p x); auto.
Qed.

Lemma find_ptr_map_ptr : forall p q f w, (forall r, r_ptr (f r) = r_ptr r) ->
  find_ptr p (map_ptr q f w) = option_map (upd_route q f) (find_ptr p w).
Proof.
  intros p q f w K. unfold find_ptr. change (concat (w_rt (map_ptr q f w))) with (all_routes (map_ptr q f w)).
  rewrite all_map_ptr. unfold all_routes. induction (concat (w_rt w)) as [|a l IH]; auto.
  cbn [map find]. assert (E : is_ptr p (upd_route q f a) = is_ptr p a).
  { unfold upd_route. destruct (is_ptr q a); auto. unfold is_ptr. rewrite K. auto. }
  rewrite E. destruct (is_ptr p a); auto.
Qed.

Lemma find_ptr_ptr : forall p w r, find_ptr p w = Some r -> r_ptr r = p.
Proof. intros p w r H. apply find_ptr_In in H. tauto. Qed.

(** Which routes are selected after one is deselected *)
Lemma none_after_uninst : forall w o ro, rt_wf (w_rt w) -> find_ptr o w = Some ro ->
  r_installed ro = true ->
  find_installed (rdest ro) (map_ptr o (set_r_installed false) w) = None.
Proof.
  intros w o ro Wf F I. pose proof (map_ptr_uninst_wf o w Wf) as Wf'.
  pose proof (find_ptr_In _ _ _ F) as (Hr & Hp).
  pose proof (route_dvalid w ro Wf Hr) as V.
  destruct (find_installed (rdest ro) (map_ptr o (set_r_installed false) w)) as [x|] eqn:E; auto.
  apply find_installed_iff in E; auto. destruct E as (Hx & Ix & Dx).
  rewrite all_map_ptr in Hx. apply in_map_iff in Hx. destruct Hx as (y & <- & Hy).
  unfold upd_route in *. destruct (is_ptr o y) eqn:P; [discriminate|].
  assert (G1 : find_installed (dest_of ro) w = Some y) by (apply find_installed_iff; auto).
  assert (G2 : find_installed (dest_of ro) w = Some ro) by (apply find_installed_iff; auto).
  assert (y = ro) by congruence. subst y. unfold is_ptr in P. lia.
Qed.

Lemma W_switch : forall e w w1 o p ro rn, W e w -> W e w1 -> w_rt w1 = w_rt w ->
  find_ptr o w = Some ro -> find_ptr p w = Some rn ->
  r_installed ro = true -> r_installed rn = false -> dest_of ro = dest_of rn ->
  W e (move_installed (rdest rn) p (map_ptr p (set_r_installed true) (map_ptr o (set_r_installed false) w1))).
Proof.
  intros e w w1 o p ro rn Hw Hw1 E Fo Fn Io In_ D.
  assert (Fo1 : find_ptr o w1 = Some ro) by (unfold find_ptr; rewrite E; auto).
  assert (Fn1 : find_ptr p w1 = Some rn) by (unfold find_ptr; rewrite E; auto).
  pose proof (W_uninst e w1 o Hw1) as Hw2.
  assert (Hop : is_ptr o rn = false).
  { unfold is_ptr. apply Z.eqb_neq. rewrite (find_ptr_ptr _ _ _ Fn). intro; subst. congruence. }
  eapply W_inst with (w := map_ptr o (set_r_installed false) w1); eauto.
  - rewrite find_ptr_map_ptr by auto. rewrite Fn1. cbn [option_map]. unfold upd_route. rewrite Hop. auto.
  - change (rdest rn) with (dest_of rn). rewrite <- D. apply none_after_uninst; auto. apply (W_rt _ _ Hw1).
Qed.

(** ** Source references *)
Lemma users_map_ptr_src : forall w p r k, rt_wf (w_rt w) -> find_ptr p w = Some r -> forall k',
  (users k' (map_ptr p (set_r_src k) w) + (if skey_dec (r_src r) k' then 1 else 0) =
   users k' w + (if skey_dec k k' then 1 else 0))%nat.
Proof.
  intros w p r k Wf F k'. apply find_ptr_In in F. destruct F as (Hr & Hp).
  destruct (route_split _ _ Hr) as (A & l1 & l2 & B & E). unfold users, all_routes. subst p.
  rewrite (map_ptr_split _ w A l1 r l2 B (wf_ptrs _ Wf) E), E, !concat_mid, !map_app.
  rewrite !count_occ_app. cbn [map]. cbn [count_occ].
  cbn [r_src set_r_src]. destruct (skey_dec k k'), (skey_dec (r_src r) k'); lia.
Qed.

Lemma W_setsrc : forall e w p r k, W (k :: e) w -> find_ptr p w = Some r -> dest_of_key k = dest_of r ->
  W (r_src r :: e) (map_ptr p (set_r_src k) w).
Proof.
  intros e w p r k Hw F D. pose proof (W_rt _ _ Hw) as Wf.
  pose proof (users_map_ptr_src w p r k Wf F) as U.
  pose proof F as F'. apply find_ptr_In in F'. destruct F' as (Hr & Hp).
  assert (Hin : forall r', In r' (all_routes (map_ptr p (set_r_src k) w)) ->
     exists x, In x (all_routes w) /\ r' = upd_route p (set_r_src k) x).
  { intros r' H. rewrite all_map_ptr in H. apply in_map_iff in H. destruct H as (x & E & H). eauto. }
  assert (Hx : forall x, In x (all_routes w) -> is_ptr p x = true -> x = r).
  { intros x H1 H2. eapply NoDup_map_inj; [apply (wf_ptrs _ Wf)|exact H1|exact Hr|]. unfold is_ptr in H2. lia. }
  destruct Hw. constructor; cbn; auto.
  - change (map_ptr p (set_r_src k) w) with
      (set_w_rt (map (map (upd_route p (set_r_src k))) (w_rt w)) w). cbn [w_rt set_w_rt].
    set (g := upd_route p (set_r_src k)).
    assert (K : forall x, In x (all_routes w) -> r_ptr (g x) = r_ptr x /\ dest_of (g x) = dest_of x /\
                  r_neigh (g x) = r_neigh x /\ r_installed (g x) = r_installed x).
    { intros x H. unfold g, upd_route. destruct (is_ptr p x) eqn:P; auto.
      rewrite (Hx x H P) in *. repeat split; auto. }
    assert (Kl : forall l x, In l (w_rt w) -> In x l -> In x (all_routes w)).
    { intros l x H1 H2. apply in_concat. eauto. }
    split.
    + apply Forall_forall. intros l Hl. apply in_map_iff in Hl. destruct Hl as (l0 & <- & H0).
      destruct (wf_slot _ _ Wf H0) as (N & Dd & V & M & T). repeat split.
      * destruct l0; [contradiction|discriminate].
      * intros a b Ha Hb. apply in_map_iff in Ha. apply in_map_iff in Hb.
        destruct Ha as (a' & <- & Ha), Hb as (b' & <- & Hb).
        change (dest_of (g a') = dest_of (g b')).
        destruct (K a') as (_ & -> & _); eauto. destruct (K b') as (_ & -> & _); eauto.
      * intros a Ha. apply in_map_iff in Ha. destruct Ha as (a' & <- & Ha).
        change (dvalid (dest_of (g a'))). destruct (K a') as (_ & -> & _); eauto.
      * rewrite map_map. rewrite (map_ext_in _ r_neigh); [exact M|]. intros a Ha.
        exact (proj1 (proj2 (proj2 (K a (Kl _ _ H0 Ha))))).
      * intros a Ha. rewrite tl_map in Ha. apply in_map_iff in Ha. destruct Ha as (a' & <- & Ha).
        change (r_installed (g a') = false).
        assert (In a' l0) by (destruct l0; simpl in *; auto).
        destruct (K a') as (_ & _ & _ & ->); eauto.
    + unfold rsorted. apply sorted_map; [|apply (wf_sorted _ Wf)].
      intros l Hl. unfold hd_key. destruct (slot_hd l (wf_slot _ _ Wf Hl)) as (h & t & ->).
      simpl. change (ckey (dest_of (g h)) = ckey (dest_of h)).
      destruct (K h) as (_ & -> & _); auto. eapply Kl; eauto. simpl; auto.
    + rewrite <- concat_map, map_map. rewrite (map_ext_in _ r_ptr); [exact (wf_ptrs _ Wf)|].
      intros a Ha. exact (proj1 (K a Ha)).
  - intros r' H. destruct (Hin r' H) as (x & Hx1 & ->). apply W_next0 in Hx1. unfold upd_route. destruct (is_ptr p x); auto.
  - intros s Hs. change (s_count s = Z.of_nat (users (s_key s) (map_ptr p (set_r_src k) w) +
      count_occ skey_dec (r_src r :: e) (s_key s))).
    rewrite (W_cnt0 s Hs). f_equal. specialize (U (s_key s)).
    cbn [count_occ]. destruct (skey_dec k (s_key s)), (skey_dec (r_src r) (s_key s)); lia.
  - intros k' [H|H].
    + apply in_map_iff in H. destruct H as (r' & <- & H). destruct (Hin r' H) as (x & Hx1 & ->).
      unfold upd_route. destruct (is_ptr p x); cbn [r_src set_r_src].
      * apply W_ref0. right. simpl. auto.
      * apply W_ref0. left. apply in_map. auto.
    + destruct H as [<-|H]; apply W_ref0; [left; apply in_map; auto|right; simpl; auto].
  - intros r' H. destruct (Hin r' H) as (x & Hx1 & ->). unfold upd_route. destruct (is_ptr p x); cbn; auto.
  - intros r' H. destruct (Hin r' H) as (x & Hx1 & ->). apply W_rng0 in Hx1. unfold upd_route.
    destruct (is_ptr p x); auto.
Qed.

Lemma map_src_keys : forall k f t, (forall s, s_key (f s) = s_key s) -> map s_key (map_src k f t) = map s_key t.
Proof. intros. unfold map_src. rewrite map_map. apply map_ext. intros s. destruct (skey_eqb _ _); auto. Qed.

Lemma skey_dec_eqb : forall A (a b : skey) (x y : A), (if skey_dec a b then x else y) = (if skey_eqb a b then x else y).
Proof.
  intros. destruct (skey_dec a b) as [->|N].
  - rewrite skey_eqb_refl. auto.
  - rewrite (proj2 (skey_eqb_false a b)); auto.
Qed.

Lemma W_retain : forall e w k s, W e w -> get_src k (w_srcs w) = Some s ->
  W (k :: e) (set_w_srcs (map_src k retain1 (w_srcs w)) w).
Proof.
  intros e w k s Hw G. apply get_src_In in G. destruct G as (Hs & Ek).
  destruct Hw. constructor; cbn; auto.
  - apply map_src_sorted; auto.
  - intros s' H. unfold map_src in H. apply in_map_iff in H. destruct H as (x & <- & Hx).
    rewrite skey_dec_eqb. unfold users, all_routes in *. cbn [w_rt set_w_srcs] in *.
    destruct (skey_eqb k (s_key x)) eqn:E.
    + cbn [retain1 s_key s_count]. rewrite E, (W_cnt0 x Hx). lia.
    + rewrite E, (W_cnt0 x Hx). auto.
  - intros k' H. rewrite map_src_keys by auto. destruct H as [H|[<-|H]]; auto.
    apply in_map_iff. eauto.
Qed.

Lemma W_release : forall e w k, W (k :: e) w -> W e (set_w_srcs (map_src k release1 (w_srcs w)) w).
Proof.
  intros e w k Hw. destruct Hw. constructor; cbn; auto.
  - apply map_src_sorted; auto.
  - intros s' H. unfold map_src in H. apply in_map_iff in H. destruct H as (x & <- & Hx).
    specialize (W_cnt0 x Hx). cbn [count_occ] in W_cnt0. rewrite skey_dec_eqb in W_cnt0.
    unfold users, all_routes in *. cbn [w_rt set_w_srcs] in *.
    destruct (skey_eqb k (s_key x)) eqn:E; cbn [release1 s_key s_count]; rewrite W_cnt0; lia.
  - intros k' H. rewrite map_src_keys by auto. apply W_ref0. simpl. tauto.
Qed.

Lemma W_find : forall e w k q, W e w -> W e (set_w_srcs (snd (find_source (sec w) k true q (w_srcs w))) w).
Proof.
  intros e w k q Hw. pose proof (find_source_spec (sec w) k true q (w_srcs w) (W_srcs _ _ Hw)) as F.
  destruct (get_src k (w_srcs w)) as [s|] eqn:G.
  - rewrite F. cbn [snd]. destruct w; auto.
  - destruct F as (t1 & t2 & E & -> & S). cbn [snd]. destruct Hw. constructor; cbn; auto.
    + intros s H. apply in_app_or in H. unfold users, all_routes in *. cbn [w_rt set_w_srcs] in *.
      assert (G' : In s (w_srcs w) \/ s = mkSrc k q INFINITY 0 (sec w)).
      { rewrite E, in_app_iff. simpl in H. destruct H as [H|[H|H]]; auto. }
      destruct G' as [H'| ->]; [apply W_cnt0; auto|]. cbn [s_count s_key].
      assert (N : ~ In k (map s_key (w_srcs w))).
      { intro I. apply in_map_iff in I. destruct I as (x & Ex & Ix). eapply get_src_None; eauto. }
      rewrite !(proj1 (count_occ_not_In skey_dec _ _)); auto; intro I; apply N; apply W_ref0; auto.
    + intros k' H. apply W_ref0 in H. rewrite E in H. rewrite map_app in *. simpl.
      rewrite in_app_iff in *. simpl. tauto.
Qed.

(** ** Inserting and unlinking routes *)
Lemma W_insert : forall e w r, W (r_src r :: e) w -> r_ptr r = w_next w -> r_installed r = false ->
  route_rng r -> dvalid (dest_of r) -> In (r_neigh r) (map n_id (w_nbs w)) ->
  (forall r', In r' (all_routes w) -> dest_of r' = dest_of r -> r_neigh r' <> r_neigh r) ->
  W e (insert_route r (set_w_next (w_next w + 1) w)).
Proof.
  intros e w r Hw P I R V Nb U. pose proof (W_rt _ _ Hw) as Wf.
  set (w1 := set_w_next (w_next w + 1) w).
  assert (Ex : exists rt', insert_route r w1 = set_w_rt rt' w1 /\ rt_wf rt' /\
                Permutation (concat rt') (r :: all_routes w)).
  { assert (Np : ~ In (r_ptr r) (map r_ptr (all_routes w))).
    { intro H. apply in_map_iff in H. destruct H as (x & E & Hx).
      pose proof (W_next _ _ Hw x Hx). lia. }
    unfold insert_route. change (find_route_slot (rdest r) w1) with (find_route_slot (rdest r) w).
    destruct (find_route_slot (rdest r) w) as [i|n] eqn:F.
    - destruct (find_route_slot_found _ w i Wf F) as (A & l & B & E & -> & K).
      eexists. split; [reflexivity|]. change (w_rt w1) with (w_rt w).
      rewrite Nat2Z.id, E, nth_middle', upd_middle.
      assert (S : slot_wf l) by (eapply wf_slot; eauto; rewrite E; apply in_or_app; simpl; auto).
      assert (D : forall x, In x l -> dest_of x = dest_of r).
      { intros x Hx. apply ckey_inj; auto; [apply S; auto|]. rewrite <- (slot_key l x); auto. }
      assert (Perm : Permutation (concat (A ++ (l ++ [r]) :: B)) (r :: all_routes w)).
      { unfold all_routes. rewrite E, !concat_mid.
        replace (concat A ++ (l ++ [r]) ++ concat B) with ((concat A ++ l) ++ r :: concat B)
          by (rewrite <- !app_assoc; reflexivity).
        rewrite app_assoc. symmetry. apply Permutation_middle. }
      split; [|exact Perm].
      apply replace_wf with (l := l); [rewrite <- E; auto| | |].
      + destruct S as (S1 & S2 & S3 & S4 & S5). repeat split.
        * intro H. apply app_eq_nil in H. destruct H; discriminate.
        * assert (G : forall z, In z (l ++ [r]) -> dest_of z = dest_of r).
          { intros z Hz. apply in_app_or in Hz. simpl in Hz. destruct Hz as [Hz|[<-|[]]]; auto. }
          intros x y Hx Hy. rewrite (G x), (G y); auto.
        * intros x Hx. apply in_app_or in Hx. simpl in Hx. destruct Hx as [Hx|[<-|[]]]; auto.
        * rewrite map_app. simpl. eapply Permutation_NoDup; [apply Permutation_cons_append|].
          constructor; auto. intro H. apply in_map_iff in H. destruct H as (x & Ex & Hx).
          apply (U x); auto. unfold all_routes. rewrite E, concat_mid. rewrite !in_app_iff. auto.
        * intros x Hx. destruct l as [|h t]; [contradiction|]. simpl in *.
          apply in_app_or in Hx. simpl in Hx. destruct Hx as [Hx|[<-|[]]]; auto.
      + destruct (slot_hd l S) as (h & t & ->). reflexivity.
      + eapply Permutation_NoDup; [apply Permutation_map; symmetry; exact Perm|].
        simpl. constructor; auto. apply (wf_ptrs _ Wf).
    - destruct (find_route_slot_notfound _ w n Wf F) as (Bn & N & S).
      eexists. split; [reflexivity|]. change (w_rt w1) with (w_rt w).
      destruct (split_at _ n (w_rt w) Bn) as (A & B & E & En).
      assert (Ei : insert_at n [r] (w_rt w) = A ++ [r] :: B) by (rewrite E, En; apply insert_at_split).
      assert (Perm : Permutation (concat (insert_at n [r] (w_rt w))) (r :: all_routes w)).
      { unfold all_routes. rewrite Ei, E, concat_mid, concat_app. simpl. symmetry. apply Permutation_middle. }
      split; [|exact Perm]. split.
      + rewrite Ei. pose proof (wf_slots _ Wf) as Fs. rewrite E in Fs. apply Forall_app in Fs.
        destruct Fs as (F1 & F2). apply Forall_app. split; auto. constructor; auto.
        repeat split; simpl.
        * discriminate.
        * intros x y [<-|[]] [<-|[]]. auto.
        * intros x [<-|[]]. auto.
        * constructor; auto. constructor.
        * contradiction.
      + apply S. reflexivity.
      + eapply Permutation_NoDup; [apply Permutation_map; symmetry; exact Perm|].
        simpl. constructor; auto. apply (wf_ptrs _ Wf). }
  destruct Ex as (rt' & -> & Wf' & Perm).
  assert (Hin : forall x, In x (concat rt') -> x = r \/ In x (all_routes w)).
  { intros x Hx. eapply Permutation_in in Hx; [|exact Perm]. simpl in Hx. destruct Hx; auto. }
  assert (Psrc : Permutation (map r_src (concat rt')) (r_src r :: map r_src (all_routes w))).
  { apply (Permutation_map r_src) in Perm. exact Perm. }
  destruct Hw. constructor; cbn; auto; unfold all_routes; cbn [w_rt set_w_rt].
  - intros x Hx. destruct (Hin x Hx) as [ -> |H]; [lia|]. specialize (W_next0 x H). lia.
  - intros s Hs. rewrite (W_cnt0 s Hs). f_equal. unfold users, all_routes. cbn [w_rt set_w_rt].
    rewrite (Permutation_count_occ skey_dec) in Psrc. rewrite Psrc. cbn [count_occ].
    unfold all_routes. destruct (skey_dec _ _); lia.
  - intros k [Hk|Hk]; [|apply W_ref0; right; simpl; auto].
    eapply Permutation_in in Hk; [|exact Psrc]. apply W_ref0. simpl in *. tauto.
  - intros x Hx. destruct (Hin x Hx) as [ -> |H]; auto.
  - intros x Hx. destruct (Hin x Hx) as [ -> |H]; auto.
Qed.

Lemma unlink_spec : forall w p r, rt_wf (w_rt w) -> find_ptr p w = Some r ->
  exists A l1 l2 B, w_rt w = A ++ (l1 ++ r :: l2) :: B /\
    unlink_route (rdest r) p w =
      set_w_rt (A ++ match l1 ++ l2 with [] => [] | _ => [l1 ++ l2] end ++ B) w.
Proof.
  intros w p r Wf F. apply find_ptr_In in F. destruct F as (Hr & Hp).
  destruct (route_split _ _ Hr) as (A & l1 & l2 & B & E). exists A, l1, l2, B. split; auto.
  assert (Hi : In r (l1 ++ r :: l2)) by (apply in_or_app; simpl; auto).
  destruct (slot_of_split w A _ B r Wf E Hi) as (_ & Fs).
  unfold unlink_route. rewrite Fs, Nat2Z.id, E, nth_middle'.
  assert (N : NoDup (map r_ptr (l1 ++ r :: l2))).
  { pose proof (wf_ptrs _ Wf) as N. rewrite E in N. eapply NoDup_concat_slot; eauto. }
  destruct (ptr_split_unique _ _ _ N) as (U1 & U2). subst p.
  assert (Ef : filter (fun r1 => negb (is_ptr (r_ptr r) r1)) (l1 ++ r :: l2) = l1 ++ l2).
  { rewrite filter_app. cbn [filter]. replace (is_ptr (r_ptr r) r) with true
      by (unfold is_ptr; symmetry; apply Z.eqb_refl). cbn [negb].
    rewrite !filter_all; auto; intros x Hx; [rewrite U2|rewrite U1]; auto. }
  rewrite Ef. destruct (l1 ++ l2) as [|h t].
  - rewrite remove_at_split. auto.
  - rewrite upd_middle. auto.
Qed.

Lemma W_unlink : forall e w p r, W e w -> find_ptr p w = Some r ->
  r_installed r = false ->
  W (r_src r :: e) (unlink_route (rdest r) p w).
Proof.
  intros e w p r Hw F I. pose proof (W_rt _ _ Hw) as Wf.
  destruct (unlink_spec w p r Wf F) as (A & l1 & l2 & B & E & ->).
  assert (S : slot_wf (l1 ++ r :: l2)) by (eapply wf_slot; eauto; rewrite E; apply in_or_app; simpl; auto).
  set (rt' := A ++ match l1 ++ l2 with [] => [] | _ => [l1 ++ l2] end ++ B).
  assert (Perm : Permutation (all_routes w) (r :: concat rt')).
  { unfold all_routes, rt'. rewrite E, concat_mid.
    replace (concat A ++ (l1 ++ r :: l2) ++ concat B) with ((concat A ++ l1) ++ r :: (l2 ++ concat B))
      by (rewrite <- !app_assoc; reflexivity).
    etransitivity; [symmetry; apply Permutation_middle|]. apply perm_skip.
    destruct (l1 ++ l2) as [|h t] eqn:El.
    - apply app_eq_nil in El. destruct El as (-> & ->). rewrite app_nil_r. cbn [app].
      rewrite concat_app. reflexivity.
    - change ([h :: t] ++ B) with ((h :: t) :: B). rewrite concat_mid, <- El, <- !app_assoc. reflexivity. }
  assert (Wf' : rt_wf rt').
  { unfold rt'. destruct (l1 ++ l2) as [|h t] eqn:El.
    - cbn [app]. rewrite E in Wf. split.
      + pose proof (wf_slots _ Wf) as Fs. apply Forall_app in Fs. destruct Fs as (F1 & F2).
        inversion F2; subst. apply Forall_app. auto.
      + eapply sorted_remove. apply (wf_sorted _ Wf).
      + pose proof (wf_ptrs _ Wf) as N. rewrite concat_mid, !map_app in N. rewrite concat_app, map_app.
        apply app_eq_nil in El. destruct El as (-> & ->). cbn [app map] in N.
        apply NoDup_remove_1 in N. auto.
    - change ([h :: t] ++ B) with ((h :: t) :: B). rewrite <- El in *. rewrite E in Wf.
      assert (K : hd_key (l1 ++ l2) = hd_key (l1 ++ r :: l2)).
      { rewrite (slot_key _ r S) by (apply in_or_app; simpl; auto). unfold hd_key. f_equal.
        destruct (slot_rest _ _ _ S) as (_ & D & _). apply D. rewrite El. simpl. auto. }
      eapply replace_wf; [exact Wf| |exact K|].
      + destruct (slot_rest _ _ _ S) as (N & D & V). destruct S as (S1 & S2 & S3 & S4 & S5). repeat split.
        * rewrite El. discriminate.
        * intros x y Hx Hy. rewrite (D x), (D y); auto.
        * intros x Hx. rewrite (D x); auto.
        * simpl in N. inversion N; auto.
        * intros x Hx. destruct l1 as [|a l1']; cbn [app tl] in *.
          -- apply S5. destruct l2; [contradiction|]. simpl in *. auto.
          -- apply S5. apply in_app_or in Hx. apply in_or_app. simpl. tauto.
      + pose proof (wf_ptrs _ Wf) as N. rewrite concat_mid in *. rewrite !map_app in *. cbn [map] in N.
        rewrite <- !app_assoc in *. cbn [app] in N. rewrite app_assoc in N. apply NoDup_remove_1 in N.
        rewrite <- app_assoc in N. auto. }
  assert (Hin : forall x, In x (concat rt') -> In x (all_routes w)).
  { intros x Hx. eapply Permutation_in; [symmetry; exact Perm|]. simpl. auto. }
  assert (Psrc : Permutation (map r_src (all_routes w)) (r_src r :: map r_src (concat rt'))).
  { apply (Permutation_map r_src) in Perm. exact Perm. }
  clearbody rt'. destruct Hw. constructor; cbn; auto; unfold all_routes; cbn [w_rt set_w_rt].
  - intros s Hs. rewrite (W_cnt0 s Hs). f_equal. unfold users, all_routes. cbn [w_rt set_w_rt].
    rewrite (Permutation_count_occ skey_dec) in Psrc. unfold all_routes in Psrc. rewrite Psrc.
    cbn [count_occ]. destruct (skey_dec _ _); lia.
  - intros k [Hk|[<-|Hk]]; auto.
    + apply W_ref0. left. eapply Permutation_in; [symmetry; exact Psrc|]. simpl. auto.
    + apply W_ref0. left. apply find_ptr_In in F. apply in_map. tauto.
Qed.

(** ** Every elementary step preserves the invariant *)
Lemma u16_ok_u16 : forall x, u16_ok (u16 x).
Proof. intros. unfold u16_ok, u16. apply Z.mod_pos_bound. lia. Qed.

Lemma metric_upd_rng : forall c now a b d r, route_rng r -> route_rng (metric_upd c now a b d r).
Proof.
  intros c now a b d r (R1 & R2 & R3 & R4 & R5 & R6). unfold metric_upd.
  destruct (c_half_life c =? 0); unfold route_rng; cbn [r_refmetric r_cost r_add_metric r_seqno r_smoothed r_hold_time
    set_r_refmetric set_r_cost set_r_add_metric set_r_smoothed set_r_smoothed_time];
    split; [apply u16_ok_u16| |apply u16_ok_u16|]; (split; [apply u16_ok_u16|]);
    (split; [apply u16_ok_u16|]); (split; [auto|]); auto. split; [|exact R6].
  pose proof (u16_ok_u16 a). pose proof (u16_ok_u16 b). pose proof (u16_ok_u16 d).
  unfold route_metric, u16_ok, INFINITY in *. cbn [r_refmetric r_cost r_add_metric
    set_r_refmetric set_r_cost set_r_add_metric]. lia.
Qed.

Lemma kframe_rt : forall w w1, kframe w w1 -> w_rt w1 = w_rt w.
Proof. intros w w1 (a & b & ->). reflexivity. Qed.

Lemma W_selected : forall e r w o w1, W e w1 -> W e (selected r w o w1).
Proof.
  intros. unfold selected. eapply W_same; try exact H; cbn; auto; try lia.
  - apply (W_xr _ _ H).
  - apply (W_hl _ _ H).
Qed.
Lemma selected_rt : forall r w o w1, w_rt (selected r w o w1) = w_rt w1.
Proof. reflexivity. Qed.

Lemma W_map_nb : forall e w n f,
  (forall x, n_id (f x) = n_id x /\ n_if (f x) = n_if x /\ n_addr (f x) = n_addr x) ->
  W e w -> W e (map_nb n f w).
Proof.
  intros e w n f K H. eapply W_same; try exact H; cbn; auto; try lia.
  - rewrite map_map. apply map_ext. intros x. destruct (n_id x =? n); auto. apply K.
  - rewrite map_map. apply map_ext. intros x. destruct (n_id x =? n); auto. apply K.
  - apply (W_xr _ _ H).
  - apply (W_hl _ _ H).
Qed.

Lemma W_delnb : forall e w n, (forall r, In r (all_routes w) -> r_neigh r <> n) -> W e w ->
  W e (set_w_nbs (filter (fun x => negb (n_id x =? n)) (w_nbs w)) w).
Proof.
  intros e w n N H. destruct H. constructor; cbn; auto.
  - clear - W_nbs0. induction (w_nbs w) as [|a l IH]; cbn [filter map]; [constructor|].
    cbn [map] in W_nbs0. inversion W_nbs0; subst. destruct (negb (n_id a =? n)); auto.
    cbn [map]. constructor; auto. intro Hi. apply H1. apply in_map_iff in Hi.
    destruct Hi as (x & E & Hx). apply filter_In in Hx. apply in_map_iff. exists x. tauto.
  - intros x Hx. apply filter_In in Hx. apply W_nbif0. tauto.
  - intros r Hr. pose proof (W_nb0 r Hr) as Hn. apply in_map_iff in Hn. destruct Hn as (x & E & Hx).
    apply in_map_iff. exists x. split; auto. apply filter_In. split; auto.
    pose proof (N r Hr). replace (n_id x =? n) with false; auto. symmetry. apply Z.eqb_neq. congruence.
  - assert (L : forall (f : neigh -> bool) l, (length (filter f l) <= length l)%nat).
    { intros f l. induction l as [|a l IH]; cbn [filter]; auto. destruct (f a); cbn [length]; lia. }
    pose proof (L (fun x => negb (n_id x =? n)) (w_nbs w)). lia.
Qed.

Lemma W_mstep : forall b s t, mstep b s t -> W (fst s) (snd s) -> W (fst t) (snd t).
Proof.
  intros b s t H. destruct H; cbn [fst snd]; intros Hw.
  - eapply W_frame; eauto.
  - apply W_map_ptr; auto.
    + intros x _ _ (R1 & R2 & R3 & R4 & R5 & R6). unfold route_rng. cbn. auto 10.
    + eapply W_same; try exact Hw; cbn; auto; try lia; [apply (W_xr _ _ Hw)|apply (W_hl _ _ Hw)].
  - apply change_route_add_frame in H4. apply W_inst with (w := w); auto.
    + apply W_selected. eapply W_kframe; eauto.
    + rewrite selected_rt. apply kframe_rt. auto.
  - apply change_route_add_frame in H2. eapply W_kframe; eauto.
  - destruct (change_route_flush r i (metric_to_kernel (w_cfg w) (route_metric r))
                (map_ptr p (set_r_installed false) w)) as [rc w1] eqn:E.
    apply change_route_flush_frame in E. cbn [snd]. eapply W_kframe; eauto. apply W_uninst; auto.
  - apply change_route_modify_frame in H8. eapply W_switch with (w := w) (ro := ro); auto.
    + apply W_selected. eapply W_kframe; eauto.
    + rewrite selected_rt. apply kframe_rt. auto.
  - apply change_route_modify_frame in H2. eapply W_kframe; eauto.
  - assert (K : kframe w w1).
    { destruct (_ && _); [eapply change_route_modify_frame; eauto|]. inversion H1; subst. apply kframe_refl. }
    apply W_map_ptr.
    + intros x. unfold metric_upd. destruct (c_half_life (w_cfg w) =? 0); auto.
    + intros x. unfold metric_upd. destruct (c_half_life (w_cfg w) =? 0); auto.
    + intros x _ _ R. apply metric_upd_rng; auto.
    + apply W_map_ptr; auto.
      * intros x _ _ (R1 & R2 & R3 & R4 & R5 & R6). unfold route_rng. cbn. auto 10.
      * pose proof (W_kframe _ _ _ K Hw) as HK.
        eapply W_same; try exact HK; cbn; auto; try lia; [apply (W_xr _ _ HK)|apply (W_hl _ _ HK)].
  - apply W_map_ptr; auto. intros x _ _ (R1 & R2 & R3 & R4 & R5 & R6). unfold route_rng. cbn. auto 10.
  - apply W_find; auto.
  - eapply W_retain; eauto.
  - apply W_release; auto.
  - apply W_setsrc; auto.
  - apply W_unlink; auto.
  - eapply W_same; try exact Hw; cbn; auto; try lia. apply (W_hl _ _ Hw).
  - eapply W_same; try exact Hw; cbn; auto; try lia; [apply (W_xr _ _ Hw)|apply (W_hl _ _ Hw)].
  - apply W_map_nb; auto.
  - apply W_delnb; auto.
  - eapply W_same; try exact Hw; cbn; auto; try lia; [apply (W_xr _ _ Hw)|apply (W_hl _ _ Hw)].
Qed.

Lemma W_star : forall q s t, star q s t -> W (fst s) (snd s) -> W (fst t) (snd t).
Proof. intros q s t H. induction H; auto. intros. apply IHstar. eapply W_mstep; eauto. Qed.

Lemma W_istep : forall s t, istep s t -> W (fst s) (snd s) -> W (fst t) (snd t).
Proof. intros s t H. destruct H; cbn [fst snd]; intros Hw. apply W_insert; auto. Qed.

(** X_Run.v: a concrete execution, used by the examples that show that the
    hypotheses of the theorems about executions can be met. *)
From Verif Require Import Base M_Util M_Filter M_Source M_Types M_Neigh M_State M_Table M_Msg M_Route
  M_Xroute S_Util S_Filter S_Neigh S_World M_Daemon L_Filter.

(** A test for [allowed], for the events used here. *)
Definition u16b (x : Z) : bool := (0 <=? x) && (x <? 65536).
Definition knownb (l : list Z) (n : Z) : bool := existsb (Z.eqb n) l.
Definition dvalidb (d : dest) : bool :=
  negb (is_default (d_src d) (d_splen d)) ||
  let '(p, l) := if v4mapped (d_prefix d) then (v4prefix, 96) else (zeroes 16, 0) in
  beq (d_src d) p && (d_splen d =? l).
Definition allowedb (ev : event) (w : world) : bool :=
  match ev with
  | EvUpdate _ d q m _ n _ => knownb (map n_id (w_nbs w)) n && dvalidb d && u16b q && u16b m
  | EvClock t => (0 <=? tv_usec t) && (tv_usec t <? 1000000)
  | EvRequest n _ | EvSeqnoRequest n _ _ _ _ => knownb (map n_id (w_nbs w)) n
  | EvHello n _ q iv | EvIhu n q iv => knownb (map n_id (w_nbs w)) n && u16b q && u16b iv
  | EvNeighbour _ i => knownb (map if_id (w_ifs w)) i && (Z.of_nat (length (w_nbs w)) <? 64999)
  | EvFlushUpdates i | EvSendUpdate i _ _ => knownb (map if_id (w_ifs w)) i
  | EvOracle _ _ | EvWithdraw _ | EvCheckNeighbours | EvFlushInterfaceRoutes _ _ | EvExpireRoutes | EvExpireSources
  | EvKernel _ _ | EvScan _ _ _ | EvResend | EvFlushAll => true
  | _ => false
  end.
Fixpoint allowed_runb (evs : list event) (w : world) : bool :=
  match evs with
  | [] => true
  | ev :: evs' => allowedb ev w && allowed_runb evs' (run1 ev w)
  end.

Lemma knownb_In : forall l n, knownb l n = true -> In n l.
Proof. intros l n H. apply existsb_exists in H. destruct H as (x & Hx & E). apply Z.eqb_eq in E. subst. auto. Qed.
Lemma u16b_ok : forall x, u16b x = true -> u16_ok x.
Proof. intros x H. apply andb_prop in H. unfold u16_ok. lia. Qed.
Lemma dvalidb_ok : forall d, dvalidb d = true -> dvalid d.
Proof.
  intros d H D. unfold dvalidb in H. rewrite D in H. cbn [negb orb] in H.
  destruct (if v4mapped (d_prefix d) then _ else _) as [p l]. apply andb_prop in H. destruct H as (A & B).
  apply beq_true in A. apply Z.eqb_eq in B. congruence.
Qed.
Lemma allowedb_ok : forall ev w, allowedb ev w = true -> allowed ev w.
Proof.
  destruct ev; cbn [allowedb allowed]; intros w H; auto; try discriminate;
  repeat match goal with H : _ && _ = true |- _ => apply andb_prop in H; destruct H end;
  repeat match goal with
  | H : u16b _ = true |- _ => apply u16b_ok in H
  | H : dvalidb _ = true |- _ => apply dvalidb_ok in H
  | H : knownb _ _ = true |- _ => apply knownb_In in H
  end; unfold known_nb, known_if; auto; try (unfold tv_ok; lia); split; auto; lia.
Qed.
Lemma reach_list : forall c evs w, reach c w -> allowed_runb evs w = true -> reach c (run evs w).
Proof.
  induction evs as [|ev evs IH]; intros w R A; auto. cbn [allowed_runb] in A. apply andb_prop in A. destruct A as (A & B).
  apply (IH (run1 ev w)); auto. apply reach_run; auto. apply allowedb_ok. auto.
Qed.

(** Two wired interfaces with split horizon off, one neighbour on each. *)
Definition x_if (id : Z) : iface :=
  mkIf id (100 + id) IF_UP 96 tv0 tv0 tv0 (Some [10;0;id;1])
    [[254;128;0;0;0;0;0;0;0;0;0;0;0;0;0;id]] 200 [] 1400 0 400 1600 42 10000 120000 150.
(** "in ip 10.7.0.0/16 deny", "redistribute ip 10.9.0.0/16 metric 128" *)
Definition x_conf : conf :=
  mkConf [1;1;1;1;1;1;1;1] 1024 false (-1) 4
    [mkFilt 0 None None (Some (mapped 10 7 0 0, 112)) 0 128 None 0 128 None 0 (mkRes INFINITY None 0 None)]
    []
    (finalise_redistribute
      [mkFilt 0 None None (Some (mapped 10 9 0 0, 112)) 0 128 None 0 128 None 0 (mkRes 128 None 0 None)])
    (finalise_install []) 254 2000 true.
Definition x_boot : world := boot x_conf (mkTv 1000 0) [x_if 1; x_if 2] 17.

Definition x_addr (n : Z) : list Z := [254;128;0;0;0;0;0;0;0;0;0;0;0;0;0;n].
Definition x_id (n : Z) : list Z := [n;0;0;0;0;0;0;n].
(** 10.x.0.0/16 *)
Definition xd (x : Z) : dest := mkDest (mapped 10 x 0 0) 112 (mapped 0 0 0 0) 96.
Definition x_nh (n : Z) : option (list Z) := Some (mapped 192 168 0 n).

(** Both neighbours come up; each announces 10.1.0.0/16, the second with a better
    metric; the first also announces 10.2.0.0/16. *)
Definition x_up : list event :=
  [EvClock (mkTv 1001 0); EvNeighbour (x_addr 51) 1; EvNeighbour (x_addr 52) 2;
   EvHello 1 false 100 400; EvHello 1 false 101 400; EvIhu 1 96 1200;
   EvHello 2 false 200 400; EvHello 2 false 201 400; EvIhu 2 128 1200].
Definition x_updates : list event :=
  [EvUpdate (Some (x_id 7)) (xd 1) 40 300 1600 1 (x_nh 51);
   EvUpdate (Some (x_id 8)) (xd 2) 50 0 1600 1 (x_nh 51);
   EvClock (mkTv 1003 0);
   EvFlushUpdates 1; EvFlushUpdates 2;
   EvUpdate (Some (x_id 7)) (xd 1) 40 100 1600 2 (x_nh 52);
   EvKernel true (mkKr (xd 9) 0 3 4);
   EvClock (mkTv 1030 0); EvExpireRoutes;
   EvUpdate (Some (x_id 7)) (xd 1) 40 100 1600 2 (x_nh 52); EvExpireSources].
Definition x_w : world := run (x_up ++ x_updates) x_boot.

Lemma x_boot_reach : reach x_conf x_boot.
Proof.
  apply reach_boot; [repeat constructor; simpl; lia| |unfold tv_ok; simpl; lia|unfold u16_ok; simpl; lia].
  repeat constructor; simpl; lia.
Qed.
Lemma x_reach : reach x_conf x_w.
Proof. apply reach_list; [apply x_boot_reach|]. vm_compute. reflexivity. Qed.
Lemma x_hl : c_half_life x_conf <> 2. Proof. simpl. lia. Qed.

(** Later the second neighbour announces 10.1.0.0/16 again: its route is selected. *)
Definition x_later : list event :=
  [EvClock (mkTv 1060 0); EvUpdate (Some (x_id 7)) (xd 1) 40 100 1600 2 (x_nh 52)].
Definition x_w2 : world := run x_later x_w.
Lemma x_reach2 : reach x_conf x_w2.
Proof. apply reach_list; [apply x_reach|]. vm_compute. reflexivity. Qed.

Lemma dangling_interface : exists c w i, c_half_life c <> 2 /\ reach c w /\
  let w' := run1 (EvFlushInterface i) (flush_interface_routes i false w) in
  exists n, In n (w_nbs w') /\ n_if n = i /\ forall x, In x (w_ifs w') -> if_id x <> i.
Proof.
  exists x_conf, x_w2, 2. split; [apply x_hl|]. split; [apply x_reach2|].
  set (w' := run1 _ _). cbv zeta. assert (E : map n_if (w_nbs w') = [2; 1]) by (vm_compute; reflexivity).
  destruct (w_nbs w') as [|n l] eqn:N; [discriminate|]. exists n. split; [left; auto|]. split; [inversion E; auto|].
  assert (Ei : map if_id (w_ifs w') = [1]) by (vm_compute; reflexivity). intros x Hx. apply (in_map if_id) in Hx.
  rewrite Ei in Hx. destruct Hx as [Hx|[]]. lia.
Qed.

(** Executions in which the kernel does what it is asked *)
From Verif Require Import S_Kern.
Definition kgoodb (ev : event) : bool :=
  match ev with
  | EvOracle _ k => forallb (Z.eqb 0) k
  | EvUpdate _ d _ _ _ _ (Some nh) =>
      (negb (v4mapped (d_prefix d)) || (96 <=? d_plen d)) && (negb (v4mapped nh) || v4mapped (d_prefix d))
  | EvInterface _ => false
  | _ => true
  end.
Lemma kgoodb_ok : forall ev w, kgoodb ev = true -> kgood ev w.
Proof.
  destruct ev; cbn [kgoodb kgood]; intros w H; auto; try discriminate.
  - apply Forall_forall. intros x Hx. rewrite forallb_forall in H. specialize (H x Hx). lia.
  - destruct nh as [nh|]; auto. apply andb_prop in H. destruct H as (A & B). split; intros E.
    + rewrite E in A. cbn in A. lia.
    + rewrite E in B. exact B.
Qed.
Lemma kreach_list : forall c evs w, kreach c w -> allowed_runb evs w = true -> forallb kgoodb evs = true -> kreach c (run evs w).
Proof.
  induction evs as [|ev evs IH]; intros w R A B; auto. cbn [allowed_runb forallb] in A, B.
  apply andb_prop in A. destruct A as (A1 & A2). apply andb_prop in B. destruct B as (B1 & B2).
  apply (IH (run1 ev w)); auto. apply kreach_run; auto; [apply allowedb_ok|apply kgoodb_ok]; auto.
Qed.
Lemma x_boot_kreach : forall c, kreach c (boot c (mkTv 1000 0) [x_if 1; x_if 2] 17).
Proof.
  intros c. apply kreach_boot; [repeat constructor; simpl; lia| |unfold tv_ok; simpl; lia|unfold u16_ok; simpl; lia].
  repeat constructor; simpl; lia.
Qed.
Lemma x_kreach2 : kreach x_conf x_w2.
Proof.
  apply kreach_list; [|vm_compute; reflexivity|reflexivity].
  apply kreach_list; [apply x_boot_kreach|vm_compute; reflexivity|reflexivity].
Qed.
Lemma x_static : static_install x_conf.
Proof. intros f [<-|[]]. split; reflexivity. Qed.
Lemma x_filters : filters_ok x_conf.
Proof. intros f [<-|[]]. cbn. unfold INFINITY. lia. Qed.

(** "install if eth2 table 100" *)
Definition y_conf : conf :=
  set_c_instfs (finalise_install [mkFilt 0 (Some 102) None None 0 128 None 0 128 None 0 (mkRes 0 None 100 None)]) x_conf.
Definition y_w : world :=
  run (x_up ++ x_updates ++ x_later) (boot y_conf (mkTv 1000 0) [x_if 1; x_if 2] 17).

(** 2001:db8::/32 through a neighbour, then through another one with an IPv4 next hop *)
Definition d6 : dest := mkDest [32;1;13;184;0;0;0;0;0;0;0;0;0;0;0;0] 32 (zeroes 16) 0.
Definition z_up : list event :=
  x_up ++ [EvUpdate (Some (x_id 7)) d6 40 300 1600 1 (Some (x_addr 51));
     EvClock (mkTv 1003 0); EvUpdate (Some (x_id 7)) d6 40 100 1600 2 (x_nh 52)].
Definition z_later : list event := [EvClock (mkTv 1060 0); EvUpdate (Some (x_id 7)) d6 40 100 1600 2 (x_nh 52)].
Definition z_w : world := run z_later (run z_up x_boot).

Lemma y_kreach : kreach y_conf y_w.
Proof. apply kreach_list; [apply x_boot_kreach|vm_compute; reflexivity|reflexivity]. Qed.
Lemma wrong_table : exists c w F r n i q, c_half_life c <> 2 /\ filters_ok c /\ kreach c w /\
  kernel_table (w_ktr w) = Some F /\ In r (all_routes w) /\ r_installed r = true /\
  nb_if (r_neigh r) w = Some (n, i) /\ kent c (if_ifindex i) r = Some q /\ ~ In q F.
Proof.
  pose (t := fun w => match all_routes w with
    | r :: _ => match nb_if (r_neigh r) w, kernel_table (w_ktr w) with
        | Some (n, i), Some F => match kent y_conf (if_ifindex i) r with
            | Some q => r_installed r && negb (if in_dec kreq_dec q F then true else false)
            | None => false end
        | _, _ => false end
    | [] => false end).
  assert (T : t y_w = true) by (vm_compute; reflexivity). unfold t in T. exists y_conf, y_w.
  destruct (all_routes y_w) as [|r l]; [discriminate|]. destruct (nb_if (r_neigh r) y_w) as [[n i]|] eqn:Nb; [|discriminate].
  destruct (kernel_table (w_ktr y_w)) as [F|]; [|discriminate]. destruct (kent y_conf (if_ifindex i) r) as [q|] eqn:K; [|discriminate].
  apply andb_prop in T. destruct T as (T1 & T2). exists F, r, n, i, q.
  split; [clear; cbn; lia|]. split; [exact x_filters|]. split; [exact y_kreach|]. split; auto. split; [left; auto|]. split; auto. split; auto.
  split; auto. destruct (in_dec kreq_dec q F); [discriminate|auto].
Qed.

Lemma wrong_family : exists c w r n i q, c_half_life c <> 2 /\ filters_ok c /\ static_install c /\
  reach c w /\ w_kresp w = [] /\ kernel_table (w_ktr w) = Some [] /\ In r (all_routes w) /\ r_installed r = true /\
  nb_if (r_neigh r) w = Some (n, i) /\ kent c (if_ifindex i) r = Some q.
Proof.
  pose (t := fun w => match all_routes w with
    | r :: _ => match nb_if (r_neigh r) w with
        | Some (n, i) => match kent x_conf (if_ifindex i) r with
            | Some q => r_installed r
            | None => false end
        | _ => false end
    | [] => false end).
  assert (R : reach x_conf z_w).
  { apply reach_list; [|vm_compute; reflexivity]. apply reach_list; [apply x_boot_reach|vm_compute; reflexivity]. }
  assert (E1 : w_kresp z_w = []) by (vm_compute; reflexivity).
  assert (E2 : kernel_table (w_ktr z_w) = Some []) by (vm_compute; reflexivity).
  assert (T : t z_w = true) by (vm_compute; reflexivity). unfold t in T. exists x_conf, z_w.
  destruct (all_routes z_w) as [|r l]; [discriminate|]. destruct (nb_if (r_neigh r) z_w) as [[n i]|] eqn:Nb; [|discriminate].
  destruct (kent x_conf (if_ifindex i) r) as [q|] eqn:K; [|discriminate]. exists r, n, i, q.
  split; [exact x_hl|]. split; [exact x_filters|]. split; [exact x_static|]. split; auto. split; auto. split; auto.
  split; [left; auto|]. auto.
Qed.

Lemma reflect_saturates : exists c r, c_reflect c = true /\ c_kernel_metric c < 65535 /\ metric_of r < 65535 /\
  forall i, exists q, kent c i r = Some q /\ q_via q = None.
Proof.
  exists (set_c_reflect true (set_c_kernel_metric 60000 x_conf)).
  exists (mkRoute 1 (mkKey (x_id 1) (d_prefix (xd 1)) 112 (d_src (xd 1)) 96) 6000 0 0 1 1 (mapped 192 168 0 1) 0 0 0 0 true).
  split; [reflexivity|]. split; [vm_compute; reflexivity|]. split; [vm_compute; reflexivity|]. intros i. eexists. split; reflexivity.
Qed.

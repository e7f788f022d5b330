(** P_Net.v: loops in a network of routers. *)
From Verif Require Import Base M_Util M_Filter M_Source M_Types M_Neigh M_State M_Table M_Msg M_Route
  M_Xroute S_Util S_Filter S_Neigh S_World M_Daemon M_Net S_Net L_Filter L_Source L_Net2 L_Net3 X_Run X_Net.
From Coq Require Import Relations.

(** C52, first part.  Over every execution of any number of routers, with packets delayed,
    reordered, duplicated or lost, the selected routes of a source that satisfy the
    feasibility condition form no cycle. *)
Theorem C52_feasible_no_loop : forall who k q N, nexec (c_all who k q) N -> ~ cyclic (fsuccessor who k q N).
Proof.
  intros who k q N E. apply acyclic_feasible with (Q := False). eapply NI_exec; [|exact E]. intros N0 i ev N' C. split; [exact C|intros []].
Qed.
Print Assumptions C52_feasible_no_loop.

(** C52, second part.  If moreover link costs are positive and no retracted route of the
    source is ever selected, then all selected routes of the source form no cycle. *)
Theorem C52_no_loop : forall who k q N,
  nexec (fun N i ev N' => c_all who k q N i ev N' /\ c_strict k N i ev N') N -> ~ cyclic (successor who k N).
Proof.
  intros who k q N E. apply acyclic_all with (q := q) (Q := True); [exact Logic.I|]. eapply NI_exec; [|exact E].
  intros N0 i ev N' (C & D). split; [exact C|intros _; exact D].
Qed.
Print Assumptions C52_no_loop.

(** C52 refuted without the last condition: a network in which every update is a packet of
    the neighbour it is credited to, where two routers end up with finite routes through each other. *)
Theorem C52_refuted : exists who k q N,
  nexec (fun N i ev N' => c_genuine who N i ev N' /\ c_fresh k N i ev N' /\ c_half k q N i ev N' /\
                          c_kernel N i ev N' /\ c_cost N i ev N') N /\
  cyclic (fun i j => exists r, In r (all_routes (N i)) /\ r_installed r = true /\ r_src r = k /\
                     peer who N i (r_neigh r) j /\ route_metric r < INFINITY).
Proof.
  exists n_who, n_k, 0, n_net2. split.
  - apply (nrunb_ok n_who n_k 0 n_trouble); [vm_compute; reflexivity|]. apply (nrunb_ok n_who n_k 0 n_start); [vm_compute; reflexivity|].
    apply nexec_boot, n_boot_ok.
  - assert (X : forall i j m, map (fun r => (r_installed r, r_src r, r_neigh r, route_metric r)) (all_routes (n_net2 i)) = [(true, n_k, 1, m)] ->
      peerb n_who n_net2 i 1 = Some j -> m < INFINITY -> exists r, In r (all_routes (n_net2 i)) /\ r_installed r = true /\ r_src r = n_k /\
                     peer n_who n_net2 i (r_neigh r) j /\ route_metric r < INFINITY).
    { intros i j m E Pj Hm. destruct (all_routes (n_net2 i)) as [|r l]; [discriminate E|]. exists r. split; [left; reflexivity|].
      cbn [map] in E. assert (E0 : (r_installed r, r_src r, r_neigh r, route_metric r) = (true, n_k, 1, m)) by congruence.
      apply pair_equal_spec in E0. destruct E0 as (E0 & E4). apply pair_equal_spec in E0. destruct E0 as (E0 & E3).
      apply pair_equal_spec in E0. destruct E0 as (E1 & E2). rewrite E1, E2, E3, E4. split; [reflexivity|]. split; [reflexivity|]. split; [|exact Hm].
      unfold peerb in Pj. unfold peer. destruct (get_nb 1 (n_net2 i)) as [x|]; [|discriminate Pj]. exists x. split; [reflexivity|]. congruence. }
    exists 1. eapply Relation_Operators.t1n_trans; [|apply Relation_Operators.t1n_step].
    + apply (X 1 2 416); [vm_compute; reflexivity|vm_compute; reflexivity|reflexivity].
    + apply (X 2 1 512); [vm_compute; reflexivity|vm_compute; reflexivity|reflexivity].
Qed.
Print Assumptions C52_refuted.

(** The hypotheses are met by the first part of that execution, at the end of which B's
    route goes through A and A's through S. *)
Definition strictb (N : net) (ev : event) (i : Z) : bool :=
  forallb (fun e => r_refmetric (e_new e) <? INFINITY) (w_sel (run1 ev (N i))) &&
  match ev with EvUpdate _ _ _ m _ _ _ => m <? INFINITY | _ => true end.
Fixpoint nrunsb who q (l : list (Z * event)) (N : net) : bool :=
  match l with [] => true | (i, ev) :: l' => stepb who q N i ev && strictb N ev i && nrunsb who q l' (put i (run1 ev (N i)) N) end.
Lemma nrunsb_ok who k q l : forall N, nrunsb who q l N = true ->
  nexec (fun N i ev N' => c_all who k q N i ev N' /\ c_strict k N i ev N') N ->
  nexec (fun N i ev N' => c_all who k q N i ev N' /\ c_strict k N i ev N') (nrun l N).
Proof.
  induction l as [|(i & ev) l IH]; intros N H E; [exact E|]. cbn [nrunsb nrun] in *. apply andb_true_iff in H. destruct H as (H & H').
  apply IH; [exact H'|]. apply andb_true_iff in H. destruct H as (H & Hs).
  destruct (stepb_ok who k q N i ev H) as (A & B1 & B2 & B3 & B4 & B5).
  apply andb_true_iff in Hs. destruct Hs as (Hs & Hr). rewrite forallb_forall in Hs.
  eapply nexec_step; [exact E|split; [exact A|reflexivity]|]. split; [split; [left; exact B1|auto]|].
  split; [exact B5|]. split.
  - unfold c_finite. rewrite put_same. apply Forall_forall. intros e He _. specialize (Hs e He). lia.
  - intros id d s m iv n nh -> _ L. cbn in Hr. unfold INFINITY in *. lia.
Qed.
Example C52_ex :
  nexec (fun N i ev N' => c_all n_who n_k 0 N i ev N' /\ c_strict n_k N i ev N') n_net1 /\
  map (fun i => map (fun r => (r_neigh r, r_seqno r, r_refmetric r, r_installed r)) (all_routes (n_net1 i))) [1; 2] =
    [[(2, 40, 128, true); (1, 40, 320, false)]; [(1, 40, 224, true)]] /\
  map (fun x => peerb n_who n_net1 (fst x) (snd x)) [(1, 2); (1, 1); (2, 1)] = [Some 3; Some 2; Some 1].
Proof.
  split; [|split; vm_compute; reflexivity]. apply (nrunsb_ok n_who n_k 0 n_start); [vm_compute; reflexivity|]. apply nexec_boot, n_boot_ok.
Qed.

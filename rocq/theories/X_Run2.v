(** X_Run2.v: further concrete executions. *)
From Verif Require Import Base M_Util M_Source M_Filter M_Types M_Neigh M_State M_Table M_Msg M_Route M_Xroute M_Daemon
  S_Util S_Source S_Filter S_Neigh S_World L_Step L_Daemon L_Inv L_World X_Run.

(** The first neighbour announces 10.2.0.0/16 again, with a larger metric and the old
    seqno, after we announced it with a smaller one; and with another next hop. *)
Definition u_w : world := run [EvFlushUpdates 1; EvFlushUpdates 2; EvUpdate (Some (x_id 8)) (xd 2) 50 700 1600 1 (x_nh 99)] x_w2.
Lemma u_reach : reach x_conf u_w.
Proof. apply reach_list; [apply x_reach2|]. vm_compute. reflexivity. Qed.
Lemma find_ex : forall (A : Type) (f : A -> bool) l, existsb f l = true -> exists x, In x l /\ f x = true.
Proof. intros A f l H. apply existsb_exists in H. exact H. Qed.
Lemma unfeasible_selected : exists c w r, c_half_life c <> 2 /\ reach c w /\ In r (all_routes w) /\ r_installed r = true /\
  ~ feasible_in w r.
Proof.
  assert (X : existsb (fun r => r_installed r && negb (feasible r u_w)) (all_routes u_w) = true) by (vm_compute; reflexivity).
  pose proof u_reach as R. revert X R. generalize u_w. intros w X R. apply find_ex in X. destruct X as (r & Hr & X).
  apply andb_prop in X. destruct X as (X & Y). apply negb_true_iff in Y. exists x_conf, w, r.
  split; [apply x_hl|]. split; [exact R|]. split; [exact Hr|]. split; [exact X|]. intros F.
  destruct (reach_W x_conf w x_hl R) as (Hw & _). pose proof (reach_rng x_conf w x_hl R) as G.
  rewrite (proj2 (feasible_in_iff [] w r Hw G Hr) F) in Y. discriminate.
Qed.

Lemma old_next_hop : exists c w id d q m iv n nh r, c_half_life c <> 2 /\ reach c w /\
  allowed (EvUpdate id d q m iv n (Some nh)) w /\ m < 65535 /\
  let w' := run1 (EvUpdate id d q m iv n (Some nh)) w in
  w_kresp w' = [] /\ In r (all_routes w') /\ dest_of r = d /\ r_neigh r = n /\ r_seqno r = q /\ r_refmetric r = m /\ r_installed r = true /\
  r_nexthop r <> nh.
Proof.
  set (ev := EvUpdate (Some (x_id 8)) (xd 2) 51 10 1600 1 (Some (mapped 192 168 0 99))).
  assert (T : existsb (fun r => beq (d_prefix (dest_of r)) (d_prefix (xd 2)) && (d_plen (dest_of r) =? 112) && beq (d_src (dest_of r)) (d_src (xd 2)) &&
      (d_splen (dest_of r) =? 96) && (r_neigh r =? 1) && (r_seqno r =? 51) && (r_refmetric r =? 10) && r_installed r &&
      beq (r_nexthop r) (mapped 192 168 0 51)) (all_routes (run1 ev x_w2)) = true) by (vm_compute; reflexivity).
  assert (K : w_kresp (run1 ev x_w2) = []) by (vm_compute; reflexivity).
  assert (Al : allowed ev x_w2) by (apply allowedb_ok; vm_compute; reflexivity).
  pose proof x_reach2 as R. revert T K Al R. generalize x_w2. intros w T K Al R. apply find_ex in T. destruct T as (r & Hr & T).
  repeat (apply andb_prop in T; let X := fresh "T" in destruct T as (T & X)).
  exists x_conf, w, (Some (x_id 8)), (xd 2), 51, 10, 1600, 1, (mapped 192 168 0 99), r. fold ev.
  split; [apply x_hl|]. split; [exact R|]. split; [exact Al|]. split; [lia|]. cbv zeta. split; [exact K|]. split; [exact Hr|].
  apply beq_true in T, T0, T6. split; [|split; [lia|]].
  { destruct (dest_of r) as [a b c d]. cbn [d_prefix d_plen d_src d_splen] in *. subst. unfold xd. f_equal; lia. }
  split; [lia|]. split; [lia|]. split; [assumption|]. rewrite T0. vm_compute. discriminate.
Qed.

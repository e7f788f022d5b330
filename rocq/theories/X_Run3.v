(** X_Run3.v: executions with pending updates. *)
From Verif Require Import Base M_Util S_Util M_Source M_Filter M_Types M_Neigh M_State M_Table M_Msg M_Route M_Xroute M_Daemon S_World X_Run X_Run2.

(** The first neighbour asks for 10.1, 10.2 and 10.77 (unknown), some of them twice, and 10.9 (ours). *)
Definition f_evs : list event :=
  [EvRequest 1 (Some (xd 1)); EvRequest 1 (Some (xd 77)); EvRequest 1 (Some (xd 2)); EvRequest 1 (Some (xd 77));
   EvRequest 1 (Some (xd 9)); EvRequest 1 (Some (xd 2))].
Definition f_w : world := run f_evs x_w2.
Lemma f_reach : reach x_conf f_w.
Proof. apply reach_list; [apply x_reach2|]. vm_compute. reflexivity. Qed.

(** The same with split horizon on the first interface. *)
Definition s_boot : world := boot x_conf (mkTv 1000 0) [set_if_flags 5 (x_if 1); x_if 2] 17.
Definition s_w : world := run (x_up ++ x_updates ++ x_later ++ f_evs) s_boot.
Lemma s_reach : reach x_conf s_w.
Proof.
  apply reach_list.
  - apply reach_boot; [repeat constructor; simpl; lia| |unfold tv_ok; simpl; lia|unfold u16_ok; simpl; lia]. repeat constructor; simpl; lia.
  - vm_compute. reflexivity.
Qed.

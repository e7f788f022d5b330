(** X_Run5.v: executions with requests for a new sequence number. *)
From Verif Require Import Base M_Util S_Util M_Source M_Filter M_Types M_Neigh M_State M_Table M_Msg M_Route M_Xroute M_Daemon S_World
  X_Run X_Run2 X_Run3 S_Resend X_Run4.

(** A third neighbour, on the first interface *)
Definition t_w : world := run1 (EvNeighbour (mapped 192 168 0 53) 1) r_w.
Lemma t_reach : reach x_conf t_w.
Proof. unfold t_w. apply reach_run; [apply r_reach|]. apply allowedb_ok. vm_compute. reflexivity. Qed.

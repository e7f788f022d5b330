(** X_Run4.v: executions with pending retransmissions. *)
From Verif Require Import Base M_Util S_Util M_Source M_Filter M_Types M_Neigh M_State M_Table M_Msg M_Route M_Xroute M_Daemon S_World
  X_Run X_Run2 X_Run3 S_Resend.

(** The first neighbour's route to 10.1 becomes unfeasible, then the second
    interface goes away: the route is lost, and a newer one is asked for. *)
Definition r_w : world :=
  run [EvUpdate (Some (x_id 7)) (xd 1) 40 600 400 1 (x_nh 51); EvFlushInterfaceRoutes 2 false] x_w2.
Lemma r_reach : reach x_conf r_w.
Proof. apply reach_list; [apply x_reach2|]. vm_compute. reflexivity. Qed.

(** The request is repeated three times without an answer; the neighbour on the
    second interface asks for an older one. *)
Definition q_w : world :=
  run [EvClock (mkTv 1062 0); EvResend; EvClock (mkTv 1064 0); EvResend; EvClock (mkTv 1068 0); EvResend;
       EvClock (mkTv 1070 0)] r_w.
Lemma q_reach : reach x_conf q_w.
Proof. apply reach_list; [apply r_reach|]. vm_compute. reflexivity. Qed.
Definition q_w2 : world := run1 (EvSeqnoRequest 2 (xd 1) 10 40 (x_id 7)) q_w.
Lemma q_reach2 : reach x_conf q_w2.
Proof. unfold q_w2. apply reach_run; [apply q_reach|]. apply allowedb_ok. vm_compute. reflexivity. Qed.

(** Ten seconds after the start of the system, a request for another router-id is
    recorded while an update for the same destination is pending. *)
Definition e_w : world := record_resend 1 (xd 1) 5 (Some (x_id 77)) (Some 1) 2000 (set_w_now (mkTv 10 0) f_w).
Definition e_evs : list event :=
  [EvClock (mkTv 12 0); EvResend; EvResend; EvResend; EvClock (mkTv 16 0); EvResend; EvClock (mkTv 32 0); EvResend].

(** S_Local.v: what serving a control connection should mean. *)
From Verif Require Import Base M_Config M_Local.

(** The complete lines of a text, in order, and what follows the last one. *)
Inductive lines_of : list Z -> list (list Z) -> list Z -> Prop :=
| lo_end : forall t, ~ In 10 t -> lines_of t [] t
| lo_line : forall b l ls t, ~ In 10 b -> lines_of l ls t -> lines_of (b ++ 10 :: l) ((b ++ [10]) :: ls) t.

(** Obeying lines one after the other: the actions they are given. *)
Inductive obey (e : env) : list (list Z) -> pst -> list Z -> pst -> Prop :=
| ob_nil : forall p, obey e [] p [] p
| ob_cons : forall l ls p a m p1 acts p2, from_string e l p = (a, m, p1) -> obey e ls p1 acts p2 ->
    obey e (l :: ls) p (a :: acts) p2.

(** A succession of reads on one connection, all writes succeeding: the data read, what was
    served. *)
Inductive reading (e : env) : sock -> pst -> list (list Z) -> list served -> sock -> pst -> Prop :=
| rg_nil : forall s p, reading e s p [] [] s p
| rg_read : forall s p d x ds log s2 p2,
    d <> [] -> Z.of_nat (length (k_buf s)) + Z.of_nat (length d) <= BUFSIZE ->
    x = local_read e (RData d) (fun _ => WOk) s p 0 ->
    reading e (lr_sock x) (lr_p x) ds log s2 p2 ->
    reading e s p (d :: ds) (lr_log x ++ log) s2 p2.

(** The reply due to an action: nothing for quit, "bad" for an error, "no" with a message
    for a refusal, "ok" otherwise. *)
Definition reply_due (a : Z) (m : option (list Z)) (r : list Z) : Prop :=
  (a = ACT_QUIT -> r = []) /\
  (a = ACT_NO -> forall x, m = Some x -> (length x <= 90)%nat -> r = [110; 111; 32] ++ x ++ [10]) /\
  (0 <= a < ACT_NO -> a <> ACT_QUIT -> r = [111; 107; 10]) /\
  (a < 0 -> r = [98; 97; 100; 10]).

(** Whether the client is sent every change, after some actions: the last request counts. *)
Definition switched (before : bool) (acts : list Z) (after : bool) : Prop :=
  (forall l1 l2, acts = l1 ++ ACT_MONITOR :: l2 -> ~ In ACT_UNMONITOR l2 -> after = true) /\
  (forall l1 l2, acts = l1 ++ ACT_UNMONITOR :: l2 -> ~ In ACT_MONITOR l2 -> after = false) /\
  (~ In ACT_MONITOR acts -> ~ In ACT_UNMONITOR acts -> after = before).

(** S_Net.v: what it means for routes to form a loop, and the order of feasibility
    distances. *)
From Verif Require Import Base S_Util.
From Coq Require Import Relations.

(** Sequence numbers counted from [q]: meaningful for numbers less than half a circle
    ahead of [q]. *)
Definition in_half (q s : Z) : Prop := 0 <= s < 65536 /\ ahead s q < 32768.

(** Distances are pairs of a sequence number and a metric; a newer number is closer,
    then a smaller metric. *)
Definition closer (q : Z) (a b : Z * Z) : Prop :=
  ahead (fst b) q < ahead (fst a) q \/ (fst a = fst b /\ snd a < snd b).
Definition closer_eq (q : Z) (a b : Z * Z) : Prop := a = b \/ closer q a b.

(** A cycle of a relation between routers. *)
Definition cyclic {A} (edge : A -> A -> Prop) : Prop := exists i, clos_trans_1n A edge i i.

(** S_Start.v: router-ids made from hardware addresses; who may hold a process id file. *)
From Verif Require Import Base M_Util S_Util M_Start.

(** Hardware addresses assigned by a manufacturer: neither group nor local bit *)
Definition assigned (a : Z) : Prop := a mod 4 = 0.
(** The modified EUI-64 of RFC 4291, appendix A, of an address of 6 or of 8 bytes *)
Inductive hw_id : Z -> list Z -> list Z -> Prop :=
| id48 : forall fam a b c d e f rest, In fam [1; 774; 800; 6] -> assigned a -> [a; b; c; d; e; f] <> [0; 0; 0; 0; 0; 0] ->
    hw_id fam (a :: b :: c :: d :: e :: f :: rest) [a + 2; b; c; 255; 254; d; e; f]
| id64 : forall fam a b c d e f g i rest, In fam [27; 24; 32] -> assigned a -> [a; b; c; d; e; f; g; i] <> [0; 0; 0; 0; 0; 0; 0; 0] ->
    hw_id fam (a :: b :: c :: d :: e :: f :: g :: i :: rest) [a + 2; b; c; d; e; f; g; i].
(** Interface number [i] provides the id. *)
Definition provides (h : hw) (i : Z) (id : list Z) : Prop :=
  exists name fam mac, h_name h i = Some name /\ h_addr h name = Some (fam, mac) /\ hw_id fam mac id.
(** The first interface that provides one does. *)
Definition hardware_id (h : hw) (id : list Z) : Prop :=
  exists i, 1 <= i <= 255 /\ provides h i id /\ forall j x, 1 <= j < i -> ~ provides h j x.
(** Sane answers: hardware addresses are 14 bytes *)
Definition hw_ok (h : hw) : Prop := forall n fam mac, h_addr h n = Some (fam, mac) -> length mac = 14%nat /\ bytes_ok mac.

(** Nobody else touches the file of a running daemon. *)
Definition hands_off (s : psys) (ev : pev) : Prop :=
  match ev with PFile path _ => forall pid, ~ In (pid, path) (p_run s) | _ => True end.
Fixpoint hands_off_run (s : psys) (l : list pev) : Prop :=
  match l with [] => True | ev :: l => hands_off s ev /\ hands_off_run (pstep s ev) l end.

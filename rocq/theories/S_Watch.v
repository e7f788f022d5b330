(** S_Watch.v: what a client makes of the notifications about neighbours. *)
From Verif Require Import Base M_Util M_Filter M_Source M_Types M_Neigh M_State M_Monitor M_Watch.

(** What the client knows: neighbours by identifier.  "add" is for something new, "change"
    and "flush" for something known; anything else is an error of the sender. *)
Definition npic : Type := Z -> option nshown.
Definition npic0 : npic := fun _ => None.
Definition nput (n : Z) (a : option nshown) (P : npic) : npic := fun m => if m =? n then a else P m.
Definition nsee (P : npic) (e : nnote) : option npic :=
  match e with
  | NNb Add n a => match P n with None => Some (nput n (Some a) P) | Some _ => None end
  | NNb Change n a => match P n with None => None | Some _ => Some (nput n (Some a) P) end
  | NNb Flush n _ => match P n with None => None | Some _ => Some (nput n None P) end
  end.
Fixpoint nsee_all (es : list nnote) (P : npic) : option npic :=
  match es with
  | [] => Some P
  | e :: es' => match nsee P e with Some P' => nsee_all es' P' | None => None end
  end.

(** Address, interface, windows and cost of transmission are those of the neighbour. *)
Definition nshows (x : neigh) (a : nshown) : Prop :=
  ns_addr a = n_addr x /\ ns_if a = n_if x /\ ns_reach a = h_reach (n_hello x) /\ ns_ureach a = h_reach (n_uhello x) /\
  ns_txcost a = n_txcost x.
Definition knows_nbs (P : npic) (w : world) : Prop :=
  (forall x, In x (w_nbs w) -> exists a, P (n_id x) = Some a /\ nshows x a) /\
  (forall n a, P n = Some a -> exists x, In x (w_nbs w) /\ n_id x = n).

(** Costs and RTT are the present ones too. *)
Definition current (w : world) (x : neigh) (a : nshown) : Prop :=
  exists i, In i (w_ifs w) /\ if_id i = n_if x /\
    ns_rxcost a = neighbour_rxcost (w_now w) i x /\ ns_cost a = neighbour_cost (w_now w) i x /\
    (forall r c, ns_rtt a = Some (r, c) <-> timeval_minus_msec (w_now w) (n_rtt_time x) < 180000 /\ r = n_rtt x /\ c = rttcost (w_now w) i x).

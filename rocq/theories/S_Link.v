(** S_Link.v: vocabulary for the properties of a link between two neighbours. *)
From Verif Require Import Base M_Util S_Util M_Filter M_Source M_Types M_Neigh S_Neigh M_Link.

(** ** The receiver *)

(** What happens at the receiver: a Hello, sent at microsecond [sent], is heard at [t]; a
    Hello sent at [sent] is lost; an IHU is heard; the periodic check runs. *)
Inductive lev :=
| Got (sent : Z) (t : timeval)
| Lost (sent : Z)
| Ihu (t : timeval) (c : Z)
| Chk (t : timeval).

(** Its effect on the neighbour, the next Hello sent having number [sq]; None: flushed. *)
Fixpoint lrun (H : Z) (es : list lev) (sq : Z) (n : neigh) : option neigh :=
  match es with
  | [] => Some n
  | Got _ t :: es => lrun H es ((sq + 1) mod 65536) (got_hello t sq (hello_announced H) n)
  | Lost _ :: es => lrun H es ((sq + 1) mod 65536) n
  | Ihu t c :: es => lrun H es sq (got_ihu t c (ihu_announced H) n)
  | Chk t :: es => match link_check t n with Some n' => lrun H es sq n' | None => None end
  end.

(** The times fit: [H] is the hello interval in milliseconds; Hellos are sent at most
    [G] thousandths of it apart, and arrive less than [D] thousandths of it later (minus a
    millisecond); the clock does not go back; and the receiver is not looked at later than
    the next Hello can take to arrive. *)
Fixpoint flows (G D H clk last : Z) (es : list lev) : Prop :=
  match es with
  | [] => True
  | Got s t :: es => last <= s <= last + G * H /\ tv_ok t /\ Z.max clk s <= us t /\ us t + 1000 < s + D * H /\
      flows G D H (us t) s es
  | Lost s :: es => last <= s <= last + G * H /\ flows G D H clk s es
  | Ihu t c :: es => tv_ok t /\ Z.max clk last <= us t /\ 0 <= c <= 65535 /\ flows G D H (us t) last es
  | Chk t :: es => tv_ok t /\ clk <= us t /\ us t + 1000 < last + (G + D) * H /\ flows G D H (us t) last es
  end.

(** Of any three Hellos in a row at most one is lost, and neither of the first two is;
    [k] Hellos have been heard in a row so far. *)
Fixpoint sparse (k : Z) (es : list lev) : Prop :=
  match es with
  | [] => True
  | Got _ _ :: es => sparse (k + 1) es
  | Lost _ :: es => 2 <= k /\ sparse 0 es
  | _ :: es => sparse k es
  end.

(** Once an IHU has been heard, at most [M] Hellos are sent until the next one is; [c] is
    how many have been.  (As every third Hello sent comes with an IHU, [M] = 5 allows for
    one of these to be lost, but not two in a row, [M] = 20 for six in a row.) *)
Fixpoint often (M : Z) (c : option Z) (es : list lev) : Prop :=
  match es with
  | [] => True
  | Ihu _ _ :: es => often M (Some 0) es
  | Chk _ :: es => often M c es
  | _ :: es => match c with Some m => m < M /\ often M (Some (m + 1)) es | None => often M None es end
  end.

(** How many Hellos were heard, and the cost in the last IHU heard. *)
Fixpoint hellos (es : list lev) : Z :=
  match es with [] => 0 | Got _ _ :: es => 1 + hellos es | _ :: es => hellos es end.
Fixpoint last_ihu (c : option Z) (es : list lev) : option Z :=
  match es with [] => c | Ihu _ x :: es => last_ihu (Some x) es | _ :: es => last_ihu c es end.

(** ** The sender *)

(** The Hellos are numbered one after the other, modulo 65536, from [s] on, and announce
    the same interval [v]. *)
Fixpoint numbered (s v : Z) (o : list lout) : Prop :=
  match o with
  | [] => True
  | OHello s' v' :: o => s' = s /\ v' = v /\ numbered ((s + 1) mod 65536) v o
  | _ :: o => numbered s v o
  end.
(** After [c] Hellos without an IHU for [nb]: there is one after every third Hello at the
    latest, before the next Hello. *)
Fixpoint waits (nb : Z) (c : Z) (o : list lout) : Prop :=
  match o with
  | [] => True
  | OHello _ _ :: o => c < 3 /\ waits nb (c + 1) o
  | OIhu n _ _ :: o => waits nb (if n =? nb then 0 else c) o
  end.
(** The neighbour is there all the time. *)
Definition there (nb : Z) (e : kev) : Prop :=
  match e with KLoop _ _ _ ps => In nb (map p_nb ps) | _ => True end.
Definition kev_ok (e : kev) : Prop :=
  match e with KLoop t r _ _ => tv_ok t /\ 0 <= r | KAsk t r _ _ => tv_ok t /\ 0 <= r | KSent => True end.
Definition is_hello (x : lout) : bool := match x with OHello _ _ => true | _ => false end.

(** S_Util.v: independent vocabulary used to state the properties of util.c. *)
From Verif Require Import Base M_Util.

(** How far [s1] is ahead of [s2] on the circle of 65536 sequence numbers. *)
Definition ahead (s1 s2 : Z) : Z := (s1 - s2) mod 65536.
Definition seqno_ok (s : Z) : Prop := 0 <= s < 65536.

(** Bit [i] (0 = most significant) of a byte string. *)
Definition abit (a : list Z) (i : Z) : bool :=
  Z.testbit (nth (Z.to_nat (i / 8)) a 0) (7 - i mod 8).

(** The first [n] bits of [a] and [b] agree. *)
Definition same_bits (n : Z) (a b : list Z) : Prop :=
  forall i, 0 <= i < n -> abit a i = abit b i.

(** The reserved prefixes of the martian filter, as (prefix, length). *)
Definition mapped (a b c d : Z) : list Z := [0;0;0;0;0;0;0;0;0;0;255;255;a;b;c;d].
Definition martians : list (list Z * Z) :=
  [ ([255;0;0;0;0;0;0;0;0;0;0;0;0;0;0;0], 8);          (* ff00::/8 *)
    ([254;128;0;0;0;0;0;0;0;0;0;0;0;0;0;0], 10);       (* fe80::/10 *)
    (repeat 0 16, 128);                                (* ::/128 *)
    ([0;0;0;0;0;0;0;0;0;0;0;0;0;0;0;1], 128);          (* ::1/128 *)
    (mapped 127 0 0 0, 104);                           (* 127.0.0.0/8 *)
    (mapped 0 0 0 0, 104);                             (* 0.0.0.0/8 *)
    (mapped 224 0 0 0, 100);                           (* 224.0.0.0/4 *)
    (mapped 255 255 255 255, 128) ].                   (* 255.255.255.255/32 *)

(** Characters *)
Definition hexval (c v : Z) : Prop :=
  (48 <= c <= 57 /\ v = c - 48) \/ (97 <= c <= 102 /\ v = c - 87) \/
  (65 <= c <= 70 /\ v = c - 55).

(** [s] is the hexadecimal writing of the byte string [l]. *)
Inductive hex_of : list Z -> list Z -> Prop :=
| hex_nil : hex_of [] []
| hex_cons : forall a b x y s l, hexval a x -> hexval b y -> hex_of s l ->
    hex_of (a :: b :: s) (16 * x + y :: l).

(** Time: microseconds since the epoch, normalised timestamps, deadlines. *)
Definition tv_ok (t : timeval) : Prop := 0 <= tv_usec t < 1000000.
Definition us (t : timeval) : Z := tv_sec t * 1000000 + tv_usec t.
(** A deadline: zero seconds means none. *)
Definition deadline (t : timeval) : option Z := if tv_sec t =? 0 then None else Some (us t).
Definition opt_min (a b : option Z) : option Z :=
  match a, b with
  | None, x => x
  | x, None => x
  | Some x, Some y => Some (Z.min x y)
  end.


(** Value of a string of decimal digits. *)
Definition decval (s : list Z) : Z := fold_left (fun x c => 10 * x + (c - 48)) s 0.

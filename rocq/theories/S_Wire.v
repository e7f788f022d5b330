(** S_Wire.v: how a sequence of TLVs (or of sub-TLVs) is cut, RFC 8966 section 4.3
    and 4.4, independently of the parser. *)
From Verif Require Import Base M_Util M_Filter.

(** [frames b l full]: the bytes [b] are made of the TLVs [l] (type and body) and of
    one-byte paddings (type 0); [full] is false when the last one is cut short, in
    which case it is not part of [l]. *)
Inductive frames : list Z -> list (Z * list Z) -> bool -> Prop :=
| fr_end : frames [] [] true
| fr_pad1 : forall b l e, frames b l e -> frames (0 :: b) l e
| fr_tlv : forall t n v b l e, t <> 0 -> n = Z.of_nat (length v) -> frames b l e ->
    frames (t :: n :: v ++ b) ((t, v) :: l) e
| fr_short1 : forall t, t <> 0 -> frames [t] [] false
| fr_short2 : forall t n b, t <> 0 -> Z.of_nat (length b) < n -> frames (t :: n :: b) [] false.

(** A prefix as the routing table wants it: 16 bytes, and no bit set after its
    length. *)
Definition prefix_ok (p : list Z) (n : Z) : Prop := addr_ok p /\ 0 <= n <= 128 /\ normalize_prefix p n = p.

(** A well-formed destination. *)
Definition dest_ok (d : dest) : Prop := prefix_ok (d_prefix d) (d_plen d) /\ prefix_ok (d_src d) (d_splen d).

(** ** Where the sub-TLVs of a TLV start: RFC 8966 section 4.6 *)

(** Bytes taken by an address (network order, none for a wildcard, the last 8 bytes
    of a link-local one). *)
Definition addr_bytes (ae : Z) : option Z :=
  if ae =? 0 then Some 0 else if ae =? 1 then Some 4 else if ae =? 2 then Some 16
  else if ae =? 3 then Some 8 else None.
(** Bytes taken by a prefix of [plen] bits of which [om] bytes are omitted. *)
Definition prefix_bytes (ae plen om : Z) : option Z :=
  let n := (plen + 7) / 8 in
  if ae =? 0 then (if n <=? 16 then Some 0 else None)
  else if (ae =? 1) || (ae =? 4) then (if (n <=? 4) && (om <=? n) then Some (n - om) else None)
  else if ae =? 2 then (if (n <=? 16) && (om <=? n) then Some (n - om) else None)
  else if ae =? 3 then (if (n <=? 16) && (8 <=? n) then Some (n - 8) else None)
  else None.
(** The number of bytes before the sub-TLVs, in the TLVs which are acted upon:
    Acknowledgment request, Hello, IHU, Update, route request, seqno request.
    [h] are the first bytes of the body. *)
Definition fixed (t : Z) (h : list Z) : option Z :=
  let more k o := match o with Some n => Some (k + n) | None => None end in
  if (t =? 2) || (t =? 4) then Some 6
  else if t =? 5 then more 6 (addr_bytes (nth 0 h 0))
  else if t =? 8 then more 10 (prefix_bytes (nth 0 h 0) (nth 2 h 0) (nth 3 h 0))
  else if t =? 9 then more 2 (prefix_bytes (nth 0 h 0) (nth 1 h 0) 0)
  else if t =? 10 then more 14 (prefix_bytes (nth 0 h 0) (nth 1 h 0) 0)
  else None.

(** The sub-TLVs which are understood: a timestamp in a Hello or IHU, a source
    prefix in an Update or a request; 0 and 1 are padding. *)
Definition known_sub (t s : Z) : bool :=
  if (t =? 4) || (t =? 5) then s =? 3
  else if (t =? 8) || (t =? 9) || (t =? 10) then s =? 128
  else false.
Definition mandatory (s : Z) : bool := 128 <=? s.

(** S_Mac.v: the MACs of RFC 8967, section 4.1: what is signed, and HMAC (RFC 2104). *)
From Verif Require Import Base.

(** The pseudo-header: source address and port, destination address and port; then the
    packet header and the packet body *)
Definition signed_bytes (src dst : list Z) (port : Z) (header body : list Z) : list Z :=
  let pt := [port / 256; port mod 256] in src ++ pt ++ dst ++ pt ++ header ++ body.
(** RFC 2104 for a hash with blocks of 64 bytes and keys that are not longer *)
Definition hmac (hash : list Z -> list Z) (k m : list Z) : list Z :=
  let block := k ++ repeat 0 (64 - length k) in
  hash (map (Z.lxor 92) block ++ hash (map (Z.lxor 54) block ++ m)).
(** The MAC of a message with a key of either type: HMAC-SHA256 (1), keyed BLAKE2s of 16 bytes (2) *)
Definition rfc_mac (sha : list Z -> list Z) (blake : list Z -> list Z -> list Z) (ty : Z) (v m : list Z) : list Z :=
  if ty =? 1 then hmac sha v m else blake v m.
(** Their digests have 32 and 16 bytes *)
Definition digests (sha : list Z -> list Z) (blake : list Z -> list Z -> list Z) : Prop :=
  (forall m, length (sha m) = 32%nat) /\ (forall k m, length (blake k m) = 16%nat).

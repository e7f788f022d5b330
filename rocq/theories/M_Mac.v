(** M_Mac.v: compute_hmac (hmac.c:109-208) with the keys of the key table (M_Config.v).
    rfc6234/ and BLAKE2/ are other projects; of them only the contract is used: reset, input
    and result of SHA-256 succeed and give the digest of all the bytes that were put in
    ([sha]; inputs are datagrams, far below the limit of SHA-256), and likewise keyed BLAKE2s
    with a digest of 16 bytes for keys of 1 to 32 bytes ([blake], from key and message),
    whose initialisation refuses other keys (blake2s_init_key). *)
From Verif Require Import Base M_Util M_Config.

(** The contexts of the two libraries: the bytes put in so far *)
Record shactx := mkSha { sc_in : list Z }.
Record blkctx := mkBlk { bc_key : list Z; bc_in : list Z }.
Definition sha_reset : shactx := mkSha [].
Definition sha_input (c : shactx) (b : list Z) : shactx := mkSha (sc_in c ++ b).
Definition sha_result (sha : list Z -> list Z) (c : shactx) : list Z := sha (sc_in c).
Definition blk_init (k : list Z) : option blkctx :=
  if (Z.of_nat (length k) <? 1) || (Z.of_nat (length k) >? 32) then None else Some (mkBlk k []).
Definition blk_update (c : blkctx) (b : list Z) : blkctx := mkBlk (bc_key c) (bc_in c ++ b).
Definition blk_final (blake : list Z -> list Z -> list Z) (c : blkctx) : list Z := blake (bc_key c) (bc_in c).
(** DO_HTONS of (unsigned short)protocol_port: hmac.c:118 *)
Definition port_bytes (port : Z) : list Z := [u16 port / 256; u16 port mod 256].
(** for i in 0..63: pad[i] = value[i] ^ c (hmac.c:125-126, 156-157) *)
Definition pad_with (c : Z) (v : list Z) : list Z := map (fun i => Z.lxor (nth i v 0) c) (seq 0 64).

(** hmac.c:109-208 compute_hmac: the digest, None for -1 *)
Definition compute_mac (sha : list Z -> list Z) (blake : list Z -> list Z -> list Z) (port : Z)
    (src dst header body : list Z) (k : key) : option (list Z) :=
  let port := port_bytes port in
  if k_type k =? 1 then
    if negb (Z.of_nat (length (k_value k)) =? 64) then None
    else
      let inner := sha_input sha_reset (pad_with 54 (k_value k)) in
      let inner := sha_input inner src in
      let inner := sha_input inner port in
      let inner := sha_input inner dst in
      let inner := sha_input inner port in
      let inner := sha_input inner header in
      let inner := sha_input inner body in
      let ihash := sha_result sha inner in
      let outer := sha_input sha_reset (pad_with 92 (k_value k)) in
      let outer := sha_input outer (firstn 32 ihash) in
      Some (sha_result sha outer)
  else if k_type k =? 2 then
    if Z.of_nat (length (k_value k)) >? 32 then None
    else match blk_init (k_value k) with
    | None => None
    | Some s =>
        let s := blk_update s src in
        let s := blk_update s port in
        let s := blk_update s dst in
        let s := blk_update s port in
        let s := blk_update s header in
        let s := blk_update s body in
        Some (blk_final blake s)
    end
  else None.


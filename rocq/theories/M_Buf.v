(** M_Buf.v: output buffers and the encoding of messages, message.c:1107-1545,
    1868-1882, 1946-2202.

    One buffer ([struct buffered], interface.h:103-119) of an interface or of a
    neighbour, with what it uses of the interface.  The bytes written so far are a
    list; writing outside the memory of the buffer, reading a byte which was never
    written, a failed assertion or a memcpy from outside its source sets [e_bad].
    Datagrams are appended to [e_sent].  gettime, random and read_random_bytes take
    their results from lists.  Errors of babel_send are ignored, as the code does. *)
From Verif Require Import Base M_Util M_Filter M_Types M_Wire M_Auth.

(** What does not change while the interface is up: the size of the buffer and
    its flush_interval (interface.c:311, 396), IF_TIMESTAMPS, IF_PROBE_MTU,
    IF_V4VIAV6, the key (a key always has a type, configuration.c:830-832), the
    protocol port, the destination address (buf->sin6). *)
Record benv (key : Type) := mkEnv { v_size : Z; v_flush : Z; v_ts : bool; v_probe : bool;
  v_46 : bool; v_key : option key; v_port : list Z; v_dst : list Z }.
Arguments mkEnv {key}.
Arguments v_size {key}. Arguments v_flush {key}. Arguments v_ts {key}. Arguments v_probe {key}.
Arguments v_46 {key}. Arguments v_key {key}. Arguments v_port {key}. Arguments v_dst {key}.

(** struct buffered (interface.h:103-119): the first [len] bytes of [buf], hello,
    id, nh and prefix (None when have_... is 0), timeout; then pc and index of the
    interface; hello_seqno of the owner of the buffer; ipv4 and ll of the interface.
    [e_mc] is None when the buffer is that of the interface; otherwise it is
    ifp->buf.hello, which belongs to another buffer. *)
Record est := mkE { e_buf : list Z; e_hello : Z; e_id : option (list Z); e_nh : option (list Z); e_prefix : option (list Z); e_timeout : timeval; e_pc : Z; e_index : list Z; e_hseq : Z; e_ipv4 : option (list Z); e_lls : list (list Z); e_mc : option Z; e_now : timeval; e_clk : list timeval; e_rnd : list Z; e_rndb : list (option (list Z)); e_sent : list (list Z); e_bad : bool }.
Definition set_e_buf (v : list Z) (s : est) : est := mkE v (e_hello s) (e_id s) (e_nh s) (e_prefix s) (e_timeout s) (e_pc s) (e_index s) (e_hseq s) (e_ipv4 s) (e_lls s) (e_mc s) (e_now s) (e_clk s) (e_rnd s) (e_rndb s) (e_sent s) (e_bad s).
Definition set_e_hello (v : Z) (s : est) : est := mkE (e_buf s) v (e_id s) (e_nh s) (e_prefix s) (e_timeout s) (e_pc s) (e_index s) (e_hseq s) (e_ipv4 s) (e_lls s) (e_mc s) (e_now s) (e_clk s) (e_rnd s) (e_rndb s) (e_sent s) (e_bad s).
Definition set_e_id (v : option (list Z)) (s : est) : est := mkE (e_buf s) (e_hello s) v (e_nh s) (e_prefix s) (e_timeout s) (e_pc s) (e_index s) (e_hseq s) (e_ipv4 s) (e_lls s) (e_mc s) (e_now s) (e_clk s) (e_rnd s) (e_rndb s) (e_sent s) (e_bad s).
Definition set_e_nh (v : option (list Z)) (s : est) : est := mkE (e_buf s) (e_hello s) (e_id s) v (e_prefix s) (e_timeout s) (e_pc s) (e_index s) (e_hseq s) (e_ipv4 s) (e_lls s) (e_mc s) (e_now s) (e_clk s) (e_rnd s) (e_rndb s) (e_sent s) (e_bad s).
Definition set_e_prefix (v : option (list Z)) (s : est) : est := mkE (e_buf s) (e_hello s) (e_id s) (e_nh s) v (e_timeout s) (e_pc s) (e_index s) (e_hseq s) (e_ipv4 s) (e_lls s) (e_mc s) (e_now s) (e_clk s) (e_rnd s) (e_rndb s) (e_sent s) (e_bad s).
Definition set_e_timeout (v : timeval) (s : est) : est := mkE (e_buf s) (e_hello s) (e_id s) (e_nh s) (e_prefix s) v (e_pc s) (e_index s) (e_hseq s) (e_ipv4 s) (e_lls s) (e_mc s) (e_now s) (e_clk s) (e_rnd s) (e_rndb s) (e_sent s) (e_bad s).
Definition set_e_pc (v : Z) (s : est) : est := mkE (e_buf s) (e_hello s) (e_id s) (e_nh s) (e_prefix s) (e_timeout s) v (e_index s) (e_hseq s) (e_ipv4 s) (e_lls s) (e_mc s) (e_now s) (e_clk s) (e_rnd s) (e_rndb s) (e_sent s) (e_bad s).
Definition set_e_index (v : list Z) (s : est) : est := mkE (e_buf s) (e_hello s) (e_id s) (e_nh s) (e_prefix s) (e_timeout s) (e_pc s) v (e_hseq s) (e_ipv4 s) (e_lls s) (e_mc s) (e_now s) (e_clk s) (e_rnd s) (e_rndb s) (e_sent s) (e_bad s).
Definition set_e_hseq (v : Z) (s : est) : est := mkE (e_buf s) (e_hello s) (e_id s) (e_nh s) (e_prefix s) (e_timeout s) (e_pc s) (e_index s) v (e_ipv4 s) (e_lls s) (e_mc s) (e_now s) (e_clk s) (e_rnd s) (e_rndb s) (e_sent s) (e_bad s).
Definition set_e_ipv4 (v : option (list Z)) (s : est) : est := mkE (e_buf s) (e_hello s) (e_id s) (e_nh s) (e_prefix s) (e_timeout s) (e_pc s) (e_index s) (e_hseq s) v (e_lls s) (e_mc s) (e_now s) (e_clk s) (e_rnd s) (e_rndb s) (e_sent s) (e_bad s).
Definition set_e_lls (v : list (list Z)) (s : est) : est := mkE (e_buf s) (e_hello s) (e_id s) (e_nh s) (e_prefix s) (e_timeout s) (e_pc s) (e_index s) (e_hseq s) (e_ipv4 s) v (e_mc s) (e_now s) (e_clk s) (e_rnd s) (e_rndb s) (e_sent s) (e_bad s).
Definition set_e_mc (v : option Z) (s : est) : est := mkE (e_buf s) (e_hello s) (e_id s) (e_nh s) (e_prefix s) (e_timeout s) (e_pc s) (e_index s) (e_hseq s) (e_ipv4 s) (e_lls s) v (e_now s) (e_clk s) (e_rnd s) (e_rndb s) (e_sent s) (e_bad s).
Definition set_e_now (v : timeval) (s : est) : est := mkE (e_buf s) (e_hello s) (e_id s) (e_nh s) (e_prefix s) (e_timeout s) (e_pc s) (e_index s) (e_hseq s) (e_ipv4 s) (e_lls s) (e_mc s) v (e_clk s) (e_rnd s) (e_rndb s) (e_sent s) (e_bad s).
Definition set_e_clk (v : list timeval) (s : est) : est := mkE (e_buf s) (e_hello s) (e_id s) (e_nh s) (e_prefix s) (e_timeout s) (e_pc s) (e_index s) (e_hseq s) (e_ipv4 s) (e_lls s) (e_mc s) (e_now s) v (e_rnd s) (e_rndb s) (e_sent s) (e_bad s).
Definition set_e_rnd (v : list Z) (s : est) : est := mkE (e_buf s) (e_hello s) (e_id s) (e_nh s) (e_prefix s) (e_timeout s) (e_pc s) (e_index s) (e_hseq s) (e_ipv4 s) (e_lls s) (e_mc s) (e_now s) (e_clk s) v (e_rndb s) (e_sent s) (e_bad s).
Definition set_e_rndb (v : list (option (list Z))) (s : est) : est := mkE (e_buf s) (e_hello s) (e_id s) (e_nh s) (e_prefix s) (e_timeout s) (e_pc s) (e_index s) (e_hseq s) (e_ipv4 s) (e_lls s) (e_mc s) (e_now s) (e_clk s) (e_rnd s) v (e_sent s) (e_bad s).
Definition set_e_sent (v : list (list Z)) (s : est) : est := mkE (e_buf s) (e_hello s) (e_id s) (e_nh s) (e_prefix s) (e_timeout s) (e_pc s) (e_index s) (e_hseq s) (e_ipv4 s) (e_lls s) (e_mc s) (e_now s) (e_clk s) (e_rnd s) (e_rndb s) v (e_bad s).
Definition set_e_bad (v : bool) (s : est) : est := mkE (e_buf s) (e_hello s) (e_id s) (e_nh s) (e_prefix s) (e_timeout s) (e_pc s) (e_index s) (e_hseq s) (e_ipv4 s) (e_lls s) (e_mc s) (e_now s) (e_clk s) (e_rnd s) (e_rndb s) (e_sent s) v.

Definition bad_if (b : bool) (s : est) : est := if b then set_e_bad true s else s.
(** kernel.c gettime(&now), random(), read_random_bytes *)
Definition e_gettime (s : est) : est :=
  match e_clk s with [] => s | t :: l => set_e_now t (set_e_clk l s) end.
Definition e_random (s : est) : Z * est :=
  match e_rnd s with [] => (0, s) | r :: l => (r, set_e_rnd l s) end.
Definition e_randomb (s : est) : option (list Z) * est :=
  match e_rndb s with [] => (None, s) | r :: l => (r, set_e_rndb l s) end.

Section Mac.
Variable key : Type.
Variable mac : key -> list Z -> option (list Z).
Notation env := (benv key).

(** message.c:1243-1269 accumulate_byte, accumulate_short, accumulate_int *)
Definition put (v : env) (l : list Z) (s : est) : est :=
  bad_if (zlen (e_buf s) + zlen l >? v_size v) (set_e_buf (e_buf s ++ l) s).
(** message.c:1263-1269 accumulate_bytes(buf, value + off, n) *)
Definition puts (v : env) (value : list Z) (off n : Z) (s : est) : est :=
  bad_if ((n <? 0) || (off + n >? zlen value))
    (put v (firstn (Z.to_nat n) (skipn (Z.to_nat off) value)) s).

(** ** Sending: message.c:1107-1199 *)

(** message.c:1271-1291 send_pc *)
Definition send_pc (v : env) (s : est) : est :=
  if v_size v - zlen (e_buf s) <? 48 + 6 + 8 then s
  else
    let write s :=
      set_e_pc (u32 (e_pc s + 1))
        (puts v (e_index s) 0 8 (put v (MESSAGE_PC :: 12 :: be32 (e_pc s)) s)) in
    if e_pc s =? 0 then
      let '(r, s) := e_randomb s in
      match r with None => s | Some i => write (set_e_index i s) end
    else write s.

(** message.c:1107-1128 fill_rtt_message *)
Definition fill_rtt (v : env) (s : est) : est :=
  if v_ts v && (e_hello s >=? 0) then
    let h := Z.to_nat (e_hello s) in
    if e_hello s + 14 >? zlen (e_buf s) then set_e_bad true s
    else if (at_ (e_buf s) (h + 8) =? SUBTLV_PADN) && (at_ (e_buf s) (h + 9) =? 4) then
      let s := e_gettime s in
      set_e_buf (firstn (h + 8) (e_buf s) ++ [SUBTLV_TIMESTAMP; 4] ++ be32 (time_us (e_now s))
                 ++ skipn (h + 14) (e_buf s)) s
    else s
  else s.

(** message.c:1155-1171: padding up to the size of the buffer; [room] bytes are left *)
Fixpoint probe_pad (f : nat) (room : Z) : list Z :=
  match f with
  | O => []
  | S f =>
      if room <=? 0 then []
      else if room >=? 2 then
        let len := Z.min (room - 2) 255 in
        1 :: len :: zeroes (Z.to_nat len) ++ probe_pad f (room - 2 - len)
      else 0 :: probe_pad f (room - 1)
  end.

(** message.c:1182-1189 *)
Definition buf_reset (s : est) : est :=
  set_e_timeout (mkTv 0 0) (set_e_prefix None (set_e_nh None (set_e_id None
    (set_e_hello (-1) (set_e_buf [] s))))).

(** message.c:1130-1190 flushbuf *)
Definition flushbuf (v : env) (s : est) : est :=
  let s := bad_if (zlen (e_buf s) >? v_size v) s in
  if zlen (e_buf s) >? 0 then
    let s := match v_key v with Some _ => send_pc v s | None => s end in
    let header := 42 :: 2 :: be16 (zlen (e_buf s)) in
    let s := fill_rtt v s in
    match (match v_key v with
           | None => Some []
           | Some k => add_hmac key mac (v_port v) (e_lls s) (v_dst v) header (e_buf s) (v_size v) k
           end) with
    | None => s
    | Some trailer =>
        let s := bad_if (zlen (e_buf s) + zlen trailer >? v_size v) s in
        let probe := v_probe v && (match e_mc s with None => e_hello s | Some h => h end >=? 0) in
        let room := v_size v - zlen (e_buf s) - zlen trailer in
        let padding := if probe then probe_pad (Z.to_nat room) room else [] in
        buf_reset (set_e_sent (e_sent s ++ [header ++ e_buf s ++ trailer ++ padding]) s)
    end
  else buf_reset s.

(** interface.c:136-145 jitter(buf, 0), 158-162 set_timeout *)
Definition jitter0 (v : env) (s : est) : Z * est :=
  let '(r, s) := e_random s in (roughly (Z.min (v_flush v) 2000 / 2) r, s).
Definition set_timeout_ms (msecs : Z) (s : est) : est :=
  let '(r, s) := e_random s in set_e_timeout (timeval_add_msec (e_now s) (roughly msecs r)) s.
(** message.c:1192-1199 schedule_flush_ms *)
Definition schedule_flush_ms (msecs : Z) (s : est) : est :=
  if negb (tv_sec (e_timeout s) =? 0) && (timeval_minus_msec (e_timeout s) (e_now s) <? msecs) then s
  else set_timeout_ms msecs s.
(** message.c:1201-1205 schedule_flush *)
Definition schedule_flush (v : env) (s : est) : est :=
  let '(m, s) := jitter0 v s in schedule_flush_ms m s.
(** message.c:1207-1211 schedule_flush_now *)
Definition schedule_flush_now (s : est) : est :=
  let '(r, s) := e_random s in schedule_flush_ms (roughly 10 r) s.

(** ** Appending messages *)

(** message.c:1213-1220 ensure_space *)
Definition ensure_space (v : env) (space : Z) (s : est) : est :=
  let space := match v_key v with Some _ => space + 48 + 6 + 8 | None => space end in
  if v_size v - zlen (e_buf s) <? space then flushbuf v s else s.
(** message.c:1222-1232 start_message *)
Definition start_message (v : env) (type len : Z) (s : est) : est :=
  put v [type; u8 len] (ensure_space v (len + 2) s).
(** message.c:1234-1241 end_message *)
Definition end_message (v : env) (type bytes : Z) (s : est) : est :=
  let n := zlen (e_buf s) in
  schedule_flush v
    (bad_if (negb ((n >=? bytes + 2) && (at_ (e_buf s) (Z.to_nat (n - bytes - 2)) =? type)
                   && (at_ (e_buf s) (Z.to_nat (n - bytes - 1)) =? bytes))) s).

(** message.c:1293-1303 send_ack *)
Definition send_ack (v : env) (nonce interval : Z) (s : est) : est :=
  let s := start_message v MESSAGE_ACK 2 s in
  let s := put v (be16 nonce) s in
  let s := end_message v MESSAGE_ACK 2 s in
  let '(r, s) := e_random s in
  schedule_flush_ms (roughly (interval * 6) r) s.

(** message.c:1321-1323 and 1327: the challenge of send_challenge_request; the limits
    on their rate are in M_Auth.v *)
Definition buffer_challenge_request (v : env) (nonce : list Z) (s : est) : est :=
  let s := start_message v MESSAGE_CHALLENGE_REQUEST 8 s in
  let s := puts v nonce 0 8 s in
  let s := e_gettime (end_message v MESSAGE_CHALLENGE_REQUEST 8 s) in
  schedule_flush_now s.
(** message.c:1341-1346 of send_challenge_reply *)
Definition buffer_challenge_reply (v : env) (nonce : list Z) (s : est) : est :=
  let len := zlen nonce in
  let s := start_message v MESSAGE_CHALLENGE_REPLY len s in
  let s := puts v nonce 0 len s in
  let s := e_gettime (end_message v MESSAGE_CHALLENGE_REPLY len s) in
  schedule_flush_now s.

(** message.c:1350-1368 buffer_hello *)
Definition buffer_hello (v : env) (unicast : bool) (seqno interval : Z) (s : est) : est :=
  let len := if v_ts v then 12 else 6 in
  let s := start_message v MESSAGE_HELLO len s in
  let s := set_e_hello (zlen (e_buf s) - 2) s in
  let s := put v (be16 (if unicast then 32768 else 0) ++ be16 seqno
                  ++ be16 (if interval >? 65535 then 65535 else interval)) s in
  let s := if v_ts v then put v (SUBTLV_PADN :: 4 :: be32 0) s else s in
  end_message v MESSAGE_HELLO len s.

(** message.c:1379-1398, 1411-1423: the end of send_multicast_hello and of
    send_unicast_hello; flushupdates (1384) is M_Msg.v's *)
Definition send_hello_buf (v : env) (unicast : bool) (interval : Z) (force : bool) (s : est) : est :=
  if (e_hello s >=? 0) && negb force then s
  else
    let s := if e_hello s >=? 0 then flushbuf v s else s in
    let s := set_e_hseq (seqno_plus (e_hseq s) 1) s in
    buffer_hello v unicast (e_hseq s) interval s.

(** message.c:1495-1497: bytes shared with the prefix sent before *)
Fixpoint common (n : nat) (a b : list Z) : Z :=
  match n, a, b with
  | S n, x :: a, y :: b => if x =? y then 1 + common n a b else 0
  | _, _, _ => 0
  end.

(** message.c:1475-1484: the next hop of IPv4 updates *)
Definition buffer_nh (v : env) (ipv4 : list Z) (s : est) : est :=
  if match e_nh s with None => true | Some n => negb (beq_n 4 n ipv4) end then
    let s := start_message v MESSAGE_NH 6 s in
    let s := put v [AE_IPV4; 0] s in
    let s := puts v ipv4 0 4 s in
    let s := end_message v MESSAGE_NH 6 s in
    set_e_nh (Some (firstn 4 ipv4)) s
  else s.

(** message.c:1507-1518: the router-id, and the flags *)
Definition buffer_id (v : env) (id prefix : list Z) (v4 : bool) (real_plen flags : Z) (s : est) : Z * est :=
  if match e_id s with None => true | Some i => negb (beq id i) end then
    let '(flags, s) :=
      if (real_plen =? 128) && beq (firstn 8 (skipn (if v4 then 20 else 8) prefix)) id then (flags + 64, s)
      else
        let s := start_message v MESSAGE_ROUTER_ID 10 s in
        let s := put v (be16 0) s in
        let s := puts v id 0 8 s in
        (flags, end_message v MESSAGE_ROUTER_ID 10 s) in
    (flags, set_e_id (Some id) s)
  else (flags, s).

(** message.c:1520-1544: the Update itself *)
Definition buffer_update_tlv (v : env) (ae : Z) (v4 : bool) (d : dest) (flags omit : Z)
    (seqno metric interval : Z) (s : est) : est :=
  let is_ss := negb (is_default (d_src d) (d_splen d)) in
  let o := if v4 then 12 else 0 in
  let real_plen := if v4 then d_plen d - 96 else d_plen d in
  let real_src_plen := if v4 then d_splen d - 96 else d_splen d in
  let pb := (real_plen + 7) / 8 in
  let spb := Z.quot (real_src_plen + 7) 8 in
  let len := 10 + pb - omit + (if is_ss then 3 + spb else 0) in
  let s := start_message v MESSAGE_UPDATE len s in
  let s := put v ([ae; flags; u8 real_plen; u8 omit] ++ be16 interval ++ be16 seqno ++ be16 metric) s in
  let s := puts v (d_prefix d) (o + omit) (pb - omit) s in
  let s := if is_ss then
             puts v (d_src d) o spb (put v [SUBTLV_SOURCE_PREFIX; u8 (1 + spb); u8 real_src_plen] s)
           else s in
  let s := end_message v MESSAGE_UPDATE len s in
  if bit flags 128 then set_e_prefix (Some (d_prefix d)) s else s.

(** message.c:1463-1545: really_buffer_update after the filters (M_Msg.v); [metric]
    includes what they add, [interval] is (update_interval + 5) / 10 *)
Definition buffer_update (v : env) (id : list Z) (d : dest) (seqno metric interval : Z) (s : est) : est :=
  let s := ensure_space v (20 + 12 + 28 + 18) s in
  let v4 := (d_plen d >=? 96) && v4mapped (d_prefix d) in
  if v4 then
    match e_ipv4 s with
    | None =>
        if negb (v_46 v) then s
        else
          let '(flags, s) := buffer_id v id (d_prefix d) true (d_plen d - 96) 0 s in
          buffer_update_tlv v AE_V4VIAV6 true d flags 0 seqno metric interval s
    | Some ipv4 =>
        let s := buffer_nh v ipv4 s in
        let '(flags, s) := buffer_id v id (d_prefix d) true (d_plen d - 96) 0 s in
        buffer_update_tlv v AE_IPV4 true d flags 0 seqno metric interval s
    end
  else
    let omit := match e_prefix s with
                | None => 0
                | Some q => common (Z.to_nat (d_plen d / 8)) q (d_prefix d)
                end in
    let flags := if match e_prefix s with None => true | Some _ => false end || (d_plen d >=? 48)
                 then 128 else 0 in
    let '(flags, s) := buffer_id v id (d_prefix d) false (d_plen d) flags s in
    buffer_update_tlv v AE_IPV6 false d flags omit seqno metric interval s.

(** message.c:1868-1882 buffer_wildcard_retraction *)
Definition buffer_wildcard_retraction (v : env) (seqno : Z) (s : est) : est :=
  let s := start_message v MESSAGE_UPDATE 10 s in
  let s := put v ([AE_WILDCARD; 0; 0; 0] ++ be16 65535 ++ be16 seqno ++ be16 65535) s in
  set_e_id None (end_message v MESSAGE_UPDATE 10 s).

(** message.c:1946-1972 buffer_ihu *)
Definition buffer_ihu (v : env) (rxcost interval : Z) (address : list Z) (rtt : option (Z * Z)) (s : est) : est :=
  let ll := linklocal address in
  let len := (if ll then 14 else 22) + (match rtt with Some _ => 10 | None => 0 end) in
  let s := start_message v MESSAGE_IHU len s in
  let s := put v ([if ll then AE_IPV6_LOCAL else AE_IPV6; 0] ++ be16 rxcost ++ be16 interval) s in
  let s := if ll then puts v address 8 8 s else puts v address 0 16 s in
  let s := match rtt with
           | Some (t1, t2) => put v (SUBTLV_TIMESTAMP :: 8 :: be32 t1 ++ be32 t2) s
           | None => s
           end in
  end_message v MESSAGE_IHU len s.

(** message.c:2031-2043: the end of send_ihu.  [hello]: the conditions under which
    send_unicast_hello or send_multicast_hello do nothing (1376, 1407) do not hold. *)
Definition send_ihu_buf (v : env) (unicast hello : bool) (rxcost interval : Z) (address : list Z)
    (rtt : option (Z * Z)) (s : est) : est :=
  let s := match rtt with
           | Some _ =>
               let s := ensure_space v (14 + 16) s in
               if hello then send_hello_buf v unicast 0 false s else s
           | None => s
           end in
  buffer_ihu v rxcost interval address rtt s.

(** message.c:2087-2107, 2174-2200: the prefixes of a request; [d] *)
Definition put_prefix (v : env) (d : dest) (s : est) : est :=
  let v4 := (d_plen d >=? 96) && v4mapped (d_prefix d) in
  if v4 then puts v (d_prefix d) 12 ((d_plen d - 96 + 7) / 8) s
  else puts v (d_prefix d) 0 ((d_plen d + 7) / 8) s.
Definition put_src (v : env) (d : dest) (s : est) : est :=
  let v4 := (d_plen d >=? 96) && v4mapped (d_prefix d) in
  let spb := if v4 then Z.quot (d_splen d - 96 + 7) 8 else (d_splen d + 7) / 8 in
  if is_default (d_src d) (d_splen d) then s
  else
    puts v (d_src d) (if v4 then 12 else 0) spb
      (put v [SUBTLV_SOURCE_PREFIX; u8 (1 + spb); u8 (if v4 then d_splen d - 96 else d_splen d)] s).
Definition src_len (d : dest) : Z :=
  let v4 := (d_plen d >=? 96) && v4mapped (d_prefix d) in
  if is_default (d_src d) (d_splen d) then 0
  else 3 + (if v4 then Z.quot (d_splen d - 96 + 7) 8 else (d_splen d + 7) / 8).

(** message.c:2062-2109 send_request, after the test of line 2070 (M_Msg.v) *)
Definition buffer_request (v : env) (o : option dest) (s : est) : est :=
  match o with
  | None =>
      end_message v MESSAGE_REQUEST 2 (put v [AE_WILDCARD; 0] (start_message v MESSAGE_REQUEST 2 s))
  | Some d =>
      let v4 := (d_plen d >=? 96) && v4mapped (d_prefix d) in
      let pb := if v4 then (d_plen d - 96 + 7) / 8 else (d_plen d + 7) / 8 in
      let len := 2 + pb + src_len d in
      let s := start_message v MESSAGE_REQUEST len s in
      let s := put v [if v4 then AE_IPV4 else AE_IPV6; u8 (if v4 then d_plen d - 96 else d_plen d)] s in
      end_message v MESSAGE_REQUEST len (put_src v d (put_prefix v d s))
  end.

(** message.c:2158-2202 send_multihop_request, after the test of line 2168 *)
Definition buffer_mh_request (v : env) (d : dest) (seqno hop : Z) (id : list Z) (s : est) : est :=
  let v4 := (d_plen d >=? 96) && v4mapped (d_prefix d) in
  let pb := if v4 then (d_plen d - 96 + 7) / 8 else (d_plen d + 7) / 8 in
  let len := 6 + 8 + pb + src_len d in
  let s := start_message v MESSAGE_MH_REQUEST len s in
  let s := put v ([if v4 then AE_IPV4 else AE_IPV6; u8 (if v4 then d_plen d - 96 else d_plen d)]
                  ++ be16 seqno ++ [u8 hop; u8 (if v4 then d_splen d - 96 else d_splen d)]) s in
  let s := puts v id 0 8 s in
  end_message v MESSAGE_MH_REQUEST len (put_src v d (put_prefix v d s)).

(** ** What happens to a buffer *)
Inductive bop :=
| BUpdate (id : list Z) (d : dest) (seqno metric interval : Z)
| BWild (seqno : Z)
| BRequest (o : option dest)
| BMhRequest (d : dest) (seqno hop : Z) (id : list Z)
| BHello (unicast : bool) (interval : Z) (force : bool)
| BIhu (rxcost interval : Z) (address : list Z) (rtt : option (Z * Z))
| BAck (nonce interval : Z)
| BChallenge (nonce : list Z)
| BReply (nonce : list Z)
| BFlush
| BSpace (n : Z)
(** the clock; the addresses of the interface (interface.c:164-252); ifp->buf.hello *)
| BClock (t : timeval)
| BIpv4 (a : option (list Z))
| BLls (l : list (list Z))
| BMc (h : Z).

Definition bstep (v : env) (s : est) (o : bop) : est :=
  match o with
  | BUpdate id d seqno metric interval => buffer_update v id d seqno metric interval s
  | BWild seqno => buffer_wildcard_retraction v seqno s
  | BRequest o => buffer_request v o s
  | BMhRequest d seqno hop id => buffer_mh_request v d seqno hop id s
  | BHello u i f => send_hello_buf v u i f s
  | BIhu rx i a rtt => buffer_ihu v rx i a rtt s
  | BAck n i => send_ack v n i s
  | BChallenge n => buffer_challenge_request v n s
  | BReply n => buffer_challenge_reply v n s
  | BFlush => flushbuf v s
  | BSpace n => ensure_space v n s
  | BClock t => set_e_now t s
  | BIpv4 a => set_e_ipv4 a s
  | BLls l => set_e_lls l s
  | BMc h => match e_mc s with None => s | Some _ => set_e_mc (Some h) s end
  end.
Definition bsteps (v : env) (s : est) (l : list bop) : est := fold_left (bstep v) l s.

End Mac.

(** M_Auth.v: authentication, RFC 8967: hmac.c:109-287, preparse_packet (message.c:432-571),
    send_pc and the challenges (message.c:1271-1348), and parse_packet on an interface
    with a key (message.c:573-640).

    The keyed hash is a parameter [mac]: from a key and a byte string to the digest,
    None when compute_hmac fails (hmac.c:123, 176, 206: bad length or type of key).
    SHA-256 and BLAKE2s themselves (rfc6234/, BLAKE2/) are not modelled; that feeding
    them several pieces is the same as feeding the concatenation is assumed here.
    gettime and read_random_bytes take their results from lists in the state. *)
From Verif Require Import Base M_Util M_Filter M_Types M_Neigh M_Wire.

Section Mac.
Variable key : Type.
Variable mac : key -> list Z -> option (list Z).

(** hmac.c:109-208 compute_hmac: what is hashed; protocol_port is 6696 (babeld.c:68),
    which -p changes: [port] *)
Definition hmac_input (port : list Z) (src dst header body : list Z) : list Z :=
  src ++ port ++ dst ++ port ++ header ++ body.
Definition compute_hmac (port src dst header body : list Z) (k : key) : option (list Z) :=
  mac k (hmac_input port src dst header body).

(** hmac.c:242-253 compare_hmac *)
Definition compare_hmac (port src dst pkt : list Z) (bodylen : Z) (h : list Z) (k : key) : bool :=
  match compute_hmac port src dst (firstn 4 pkt) (firstn (Z.to_nat bodylen) (skipn 4 pkt)) k with
  | None => false
  | Some d => (zlen d =? zlen h) && (memcmp d h =? 0)
  end.

(** hmac.c:255-287 check_hmac: 1 verified, 0 no MAC matches, -1 no MAC *)
Fixpoint check_loop (port src dst pkt : list Z) (bodylen : Z) (k : key) (f : nat) (i rc : Z) : pr Z :=
  if i <? zlen pkt then
    match f with
    | O => Hang
    | S f =>
        if i + 2 >? zlen pkt then Ret rc
        else
          len <- rd pkt (i + 1);;
          t <- rd pkt i;;
          if t =? MESSAGE_MAC then
            if i + len + 2 >? zlen pkt then Ret (-1)
            else
              h <- rds pkt (i + 2) len;;
              if compare_hmac port src dst pkt bodylen h k then Ret 1
              else check_loop port src dst pkt bodylen k f (i + len + 2) 0
          else check_loop port src dst pkt bodylen k f (i + len + 2) rc
    end
  else Ret rc.
Definition check_hmac (port src dst pkt : list Z) (bodylen : Z) (k : key) : pr Z :=
  check_loop port src dst pkt bodylen k (S (length pkt)) (bodylen + 4) (-1).

(** hmac.c:210-239 add_hmac: the bytes appended to the buffer, None on failure.
    [lls]: the link-local addresses of the interface. *)
Definition add_hmac (port : list Z) (lls : list (list Z)) (dst header buf : list Z) (size : Z) (k : key)
    : option (list Z) :=
  match lls with
  | [] => None
  | src :: _ =>
      if zlen buf + 2 + 32 >? size then None
      else
        match compute_hmac port src dst header buf k with
        | None => None
        | Some d => Some (MESSAGE_MAC :: u8 (zlen d) :: d)
        end
  end.
End Mac.

(** ** Challenges and packet counters *)

(** What happens, in order (ghost): a challenge request with its nonce sent at a given
    time, a challenge reply sent, a challenge reply honoured, a packet accepted
    ([true]: received by multicast) with its index and counter. *)
Inductive note :=
| NRequest (nonce : list Z) (tm : timeval)
| NReply (nonce : list Z) (tm : timeval)
| NHonoured (nonce : list Z) (tm : timeval)
| NAccept (mcast : bool) (index : list Z) (pc : Z).

(** The state of one neighbour; [a_found]: whether find_neighbour was called, which
    creates the neighbour if it was not there (neighbour.c:76-128: with [new_pc]).
    [a_log], newest first. *)
Record ast := mkA { a_now : timeval; a_clk : list timeval; a_rnd : list (option (list Z));
  a_pc : pcst; a_found : bool; a_log : list note }.
Definition set_a_pc v s := mkA (a_now s) (a_clk s) (a_rnd s) v (a_found s) (a_log s).
Definition set_a_found v s := mkA (a_now s) (a_clk s) (a_rnd s) (a_pc s) v (a_log s).
Definition a_note v s := mkA (a_now s) (a_clk s) (a_rnd s) (a_pc s) (a_found s) (v :: a_log s).
(** kernel.c gettime(&now) *)
Definition a_gettime (s : ast) : ast :=
  match a_clk s with
  | [] => s
  | t :: l => mkA t l (a_rnd s) (a_pc s) (a_found s) (a_log s)
  end.
(** kernel.c read_random_bytes(..., 8); a failure writes nothing *)
Definition a_random (s : ast) : option (list Z) * ast :=
  match a_rnd s with
  | [] => (None, s)
  | r :: l => (r, mkA (a_now s) (a_clk s) l (a_pc s) (a_found s) (a_log s))
  end.

(** message.c:1305-1329 send_challenge_request; the message goes to the buffer of
    the neighbour *)
Definition send_challenge_request (s : ast) : ast :=
  let s := a_gettime s in
  if timeval_compare (a_now s) (pc_req_lim (a_pc s)) <=? 0 then s
  else
    let '(r, s) := a_random s in
    match r with
    | None => s
    | Some n =>
        let s := a_gettime (set_a_pc (set_pc_nonce n (a_pc s)) s) in
        a_note (NRequest n (a_now s))
          (set_a_pc (set_pc_req_lim (timeval_add_msec (a_now s) 300)
                      (set_pc_deadline (timeval_add_msec (a_now s) 30000) (a_pc s))) s)
    end.
(** message.c:1331-1348 send_challenge_reply *)
Definition send_challenge_reply (nonce : list Z) (s : ast) : ast :=
  let s := a_gettime s in
  if timeval_compare (a_now s) (pc_rep_lim (a_pc s)) <=? 0 then s
  else
    let s := a_gettime s in
    a_note (NReply nonce (a_now s)) (set_a_pc (set_pc_rep_lim (timeval_add_msec (a_now s) 300) (a_pc s)) s).

(** message.c:437-441: the first PC TLV with its index, the last challenge request,
    and whether a challenge reply was honoured *)
Record scan := mkScan { sc_pc : option (Z * list Z); sc_nonce : option (list Z); sc_ok : bool }.

(** message.c:496-524: a challenge reply *)
Definition challenge_reply (pkt : list Z) (m len : Z) (s : ast) (c : scan) : pr (ast * scan) :=
  let s := a_gettime (set_a_found true s) in
  if timeval_compare (a_now s) (pc_deadline (a_pc s)) >? 0 then Ret (s, c)
  else if len =? 8 then
    n <- rds pkt (m + 2) len;;
    if memcmp (pc_nonce (a_pc s)) n =? 0 then
      Ret (a_note (NHonoured n (a_now s)) (set_a_pc (set_pc_deadline tv0 (a_pc s)) s),
           mkScan (sc_pc c) (sc_nonce c) true)
    else Ret (s, c)
  else Ret (s, c).

(** message.c:443-527: the loop.  [break] ends it. *)
Fixpoint pre_loop (pkt : list Z) (bodylen : Z) (mcast : bool) (f : nat) (i : Z) (s : ast) (c : scan)
    : pr (ast * scan) :=
  if i <? bodylen then
    match f with
    | O => Hang
    | S f =>
        let m := 4 + i in
        t <- rd pkt m;;
        if t =? MESSAGE_PAD1 then pre_loop pkt bodylen mcast f (i + 1) s c
        else if i + 2 >? bodylen then Ret (s, c)
        else
          len <- rd pkt (m + 1);;
          if i + len + 2 >? bodylen then Ret (s, c)
          else if t =? MESSAGE_PC then
            match sc_pc c with
            | Some _ => pre_loop pkt bodylen mcast f (i + len + 2) s c
            | None =>
                if len <? 4 then Ret (s, c)
                else if len >? 36 then Ret (s, c)
                else
                  pc <- rd32 pkt (m + 2);; index <- rds pkt (m + 6) (len - 4);;
                  pre_loop pkt bodylen mcast f (i + len + 2) s (mkScan (Some (pc, index)) (sc_nonce c) (sc_ok c))
            end
          else if t =? MESSAGE_CHALLENGE_REQUEST then
            if mcast then pre_loop pkt bodylen mcast f (i + len + 2) s c
            else if len >? 192 then Ret (s, c)
            else
              n <- rds pkt (m + 2) len;;
              pre_loop pkt bodylen mcast f (i + len + 2) s (mkScan (sc_pc c) (Some n) (sc_ok c))
          else if t =? MESSAGE_CHALLENGE_REPLY then
            if len >? 192 then Ret (s, c)
            else
              r <- challenge_reply pkt m len s c;;
              pre_loop pkt bodylen mcast f (i + len + 2) (fst r) (snd r)
          else pre_loop pkt bodylen mcast f (i + len + 2) s c
    end
  else Ret (s, c).

(** message.c:529-570 *)
Definition pre_decide (mcast : bool) (s : ast) (c : scan) : ast * bool :=
  let '(s, accept, nonce) :=
    match sc_pc c with
    | None => (s, false, sc_nonce c)
    | Some (pc, index) =>
        if sc_ok c then
          (a_note (NAccept mcast index pc)
            (set_a_pc (set_pc_u pc (set_pc_m pc (set_pc_index (Some index) (a_pc s)))) s), true, sc_nonce c)
        else
          let s := set_a_found true s in
          match pc_index (a_pc s) with
          | Some i =>
              if (zlen i =? zlen index) && (memcmp index i =? 0) then
                let last := if mcast then pc_m (a_pc s) else pc_u (a_pc s) in
                if pc <=? last then (s, false, None)
                else (a_note (NAccept mcast index pc)
                        (set_a_pc (if mcast then set_pc_m pc (a_pc s) else set_pc_u pc (a_pc s)) s),
                      true, sc_nonce c)
              else (send_challenge_request s, false, sc_nonce c)
          | None => (send_challenge_request s, false, sc_nonce c)
          end
    end in
  let s := match nonce with
           | Some n => send_challenge_reply n (set_a_found true s)
           | None => s
           end in
  (s, accept).

(** message.c:432-571 preparse_packet; [mcast]: to[0] == 0xff.  The result tells
    whether the packet is accepted. *)
Definition preparse_packet (pkt : list Z) (bodylen : Z) (mcast : bool) (s : ast) : pr (ast * bool) :=
  r <- pre_loop pkt bodylen mcast (S (Z.to_nat bodylen)) 0 s (mkScan None None false);;
  Ret (pre_decide mcast (fst r) (snd r)).

(** message.c:573-1105 parse_packet on an interface with a key: None when the packet is
    dropped, otherwise the actions.  [bad]: IF_ACCEPT_BAD_SIGNATURES. *)
Definition parse_packet_key {key} (mac : key -> list Z -> option (list Z)) (port : list Z) (k : key) (bad : bool)
    (c : rctx) (to_ pkt : list Z) (s : ast) : pr (ast * option (list action)) :=
  h <- parse_header c pkt;;
  match h with
  | None => Ret (s, None)
  | Some bodylen =>
      rc <- check_hmac key mac port (r_from c) to_ pkt bodylen k;;
      if rc <=? 0 then
        if negb bad then Ret (s, None)
        else acts <- parse_body c pkt bodylen;; Ret (set_a_found true s, Some acts)
      else
        r <- preparse_packet pkt bodylen (at_ to_ 0 =? 255) s;;
        if snd r then acts <- parse_body c pkt bodylen;; Ret (set_a_found true (fst r), Some acts)
        else Ret (fst r, None)
  end.

(** ** The sender *)

(** interface.h:152-153: the index and counter of an interface *)
Record sender := mkS { s_pc : Z; s_index : list Z }.
(** message.c:1271-1291 send_pc, when there is space (it has been reserved by
    start_message): the TLV appended, if any; [rnd]: read_random_bytes *)
Definition send_pc (rnd : option (list Z)) (s : sender) : option (list Z) * sender :=
  let tlv s := (Some ([MESSAGE_PC; 12] ++ be32 (s_pc s) ++ s_index s), mkS (u32 (s_pc s + 1)) (s_index s)) in
  if s_pc s =? 0 then
    match rnd with
    | None => (None, s)
    | Some i => tlv (mkS 0 i)
    end
  else tlv s.

(** M_Wire.v: reading packets, message.c:55-1105.  A packet is a list of bytes; a
    pointer into it is an index.  Reading outside the packet is undefined behaviour
    in C and gives the outcome [Oob]; a loop that would run forever gives [Hang].
    What the parser does with a packet is described by the list of actions it takes
    (calls of other functions), in order; these do not influence what is read later.
    Debug output and messages on stderr are not modelled. *)
From Verif Require Import Base M_Util M_Filter.

(** ** Outcomes *)
Inductive pr (A : Type) := Ret (a : A) | Oob | Hang.
Arguments Ret {A} a.
Arguments Oob {A}.
Arguments Hang {A}.
Definition bind {A B} (x : pr A) (f : A -> pr B) : pr B :=
  match x with Ret a => f a | Oob => Oob | Hang => Hang end.
Notation "x <- a ;; b" := (bind a (fun x => b)) (at level 61, a at next level, right associativity).

Definition zlen {A} (l : list A) : Z := Z.of_nat (length l).
(** p[i] *)
Definition rd (pkt : list Z) (i : Z) : pr Z :=
  if (0 <=? i) && (i <? zlen pkt) then Ret (nth (Z.to_nat i) pkt 0) else Oob.
(** memcpy(..., p + i, n) *)
Definition rds (pkt : list Z) (i n : Z) : pr (list Z) :=
  if n <=? 0 then Ret []
  else if (0 <=? i) && (i + n <=? zlen pkt) then Ret (firstn (Z.to_nat n) (skipn (Z.to_nat i) pkt))
  else Oob.
(** DO_NTOHS, DO_NTOHL: util.h:23-38 *)
Definition rd16 (pkt : list Z) (i : Z) : pr Z :=
  a <- rd pkt i;; b <- rd pkt (i + 1);; Ret (un16 a b).
Definition rd32 (pkt : list Z) (i : Z) : pr Z :=
  a <- rd pkt i;; b <- rd pkt (i + 1);; c <- rd pkt (i + 2);; d <- rd pkt (i + 3);;
  Ret (un32 a b c d).

Definition bit (x m : Z) : bool := negb (Z.land x m =? 0).

(** ** Types of TLVs and sub-TLVs, address encodings: message.h:26-58 *)
Definition MESSAGE_PAD1 : Z := 0.
Definition MESSAGE_PADN : Z := 1.
Definition MESSAGE_ACK_REQ : Z := 2.
Definition MESSAGE_ACK : Z := 3.
Definition MESSAGE_HELLO : Z := 4.
Definition MESSAGE_IHU : Z := 5.
Definition MESSAGE_ROUTER_ID : Z := 6.
Definition MESSAGE_NH : Z := 7.
Definition MESSAGE_UPDATE : Z := 8.
Definition MESSAGE_REQUEST : Z := 9.
Definition MESSAGE_MH_REQUEST : Z := 10.
Definition MESSAGE_MAC : Z := 16.
Definition MESSAGE_PC : Z := 17.
Definition MESSAGE_CHALLENGE_REQUEST : Z := 18.
Definition MESSAGE_CHALLENGE_REPLY : Z := 19.
Definition SUBTLV_PAD1 : Z := 0.
Definition SUBTLV_PADN : Z := 1.
Definition SUBTLV_TIMESTAMP : Z := 3.
Definition SUBTLV_SOURCE_PREFIX : Z := 128.
Definition AE_WILDCARD : Z := 0.
Definition AE_IPV4 : Z := 1.
Definition AE_IPV6 : Z := 2.
Definition AE_IPV6_LOCAL : Z := 3.
Definition AE_V4VIAV6 : Z := 4.

(** message.c:55-60 known_ae; [ae] is a byte *)
Definition known_ae (ae : Z) : bool := (ae <=? AE_IPV6_LOCAL) || (ae =? AE_V4VIAV6).

(** ** Prefixes *)

(** The local array [prefix], cleared at line 83, after bytes were copied at its
    start. *)
Definition pad16 (l : list Z) : list Z := firstn 16 (l ++ zeroes 16).

(** message.c:64-124 network_prefix.  None is the result -1 with nothing written.
    The result may be negative too when [pb] < [omitted] (or 8): an unsigned
    difference converted to int. *)
Definition network_prefix (pkt : list Z) (ae plen omitted p : Z) (dp : option (list Z)) (len : Z)
    : pr (option (Z * list Z)) :=
  let pb := if plen >=? 0 then (plen + 7) / 8 else if ae =? 1 then 4 else 16 in
  let norm l := normalize_prefix (pad16 l)
                  (if plen <? 0 then 128 else if ae_is_v4 ae then plen + 96 else plen) in
  if pb >? 16 then Ret None
  else if ae =? AE_WILDCARD then Ret (Some (0, norm []))
  else if (ae =? AE_IPV4) || (ae =? AE_V4VIAV6) then
    if (omitted >? 4) || (pb >? 4) || ((pb >? omitted) && (len <? pb - omitted)) then Ret None
    else
      match (if omitted =? 0 then Some (firstn 12 v4prefix)
             else match dp with
                  | None => None
                  | Some q => if v4mapped q then Some (firstn (12 + Z.to_nat omitted) q) else None
                  end) with
      | None => Ret None
      | Some base => b <- rds pkt p (pb - omitted);; Ret (Some (pb - omitted, norm (base ++ b)))
      end
  else if ae =? AE_IPV6 then
    if (omitted >? 16) || ((pb >? omitted) && (len <? pb - omitted)) then Ret None
    else
      match (if omitted =? 0 then Some []
             else match dp with
                  | None => None
                  | Some q => if v4mapped q then None else Some (firstn (Z.to_nat omitted) q)
                  end) with
      | None => Ret None
      | Some base => b <- rds pkt p (pb - omitted);; Ret (Some (pb - omitted, norm (base ++ b)))
      end
  else if ae =? AE_IPV6_LOCAL then
    if (pb >? 8) && (len <? pb - 8) then Ret None
    else b <- rds pkt p (pb - 8);; Ret (Some (pb - 8, norm (firstn 8 llprefix ++ b)))
  else Ret None.

(** message.c:425-430 network_address *)
Definition network_address (pkt : list Z) (ae p len : Z) : pr (option (Z * list Z)) :=
  network_prefix pkt ae (-1) 0 p None len.

(** ** Sub-TLVs *)

(** The loop common to message.c:134-175 (Update), 189-225 (Hello), 243-281 (IHU),
    298-339 (Request), 353-387 (seqno request) and 399-418 (others).  [step] is
    what is done with a sub-TLV which is not padding: its type, the index and the
    length of its body; None is failure.  [f] is a bound on the number of
    iterations. *)
Fixpoint sub_loop {S : Type} (step : S -> Z -> Z -> Z -> pr (option S))
    (pkt : list Z) (off alen : Z) (f : nat) (i : Z) (s : S) : pr (option S) :=
  if i <? alen then
    match f with
    | O => Hang
    | Datatypes.S f =>
        t <- rd pkt (off + i);;
        if t =? SUBTLV_PAD1 then sub_loop step pkt off alen f (i + 1) s
        else if i + 2 >? alen then Ret None
        else
          len <- rd pkt (off + i + 1);;
          if i + len + 2 >? alen then Ret None
          else if t =? SUBTLV_PADN then sub_loop step pkt off alen f (i + len + 2) s
          else
            r <- step s t (off + i + 2) len;;
            match r with
            | None => Ret None
            | Some s' => sub_loop step pkt off alen f (i + len + 2) s'
            end
    end
  else Ret (Some s).
Definition subs {S} (step : S -> Z -> Z -> Z -> pr (option S)) (pkt : list Z) (off alen : Z) (s : S) :=
  sub_loop step pkt off alen (Datatypes.S (Z.to_nat alen)) 0 s.

(** An unknown sub-TLV: lines 166-171 and the like *)
Definition unknown_sub {S} (s : S) (t : Z) : pr (option S) := Ret (if bit t 128 then None else Some s).

(** A source prefix with its length, and whether the packet gave one *)
Definition srcp := (list Z * Z * bool)%type.
(** message.c:853-859, 970-976, 1025-1031: no source prefix *)
Definition no_src (ae : Z) : srcp :=
  if ae_is_v4 ae then (v4tov6 (zeroes 16), 96, false) else (zeroes 16, 0, false).

(** message.c:126-180 parse_update_subtlv, 291-345 parse_request_subtlv *)
Definition source_step (pkt : list Z) (ae : Z) (s : srcp) (t off len : Z) : pr (option srcp) :=
  if t =? SUBTLV_SOURCE_PREFIX then
    if len <? 1 then Ret None
    else
      l <- rd pkt off;;
      if l =? 0 then Ret None
      else if snd s then Ret None
      else
        r <- network_prefix pkt ae l 0 (off + 1) None (len - 1);;
        match r with
        | None => Ret None
        | Some (rc, p) =>
            if rc <? 0 then Ret None
            else Ret (Some (p, u8 (if ae_is_v4 ae then l + 96 else l), true))
        end
  else unknown_sub s t.
(** message.c:347-392 parse_seqno_request_subtlv: length 0 and repetitions are
    accepted *)
Definition seqno_source_step (pkt : list Z) (ae : Z) (s : srcp) (t off len : Z) : pr (option srcp) :=
  if t =? SUBTLV_SOURCE_PREFIX then
    if len <? 1 then Ret None
    else
      l <- rd pkt off;;
      r <- network_prefix pkt ae l 0 (off + 1) None (len - 1);;
      match r with
      | None => Ret None
      | Some (rc, p) =>
          if rc <? 0 then Ret None
          else Ret (Some (p, u8 (if ae_is_v4 ae then l + 96 else l), true))
      end
  else unknown_sub s t.
(** message.c:182-231 parse_hello_subtlv *)
Definition hello_step (pkt : list Z) (s : option Z) (t off len : Z) : pr (option (option Z)) :=
  if t =? SUBTLV_TIMESTAMP then
    if len >=? 4 then (v <- rd32 pkt off;; Ret (Some (Some v))) else Ret (Some s)
  else unknown_sub s t.
(** message.c:233-289 parse_ihu_subtlv *)
Definition ihu_step (pkt : list Z) (s : option (Z * Z)) (t off len : Z) : pr (option (option (Z * Z))) :=
  if t =? SUBTLV_TIMESTAMP then
    if len >=? 8 then (v1 <- rd32 pkt off;; v2 <- rd32 pkt (off + 4);; Ret (Some (Some (v1, v2))))
    else Ret (Some s)
  else unknown_sub s t.
(** message.c:394-423 parse_other_subtlv *)
Definition other_step (s : unit) (t off len : Z) : pr (option unit) := unknown_sub s t.

(** ** TLVs *)

(** What the parser does: send_ack (683), update_neighbour and what follows for
    a Hello with its timestamp (708-720), an IHU (747-754), retract_neighbour_routes
    (941), update_route (954), a wildcard request (993-1001) or a request for a
    destination (1009), handle_request (1047), a RTT sample (1068-1103). *)
Inductive action :=
| AAck (nonce interval : Z)
| AHello (unicast : bool) (seqno interval : Z) (timestamp : option Z)
| AIhu (txcost interval : Z)
| AWithdraw
| AUpdate (id : option (list Z)) (d : dest) (seqno metric interval : Z) (nh : option (list Z))
| ARequest (d : option dest)
| ASeqno (d : dest) (hops seqno : Z) (id : list Z)
| ARtt (send_us receive_us : Z).

(** The variables that live through a packet, message.c:583-590; None when the
    have_ flag is 0.  [p_hello]: have_hello_rtt; [p_us], [p_rx]: hello_send_us
    and hello_rtt_receive_time. *)
Record pst := mkP { p_id : option (list Z); p_v4 : option (list Z); p_v6 : option (list Z);
  p_46 : option (list Z); p_nh4 : option (list Z); p_nh6 : option (list Z);
  p_hello : bool; p_us : Z; p_rx : Z }.
Definition p0 : pst := mkP None None None None None None false 0 0.
Definition set_p_id v p := mkP v (p_v4 p) (p_v6 p) (p_46 p) (p_nh4 p) (p_nh6 p) (p_hello p) (p_us p) (p_rx p).
Definition set_p_v4 v p := mkP (p_id p) v (p_v6 p) (p_46 p) (p_nh4 p) (p_nh6 p) (p_hello p) (p_us p) (p_rx p).
Definition set_p_v6 v p := mkP (p_id p) (p_v4 p) v (p_46 p) (p_nh4 p) (p_nh6 p) (p_hello p) (p_us p) (p_rx p).
Definition set_p_46 v p := mkP (p_id p) (p_v4 p) (p_v6 p) v (p_nh4 p) (p_nh6 p) (p_hello p) (p_us p) (p_rx p).
Definition set_p_nh4 v p := mkP (p_id p) (p_v4 p) (p_v6 p) (p_46 p) v (p_nh6 p) (p_hello p) (p_us p) (p_rx p).
Definition set_p_nh6 v p := mkP (p_id p) (p_v4 p) (p_v6 p) (p_46 p) (p_nh4 p) v (p_hello p) (p_us p) (p_rx p).
Definition set_p_hello v p := mkP (p_id p) (p_v4 p) (p_v6 p) (p_46 p) (p_nh4 p) (p_nh6 p) v (p_us p) (p_rx p).
Definition set_p_ts us rx p := mkP (p_id p) (p_v4 p) (p_v6 p) (p_46 p) (p_nh4 p) (p_nh6 p) (p_hello p) us rx.

Definition step := pr (pst * list action).
Definition ignore (p : pst) : step := Ret (p, []).

(** Where a packet comes from: the address of the sender, the link-local addresses
    of the interface (none when the interface is down, interface.c:528-541), and
    has_v4viav6 (babeld.c:66). *)
Record rctx := mkR { r_from : list Z; r_lls : list (list Z); r_46 : bool }.

(** message.c:672-683 *)
Definition p_ack_req (pkt : list Z) (m len : Z) (p : pst) : step :=
  if len <? 6 then ignore p
  else
    nonce <- rd16 pkt (m + 4);; interval <- rd16 pkt (m + 6);;
    r <- subs other_step pkt (m + 8) (len - 6) tt;;
    match r with None => ignore p | Some _ => Ret (p, [AAck nonce interval]) end.

(** message.c:684-691 *)
Definition p_ack (pkt : list Z) (m len : Z) (p : pst) : step :=
  r <- subs other_step pkt (m + 4) (len - 2) tt;; ignore p.

(** message.c:692-720 *)
Definition p_hello_tlv (pkt : list Z) (m len : Z) (p : pst) : step :=
  if len <? 6 then ignore p
  else
    fl <- rd pkt (m + 2);; seqno <- rd16 pkt (m + 4);; interval <- rd16 pkt (m + 6);;
    r <- subs (hello_step pkt) pkt (m + 8) (len - 6) None;;
    match r with
    | None => ignore p
    | Some ts => Ret (match ts with Some _ => set_p_hello true p | None => p end,
                      [AHello (bit fl 128) seqno interval ts])
    end.

(** message.c:721-755 *)
Definition p_ihu (c : rctx) (pkt : list Z) (m len : Z) (p : pst) : step :=
  if len <? 6 then ignore p
  else
    ae <- rd pkt (m + 2);;
    if negb (known_ae ae) then ignore p
    else
      txcost <- rd16 pkt (m + 4);; interval <- rd16 pkt (m + 6);;
      a <- network_address pkt ae (m + 8) (len - 6);;
      match a with
      | None => ignore p
      | Some (rc, address) =>
          if rc <? 0 then ignore p
          else if (ae =? AE_WILDCARD) || existsb (fun l => memcmp l address =? 0) (r_lls c) then
            r <- subs (ihu_step pkt) pkt (m + 8 + rc) (len - 6 - rc) None;;
            match r with
            | None => ignore p
            | Some ts => Ret (match ts with Some (a, b) => set_p_ts a b p | None => p end,
                              [AIhu txcost interval])
            end
          else ignore p
      end.

(** message.c:756-768 *)
Definition p_router_id (pkt : list Z) (m len : Z) (p : pst) : step :=
  if len <? 10 then ignore (set_p_id None p)
  else
    id <- rds pkt (m + 4) 8;;
    r <- subs other_step pkt (m + 12) (len - 10) tt;;
    ignore (set_p_id (Some id) p).

(** message.c:769-813 *)
Definition p_nh (pkt : list Z) (m len : Z) (p : pst) : step :=
  if len <? 2 then ignore (set_p_nh4 None (set_p_nh6 None p))
  else
    ae <- rd pkt (m + 2);;
    a <- network_address pkt ae (m + 4) (len - 2);;
    if negb (known_ae ae) then ignore p
    else if ae =? 0 then ignore p
    else
      match a with
      | None => ignore (set_p_nh4 None (set_p_nh6 None p))
      | Some (rc, nh) =>
          if rc <? 0 then ignore (set_p_nh4 None (set_p_nh6 None p))
          else if ae =? AE_V4VIAV6 then ignore p
          else
            r <- subs other_step pkt (m + 4 + rc) (len - 2 - rc) tt;;
            ignore (if ae =? AE_IPV4 then set_p_nh4 (Some nh) p else set_p_nh6 (Some nh) p)
      end.

(** message.c:821 and 862 *)
Definition clear_prefixes (p : pst) : pst := set_p_v4 None (set_p_v6 None (set_p_46 None p)).

(** message.c:814-956 *)
Definition p_update (c : rctx) (pkt : list Z) (m len : Z) (p : pst) : step :=
  if len <? 10 then
    clear <- (if len <? 2 then Ret true else fl <- rd pkt (m + 3);; Ret (bit fl 128));;
    ignore (if clear : bool then clear_prefixes p else p)
  else
    ae <- rd pkt (m + 2);;
    if negb (known_ae ae) then ignore p
    else if (ae =? AE_V4VIAV6) && negb (r_46 c) then ignore p
    else
      fl <- rd pkt (m + 3);; plen0 <- rd pkt (m + 4);; omitted <- rd pkt (m + 5);;
      interval <- rd16 pkt (m + 6);; seqno <- rd16 pkt (m + 8);; metric <- rd16 pkt (m + 10);;
      let dp := if ae =? AE_IPV4 then p_v4 p else if ae =? AE_IPV6 then p_v6 p
                else if ae =? AE_V4VIAV6 then p_46 p else None in
      a <- (if (omitted =? 0) || match dp with Some _ => true | None => false end
            then network_prefix pkt ae plen0 omitted (m + 12) dp (len - 10)
            else Ret None);;
      match (match a with Some (rc, x) => if rc <? 0 then None else Some (rc, x) | None => None end) with
      | None => ignore (if bit fl 128 then clear_prefixes p else p)
      | Some (rc, prefix) =>
          let plen := u8 (plen0 + (if ae_is_v4 ae then 96 else 0)) in
          let p1 := if bit fl 128 then
                      if ae =? AE_IPV4 then set_p_v4 (Some prefix) p
                      else if ae =? AE_IPV6 then set_p_v6 (Some prefix) p
                      else if ae =? AE_V4VIAV6 then set_p_46 (Some prefix) p else p
                    else p in
          let p2 := if bit fl 64 then
                      set_p_id (Some (if ae_is_v4 ae then zeroes 4 ++ firstn 4 (skipn 12 prefix)
                                      else firstn 8 (skipn 8 prefix))) p1
                    else p1 in
          if (metric <? INFINITY) && match p_id p2 with None => true | Some _ => false end
             && negb (ae =? AE_WILDCARD) then ignore p2
          else
            match (if ae =? AE_IPV4 then
                     match p_nh4 p2 with
                     | Some n => Some (Some n)
                     | None => if metric <? INFINITY then None else Some None
                     end
                   else match p_nh6 p2 with Some n => Some (Some n) | None => Some (Some (r_from c)) end) with
            | None => ignore p2
            | Some nh =>
                r <- subs (source_step pkt ae) pkt (m + 2 + (10 + rc)) (len - (10 + rc)) (no_src ae);;
                match r with
                | None => ignore p2
                | Some (src, splen, _) =>
                    if ae =? AE_WILDCARD then
                      if metric <? 65535 then ignore p2
                      else if splen >? 0 then ignore p2
                      else Ret (p2, [AWithdraw])
                    else Ret (p2, [AUpdate (p_id p2) (mkDest prefix plen src splen) seqno metric interval nh])
                end
            end
      end.

(** message.c:957-1010 *)
Definition p_request (pkt : list Z) (m len : Z) (p : pst) : step :=
  if len <? 2 then ignore p
  else
    ae <- rd pkt (m + 2);;
    if negb (known_ae ae) then ignore p
    else
      plen0 <- rd pkt (m + 3);;
      a <- network_prefix pkt ae plen0 0 (m + 4) None (len - 2);;
      match a with
      | None => ignore p
      | Some (rc, prefix) =>
          if rc <? 0 then ignore p
          else
            let plen := u8 (plen0 + (if ae_is_v4 ae then 96 else 0)) in
            r <- subs (source_step pkt ae) pkt (m + 4 + rc) (len - 2 - rc) (no_src ae);;
            match r with
            | None => ignore p
            | Some (src, splen, _) =>
                if ae =? AE_WILDCARD then
                  if negb (is_default src splen) then ignore p else Ret (p, [ARequest None])
                else Ret (p, [ARequest (Some (mkDest prefix plen src splen))])
            end
      end.

(** message.c:1011-1048 *)
Definition p_mh_request (pkt : list Z) (m len : Z) (p : pst) : step :=
  if len <? 14 then ignore p
  else
    ae <- rd pkt (m + 2);;
    if negb (known_ae ae) then ignore p
    else
      plen0 <- rd pkt (m + 3);; seqno <- rd16 pkt (m + 4);;
      a <- network_prefix pkt ae plen0 0 (m + 16) None (len - 14);;
      match a with
      | None => ignore p
      | Some (rc, prefix) =>
          if rc <? 0 then ignore p
          else
            r <- subs (seqno_source_step pkt ae) pkt (m + 16 + rc) (len - 14 - rc) (no_src ae);;
            match r with
            | None => ignore p
            | Some (src, splen, _) =>
                hops <- rd pkt (m + 6);; id <- rds pkt (m + 8) 8;;
                Ret (p, [ASeqno (mkDest prefix (u8 (plen0 + (if ae_is_v4 ae then 96 else 0))) src splen)
                                hops seqno id])
            end
      end.

(** message.c:669-1056: one TLV of type [t], at index [m], [len] bytes of body *)
Definition parse_tlv (c : rctx) (pkt : list Z) (t m len : Z) (p : pst) : step :=
  if t =? MESSAGE_PADN then ignore p
  else if t =? MESSAGE_ACK_REQ then p_ack_req pkt m len p
  else if t =? MESSAGE_ACK then p_ack pkt m len p
  else if t =? MESSAGE_HELLO then p_hello_tlv pkt m len p
  else if t =? MESSAGE_IHU then p_ihu c pkt m len p
  else if t =? MESSAGE_ROUTER_ID then p_router_id pkt m len p
  else if t =? MESSAGE_NH then p_nh pkt m len p
  else if t =? MESSAGE_UPDATE then p_update c pkt m len p
  else if t =? MESSAGE_REQUEST then p_request pkt m len p
  else if t =? MESSAGE_MH_REQUEST then p_mh_request pkt m len p
  else ignore p.

(** message.c:649-1065: the loop over the TLVs *)
Fixpoint tlv_loop (c : rctx) (pkt : list Z) (bodylen : Z) (f : nat) (i : Z) (p : pst) : step :=
  if i <? bodylen then
    match f with
    | O => Hang
    | S f =>
        t <- rd pkt (4 + i);;
        if t =? MESSAGE_PAD1 then tlv_loop c pkt bodylen f (i + 1) p
        else if i + 2 >? bodylen then ignore p
        else
          len <- rd pkt (4 + i + 1);;
          if i + len + 2 >? bodylen then ignore p
          else
            r <- parse_tlv c pkt t (4 + i) len p;;
            s <- tlv_loop c pkt bodylen f (i + len + 2) (fst r);;
            Ret (fst s, snd r ++ snd s)
    end
  else ignore p.

(** message.c:1068: whether a RTT sample can be taken *)
Definition rtt_action (p : pst) : list action :=
  if p_hello p && negb (p_us p =? 0) && negb (p_rx p =? 0) then [ARtt (p_us p) (p_rx p)] else [].

(** message.c:649-1103: the actions for the body of a packet *)
Definition parse_body (c : rctx) (pkt : list Z) (bodylen : Z) : pr (list action) :=
  s <- tlv_loop c pkt bodylen (S (Z.to_nat bodylen)) 0 p0;;
  Ret (snd s ++ rtt_action (fst s)).

(** message.c:597-622: the checks on the header; the length of the body *)
Definition parse_header (c : rctx) (pkt : list Z) : pr (option Z) :=
  if negb (linklocal (r_from c)) then Ret None
  else
    a <- rd pkt 0;;
    if negb (a =? 42) then Ret None
    else
      b <- rd pkt 1;;
      if negb (b =? 2) then Ret None
      else
        bodylen <- rd16 pkt 2;;
        Ret (Some (if bodylen + 4 >? zlen pkt then zlen pkt - 4 else bodylen)).

(** message.c:573-1105 parse_packet on an interface without a key: the actions
    taken.  With a key: M_Auth.v. *)
Definition parse_packet (c : rctx) (pkt : list Z) : pr (list action) :=
  h <- parse_header c pkt;;
  match h with None => Ret [] | Some bodylen => parse_body c pkt bodylen end.

(** S_Nlink.v: netlink messages as linux/netlink.h and linux/rtnetlink.h define them, read
    and written independently of the code. *)
From Verif Require Import Base M_Util M_Source M_Filter M_Types M_State M_Xroute M_Nlink.

(** The value of bytes, least significant first. *)
Fixpoint num (l : list Z) : Z := match l with [] => 0 | x :: l => x + 256 * num l end.
Definition slice (o n : nat) (b : list Z) : list Z := firstn n (skipn o b).
Definition mapped4 (x : list Z) : list Z := [0;0;0;0;0;0;0;0;0;0;255;255] ++ x.

(** ** Reading a request, as the kernel does *)
(** Attributes: two bytes of length (of the whole), two bytes of type, data, padding up to a
    multiple of four except after the last. *)
Fixpoint tlvs (fuel : nat) (b : list Z) : option (list (Z * list Z)) :=
  match fuel, b with
  | _, [] => Some []
  | S fuel, l0 :: l1 :: t0 :: t1 :: rest =>
      let n := num [l0; l1] - 4 in
      if (n <? 0) || (n >? Z.of_nat (length rest)) then None
      else match tlvs fuel (skipn (Z.to_nat ((n + 3) / 4 * 4)) rest) with
           | Some l => Some ((num [t0; t1], firstn (Z.to_nat n) rest) :: l)
           | None => None
           end
  | _, _ => None
  end.
Fixpoint attr (t : Z) (l : list (Z * list Z)) : option (list Z) :=
  match l with [] => None | (t', d) :: l => if t =? t' then Some d else attr t l end.
(** A request to add (type 24, with flags "create" and "exclusive") or to delete (type 25) a route, with its
    sequence number and what it says: family (2 or 10) and lengths, table, protocol Babel (42), scope
    universe (0), type unicast (1, flag onlink 4) or unreachable (7), and the attributes 1 destination, 2 source, 4 interface,
    5 gateway, 6 priority, 7 preferred source, 18 gateway of another family. *)
Definition kernel_reads (b : list Z) : option (bool * Z * kreq) :=
  if negb (num (slice 0 4 b) =? Z.of_nat (length b)) || (Z.of_nat (length b) <? 28) then None
  else
  let type := num (slice 4 2 b) in let flags := num (slice 6 2 b) in
  match slice 16 12 b, tlvs (length b) (skipn 28 b) with
  | [family; dst_len; src_len; tos; table; proto; scope; rtype; f0; f1; f2; f3], Some l =>
      let full x := if family =? 2 then mapped4 x else x in
      let base := if family =? 2 then 96 else 0 in
      let size := if family =? 2 then 4 else 16 in
      if negb ((family =? 2) || (family =? 10)) || negb (tos =? 0) || negb (proto =? 42) || negb (scope =? 0) ||
         negb (((type =? 24) && (flags =? 1 + 4 + 512 + 1024)) || ((type =? 25) && (flags =? 1 + 4))) then None
      else match attr 1 l, attr 6 l with
      | Some dst, Some prio =>
          let src := match attr 2 l with Some x => Some (full x, base + src_len) | None => None end in
          let req via := Some (type =? 24, num (slice 8 4 b), mkKreq table (full dst) (base + dst_len) src (s32 (num prio)) via) in
          if negb (Z.of_nat (length dst) =? size) then None
          else if (rtype =? 7) && (num [f0; f1; f2; f3] =? 0) then req None
          else if (rtype =? 1) && (num [f0; f1; f2; f3] =? 4) then
            match attr 4 l, attr 5 l, attr 18 l with
            | Some i, Some g, None => if negb (Z.of_nat (length g) =? size) then None
                else req (Some (num i, full g, match attr 7 l with Some x => Some (full x) | None => None end))
            | Some i, None, Some (a :: a' :: g) => if negb (num [a; a'] =? 10) || negb (Z.of_nat (length g) =? 16) then None
                else req (Some (num i, g, match attr 7 l with Some x => Some (full x) | None => None end))
            | _, _, _ => None
            end
          else None
      | _, _ => None
      end
  | _, _ => None
  end.

(** ** Messages of the kernel *)
Definition le (n : nat) (x : Z) : list Z := map (fun k => x / 256 ^ Z.of_nat k mod 256) (seq 0 n).
Definition padded (l : list Z) : list Z := l ++ repeat 0 ((4 - length l mod 4) mod 4)%nat.
Record kmsg := mkMsg { m_type : Z; m_flags : Z; m_seq : Z; m_pid : Z; m_body : list Z; m_attrs : list (Z * list Z) }.
Definition attr_bytes (a : Z * list Z) : list Z := padded (le 2 (4 + Z.of_nat (length (snd a))) ++ le 2 (fst a) ++ snd a).
Definition msg_bytes (m : kmsg) : list Z :=
  let l := m_body m ++ concat (map attr_bytes (m_attrs m)) in
  le 4 (16 + Z.of_nat (length l)) ++ le 2 (m_type m) ++ le 2 (m_flags m) ++ le 4 (m_seq m) ++ le 4 (m_pid m) ++ l.
Definition attr_ok (a : Z * list Z) : Prop := 0 <= fst a < 65536 /\ Z.of_nat (length (snd a)) < 65532.
Definition msg_ok (m : kmsg) : Prop :=
  0 <= m_type m < 65536 /\ 0 <= m_seq m < 4294967296 /\ 0 <= m_pid m < 4294967296 /\
  (length (m_body m) mod 4 = 0)%nat /\ Forall attr_ok (m_attrs m) /\ Z.of_nat (length (msg_bytes m)) < 2147483648.

(** The last attribute of a type *)
Definition last_attr (t : Z) (l : list (Z * list Z)) : option (list Z) := attr t (rev l).
(** A message about a route: family, lengths, table, protocol, scope, type, flags. *)
Definition route_body (family dst_len src_len tos table proto scope rtype flags : Z) : list Z :=
  [family; dst_len; src_len; tos; table; proto; scope; rtype] ++ le 4 flags.
(** Addresses have the size of their family, numbers have four bytes. *)
Definition route_attrs_ok (family : Z) (l : list (Z * list Z)) : Prop :=
  forall t d, In (t, d) l ->
    ((t = 1 \/ t = 2 \/ t = 5) -> length d = (if family =? 2 then 4%nat else 16%nat)) /\
    ((t = 4 \/ t = 6 \/ t = 15) -> length d = 4%nat /\ bytes_ok d).
(** The table that the message is about, and the route. *)
Definition route_table (table : Z) (l : list (Z * list Z)) : Z := match last_attr 15 l with Some x => s32 (num x) | None => table end.
Definition route_said (family dst_len src_len proto : Z) (l : list (Z * list Z)) : kroute :=
  let base := if family =? 2 then 96 else 0 in
  let default := if family =? 2 then mapped4 [0;0;0;0] else repeat 0 16 in
  let full x := if family =? 2 then mapped4 x else x in
  let pfx t n := match last_attr t l with Some x => (full x, base + n) | None => (default, base) end in
  mkKr (mkDest (fst (pfx 1 dst_len)) (snd (pfx 1 dst_len)) (fst (pfx 2 src_len)) (snd (pfx 2 src_len)))
    (match last_attr 6 l with
     | Some x => if (0 <=? s32 (num x)) && (s32 (num x) <=? 65535) then s32 (num x) else 65535
     | None => 0 end)
    (match last_attr 4 l with Some x => num x | None => 0 end) proto.

(** What a message says: about a route, an address or a link, and whether it is there now. *)
Inductive kinfo :=
| IRoute (new : bool) (family dst_len src_len tos table proto scope rtype flags : Z) (l : list (Z * list Z))
| IAddr (new : bool) (family plen flags scope ifindex : Z) (l : list (Z * list Z))
| ILink (new : bool) (body : list Z) (l : list (Z * list Z)).
Definition info_ok (x : kinfo) : Prop :=
  match x with
  | IRoute _ family dst_len src_len tos table proto scope rtype flags l =>
      (family = 2 \/ family = 10) /\ 0 <= flags < 4294967296 /\ route_attrs_ok family l
  | IAddr _ family plen flags scope ifindex l =>
      (family = 2 \/ family = 10) /\ 0 <= ifindex < 4294967296 /\
      forall t d, In (t, d) l -> t = 1 \/ t = 2 -> length d = (if family =? 2 then 4%nat else 16%nat)
  | ILink _ _ _ => True
  end.
Definition to_msg (flags seq pid : Z) (x : kinfo) : kmsg :=
  match x with
  | IRoute new family dst_len src_len tos table proto scope rtype f l =>
      mkMsg (if new then 24 else 25) flags seq pid (route_body family dst_len src_len tos table proto scope rtype f) l
  | IAddr new family plen f scope ifindex l => mkMsg (if new then 20 else 21) flags seq pid ([family; plen; f; scope] ++ le 4 ifindex) l
  | ILink new body l => mkMsg (if new then 16 else 17) flags seq pid body l
  end.
(** The local address; when there is none, the address. *)
Definition addr_said (family : Z) (l : list (Z * list Z)) : option (list Z) :=
  let full x := if family =? 2 then mapped4 x else x in
  match attr 2 l with Some x => Some (full x) | None => match last_attr 1 l with Some x => Some (full x) | None => None end end.
(** Of the routes, those count that are not the daemon's own, are no cached copies (flag 512), and are in a table
    from which routes are imported; unreachable IPv6 default routes do not. *)
Definition route_counts (tables : list Z) (family dst_len src_len table proto flags : Z) (l : list (Z * list Z)) : Prop :=
  proto <> 42 /\ Z.testbit flags 9 = false /\ In (route_table table l) tables /\
  let r := route_said family dst_len src_len proto l in ~ (d_plen (kr_dest r) = 0 /\ kr_metric r = 65535).

(** What the daemon is to report of a message. *)
Inductive told (tables : list Z) : kinfo -> list notif -> Prop :=
| told_route new family dst_len src_len tos table proto scope rtype flags l :
    route_counts tables family dst_len src_len table proto flags l ->
    told tables (IRoute new family dst_len src_len tos table proto scope rtype flags l) [NRoute new (route_said family dst_len src_len proto l)]
| told_quiet new family dst_len src_len tos table proto scope rtype flags l :
    ~ route_counts tables family dst_len src_len table proto flags l ->
    told tables (IRoute new family dst_len src_len tos table proto scope rtype flags l) []
| told_addr new family plen flags scope ifindex l :
    told tables (IAddr new family plen flags scope ifindex l) [NAddr new (addr_said family l) ifindex]
| told_link new body l : told tables (ILink new body l) [NLink new].
(** A message with its header: flags, sequence number, sender, contents. *)
Definition kmessage : Type := Z * Z * Z * kinfo.
Definition kbytes (m : kmessage) : list Z := let '(flags, seq, pid, x) := m in msg_bytes (to_msg flags seq pid x).
Definition kmessage_ok (m : kmessage) : Prop := let '(flags, seq, pid, x) := m in info_ok x /\ msg_ok (to_msg flags seq pid x).
(** Of notifications, those count that the daemon did not cause; of an answer, those that answer the
    request. *)
Definition heard_note (own : Z) (tables : list Z) (m : kmessage) (l : list notif) : Prop :=
  let '(_, _, pid, x) := m in if pid =? own then l = [] else told tables x l.
Definition heard_answer (own seqno : Z) (tables : list Z) (m : kmessage) (l : list notif) : Prop :=
  let '(_, seq, pid, x) := m in if (pid =? own) && (seq =? seqno) then told tables x l else l = [].

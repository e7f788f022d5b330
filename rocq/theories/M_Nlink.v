(** M_Nlink.v: model of the netlink messages of kernel_netlink.c: the request that
    kernel_route builds, and the messages that the kernel sends.  Numbers in netlink messages
    are in host order; the model is that of a little-endian host. *)
From Verif Require Import Base M_Util M_Source M_Filter M_Types M_Neigh M_State M_Table M_Msg M_Route M_Xroute.

Definition le16 (x : Z) : list Z := [x mod 256; x / 256 mod 256].
Definition le32 (x : Z) : list Z := [x mod 256; x / 256 mod 256; x / 65536 mod 256; x / 16777216 mod 256].
(** Reads in a buffer of which [b] are the initialised bytes; [None] outside. *)
Definition rd8 (b : list Z) (off : Z) : option Z := if off <? 0 then None else nth_error b (Z.to_nat off).
Definition rd16 (b : list Z) (off : Z) : option Z :=
  match rd8 b off, rd8 b (off + 1) with Some x, Some y => Some (x + 256 * y) | _, _ => None end.
Definition rd32 (b : list Z) (off : Z) : option Z :=
  match rd16 b off, rd16 b (off + 2) with Some x, Some y => Some (x + 65536 * y) | _, _ => None end.
Definition rdn (b : list Z) (off n : Z) : option (list Z) :=
  if (0 <=? off) && (0 <=? n) && (off + n <=? Z.of_nat (length b)) then Some (firstn (Z.to_nat n) (skipn (Z.to_nat off) b)) else None.
(** A write of the bytes [l]; [None] if it is not inside the buffer. *)
Definition poke (off : Z) (l : list Z) (b : list Z) : option (list Z) :=
  if (0 <=? off) && (off + Z.of_nat (length l) <=? Z.of_nat (length b))
  then Some (firstn (Z.to_nat off) b ++ l ++ skipn (Z.to_nat off + length l) b) else None.

(** NLMSG_ALIGN, RTA_ALIGN of linux/netlink.h and linux/rtnetlink.h *)
Definition align4 (n : Z) : Z := (n + 3) / 4 * 4.
(** linux/rtnetlink.h, linux/netlink.h *)
Definition RTM_NEWLINK : Z := 16.  Definition RTM_DELLINK : Z := 17.
Definition RTM_NEWADDR : Z := 20.  Definition RTM_DELADDR : Z := 21.
Definition RTM_NEWROUTE : Z := 24. Definition RTM_DELROUTE : Z := 25.
Definition NLMSG_ERROR : Z := 2.   Definition NLMSG_DONE : Z := 3.
Definition RTA_DST : Z := 1.  Definition RTA_SRC : Z := 2.  Definition RTA_OIF : Z := 4.  Definition RTA_GATEWAY : Z := 5.
Definition RTA_PRIORITY : Z := 6. Definition RTA_PREFSRC : Z := 7. Definition RTA_TABLE : Z := 15. Definition RTA_VIA : Z := 18.
Definition AF_INET : Z := 2.  Definition AF_INET6 : Z := 10.
Definition RTPROT_BABEL : Z := 42.
Definition RTM_F_CLONED : Z := 512.

(** ** The request of kernel_route, kernel_netlink.c:1051-1136 *)

(** kernel_netlink.c:1105-1121 ADD_IPARG *)
Definition iparg (type : Z) (a : list Z) : Z * list Z :=
  if v4mapped a then (type, skipn 12 a)
  else if type =? RTA_VIA then (type, le16 AF_INET6 ++ a) else (type, a).
(** The attributes, in the order in which they are written: kernel_netlink.c:1076-1134 *)
Definition req_attrs (d : dest) (pref_src : option (list Z)) (gate : list Z) (ifindex metric : Z) : list (Z * list Z) :=
  let ipv4 := v4mapped (d_prefix d) in
  let use_src := negb (is_default (d_src d) (d_splen d)) in
  (if ipv4 then [(RTA_DST, skipn 12 (d_prefix d))]
   else (RTA_DST, d_prefix d) :: (if use_src then [(RTA_SRC, d_src d)] else [])) ++
  if metric <? KERNEL_INFINITY
  then [(RTA_PRIORITY, le32 metric); (RTA_OIF, le32 ifindex); iparg (if ipv4 && negb (v4mapped gate) then RTA_VIA else RTA_GATEWAY) gate] ++
       match pref_src with Some a => [iparg RTA_PREFSRC a] | None => [] end
  else [(RTA_PRIORITY, le32 (-1))].
(** One attribute: RTA_NEXT moves on by the length found at [rta], then length, type and
    data are written. *)
Definition put_attr (a : Z * list Z) (st : option (list Z * Z)) : option (list Z * Z) :=
  match st with
  | None => None
  | Some (b, rta) =>
      match rd16 b rta with
      | None => None
      | Some n =>
          let rta := rta + align4 n in
          match poke rta (le16 (4 + Z.of_nat (length (snd a))) ++ le16 (fst a) ++ snd a) b with
          | Some b => Some (b, rta)
          | None => None
          end
      end
  end.
(** kernel_netlink.c:1051-1136 and 536-537 (netlink_talk): the message sent, [None] if a write is
    outside the buffer of 1024 bytes.  [seq] is nl_command.seqno after its increment. *)
Definition nl_request (add : bool) (seq table : Z) (d : dest) (pref_src : option (list Z)) (gate : list Z) (ifindex metric : Z) : option (list Z) :=
  let ipv4 := v4mapped (d_prefix d) in
  let use_src := negb (is_default (d_src d) (d_splen d)) in
  let hdr := le32 0 ++ le16 (if add then RTM_NEWROUTE else RTM_DELROUTE) ++ le16 (if add then 1541 else 5) ++ le32 seq ++ le32 0 in
  let rtm := [if ipv4 then AF_INET else AF_INET6; u8 (if ipv4 then d_plen d - 96 else d_plen d); if use_src then u8 (d_splen d) else 0; 0;
              u8 table; RTPROT_BABEL; 0; if metric <? KERNEL_INFINITY then 1 else 7] ++ le32 (if metric <? KERNEL_INFINITY then 4 else 0) in
  match poke 0 (hdr ++ rtm) (zeroes 1024) with
  | None => None
  | Some b =>
      match fold_left (fun st a => put_attr a st) (req_attrs d pref_src gate ifindex metric) (Some (b, 28)) with
      | None => None
      | Some (b, rta) =>
          match rd16 b rta with
          | None => None
          | Some n => match poke 0 (le32 (rta + n)) b with Some b => rdn b 0 (rta + n) | None => None end
          end
      end
  end.

(** ** Messages from the kernel *)

(** kernel_netlink.c:1145-1161: what parse_kernel_route_rta fills in; the gateway is
    not used by anyone. *)
Record pr := mkPr { pr_prefix : list Z; pr_plen : Z; pr_src : list Z; pr_splen : Z; pr_metric : Z; pr_ifindex : Z; pr_table : Z }.
Inductive parsed (A : Type) := PUb | PNo | PYes (a : A).
Arguments PUb {A}. Arguments PNo {A}. Arguments PYes {A} a.

(** kernel_netlink.c:69-79 COPY_ADDR: the address in the attribute at [off]; [len] is rta_len *)
Definition copy_addr (b : list Z) (off len : Z) (v4 : bool) : parsed (list Z) :=
  if len - 4 <? (if v4 then 4 else 16) then PNo
  else match rdn b (off + 4) (if v4 then 4 else 16) with
       | None => PUb
       | Some x => PYes (if v4 then v4tov6 x else x)
       end.
(** kernel_netlink.c:1142-1199: one attribute *)
Definition rta1 (b : list Z) (off type len : Z) (v4 : bool) (dst_len src_len : Z) (r : pr) : parsed pr :=
  let base := if v4 then 96 else 0 in
  if type =? RTA_DST then
    match copy_addr b off len v4 with
    | PYes a => PYes (mkPr a (base + dst_len) (pr_src r) (pr_splen r) (pr_metric r) (pr_ifindex r) (pr_table r))
    | PNo => PNo | PUb => PUb
    end
  else if type =? RTA_SRC then
    match copy_addr b off len v4 with
    | PYes a => PYes (mkPr (pr_prefix r) (pr_plen r) a (base + src_len) (pr_metric r) (pr_ifindex r) (pr_table r))
    | PNo => PNo | PUb => PUb
    end
  else if type =? RTA_GATEWAY then
    match copy_addr b off len v4 with PYes _ => PYes r | PNo => PNo | PUb => PUb end
  else if type =? RTA_OIF then
    match rd32 b (off + 4) with
    | Some x => PYes (mkPr (pr_prefix r) (pr_plen r) (pr_src r) (pr_splen r) (pr_metric r) x (pr_table r))
    | None => PUb
    end
  else if type =? RTA_PRIORITY then
    match rd32 b (off + 4) with
    | Some x =>
        let m := s32 x in
        let m := if (m <? 0) || (m >? KERNEL_INFINITY) then KERNEL_INFINITY else m in
        PYes (mkPr (pr_prefix r) (pr_plen r) (pr_src r) (pr_splen r) m (pr_ifindex r) (pr_table r))
    | None => PUb
    end
  else if type =? RTA_TABLE then
    match rd32 b (off + 4) with
    | Some x => PYes (mkPr (pr_prefix r) (pr_plen r) (pr_src r) (pr_splen r) (pr_metric r) (pr_ifindex r) (s32 x))
    | None => PUb
    end
  else PYes r.
(** The loop over the attributes, RTA_OK and RTA_NEXT; [fuel] bounds the number of
    attributes. *)
Fixpoint rta_loop (b : list Z) (fuel : nat) (off len : Z) (v4 : bool) (dst_len src_len : Z) (r : pr) : parsed pr :=
  match fuel with
  | O => PYes r
  | S fuel =>
      if len <? 4 then PYes r
      else match rd16 b off, rd16 b (off + 2) with
      | Some n, Some type =>
          if (n <? 4) || (n >? len) then PYes r
          else match rta1 b off type n v4 dst_len src_len r with
               | PYes r' => rta_loop b fuel (off + align4 n) (len - align4 n) v4 dst_len src_len r'
               | x => x
               end
      | _, _ => PUb
      end
  end.
(** kernel_netlink.c:1141-1199 parse_kernel_route_rta for the rtmsg at [off], of which [len] bytes
    (with its attributes) are left *)
Definition parse_kernel_route_rta (tables : list Z) (b : list Z) (off len : Z) : parsed kroute :=
  match rd8 b off, rd8 b (off + 1), rd8 b (off + 2), rd8 b (off + 4), rd8 b (off + 5) with
  | Some family, Some dst_len, Some src_len, Some table, Some proto =>
      let v4 := family =? AF_INET in
      let r0 := if v4 then mkPr v4prefix 96 v4prefix 96 0 0 table else mkPr (zeroes 16) 0 (zeroes 16) 0 0 0 table in
      match rta_loop b (length b) (off + 12) (len - 12) v4 dst_len src_len r0 with
      | PUb => PUb
      | PNo => PNo
      | PYes r => if existsb (Z.eqb (pr_table r)) tables
                  then PYes (mkKr (mkDest (pr_prefix r) (pr_plen r) (pr_src r) (pr_splen r)) (pr_metric r) (pr_ifindex r) proto)
                  else PNo
      end
  | _, _, _, _, _ => PUb
  end.
(** kernel_netlink.c:1240-1278 filter_kernel_routes, for the message at [off] *)
Definition filter_kernel_routes (tables : list Z) (b : list Z) (off nlmsg_len : Z) : parsed kroute :=
  match rd8 b (off + 16 + 5), rd32 b (off + 16 + 8) with
  | Some proto, Some flags =>
      if proto =? RTPROT_BABEL then PNo
      else if negb (Z.land flags RTM_F_CLONED =? 0) then PNo
      else match parse_kernel_route_rta tables b (off + 16) (nlmsg_len - 16) with
           | PYes r => if (d_plen (kr_dest r) =? 0) && (kr_metric r >=? KERNEL_INFINITY) then PNo else PYes r
           | x => x
           end
  | _, _ => PUb
  end.
(** kernel_netlink.c:1352-1397 parse_addr_rta: IFA_ADDRESS is 1, IFA_LOCAL is 2; the address so
    far is [a], [None] when nothing was stored. *)
Fixpoint addr_loop (b : list Z) (fuel : nat) (off len family : Z) (a : option (list Z)) : parsed (option (list Z)) :=
  match fuel with
  | O => PYes a
  | S fuel =>
      if len <? 4 then PYes a
      else match rd16 b off, rd16 b (off + 2) with
      | Some n, Some type =>
          if (n <? 4) || (n >? len) then PYes a
          else if (type =? 1) || (type =? 2) then
            let next a := if type =? 2 then PYes (Some a) else addr_loop b fuel (off + align4 n) (len - align4 n) family (Some a) in
            if family =? AF_INET then
              match rdn b (off + 4) 4 with Some x => next (v4tov6 x) | None => PUb end
            else if family =? AF_INET6 then
              match rdn b (off + 4) 16 with Some x => next x | None => PUb end
            else PNo
          else addr_loop b fuel (off + align4 n) (len - align4 n) family a
      | _, _ => PUb
      end
  end.
(** kernel_netlink.c:1430-1463 filter_addresses: the address (indeterminate when the message has none)
    and the interface *)
Definition filter_addresses (b : list Z) (off nlmsg_len : Z) : parsed (option (list Z) * Z) :=
  match rd8 b (off + 16), rd32 b (off + 16 + 4) with
  | Some family, Some ifindex =>
      match addr_loop b (length b) (off + 16 + 8) (nlmsg_len - 16 - 8) family None with
      | PUb => PUb
      | PNo => PNo
      | PYes a => PYes (a, ifindex)
      end
  | _, _ => PUb
  end.

(** What netlink_read reports: routes and addresses handed to the filter, and link changes,
    which make it check the interfaces. *)
Inductive notif := NRoute (add : bool) (r : kroute) | NAddr (add : bool) (a : option (list Z)) (ifindex : Z) | NLink (add : bool).
(** How the reading of one datagram ends: with the result of netlink_read (0, or minus an
    errno), or going on with the next datagram. *)
Inductive nlend := EndRc (rc : Z) | EndMore.
(** The arguments of netlink_read: [np_ignore] the pid of nl_ignore, [np_answer], pid and sequence
    number of the socket, import tables. *)
Record nlp := mkNlp { np_ignore : option Z; np_answer : bool; np_pid : Z; np_seq : Z; np_tables : list Z }.

(** kernel_netlink.c:460-507, the loop over the messages of a datagram (NLMSG_OK, NLMSG_NEXT).  The
    extended error texts (netlink_get_extack, debug output only) and the name of a link are left out: a
    link message is reported whether it has a name or not. *)
Fixpoint nl_loop (b : list Z) (p : nlp) (fuel : nat) (off len : Z) (done : bool) : option (nlend * list notif) :=
  match fuel with
  | O => Some (if done then EndRc 0 else EndMore, [])
  | S fuel =>
      if len <? 16 then Some (if done then EndRc 0 else EndMore, [])
      else match rd32 b off, rd16 b (off + 4), rd32 b (off + 8), rd32 b (off + 12) with
      | Some n, Some type, Some seq, Some pid =>
          if (n <? 16) || (n >? len) then Some (if done then EndRc 0 else EndMore, [])
          else
          let done := done || negb (np_answer p) in
          let next l := match nl_loop b p fuel (off + align4 n) (len - align4 n) done with
                        | Some (e, l') => Some (e, l ++ l')
                        | None => None
                        end in
          if match np_ignore p with Some x => pid =? x | None => false end then next []
          else if np_answer p && (negb (pid =? np_pid p) || negb (seq =? np_seq p)) then next []
          else if type =? NLMSG_DONE then Some (EndRc 0, [])
          else if type =? NLMSG_ERROR then
            match rd32 b (off + 16) with
            | Some e => Some (EndRc (if e =? 0 then 0 else s32 e), [])
            | None => None
            end
          else if (type =? RTM_NEWROUTE) || (type =? RTM_DELROUTE) then
            match filter_kernel_routes (np_tables p) b off n with
            | PUb => None
            | PNo => next []
            | PYes r => next [NRoute (type =? RTM_NEWROUTE) r]
            end
          else if (type =? RTM_NEWLINK) || (type =? RTM_DELLINK) then next [NLink (type =? RTM_NEWLINK)]
          else if (type =? RTM_NEWADDR) || (type =? RTM_DELADDR) then
            match filter_addresses b off n with
            | PUb => None
            | PNo => next []
            | PYes (a, i) => next [NAddr (type =? RTM_NEWADDR) a i]
            end
          else next []
      | _, _, _, _ => None
      end
  end.
Definition nl_datagram (p : nlp) (b : list Z) : option (nlend * list notif) := nl_loop b p (length b) 0 (Z.of_nat (length b)) false.
(** kernel_netlink.c:428-509: datagrams are read until one ends it; [None] also when there are
    no more. *)
Fixpoint netlink_read (p : nlp) (ds : list (list Z)) : option (Z * list notif * list (list Z)) :=
  match ds with
  | [] => None
  | b :: ds =>
      match nl_datagram p b with
      | None => None
      | Some (EndRc rc, l) => Some (rc, l, ds)
      | Some (EndMore, l) => match netlink_read p ds with Some (rc, l', ds') => Some (rc, l ++ l', ds') | None => None end
      end
  end.

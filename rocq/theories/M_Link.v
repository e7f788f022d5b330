(** M_Link.v: what two neighbours on a link do to each other's view of the link: the
    Hellos and IHUs one of them sends, and what the other one does with those it gets. *)
From Verif Require Import Base M_Util M_Filter M_Source M_Types M_Neigh.

(** ** The receiver *)

(** message.c:1429 and 2008: the intervals announced in Hellos and IHUs by a node whose
    hello interval is [H] milliseconds, in centiseconds; on the wire they are 16 bits wide
    (1359 clamps the first one, the argument of buffer_ihu, 1948, cuts off the second one). *)
Definition hello_announced (H : Z) : Z := Z.min 65535 ((H + 9) / 10).
Definition ihu_announced (H : Z) : Z := u16 ((3 * H + 9) / 10).

(** message.c:705-709: a multicast Hello.  The rest of the lines is in M_Daemon.v
    (recv_hello) and M_Packet.v. *)
Definition got_hello (now : timeval) (seqno interval : Z) (n : neigh) : neigh :=
  set_n_hello (fst (update_hist now (n_hello n) seqno interval)) n.
(** message.c:749-751: an IHU *)
Definition got_ihu (now : timeval) (txcost interval : Z) (n : neigh) : neigh :=
  set_n_txcost txcost (set_n_ihu_time now (set_n_ihu_interval interval n)).
(** neighbour.c:230-267: the periodic check; None: the neighbour is flushed *)
Definition link_check (now : timeval) (n : neigh) : option neigh :=
  match check_neigh1 now n with Some (n', _) => Some n' | None => None end.

(** ** The sender *)

(** What is put into the packets for the link: Hellos, and IHUs for a neighbour (known by
    its number).  The bytes are M_Buf.v's. *)
Inductive lout :=
| OHello (seqno interval : Z)
| OIhu (nb rxcost interval : Z).

(** A neighbour as seen by the sender: its number, what neighbour_rxcost returns for it,
    txcost >= 384 or reach & 0xF000 != 0xF000 (message.c:2055), hello_send_us with a
    receive time less than 1000 s ago (2025-2027), and whether data is buffered for it
    alone (2019-2020). *)
Record peer := mkPeer { p_nb : Z; p_rxcost : Z; p_marginal : bool; p_rtt : bool; p_data : bool }.

(** An interface that is up: IF_TIMESTAMPS, IF_RFC6126, IF_UNICAST (interface.h:84-88), its hello interval, the sequence number of its hellos,
    the time for the next one, and whether there is a Hello in the packet being built. *)
Record link := mkLink { k_ts : bool; k_rfc : bool; k_unicast : bool; k_H : Z; k_seq : Z;
  k_timeout : timeval; k_hello : bool }.

(** message.c:1371-1399 send_multicast_hello; if_up holds.  [now] and [r] are for
    set_timeout (interface.c:158-162). *)
Definition multicast_hello (now : timeval) (r : Z) (interval : Z) (force : bool) (k : link)
  : link * list lout :=
  if (interval =? 0) && k_rfc k then (k, [])
  else if k_hello k && negb force then (k, [])
  else
    let s := seqno_plus (k_seq k) 1 in
    (mkLink (k_ts k) (k_rfc k) (k_unicast k) (k_H k) s
       (if interval >? 0 then timeval_add_msec now (roughly (k_H k) r) else k_timeout k) true,
     [OHello s (Z.min 65535 interval)]).

(** message.c:1976-2045 send_ihu for a neighbour of the interface.  [full]: the packet is
    sent by ensure_space (2033), so that there is no Hello in the one being built; that the
    IHU itself (2040) does not fit is the same as [full] for the next one or as [KSent]. *)
Definition ihu (now : timeval) (r : Z) (full : bool) (p : peer) (k : link) : link * list lout :=
  let unicast := k_unicast k || (p_data p && negb (k_rfc k)) in
  let '(k1, o) :=
    if k_ts k && p_rtt p && negb unicast then
      let k0 := if full then mkLink (k_ts k) (k_rfc k) (k_unicast k) (k_H k) (k_seq k) (k_timeout k) false else k in
      multicast_hello now r 0 false k0
    else (k, []) in
  (k1, o ++ [OIhu (p_nb p) (p_rxcost p) (ihu_announced (k_H k))]).

(** message.c:1999-2005, 2049-2058: to all of a list; [full] says for each of them whether
    the packet is sent before. *)
Fixpoint ihus (now : timeval) (r : Z) (full : list bool) (ps : list peer) (k : link) : link * list lout :=
  match ps with
  | [] => (k, [])
  | p :: ps =>
      let '(k1, o1) := ihu now r (hd false full) p k in
      let '(k2, o2) := ihus now r (tl full) ps k1 in
      (k2, o1 ++ o2)
  end.

(** message.c:1427-1435 send_hello *)
Definition hello (now : timeval) (r : Z) (full : list bool) (ps : list peer) (k : link) : link * list lout :=
  let '(k1, o1) := multicast_hello now r ((k_H k + 9) / 10) true k in
  let '(k2, o2) :=
    if k_seq k1 mod 3 =? 0 then ihus now r full ps k1
    else ihus now r full (filter p_marginal ps) k1 in
  (k2, o1 ++ o2).

(** What happens on the link: the main loop runs with the neighbours there are at that time
    (babeld.c:751-752); a neighbour asks for everything and gets an IHU (message.c:993);
    the packet is sent (babeld.c:776-778 and elsewhere). *)
Inductive kev :=
| KLoop (now : timeval) (r : Z) (full : list bool) (ps : list peer)
| KAsk (now : timeval) (r : Z) (full : bool) (p : peer)
| KSent.
Definition kstep (e : kev) (k : link) : link * list lout :=
  match e with
  | KLoop now r full ps =>
      if timeval_compare now (k_timeout k) >=? 0 then hello now r full ps k else (k, [])
  | KAsk now r full p => ihu now r full p k
  | KSent => (mkLink (k_ts k) (k_rfc k) (k_unicast k) (k_H k) (k_seq k) (k_timeout k) false, [])
  end.
Fixpoint krun (es : list kev) (k : link) : link * list lout :=
  match es with
  | [] => (k, [])
  | e :: es => let '(k1, o1) := kstep e k in let '(k2, o2) := krun es k1 in (k2, o1 ++ o2)
  end.

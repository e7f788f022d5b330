(** M_Packet.v: a datagram arrives: from its bytes to the state of the daemon
    (babeld.c:656-677 and parse_packet, message.c:573-1105).

    The parser (M_Wire.v, M_Auth.v) gives the actions, here they are carried out in
    order on the whole state.  That parsing a message does not depend on what the
    earlier messages of the packet did to the state is read off the code: parse_packet
    only looks at its local variables, the packet, and the addresses of the interface
    (interface_ll_address, message.c:746).
    Simplified: an acknowledgment request (send_ack, message.c:683) only concerns the
    output buffer (M_Buf.v); schedule_neighbours_check (message.c:712, 753) only the
    timers of the main loop (M_Main.v). *)
From Verif Require Import Base M_Util S_Util M_Filter M_Types M_Neigh S_Neigh M_State M_Daemon M_Wire M_Auth.

(** What babel_recv gives (babeld.c:658-660, net.c:130-175): the address of the sender,
    the interface (sin6_scope_id), the address it was sent to, the bytes. *)
Record datagram := mkDg { g_from : list Z; g_scope : Z; g_to : list Z; g_data : list Z }.

(** message.c:669-1103: the calls made for one message of neighbour [n] *)
Definition act_events (n : Z) (a : action) : list event :=
  match a with
  | AAck _ _ => []
  | AHello u q iv ts => EvHello n u q iv :: match ts with Some t => [EvTimestamp n t] | None => [] end
  | AIhu c iv => [EvIhu n c iv]
  | AWithdraw => [EvWithdraw n]
  | AUpdate id d q m iv nh => [EvUpdate id d q m iv n nh]
  | ARequest d => [EvRequest n d]
  | ASeqno d h q id => [EvSeqnoRequest n d h q id]
  | ARtt a b => [EvRtt n a b]
  end.

(** neighbour.c:45-56 find_neighbour_nocreate *)
Definition nb_at (addr : list Z) (ifp : Z) (w : world) : option neigh :=
  find (fun n => beq addr (n_addr n) && (n_if n =? ifp)) (w_nbs w).

Section Packet.
Variable key : Type.
Variable mac : key -> list Z -> option (list Z).
Variable port : list Z.           (* protocol_port, in network order *)
Variable v46 : bool.              (* has_v4viav6, babeld.c:66 *)
Variable keys : Z -> option key.  (* ifp->key *)

(** message.c:573-1105 parse_packet, on the interface [i]: the events, in order.  [clk]
    and [rnd]: the results of the calls of gettime and read_random_bytes. *)
Definition packet_events (i : iface) (g : datagram) (clk : list timeval) (rnd : list (option (list Z))) (w : world)
    : pr (list event) :=
  (* 592-595 *)
  let ts := flag i IF_TIMESTAMPS in
  let '(t0, clk) := if ts then match clk with [] => (w_now w, []) | t :: l => (t, l) end else (w_now w, clk) in
  let pre := if ts then [EvClock t0] else [] in
  let c := mkR (g_from g) (if_ll i) v46 in
  let '(n, pc) := match nb_at (g_from g) (if_id i) w with
                  | Some nb => (n_id nb, n_pc nb)
                  | None => (fresh_nb w, new_pc)
                  end in
  match keys (if_id i) with
  | None =>
      h <- parse_header c (g_data g);;
      match h with
      | None => Ret pre
      | Some bodylen =>
          acts <- parse_body c (g_data g) bodylen;;
          Ret (pre ++ EvNeighbour (g_from g) (if_id i) :: flat_map (act_events n) acts)
      end
  | Some k =>
      r <- parse_packet_key mac port k (flag i IF_ACCEPT_BAD_SIGNATURES) c (g_to g) (g_data g)
             (mkA t0 clk rnd pc false []);;
      let s := fst r in
      Ret (pre
           ++ (if a_found s then [EvNeighbour (g_from g) (if_id i); EvClock (a_now s); EvPc n (a_pc s)] else [])
           ++ match snd r with Some acts => flat_map (act_events n) acts | None => [] end)
  end.

(** babeld.c:666-676: the first interface which is up and has the index *)
Definition receive (g : datagram) (clk : list timeval) (rnd : list (option (list Z))) (w : world) : pr world :=
  match find (fun i => if_up i && (if_ifindex i =? g_scope g)) (w_ifs w) with
  | None => Ret w
  | Some i => evs <- packet_events i g clk rnd w;; Ret (run evs w)
  end.

(** Executions in which neighbours are heard of only by the datagrams that arrive. *)
Definition from_packet (ev : event) : bool :=
  match ev with
  | EvUpdate _ _ _ _ _ _ _ | EvWithdraw _ | EvRequest _ _ | EvSeqnoRequest _ _ _ _ _ | EvHello _ _ _ _
  | EvTimestamp _ _ | EvIhu _ _ _ | EvRtt _ _ _ | EvNeighbour _ _ | EvPc _ _ => true
  | _ => false
  end.
(** The number of neighbours: see [allowed]. *)
Inductive preach (c : conf) : world -> Prop :=
| preach_boot : forall now ifs seqno, NoDup (map if_id ifs) -> Forall iface_in ifs -> tv_ok now -> 0 <= seqno < 65536 ->
    preach c (boot c now ifs seqno)
| preach_run : forall w ev, preach c w -> from_packet ev = false -> allowed ev w -> preach c (run1 ev w)
| preach_recv : forall w g clk rnd w', preach c w -> Z.of_nat (length (w_nbs w)) < 64999 ->
    addr_ok (g_from g) -> bytes_ok (g_data g) -> 4 <= Z.of_nat (length (g_data g)) -> Forall tv_ok clk ->
    receive g clk rnd w = Ret w' -> preach c w'.
End Packet.

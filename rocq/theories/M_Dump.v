(** M_Dump.v: model of the text written to control sockets: local.c:51-316 and 396-421, with
    the formatting functions of util.c:287-339.  What inet_ntop(AF_INET6) answers, [nt], and
    the names of the interfaces, [nm], are arguments. *)
From Coq Require Import String.
From Verif Require Import Base M_Config M_Util M_Filter M_Source M_Types M_State M_Neigh M_Table.
Close Scope string_scope.
Open Scope Z_scope.

(** ** Formats *)
(** inet_ntop(AF_INET): dotted decimal *)
Fixpoint dotted (l : list Z) : list Z :=
  match l with [] => [] | [b] => dec b | b :: l' => dec b ++ 46 :: dotted l' end.
(** util.c:287-298 format_address.  The four static buffers that are used in turn are not
    modelled: no line below has more than two addresses, two prefixes or one identifier. *)
Definition format_address (nt : list Z -> list Z) (a : list Z) : list Z :=
  if v4mapped a then dotted (skipn 12 a) else nt a.
(** util.c:300-317 format_prefix *)
Definition format_prefix (nt : list Z -> list Z) (p : list Z) (plen : Z) : list Z :=
  if (plen >=? 96) && v4mapped p then dotted (skipn 12 p) ++ 47 :: dec (plen - 96)
  else nt p ++ 47 :: dec plen.
(** printf "%lx"; a pointer has 64 bits, hence at most 16 digits *)
Fixpoint hex_fuel (fuel : nat) (v : Z) (acc : list Z) : list Z :=
  match fuel with
  | O => acc
  | S f => let acc' := hexdigit (v mod 16) :: acc in
           if v / 16 =? 0 then acc' else hex_fuel f (v / 16) acc'
  end.
Definition hex (v : Z) : list Z := hex_fuel 16 v [].
(** printf "%04x" of an unsigned short *)
Definition hex4 (v : Z) : list Z := hex2 (v / 256) ++ hex2 (v mod 256).

(** ** Lines *)
(** local.c:83-92 local_kind, local.h:27-29 *)
Definition LOCAL_FLUSH : Z := 0.
Definition LOCAL_CHANGE : Z := 2.
Definition LOCAL_ADD : Z := 1.
Definition local_kind (k : Z) : list Z :=
  if k =? LOCAL_FLUSH then str "flush" else if k =? LOCAL_CHANGE then str "change"
  else if k =? LOCAL_ADD then str "add" else str "???".

(** local.c:94-117: the line of an interface. *)
Definition if_line (nt : list Z -> list Z) (nm : Z -> list Z) (i : iface) (kind : Z) : list Z :=
  if if_up i then
    local_kind kind ++ str " interface " ++ nm (if_id i) ++ str " up true" ++
    match if_ll i with [] => [] | a :: _ => str " ipv6 " ++ format_address nt a end ++
    match if_ipv4 i with None => [] | Some a => str " ipv4 " ++ dotted a end ++ [10]
  else local_kind kind ++ str " interface " ++ nm (if_id i) ++ str " up false" ++ [10].

(** local.c:142-174: the line of a neighbour, whose address in memory is its identifier.
    neighbour_rttcost cannot fail its assertion on a valid interface (C36). *)
Definition nb_line (nt : list Z -> list Z) (nm : Z -> list Z) (now : timeval) (i : iface) (n : neigh) (kind : Z) : list Z :=
  let rtt :=
    if valid_rtt now n then
      let b := str " rtt " ++ format_thousands (n_rtt n) ++ str " rttcost " ++
        dec (match neighbour_rttcost now i n with Some c => c | None => 0 end) in
      if Z.of_nat (length b) >=? 64 then [] else b
    else [] in
  local_kind kind ++ str " neighbour " ++ hex (n_id n) ++ str " address " ++ format_address nt (n_addr n) ++
  str " if " ++ nm (if_id i) ++ str " reach " ++ hex4 (h_reach (n_hello n)) ++ str " ureach " ++ hex4 (h_reach (n_uhello n)) ++
  str " rxcost " ++ dec (neighbour_rxcost now i n) ++ str " txcost " ++ dec (n_txcost n) ++ rtt ++
  str " cost " ++ dec (neighbour_cost now i n) ++ [10].

(** local.c:198-211: the line of a redistributed route. *)
Definition xr_line (nt : list Z -> list Z) (x : xroute) (kind : Z) : list Z :=
  let dst := format_prefix nt (d_prefix (x_dest x)) (d_plen (x_dest x)) in
  let src := format_prefix nt (d_src (x_dest x)) (d_splen (x_dest x)) in
  local_kind kind ++ str " xroute " ++ dst ++ str "-" ++ src ++ str " prefix " ++ dst ++ str " from " ++ src ++
  str " metric " ++ dec (x_metric x) ++ [10].

(** local.c:235-257: the line of a route. *)
Definition rt_line (nt : list Z -> list Z) (nm : Z -> list Z) (i : iface) (n : neigh) (r : route) (kind : Z) : list Z :=
  local_kind kind ++ str " route " ++ hex (r_ptr r) ++
  str " prefix " ++ format_prefix nt (k_prefix (r_src r)) (k_plen (r_src r)) ++
  str " from " ++ format_prefix nt (k_src (r_src r)) (k_splen (r_src r)) ++
  str " installed " ++ (if r_installed r then str "yes" else str "no") ++
  str " id " ++ format_eui64 (k_id (r_src r)) ++
  str " metric " ++ dec (route_metric r) ++ str " refmetric " ++ dec (r_refmetric r) ++
  str " via " ++ format_address nt (n_addr n) ++ str " if " ++ nm (if_id i) ++ [10].

(** ** Writing *)
(** What happened to a socket: the bytes that went out, whether it was shut down, the number
    of attempts made. *)
Record tx := mkTx { t_sent : list Z; t_shut : bool; t_k : nat }.
(** local.c:51-81 write_timeout.  [ws k] is what the k-th attempt to write gives, the retry after
    waiting included: the number of bytes taken, or a number that is not positive.  Nothing is
    taken after shutdown(2). *)
Fixpoint write_timeout (ws : nat -> Z) (fuel : nat) (l : list Z) (t : tx) : bool * tx :=
  match l with
  | [] => (true, t)
  | _ =>
      match fuel with
      | O => (false, t)
      | S fuel =>
          let n := if t_shut t then -1 else Z.min (ws (t_k t)) (Z.of_nat (length l)) in
          if n >? 0 then
            write_timeout ws fuel (skipn (Z.to_nat n) l) (mkTx (t_sent t ++ firstn (Z.to_nat n) l) (t_shut t) (S (t_k t)))
          else (false, mkTx (t_sent t) (t_shut t) (S (t_k t)))
      end
  end.
(** local.c:118-130, 176-187, 213-224, 259-270: a line is written or the socket is shut down. *)
Definition put (ws : nat -> Z) (line : list Z) (t : tx) : tx :=
  if Z.of_nat (length line) >=? 512 then mkTx (t_sent t) true (t_k t)
  else
    let '(ok, t1) := write_timeout ws (length line) line t in
    if ok then t1 else mkTx (t_sent t1) true (t_k t1).

(** local.c:283-316 local_notify_all_1.  The streams give the redistributed routes in the order
    of their array and the routes slot by slot (xroute.c:216-236, route.c:358-402). *)
Definition dump_lines (nt : list Z -> list Z) (nm : Z -> list Z) (w : world) : list (list Z) :=
  map (fun i => if_line nt nm i LOCAL_ADD) (w_ifs w) ++
  flat_map (fun n => match get_if (n_if n) w with Some i => [nb_line nt nm (w_now w) i n LOCAL_ADD] | None => [] end) (w_nbs w) ++
  map (fun x => xr_line nt x LOCAL_ADD) (w_xr w) ++
  flat_map (fun r => match nb_if (r_neigh r) w with Some (n, i) => [rt_line nt nm i n r LOCAL_ADD] | None => [] end) (concat (w_rt w)).
Definition dump (nt : list Z -> list Z) (nm : Z -> list Z) (ws : nat -> Z) (w : world) (t : tx) : tx :=
  fold_left (fun t line => put ws line t) (dump_lines nt nm w) t.

(** local.c:396-421 local_header; [version] and [host] are arguments. *)
Definition header (version host myid : list Z) : list Z :=
  str "BABEL 1.0" ++ [10] ++ str "version " ++ version ++ [10] ++ str "host " ++ host ++ [10] ++
  str "my-id " ++ format_eui64 myid ++ [10] ++ str "ok" ++ [10].

(** M_Ifup.v: interfaces come up, go down and change (interface.c, babeld.c:310-316,
    configuration.c:1505-1560).  The configuration of an interface is the table that
    M_Config.v builds; the rest of the state is the world of M_State.v.
    Not modelled: the multicast group and the sysctls themselves (only whether the calls
    succeed), the receive buffer, the authentication key, the hello that is queued
    (M_Buf.v; its effect on the timer is here), the notifications to local clients,
    schedule_interfaces_check and renumber_filters. *)
From Verif Require Import Base M_Util M_Filter M_Source M_Types M_Neigh M_State M_Table M_Msg M_Route M_Config.

(** babeld.c:310-316: [-1] when no option gives a value *)
Definition hello_default (opt : Z) : Z := Z.max (if opt <=? 0 then 4000 else opt) 5.
(** The options -w, -h, -H and -s (babeld.c:67-69, 174-198).  Nothing reads the variable
    that -s sets (message.c:48 split_horizon). *)
Record ifdefs := mkDefs { df_all_wireless : bool; df_wireless : Z; df_wired : Z; df_no_split : bool }.

(** What the kernel answers about an interface during one call of check_interfaces: its
    number (0 if it does not exist), whether it is operational, the results of
    kernel_setup_interface, kernel_interface_mtu, kernel_interface_wireless,
    kernel_safe_v4viav6 and IPV6_JOIN_GROUP, the link-local addresses (None on error) and
    the IPv4 address, when it comes up and at the end. *)
Record kans := mkAns { ka_index : Z; ka_oper : Z; ka_setup : Z; ka_mtu : Z; ka_wireless : Z; ka_safe : bool; ka_join : Z;
  ka_ll : option (list (list Z)); ka_ll2 : option (list (list Z)); ka_ipv4 : option (list Z); ka_ipv42 : option (list Z) }.

(** configuration.c:1543-1550 (finalise_config): the configurations given before the start
    take what they leave open from "default" *)
Definition finalise_ifs (def : option ifconf) (l : list ifconf) : list ifconf :=
  match def with Some d => map (fun ic => merge_ifconf ic ic d) l | None => l end.
(** interface.c:85 (add_interface): an interface without configuration uses "default" *)
Definition conf_for (def : option ifconf) (ic : option ifconf) : option ifconf :=
  match ic with Some c => Some c | None => def end.
(** interface.c:82-86 (add_interface): a new interface, all zeros *)
Definition fresh_iface (id : Z) : iface := mkIf id 0 0 0 tv0 tv0 tv0 None [] 0 [] 0 0 0 0 0 0 0 0.

(** interface.h:76, 82, 96 *)
Definition IF_WIRELESS : Z := 2.
Definition IF_FARAWAY : Z := 16.
Definition IF_PROBE_MTU : Z := 2048.
(** interface.h:156-157 IF_CONF *)
Definition cv (ic : option ifconf) (n : nat) : Z := match ic with Some c => nth n (ic_vals c) 0 | None => 0 end.
Definition put_flag (on : bool) (f fl : Z) : Z := if on then Z.lor fl f else Z.land fl (Z.lnot f).
Definition raise_flag (on : bool) (f fl : Z) : Z := if on then Z.lor fl f else fl.
(** a choice with a default: CONFIG_NO is 1, CONFIG_YES is 2 *)
Definition tri (v : Z) (d : bool) : bool := if v =? 2 then true else if v =? 1 then false else d.

(** interface.c:326-340; IF_TYPE_DEFAULT is 0, WIRED 1, WIRELESS 2, TUNNEL 3 *)
Definition if_type (ic : option ifconf) (df : ifdefs) (ka : kans) : Z :=
  let t := cv ic 3 in
  if t =? 0 then
    if df_all_wireless df then 2
    else if ka_wireless ka <? 0 then 0 else if ka_wireless ka =? 0 then 0 else 2
  else t.

(** interface.c:342-450: the parameters, in the order of the code *)
Definition if_params (ic : option ifconf) (df : ifdefs) (ka : kans) (i : iface) : iface :=
  let t := if_type ic df ka in
  let cost := if cv ic 2 <=? 0 then (if t =? 2 then 256 else 96) else cv ic 2 in
  let hello := if cv ic 0 >? 0 then cv ic 0
               else if t =? 2 then hello_default (df_wireless df) else hello_default (df_wired df) in
  let update := if cv ic 1 >? 0 then cv ic 1 else u32 (hello * 4) in
  let decay := if cv ic 11 >? 0 then cv ic 11 else 42 in
  let rmin := if cv ic 12 >? 0 then cv ic 12 else 10000 in
  let rmax := if cv ic 13 >? 0 then cv ic 13 else 120000 in
  let rmax := if rmax <=? rmin then u32 (rmin + 10000) else rmax in
  let pen := if (cv ic 14 =? 0) && (t =? 3) then 96 else cv ic 14 in
  let fl := if_flags i in
  let fl := put_flag (t =? 2) IF_WIRELESS fl in
  let fl := put_flag (tri (cv ic 4) (t =? 1)) IF_SPLIT_HORIZON fl in
  let fl := put_flag (tri (cv ic 5) (t =? 2)) IF_LQ fl in
  let fl := raise_flag (cv ic 6 =? 2) IF_FARAWAY fl in
  let fl := raise_flag (cv ic 7 =? 2) IF_UNICAST fl in
  let fl := put_flag (cv ic 8 =? 2) IF_ACCEPT_BAD_SIGNATURES fl in
  let fl := put_flag (tri (cv ic 9) (t =? 3)) IF_TIMESTAMPS fl in
  let fl := put_flag (cv ic 10 =? 2) IF_RFC6126 fl in
  let fl := put_flag (tri (cv ic 15) (ka_safe ka)) IF_V4VIAV6 fl in
  let fl := raise_flag (cv ic 16 =? 2) IF_PROBE_MTU fl in
  set_if_flags fl (set_if_cost cost (set_if_hello_interval hello (set_if_update_interval update
    (set_if_rtt_decay decay (set_if_rtt_min rmin (set_if_rtt_max rmax (set_if_max_rtt_penalty pen i))))))).

(** interface.c:285-312: the size of the buffer; MIN_MTU is 512 *)
Definition if_bufcap (ka : kans) : Z :=
  let mtu := if ka_mtu ka <? 0 then 1280 else ka_mtu ka in
  (if mtu <? 512 then 512 else mtu) - 4 - 48.

(** interface.c:198-251 check_link_local_addresses: the result, and the interface *)
Definition check_ll (a : option (list (list Z))) (i : iface) : Z * iface :=
  match a with
  | None | Some [] => (-1, set_if_ll [] i)
  | Some l => (0, set_if_ll (firstn 32 l) i)
  end.

(** interface.c:164-196 check_interface_ipv4: whether it changed *)
Definition check_ipv4 (id : Z) (a : option (list Z)) (w : world) : bool * world :=
  match get_if id w with
  | None => (false, fault w)
  | Some i =>
      let a := if if_ifindex i >? 0 then a else None in
      match a, if_ipv4 i with
      | Some x, Some y => if beq x y then (false, w)
                          else (true, map_if id (set_if_ipv4 a) (flush_interface_routes id false w))
      | None, None => (false, w)
      | _, _ => (true, map_if id (set_if_ipv4 a) (flush_interface_routes id false w))
      end
  end.

(** interface.c:261-262, 489-515: interface_updown(ifp, 0) *)
Definition take_down (id : Z) (w : world) : world :=
  match get_if id w with
  | None => fault w
  | Some i =>
      if negb (if_up i) then w
      else
        let w1 := map_if id (fun x => set_if_flags (put_flag false IF_UP (if_flags x)) x) w in
        let w2 := flush_interface_routes id false w1 in
        map_if id (fun x => set_if_ll [] (set_if_cap 0 (set_if_pend [] (set_if_bufsize 0 x)))) w2
  end.

(** interface.c:254-488, 517-525: interface_updown(ifp, 1); memory is assumed available.
    The timer of the hellos is set twice, here and by send_hello (message.c:1392). *)
Definition bring_up (id : Z) (ic : option ifconf) (df : ifdefs) (ka : kans) (w : world) : Z * world :=
  match get_if id w with
  | None => (0, fault w)
  | Some i =>
      let fail x := (-1, take_down id (map_if id (fun _ => x) w)) in
      if if_up i then (0, w)
      else
        let i1 := set_if_flags (put_flag true IF_UP (if_flags i)) i in
        if if_ifindex i <=? 0 then fail i1
        else if ka_setup ka <? 0 then fail i1
        else
          let i2 := if_params ic df ka (set_if_cap (if_bufcap ka) i1) in
          let '(rc, i3) := check_ll (ka_ll ka) i2 in
          if rc <? 0 then fail i3
          else if ka_join ka <? 0 then fail i3
          else
            let w1 := update_interface_metric id (map_if id (fun _ => i3) w) in
            let '(ch, w2) := check_ipv4 id (ka_ipv4 ka) w1 in
            let '(t1, w3) := set_timeout (if_hello_interval i3) w2 in
            let '(t2, w4) := set_timeout (if_update_interval i3) w3 in
            let '(t3, w5) := set_timeout (if_hello_interval i3) w4 in
            let w6 := map_if id (fun x => set_if_hello_timeout t3 (set_if_update_timeout t2 x)) w5 in
            let w7 := if ch then send_update_full id false w6 else w6 in
            (1, send_multicast_request_if None id w7)
  end.

(** interface.c:551-577: one round of the loop of check_interfaces *)
Definition check_interface (id : Z) (ic : option ifconf) (df : ifdefs) (ka : kans) (w : world) : world :=
  match get_if id w with
  | None => fault w
  | Some i =>
      let w1 := if ka_index ka =? if_ifindex i then w
                else map_if id (set_if_ifindex (ka_index ka)) (take_down id w) in
      let rc := if ka_index ka >? 0 then ka_oper ka else 0 in
      let up w := match get_if id w with Some i => if_up i | None => false end in
      let w2 := if Bool.eqb (rc >? 0) (up w1) then w1
                else if rc >? 0 then snd (bring_up id ic df ka w1) else take_down id w1 in
      if up w2 then
        let w3 := map_if id (fun x => snd (check_ll (ka_ll2 ka) x)) w2 in
        let '(ch, w4) := check_ipv4 id (ka_ipv42 ka) w3 in
        if ch then send_update_full id false (send_multicast_request_if None id w4) else w4
      else w2
  end.
(** interface.c:543-583 check_interfaces *)
Definition check_interfaces (conf : Z -> option ifconf) (df : ifdefs) (ans : Z -> kans) (w : world) : world :=
  fold_left (fun w id => check_interface id (conf id) df (ans id) w) (map if_id (w_ifs w)) w.

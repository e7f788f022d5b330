(** M_Wifs.v: the lines about interfaces which monitoring clients receive.
    local.c:94-140 local_notify_interface_1, local_notify_interface and its callers in
    interface.c: 183, 192 (check_interface_ipv4), 217, 247 (check_link_local_addresses),
    517, 524 (interface_updown), reached from check_interfaces (interface.c:543-583). *)
From Verif Require Import Base M_Util M_Slot M_Source M_Filter M_Types M_Neigh M_State M_Table M_Msg M_Route
  M_Xroute M_Daemon M_Config M_Ifup.

(** What a line says of the interface (local.c:101-115): nothing but the name if it is
    down; otherwise its first link-local address and its IPv4 address, if it has them. *)
Definition ishow (i : iface) : option (option (list Z) * option (list Z)) :=
  if if_up i then Some (hd_error (if_ll i), if_ipv4 i) else None.
(** A line "change interface": all the calls modelled here pass LOCAL_CHANGE. *)
Definition inote : Type := Z * option (option (list Z) * option (list Z)).
Definition say (id : Z) (w : world) : list inote :=
  match get_if id w with Some i => [(id, ishow i)] | None => [] end.

(** interface.c:198-252 check_link_local_addresses: the line at 217 is sent at every
    failure, the one at 247 when the addresses, at most 32, are not those it had (224-234) *)
Definition ll_new (l : list (list Z)) (i : iface) : bool :=
  negb (if list_eq_dec (list_eq_dec Z.eq_dec) (firstn 32 l) (if_ll i) then true else false).
Definition ll_lines (id : Z) (a : option (list (list Z))) (i : iface) : list inote :=
  match a with
  | None | Some [] => [(id, ishow (snd (check_ll a i)))]
  | Some l => if ll_new l i then [(id, ishow (snd (check_ll a i)))] else []
  end.
(** interface.c:261-262, 517: interface_updown(ifp, 0) *)
Definition down_lines (id : Z) (w : world) : list inote :=
  match get_if id w with
  | Some i => if if_up i then say id (take_down id w) else []
  | None => []
  end.
(** interface.c:254-525: interface_updown(ifp, 1).  On failure the inner call sends a line
    (517) and the outer one another (524). *)
Definition up_lines (id : Z) (ic : option ifconf) (df : ifdefs) (ka : kans) (w : world) : list inote :=
  match get_if id w with
  | None => []
  | Some i =>
      let done := say id (snd (bring_up id ic df ka w)) in
      let i1 := set_if_flags (put_flag true IF_UP (if_flags i)) i in
      if if_up i then []
      else if if_ifindex i <=? 0 then done ++ done
      else if ka_setup ka <? 0 then done ++ done
      else
        let i2 := if_params ic df ka (set_if_cap (if_bufcap ka) i1) in
        let l := ll_lines id (ka_ll ka) i2 in
        let '(rc, i3) := check_ll (ka_ll ka) i2 in
        if rc <? 0 then l ++ done ++ done
        else if ka_join ka <? 0 then l ++ done ++ done
        else
          let w1 := update_interface_metric id (map_if id (fun _ => i3) w) in
          let '(ch, w2) := check_ipv4 id (ka_ipv4 ka) w1 in
          l ++ (if ch then say id w2 else []) ++ done
  end.
(** interface.c:551-577 *)
Definition check_lines (id : Z) (ic : option ifconf) (df : ifdefs) (ka : kans) (w : world) : list inote :=
  match get_if id w with
  | None => []
  | Some i =>
      let w1 := if ka_index ka =? if_ifindex i then w
                else map_if id (set_if_ifindex (ka_index ka)) (take_down id w) in
      let l1 := if ka_index ka =? if_ifindex i then [] else down_lines id w in
      let rc := if ka_index ka >? 0 then ka_oper ka else 0 in
      let up w := match get_if id w with Some i => if_up i | None => false end in
      let w2 := if Bool.eqb (rc >? 0) (up w1) then w1
                else if rc >? 0 then snd (bring_up id ic df ka w1) else take_down id w1 in
      let l2 := if Bool.eqb (rc >? 0) (up w1) then []
                else if rc >? 0 then up_lines id ic df ka w1 else down_lines id w1 in
      l1 ++ l2 ++
      (if up w2 then
         let w3 := map_if id (fun x => snd (check_ll (ka_ll2 ka) x)) w2 in
         let '(ch, w4) := check_ipv4 id (ka_ipv42 ka) w3 in
         match get_if id w2 with Some j => ll_lines id (ka_ll2 ka) j | None => [] end ++
         (if ch then say id w4 else [])
       else [])
  end.
(** interface.c:543-583 check_interfaces: the lines of the interfaces in turn *)
Fixpoint checks_lines (conf : Z -> option ifconf) (df : ifdefs) (ans : Z -> kans) (ids : list Z) (w : world) : list inote :=
  match ids with
  | [] => []
  | id :: ids => check_lines id (conf id) df (ans id) w ++
                 checks_lines conf df ans ids (check_interface id (conf id) df (ans id) w)
  end.

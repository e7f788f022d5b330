(** M_Route.v: model of route.c and of the request handling of message.c, on the
    state of M_State.  Simplifications: allocation never fails, local_notify_route
    is in M_Monitor.v. *)
From Verif Require Import Base M_Util M_Slot M_Source M_Filter M_Types M_Neigh M_State M_Table M_Msg.

Definition EEXIST : Z := 17.
Definition EPERM : Z := 1.
Definition EINVAL : Z := 22.
Definition ENOSYS : Z := 38.

(** ** The kernel interface *)

(** kernel_netlink.c:1138 netlink_talk: one answer from the kernel *)
Definition kresp1 (w : world) : Z * world :=
  match w_kresp w with
  | [] => (0, w)
  | x :: l => (x, set_w_kresp l w)
  end.
Definition ktrace (e : kev) (w : world) : world := set_w_ktr (w_ktr w ++ [e]) w.

(** kernel_netlink.c:988-999: is the address family consistent? *)
Definition family_ok (d : dest) (gate : list Z) : bool :=
  if (d_plen d >=? 96) && v4mapped (d_prefix d) then v4mapped (d_src d)
  else negb (v4mapped gate || v4mapped (d_src d)).

(** kernel_netlink.c:1060-1136: the request *)
Definition kreq_of (table : Z) (d : dest) (pref_src : option (list Z)) (gate : list Z)
    (ifindex metric : Z) : kreq :=
  mkKreq (u8 table) (d_prefix d) (d_plen d)
    (if is_default (d_src d) (d_splen d) then None else Some (d_src d, d_splen d))
    (if metric <? KERNEL_INFINITY then metric else -1)
    (if metric <? KERNEL_INFINITY then Some (ifindex, gate, pref_src) else None).

(** kernel_netlink.c:955-1139 kernel_route, operations ROUTE_ADD ([add] = true) and
    ROUTE_FLUSH.  The result is 0 or minus an errno.  The netlink socket is assumed
    to be open (lines 970-986). *)
Definition kernel_route1 (add : bool) (table : Z) (d : dest) (pref_src : option (list Z))
    (gate : list Z) (ifindex metric : Z) (w : world) : Z * world :=
  let ipv4 := v4mapped (d_prefix d) in
  if negb (family_ok d gate) then (- EINVAL, ktrace (KFail add EINVAL) w)
  else if negb (is_default (d_src d) (d_splen d)) && (ipv4 || negb (c_subtrees (w_cfg w)))
  then (- ENOSYS, ktrace (KFail add ENOSYS) w)
  else if (metric >=? KERNEL_INFINITY) && ((d_plen d =? 0) || (ipv4 && (d_plen d =? 96)))
  then (0, w)
  else
    let q := kreq_of table d pref_src gate ifindex metric in
    let '(e, w1) := kresp1 w in
    (- Z.abs e, ktrace (if add then KAdd q (Z.abs e) else KDel q (Z.abs e)) w1).

(** kernel_netlink.c:1001-1026 ROUTE_MODIFY *)
Definition kernel_route_modify (table : Z) (d : dest) (pref_src : option (list Z))
    (gate : list Z) (ifindex metric : Z) (newgate : list Z) (newifindex newmetric newtable : Z)
    (w : world) : Z * world :=
  if negb (family_ok d gate) then (- EINVAL, ktrace (KFail true EINVAL) w)
  else if (newmetric =? metric) && beq newgate gate && (newifindex =? ifindex) then (0, w)
  else
    let '(_, w1) := kernel_route1 false table d pref_src gate ifindex metric w in
    let '(rc, w2) := kernel_route1 true newtable d pref_src newgate newifindex newmetric w1 in
    (if rc =? - EEXIST then 1 else rc, w2).

(** route.c:409-420 metric_to_kernel *)
Definition metric_to_kernel (c : conf) (metric : Z) : Z :=
  if metric >=? INFINITY then KERNEL_INFINITY
  else if c_reflect c then
    let r := c_kernel_metric c + metric in if r >=? KERNEL_INFINITY then KERNEL_INFINITY else r
  else c_kernel_metric c.

(** route.c:447-460: the install filter for a route: denied?, table, pref_src *)
Definition inst_filter (r : route) (i : iface) (w : world) : bool * Z * option (list Z) :=
  let '(m, res) := install_filter (c_instfs (w_cfg w)) (Some (k_id (r_src r))) (rdest r) (if_ifindex i) in
  (m >=? INFINITY,
   if fr_table res =? 0 then c_export_table (w_cfg w) else fr_table res,
   fr_pref_src res).

(** route.c:440-467 change_route, for ROUTE_ADD, ROUTE_FLUSH and ROUTE_MODIFY *)
Definition change_route_add (r : route) (i : iface) (metric : Z) (w : world) : Z * world :=
  let '(deny, table, pref) := inst_filter r i w in
  if deny then (- EPERM, w)
  else kernel_route1 true table (rdest r) pref (r_nexthop r) (if_ifindex i) metric w.
Definition change_route_flush (r : route) (i : iface) (metric : Z) (w : world) : Z * world :=
  let '(_, table, pref) := inst_filter r i w in
  kernel_route1 false table (rdest r) pref (r_nexthop r) (if_ifindex i) metric w.
Definition change_route_modify (r : route) (i : iface) (metric : Z) (newgate : list Z)
    (newifindex newmetric : Z) (w : world) : Z * world :=
  let '(_, table, pref) := inst_filter r i w in
  kernel_route_modify table (rdest r) pref (r_nexthop r) (if_ifindex i) metric
                      newgate newifindex newmetric table w.

(** ** The route table *)

(** route.c:424-438 move_installed_route *)
Definition move_front (p : Z) (l : list route) : list route :=
  filter (is_ptr p) l ++ filter (fun r => negb (is_ptr p r)) l.
Definition move_installed (d : dest) (p : Z) (w : world) : world :=
  match find_route_slot d w with
  | Found i =>
      set_w_rt (upd (Z.to_nat i) (move_front p (nth (Z.to_nat i) (w_rt w) [])) (w_rt w)) w
  | NotFound _ => fault w
  end.

(** route.c:193-224 insert_route *)
Definition insert_route (r : route) (w : world) : world :=
  match find_route_slot (rdest r) w with
  | NotFound n => set_w_rt (insert_at n [r] (w_rt w)) w
  | Found i => set_w_rt (upd (Z.to_nat i) (nth (Z.to_nat i) (w_rt w) [] ++ [r]) (w_rt w)) w
  end.

(** Logging a selection; [w] is the state in which feasibility is tested. *)
Definition selected (r : route) (w : world) (old : option route) (w1 : world) : world :=
  set_w_sel (w_sel w1 ++ [mkSel r (src_of r w) (sec w) old]) w1.

(** route.c:469-505 install_route *)
Definition install_route (p : Z) (w : world) : world :=
  match find_ptr p w with
  | None => fault w
  | Some r =>
      if r_installed r then w
      else
        match slot_of (rdest r) w with
        | [] => fault w
        | h :: _ =>
            if negb (r_ptr h =? p) && r_installed h then w
            else
              match nb_if (r_neigh r) w with
              | None => fault w
              | Some (_, i) =>
                  let '(rc, w1) := change_route_add r i
                                     (metric_to_kernel (w_cfg w) (route_metric r)) w in
                  if (rc <? 0) && negb (rc =? - EEXIST) then w1
                  else move_installed (rdest r) p
                         (map_ptr p (set_r_installed true) (selected r w None w1))
              end
        end
  end.

(** route.c:507-528 uninstall_route *)
Definition uninstall_route (p : Z) (w : world) : world :=
  match find_ptr p w with
  | None => fault w
  | Some r =>
      if negb (r_installed r) then w
      else
        match nb_if (r_neigh r) w with
        | None => fault w
        | Some (_, i) =>
            let w1 := map_ptr p (set_r_installed false) w in
            snd (change_route_flush r i (metric_to_kernel (w_cfg w) (route_metric r)) w1)
        end
  end.

(** route.c:533-569 switch_routes *)
Definition switch_routes (old : option Z) (new : Z) (w : world) : world :=
  match old with
  | None => install_route new w
  | Some o =>
      match find_ptr o w, find_ptr new w with
      | Some ro, Some rn =>
          if negb (r_installed ro) then w
          else
            match nb_if (r_neigh ro) w, nb_if (r_neigh rn) w with
            | Some (_, io), Some (_, inw) =>
                let '(rc, w1) :=
                  change_route_modify ro io (metric_to_kernel (w_cfg w) (route_metric ro))
                    (r_nexthop rn) (if_ifindex inw)
                    (metric_to_kernel (w_cfg w) (route_metric rn)) w in
                if rc <? 0 then w1
                else
                  move_installed (rdest rn) new
                    (map_ptr new (set_r_installed true)
                      (map_ptr o (set_r_installed false) (selected rn w (Some ro) w1)))
            | _, _ => fault w
            end
      | _, _ => fault w
      end
  end.

(** ** Metric smoothing *)

(** route.c:652-671 change_smoothing_half_life: two_to_the_one_over_hl *)
Definition two_hl (hl : Z) : Z :=
  if hl <=? 0 then 0
  else if hl =? 1 then 131072
  else if hl =? 2 then 92682
  else if hl =? 3 then 82570
  else if hl =? 4 then 77935
  else 65536 + 45426 / hl.

(** route.c:689-693 and 694-699.  [rnd] is the stream of random numbers; the loops
    run while the condition holds; [fuel] is computed from the clock and always
    enough (L_Smooth).  The flag is cleared by a signed overflow (line 697). *)
Definition rnd1 (l : list Z) : Z * list Z :=
  match l with [] => (0, []) | x :: l' => (x mod 2147483648, l') end.
Fixpoint smooth1 (fuel : nat) (now hl metric sm t : Z) (rnd : list Z) : Z * Z * list Z :=
  match fuel with
  | O => (sm, t, rnd)
  | S f =>
      if t <=? now - hl then
        let '(r, rnd') := rnd1 rnd in
        smooth1 f now hl metric (u16 (sm + Z.quot (roughly (metric - sm) r) 2)) (t + hl) rnd'
      else (sm, t, rnd)
  end.
Fixpoint smooth2 (fuel : nat) (now two metric sm t : Z) (rnd : list Z) (ok : bool)
  : Z * Z * list Z * bool :=
  match fuel with
  | O => (sm, t, rnd, ok)
  | S f =>
      if t <? now then
        let '(r, rnd') := rnd1 rnd in
        let x := roughly (metric - sm) r * (two - 65536) in
        smooth2 f now two metric (u16 (sm + Z.quot x 65536)) (t + 1) rnd' (ok && int_ok x)
      else (sm, t, rnd, ok)
  end.
(** route.c:673-709 route_smoothed_metric: new smoothed_metric and
    smoothed_metric_time, the random numbers left, and whether neither the
    assertion nor an overflow failed. *)
Definition smooth (now hl metric sm t : Z) (rnd : list Z) : Z * Z * list Z * bool :=
  if (hl <=? 0) || (metric >=? INFINITY) || (t >? now) || (sm =? metric) then
    (metric, now, rnd, true)
  else
    let '(sm1, t1, rnd1) := smooth1 (S (Z.to_nat (now - t))) now hl metric sm t rnd in
    let '(sm2, t2, rnd2, ok) := smooth2 (S (Z.to_nat (now - t1))) now (two_hl hl) metric sm1 t1 rnd1 true in
    let diff := metric - sm2 in
    (if (diff >? -4) && (diff <? 4) then metric else sm2, t2, rnd2, ok && (t2 =? now)).

Definition smoothed_metric (p : Z) (w : world) : Z * world :=
  match find_ptr p w with
  | None => (0, fault w)
  | Some r =>
      let '(sm, t, rnd, ok) := smooth (sec w) (c_half_life (w_cfg w)) (route_metric r)
                                 (r_smoothed r) (r_smoothed_time r) (w_rnd w) in
      let w1 := map_ptr p (fun r => set_r_smoothed sm (set_r_smoothed_time t r)) (set_w_rnd rnd w) in
      (sm, if ok then w1 else fault w1)
  end.

(** route.c:571-605 change_route_metric; the fields are unsigned shorts *)
Definition change_route_metric (p : Z) (refmetric cost add : Z) (w : world) : world :=
  match find_ptr p w with
  | None => fault w
  | Some r =>
      match nb_if (r_neigh r) w with
      | None => fault w
      | Some (_, i) =>
          let c := w_cfg w in
          let old := metric_to_kernel c (route_metric r) in
          let new := metric_to_kernel c (Z.min (refmetric + cost + add) INFINITY) in
          let '(rc, w1) :=
            if r_installed r && negb (old =? new)
            then change_route_modify r i old (r_nexthop r) (if_ifindex i) new w
            else (0, w) in
          if rc <? 0 then w1
          else
            let w2 := snd (smoothed_metric p w1) in
            map_ptr p (fun r =>
              let r1 := set_r_refmetric (u16 refmetric)
                          (set_r_cost (u16 cost) (set_r_add_metric (u16 add) r)) in
              if c_half_life c =? 0
              then set_r_smoothed (route_metric r1) (set_r_smoothed_time (sec w) r1) else r1) w2
      end
  end.

(** route.c:607-613 retract_route *)
Definition retract_route (p : Z) (w : world) : world :=
  change_route_metric p INFINITY INFINITY 0 w.

(** ** Selection *)

(** route.c:711-722 route_acceptable *)
Definition acceptable (r : route) (feas : bool) (exclude : option Z) (w : world) : bool :=
  if route_expired r w then false
  else if feas && negb (feasible r w) then false
  else negb (match exclude with Some n => r_neigh r =? n | None => false end).

(** route.c:729-756 find_best_route.  C leaves the order of evaluation of the two
    calls in line 750 open; here the left one is first. *)
Definition best_step (feas : bool) (exclude : option Z) (bw : Z * world) (q : Z) : Z * world :=
  let '(best, w) := bw in
  match find_ptr q w with
  | None => (best, fault w)
  | Some r =>
      if acceptable r feas exclude w then
        let '(m1, w1) := smoothed_metric q w in
        let '(m2, w2) := smoothed_metric best w1 in
        (if m1 <? m2 then q else best, w2)
      else (best, w)
  end.
Fixpoint best_from (feas : bool) (exclude : option Z) (w : world) (l : list route) : option Z * world :=
  match l with
  | [] => (None, w)
  | r :: l' =>
      if acceptable r feas exclude w then
        let '(b, w') := fold_left (best_step feas exclude) (map r_ptr l') (r_ptr r, w) in
        (Some b, w')
      else best_from feas exclude w l'
  end.
Definition find_best_route (d : dest) (feas : bool) (exclude : option Z) (w : world)
  : option Z * world := best_from feas exclude w (slot_of d w).

(** route.c:1082-1135 send_triggered_update *)
Definition trig_urgency (r : route) (oldsrc : skey) (oldmetric : Z) (w : world) : option Z :=
  let newmetric := route_metric r in
  let diff := if newmetric >=? oldmetric then newmetric - oldmetric else oldmetric - newmetric in
  if negb (skey_eqb (r_src r) oldsrc) || ((oldmetric <? INFINITY) && (newmetric >=? INFINITY))
  then Some 2
  else if (newmetric >? oldmetric) && (oldmetric <? 6 * 256) && (diff >=? 512) then Some 1
  else if unsatisfied_request (rdest r) (r_seqno r) (k_id (r_src r)) w then Some 1
  else if (oldmetric >=? INFINITY) && (newmetric <? INFINITY) then Some 0
  else if (newmetric <? oldmetric) && (diff <? 1024) then None
  else if diff <? 384 then None
  else Some 0.
Definition send_triggered_update (p : Z) (oldsrc : skey) (oldmetric : Z) (w : world) : world :=
  match find_ptr p w with
  | None => fault w
  | Some r =>
      if negb (r_installed r) then w
      else
        match trig_urgency r oldsrc oldmetric w with
        | None => w
        | Some u =>
            let w1 := if u >=? 2 then send_update_resend (rdest r) w
                      else send_update_all (u =? 1) (rdest r) w in
            if (oldmetric <? INFINITY) && (route_metric r >=? oldmetric + 288)
            then send_multicast_request_all (Some (rdest r)) w1 else w1
        end
  end.

(** route.c:1015-1059 consider_route *)
Definition consider_install (p : Z) (inst : option route) (w : world) : world :=
  let w1 := switch_routes (option_map r_ptr inst) p w in
  match find_ptr p w1 with
  | None => fault w1
  | Some r =>
      match inst with
      | Some i =>
          if r_installed r then
            match find_ptr (r_ptr i) w1 with
            | Some i' => send_triggered_update p (r_src i') (route_metric i') w1
            | None => fault w1
            end
          else send_update_all true (rdest r) w1
      | None => send_update_all true (rdest r) w1
      end
  end.
Definition consider_route (p : Z) (w : world) : world :=
  match find_ptr p w with
  | None => fault w
  | Some r =>
      if r_installed r then w
      else if negb (feasible r w) then w
      else if match find_xroute (rdest r) w with
              | Some x => (c_allow_dup (w_cfg w) <? 0) || (x_metric x >=? c_allow_dup (w_cfg w))
              | None => false end then w
      else
        match find_installed (rdest r) w with
        | None => consider_install p None w
        | Some i =>
            if route_metric r >=? INFINITY then w
            else if route_metric i >=? INFINITY then consider_install p (Some i) w
            else if route_metric i >=? route_metric r then
              let '(mi, w1) := smoothed_metric (r_ptr i) w in
              let '(mr, w2) := smoothed_metric p w1 in
              if mi >? mr then consider_install p (Some i) w2 else w2
            else w
        end
  end.

(** route.c:1139-1162 route_changed *)
Definition route_changed (p : Z) (oldsrc : skey) (oldmetric : Z) (w : world) : world :=
  match find_ptr p w with
  | None => fault w
  | Some r =>
      let w1 :=
        if r_installed r then
          let '(b, w1) := find_best_route (rdest r) true None w in
          match b with
          | None => w1
          | Some q =>
              match find_ptr q w1 with
              | None => fault w1
              | Some rb => if route_metric rb <? route_metric r then consider_route q w1 else w1
              end
          end
        else w in
      match find_ptr p w1 with
      | None => fault w1
      | Some r1 => if r_installed r1 then send_triggered_update p oldsrc oldmetric w1
                   else consider_route p w1
      end
  end.

(** message.c:2263-2287 send_request_resend *)
Definition send_request_resend (d : dest) (seqno : Z) (id : list Z) (w : world) : world :=
  let '(b, w1) := find_best_route d false None w in
  match b with
  | Some q =>
      match find_ptr q w1 with
      | None => fault w1
      | Some r =>
          match get_nb (r_neigh r) w1 with
          | None => fault w1
          | Some n =>
              let w2 := send_unicast_multihop_request (r_neigh r) d seqno id 127 w1 in
              record_resend RESEND_REQUEST d seqno (Some id) (Some (n_if n))
                (c_resend_delay (w_cfg w2)) w2
          end
      end
  | None =>
      fold_left (fun w i =>
          match get_if i w with
          | Some x => if if_up x then send_multihop_request (BIf i) x d seqno id 127 w else w
          | None => fault w
          end) (map if_id (w_ifs w1)) w1
  end.

(** route.c:1003-1005, 1183-1184: the seqno to ask for *)
Definition wanted_seqno (s : source) : Z :=
  if s_metric s >=? INFINITY then s_seqno s else seqno_plus (s_seqno s) 1.

(** route.c:1165-1187 route_lost; [k] is the source pointer *)
Definition route_lost (k : skey) (oldmetric : Z) (w : world) : world :=
  let '(b, w1) := find_best_route (kdest k) true None w in
  match match b with
        | Some q => match find_ptr q w1 with
                    | Some r => if feasible r w1 then Some q else None
                    | None => None end
        | None => None end with
  | Some q => consider_route q w1
  | None =>
      if oldmetric <? INFINITY then
        let w2 := send_update_resend (kdest k) w1 in
        if oldmetric <=? INFINITY / 2 then
          match get_src k (w_srcs w2) with
          | Some s => send_request_resend (kdest k) (wanted_seqno s) (k_id k) w2
          | None => fault w2
          end
        else w2
      else w1
  end.

(** source.c:172-185 retain_source, release_source *)
Definition retain_source (k : skey) (w : world) : world :=
  match get_src k (w_srcs w) with
  | Some s => if retain_ok s then set_w_srcs (map_src k retain1 (w_srcs w)) w else fault w
  | None => fault w
  end.
Definition release_source (k : skey) (w : world) : world :=
  match get_src k (w_srcs w) with
  | Some s => if release_ok s then set_w_srcs (map_src k release1 (w_srcs w)) w else fault w
  | None => fault w
  end.

(** route.c:254-279: unlink a route from its slot, dropping the slot if empty *)
Definition unlink_route (d : dest) (p : Z) (w : world) : world :=
  match find_route_slot d w with
  | Found i =>
      let l := filter (fun r => negb (is_ptr p r)) (nth (Z.to_nat i) (w_rt w) []) in
      set_w_rt (match l with
                | [] => remove_at i (w_rt w)
                | _ => upd (Z.to_nat i) l (w_rt w) end) w
  | NotFound _ => fault w
  end.

(** route.c:232-285 flush_route *)
Definition flush_route (p : Z) (w : world) : world :=
  match find_ptr p w with
  | None => fault w
  | Some r =>
      let oldmetric := route_metric r in
      let k := r_src r in
      let w1 := if r_installed r then uninstall_route p w else w in
      let w2 := unlink_route (rdest r) p w1 in
      let w3 := if r_installed r then route_lost k oldmetric w2 else w2 in
      release_source k w3
  end.

(** route.c:287-305 flush_all_routes: slots from the last to the first *)
Fixpoint flush_slot (fuel : nat) (i : nat) (w : world) : world :=
  match fuel with
  | O => nofuel w
  | S f =>
      match nth_error (w_rt w) i with
      | None => w
      | Some [] => fault w
      | Some (r :: _) =>
          let w1 := if r_installed r then uninstall_route (r_ptr r) w else w in
          flush_slot f i (flush_route (r_ptr r) w1)
      end
  end.
Fixpoint flush_all_loop (n : nat) (w : world) : world :=
  match n with
  | O => w
  | S i => flush_all_loop i (flush_slot (S (length (concat (w_rt w)))) i w)
  end.
Definition flush_all_routes (w : world) : world := flush_all_loop (length (w_rt w)) w.

(** route.c:307-327 flush_neighbour_routes, 329-350 flush_interface_routes: flush
    the routes that satisfy [sel]; nothing changes while a slot is searched. *)
Fixpoint flush_sel (fuel : nat) (sel : world -> route -> bool) (i : nat) (w : world) : world :=
  match fuel with
  | O => nofuel w
  | S f =>
      match nth_error (w_rt w) i with
      | None => w
      | Some l =>
          match find (sel w) l with
          | Some r => flush_sel f sel i (flush_route (r_ptr r) w)
          | None => flush_sel f sel (S i) w
          end
      end
  end.
Definition flush_fuel (w : world) : nat := S (length (concat (w_rt w)) + length (w_rt w)).
Definition flush_neighbour_routes (n : Z) (w : world) : world :=
  flush_sel (flush_fuel w) (fun _ r => r_neigh r =? n) 0 w.
Definition through_if (ifp : Z) (w : world) (r : route) : bool :=
  match get_nb (r_neigh r) w with Some n => n_if n =? ifp | None => false end.
Definition flush_interface_routes (ifp : Z) (v4only : bool) (w : world) : world :=
  flush_sel (flush_fuel w)
    (fun w r => through_if ifp w r && (negb v4only || v4mapped (r_nexthop r))) 0 w.

(** ** Updating metrics *)

(** route.c:758-785 update_route_metric *)
Definition update_route_metric (p : Z) (w : world) : world :=
  match find_ptr p w with
  | None => fault w
  | Some r =>
      let oldmetric := route_metric r in
      let '(oldsm, w1) := smoothed_metric p w in
      if route_expired r w then
        if r_refmetric r <? INFINITY then
          match src_of r w1 with
          | None => fault w1
          | Some s =>
              let w2 := map_ptr p (set_r_seqno (seqno_plus (s_seqno s) 1)) w1 in
              let w3 := retract_route p w2 in
              if oldmetric <? INFINITY then route_changed p (r_src r) oldmetric w3 else w3
          end
        else w1
      else
        match nb_if (r_neigh r) w1 with
        | None => fault w1
        | Some (n, i) =>
            let add := input_filter (c_infs (w_cfg w1)) (Some (k_id (r_src r))) (rdest r)
                                    (Some (n_addr n)) (if_ifindex i) in
            let w2 := change_route_metric p (r_refmetric r) (neighbour_cost (w_now w1) i n) add w1 in
            match find_ptr p w2 with
            | None => fault w2
            | Some r2 =>
                if negb (route_metric r2 =? oldmetric) then route_changed p (r_src r) oldmetric w2
                else
                  let '(sm, w3) := smoothed_metric p w2 in
                  if negb (sm =? oldsm) then route_changed p (r_src r) oldmetric w3 else w3
            end
        end
  end.

(** route.c:797-802, 815-820: walking a slot by [next] pointers while routes may
    move to the head of the slot.  [sel] is tested before each call of [f].
    The number of steps is bounded by [fuel]. *)
Fixpoint walk_slot (fuel : nat) (sel : world -> route -> bool) (f : Z -> world -> world)
    (p : Z) (w : world) : world :=
  match fuel with
  | O => nofuel w
  | S k =>
      match find_ptr p w with
      | None => fault w
      | Some r =>
          let w1 := if sel w r then f p w else w in
          match next_ptr p w1 with
          | None => w1
          | Some q => walk_slot k sel f q w1
          end
      end
  end.
Fixpoint walk_slots (n : nat) (fuel : nat) (sel : world -> route -> bool)
    (f : Z -> world -> world) (i : nat) (w : world) : world :=
  match n with
  | O => w
  | S n' =>
      match nth_error (w_rt w) i with
      | None => w
      | Some [] => fault w
      | Some (r :: _) => walk_slots n' fuel sel f (S i) (walk_slot fuel sel f (r_ptr r) w)
      end
  end.
Definition walk_fuel (w : world) : nat :=
  let n := length (concat (w_rt w)) in S (n * n + n).

(** route.c:789-807 update_neighbour_metric, 809-822 update_interface_metric *)
Definition update_neighbour_metric (n : Z) (changed : bool) (w : world) : world :=
  if changed then
    walk_slots (length (w_rt w)) (walk_fuel w) (fun _ r => r_neigh r =? n) update_route_metric 0 w
  else w.
Definition update_interface_metric (ifp : Z) (w : world) : world :=
  walk_slots (length (w_rt w)) (walk_fuel w) (through_if ifp) update_route_metric 0 w.

(** route.c:1061-1080 retract_neighbour_routes *)
Definition retract1 (p : Z) (w : world) : world :=
  match find_ptr p w with
  | None => fault w
  | Some r =>
      if negb (r_refmetric r =? INFINITY) then
        let oldmetric := route_metric r in
        let w1 := retract_route p w in
        if negb (oldmetric =? INFINITY) then
          match find_ptr p w1 with
          | Some r1 => route_changed p (r_src r1) oldmetric w1
          | None => fault w1
          end
        else w1
      else w
  end.
Definition retract_neighbour_routes (n : Z) (w : world) : world :=
  walk_slots (length (w_rt w)) (walk_fuel w) (fun _ r => r_neigh r =? n) retract1 0 w.

(** ** Updates *)

(** route.c:986-1008 send_unfeasible_request *)
Definition send_unfeasible_request (n : Z) (force : bool) (seqno metric : Z) (k : skey)
    (w : world) : world :=
  match get_src k (w_srcs w) with
  | None => fault w
  | Some s =>
      if seqno_minus (s_seqno s) seqno >? 100 then w
      else if force || match find_installed (kdest k) w with
                       | None => true
                       | Some r => route_metric r >=? metric + 512 end
      then send_unicast_multihop_request n (kdest k) (wanted_seqno s) (k_id k) 127 w
      else w
  end.

(** route.c:837: hold time, in seconds *)
Definition hold_time (interval : Z) : Z := Z.max ((4 * interval) / 100 + interval / 50) 15.

(** route.c:893-937: an update for a known route *)
Definition update_known (r : route) (k : skey) (feas : bool) (seqno refmetric metric cost add hold : Z)
    (n : Z) (w : world) : world :=
  let p := r_ptr r in
  let oldinst := r_installed r in
  let oldsrc := r_src r in
  let oldmetric := route_metric r in
  let lost0 := negb feas && oldinst && negb (skey_eqb k oldsrc) in
  let w1 := if lost0 then uninstall_route p w else w in
  let w2 := retain_source k w1 in
  let w3 := map_ptr p (fun r => set_r_seqno seqno
                         (set_r_time (if refmetric <? INFINITY then sec w else r_time r)
                           (set_r_src k r))) w2 in
  let w4 := map_ptr p (set_r_hold_time hold) (change_route_metric p refmetric cost add w3) in
  let w5 := route_changed p oldsrc oldmetric w4 in
  let lost := lost0 || (oldinst && match find_installed (kdest k) w5 with None => true | Some _ => false end) in
  let w6 :=
    if lost then route_lost oldsrc oldmetric w5
    else if negb feas then
      match find_ptr p w5 with
      | Some r5 => send_unfeasible_request n (route_old r5 w5) seqno metric k w5
      | None => fault w5
      end
    else w5 in
  release_source oldsrc w6.

(** route.c:954-979: a new route *)
Definition new_route (p : Z) (k : skey) (seqno refmetric cost add hold now n : Z) (nexthop : list Z) : route :=
  let r := mkRoute p k refmetric (u16 cost) (u16 add) seqno n nexthop now hold 0 now false in
  set_r_smoothed (Z.max (route_metric r) (INFINITY / 2)) r.

(** route.c:825-982 update_route.  [id] and [nexthop] may be NULL. *)
Definition update_route (id : option (list Z)) (d : dest) (seqno refmetric interval : Z)
    (n : Z) (nexthop : option (list Z)) (w : world) : world :=
  let hold := hold_time interval in
  let c := w_cfg w in
  if match id with
     | None => refmetric <? INFINITY
     | Some i => beq i (c_myid c) end then w
  else if martian_prefix (d_prefix d) (d_plen d) || martian_prefix (d_src d) (d_splen d) then w
  else if negb (eqb (v4mapped (d_prefix d)) (v4mapped (d_src d))) then w
  else
    match nb_if n w with
    | None => fault w
    | Some (nb, i) =>
        let add := input_filter (c_infs c) id d (Some (n_addr nb)) (if_ifindex i) in
        if add >=? INFINITY then w
        else
          let cost := neighbour_cost (w_now w) i nb in
          match find_route d n w with
          | None =>
              if refmetric >=? INFINITY then w
              else
                match id with
                | None => fault w
                | Some i =>
                    let '(s, t) := find_source (sec w) (mkey i d) true seqno (w_srcs w) in
                    let w1 := set_w_srcs t w in
                    let feas := update_feasible (sec w) s seqno refmetric in
                    let metric := Z.min (refmetric + cost + add) INFINITY in
                    match nexthop with
                    | None => w1
                    | Some nh =>
                        let k := mkey i d in
                        let w2 := if feas then w1
                                  else send_unfeasible_request n false seqno metric k w1 in
                        let w3 := retain_source k w2 in
                        let r := new_route (w_next w3) k seqno refmetric cost add hold (sec w) n nh in
                        let w4 := insert_route r (set_w_next (w_next w3 + 1) w3) in
                        consider_route (r_ptr r) w4
                    end
                end
          | Some r =>
              let i := match id with Some i => i | None => k_id (r_src r) end in
              let '(k, s, w1) :=
                if beq (k_id (r_src r)) i then (r_src r, src_of r w, w)
                else let '(s, t) := find_source (sec w) (mkey i d) true seqno (w_srcs w) in
                     (mkey i d, s, set_w_srcs t w) in
              match s with
              | None => fault w1
              | Some _ =>
                  let feas := update_feasible (sec w) s seqno refmetric in
                  let metric := Z.min (refmetric + cost + add) INFINITY in
                  update_known r k feas seqno refmetric metric cost add hold n w1
              end
          end
    end.

(** route.c:1191-1224 expire_routes: in slot [i], from route [p] *)
Fixpoint expire_loop (fuel : nat) (i : nat) (p : option Z) (w : world) : world :=
  match fuel with
  | O => nofuel w
  | S f =>
      match p with
      | None =>
          (* r = routes[i], or the next slot *)
          match nth_error (w_rt w) i with
          | None => w
          | Some [] => fault w
          | Some (r :: _) => expire_loop f i (Some (r_ptr r)) w
          end
      | Some p =>
          match find_ptr p w with
          | None => fault w
          | Some r =>
              if (r_time r >? sec w) || route_old r w then expire_loop f i None (flush_route p w)
              else
                let w1 := update_route_metric p w in
                match find_ptr p w1 with
                | None => fault w1
                | Some r1 =>
                    let w2 := if r_installed r1 && (r_refmetric r1 <? INFINITY) && route_old r1 w1
                              then send_unicast_request (r_neigh r1) (rdest r1) w1 else w1 in
                    match next_ptr p w2 with
                    | Some q => expire_loop f i (Some q) w2
                    | None => expire_loop f (S i) None w2
                    end
                end
          end
      end
  end.
Definition expire_fuel (w : world) : nat :=
  let n := length (concat (w_rt w)) in (4 + 2 * n + length (w_rt w)) * (1 + n).
Definition expire_routes (w : world) : world := expire_loop (expire_fuel w) 0 None w.

(** ** Requests: message.c:2289-2360 handle_request *)
Definition handle_request (n : Z) (d : dest) (hop_count seqno : Z) (id : list Z) (w : world) : world :=
  match nb_if n w with
  | None => fault w
  | Some (_, i) =>
      let xr := find_xroute d w in
      let rt := find_installed d w in
      if match xr with
         | Some x => match rt with None => true | Some _ => x_metric x <=? c_kernel_metric (w_cfg w) end
         | None => false end
      then
        if (hop_count >? 0) && beq id (c_myid (w_cfg w)) && (seqno_compare seqno (w_seqno w) >? 0) then
          if seqno_minus seqno (w_seqno w) >? 100 then w
          else send_update_if (if_id i) true d (update_myseqno w)
        else send_update_if (if_id i) true d w
      else if match rt with
              | Some r => negb (beq id (k_id (r_src r))) || (seqno_compare seqno (r_seqno r) <=? 0)
              | None => false end
      then send_update_if (if_id i) true d w
      else if hop_count <=? 1 then w
      else if match rt with
              | Some r => beq id (k_id (r_src r)) && (seqno_minus seqno (r_seqno r) >? 100)
              | None => false end then w
      else if request_redundant i d seqno id w then w
      else
        let succ0 := match rt with
                     | Some r => if route_metric r <? INFINITY then Some (r_neigh r) else None
                     | None => None end in
        let '(succ, w1) :=
          if match succ0 with None => true | Some s => s =? n end then
            let '(b, w1) := find_best_route d false (Some n) w in
            match b with
            | Some q =>
                match find_ptr q w1 with
                | Some r => (if route_metric r <? INFINITY then Some (r_neigh r) else succ0, w1)
                | None => (succ0, fault w1)
                end
            | None => (succ0, w1)
            end
          else (succ0, w) in
        match succ with
        | None => w1
        | Some s =>
            if s =? n then w1
            else
              let w2 := send_unicast_multihop_request s d seqno id (hop_count - 1) w1 in
              record_resend RESEND_REQUEST d seqno (Some id) (Some (if_id i)) 0 w2
        end
  end.

(** ** Neighbours *)

(** neighbour.c:57-74 flush_neighbour *)
Definition flush_neighbour (n : Z) (w : world) : world :=
  let w1 := flush_neighbour_routes n w in
  set_w_nbs (filter (fun x => negb (n_id x =? n)) (w_nbs w1)) w1.

(** neighbour.c:227-266 check_neighbours: new state and delay to the next check.
    The list is walked by identity: flushing removes the current element, and
    nothing else changes the list. *)
Definition check_neighbour1 (mw : Z * world) (n : Z) : Z * world :=
  let '(msecs, w) := mw in
  match get_nb n w with
  | None => (msecs, w)
  | Some nb =>
      match check_neigh1 (w_now w) nb with
      | None =>
          let h := fst (update_hist (w_now w) (n_hello nb) (-1) 0) in
          let u := fst (update_hist (w_now w) (n_uhello nb) (-1) 0) in
          (msecs, flush_neighbour n (map_nb n (fun x => set_n_uhello u (set_n_hello h x)) w))
      | Some (nb', changed) =>
          let w1 := map_nb n (fun _ => nb') w in
          (check_msecs nb' msecs, update_neighbour_metric n changed w1)
      end
  end.
Definition check_neighbours (w : world) : Z * world :=
  fold_left check_neighbour1 (map n_id (w_nbs w)) (50000, w).

(** M_Monitor.v: what a client of the configuration socket that has sent "monitor" is told about
    routes and redistributed routes.  For each function [f] of M_Route, M_Xroute and M_Daemon that
    calls local_notify_route or local_notify_xroute, directly or not, [n_f] lists the notifications
    sent by the call, in order; the states at which they are sent are those of [f].
    Simplifications: notifications about neighbours and interfaces (interface.c, neighbour.c:71 and
    126, route.c:806) are left out; the text of a line and its writing are in M_Dump. *)
From Verif Require Import Base M_Util M_Slot M_Source M_Filter M_Types M_Neigh M_State M_Table M_Msg M_Route
  M_Xroute M_Daemon.

(** local.h:30-33, local.c:83-92 *)
Inductive kind := Add | Change | Flush.
(** The contents of a line: local.c:243-254 for a route, identified by its address; the neighbour
    stands for its address and its interface.  local.c:206-208 for a redistributed route. *)
Record shown := mkShown { sh_dest : dest; sh_installed : bool; sh_id : list Z; sh_metric : Z;
                          sh_refmetric : Z; sh_neigh : Z }.
Inductive note := NRoute (k : kind) (p : Z) (a : shown) | NXroute (k : kind) (d : dest) (metric : Z).

(** local.c:233-264 local_notify_route_1 *)
Definition show (r : route) : shown :=
  mkShown (rdest r) (r_installed r) (k_id (r_src r)) (route_metric r) (r_refmetric r) (r_neigh r).
(** local.c:268-276 local_notify_route, of the route at [p] in state [w] *)
Definition rnote (k : kind) (p : Z) (w : world) : list note :=
  match find_ptr p w with Some r => [NRoute k p (show r)] | None => [] end.
(** local.c:223-231 local_notify_xroute *)
Definition xnote (k : kind) (x : xroute) : list note := [NXroute k (x_dest x) (x_metric x)].

(** local.c:294-314: at the command "monitor", the redistributed routes, then the routes *)
Definition told_all (w : world) : list note :=
  flat_map (xnote Add) (w_xr w) ++ map (fun r => NRoute Add (r_ptr r) (show r)) (concat (w_rt w)).

(** ** route.c *)

(** route.c:469-505 install_route; the notification is in line 504 *)
Definition n_install (p : Z) (w : world) : list note :=
  match find_ptr p w with
  | None => []
  | Some r =>
      if r_installed r then []
      else
        match slot_of (rdest r) w with
        | [] => []
        | h :: _ =>
            if negb (r_ptr h =? p) && r_installed h then []
            else
              match nb_if (r_neigh r) w with
              | None => []
              | Some (_, i) =>
                  let '(rc, w1) := change_route_add r i
                                     (metric_to_kernel (w_cfg w) (route_metric r)) w in
                  if (rc <? 0) && negb (rc =? - EEXIST) then []
                  else rnote Change p (move_installed (rdest r) p
                         (map_ptr p (set_r_installed true) (selected r w None w1)))
              end
        end
  end.

(** route.c:507-528 uninstall_route; line 527, not reached if the kernel refuses *)
Definition n_uninstall (p : Z) (w : world) : list note :=
  match find_ptr p w with
  | None => []
  | Some r =>
      if negb (r_installed r) then []
      else
        match nb_if (r_neigh r) w with
        | None => []
        | Some (_, i) =>
            let w1 := map_ptr p (set_r_installed false) w in
            let '(rc, w2) := change_route_flush r i (metric_to_kernel (w_cfg w) (route_metric r)) w1 in
            if rc <? 0 then [] else rnote Change p w2
        end
  end.

(** route.c:533-569 switch_routes; lines 567 and 568 *)
Definition n_switch (old : option Z) (new : Z) (w : world) : list note :=
  match old with
  | None => n_install new w
  | Some o =>
      match find_ptr o w, find_ptr new w with
      | Some ro, Some rn =>
          if negb (r_installed ro) then []
          else
            match nb_if (r_neigh ro) w, nb_if (r_neigh rn) w with
            | Some (_, io), Some (_, inw) =>
                let '(rc, w1) :=
                  change_route_modify ro io (metric_to_kernel (w_cfg w) (route_metric ro))
                    (r_nexthop rn) (if_ifindex inw)
                    (metric_to_kernel (w_cfg w) (route_metric rn)) w in
                if rc <? 0 then []
                else
                  let w2 := move_installed (rdest rn) new
                              (map_ptr new (set_r_installed true)
                                (map_ptr o (set_r_installed false) (selected rn w (Some ro) w1))) in
                  rnote Change o w2 ++ rnote Change new w2
            | _, _ => []
            end
      | _, _ => []
      end
  end.

(** route.c:571-605 change_route_metric; line 604 *)
Definition n_metric (p : Z) (refmetric cost add : Z) (w : world) : list note :=
  match find_ptr p w with
  | None => []
  | Some r =>
      match nb_if (r_neigh r) w with
      | None => []
      | Some (_, i) =>
          let c := w_cfg w in
          let old := metric_to_kernel c (route_metric r) in
          let new := metric_to_kernel c (Z.min (refmetric + cost + add) INFINITY) in
          let '(rc, _) :=
            if r_installed r && negb (old =? new)
            then change_route_modify r i old (r_nexthop r) (if_ifindex i) new w
            else (0, w) in
          if rc <? 0 then [] else rnote Change p (change_route_metric p refmetric cost add w)
      end
  end.

(** route.c:607-613 retract_route *)
Definition n_retract (p : Z) (w : world) : list note := n_metric p INFINITY INFINITY 0 w.

(** route.c:1015-1059 consider_route *)
Definition n_consider (p : Z) (w : world) : list note :=
  match find_ptr p w with
  | None => []
  | Some r =>
      if r_installed r then []
      else if negb (feasible r w) then []
      else if match find_xroute (rdest r) w with
              | Some x => (c_allow_dup (w_cfg w) <? 0) || (x_metric x >=? c_allow_dup (w_cfg w))
              | None => false end then []
      else
        match find_installed (rdest r) w with
        | None => n_switch None p w
        | Some i =>
            if route_metric r >=? INFINITY then []
            else if route_metric i >=? INFINITY then n_switch (Some (r_ptr i)) p w
            else if route_metric i >=? route_metric r then
              let '(mi, w1) := smoothed_metric (r_ptr i) w in
              let '(mr, w2) := smoothed_metric p w1 in
              if mi >? mr then n_switch (Some (r_ptr i)) p w2 else []
            else []
        end
  end.

(** route.c:1139-1162 route_changed *)
Definition n_changed (p : Z) (oldsrc : skey) (oldmetric : Z) (w : world) : list note :=
  match find_ptr p w with
  | None => []
  | Some r =>
      let '(ns, w1) :=
        if r_installed r then
          let '(b, w1) := find_best_route (rdest r) true None w in
          match b with
          | None => ([], w1)
          | Some q =>
              match find_ptr q w1 with
              | None => ([], fault w1)
              | Some rb => if route_metric rb <? route_metric r
                           then (n_consider q w1, consider_route q w1) else ([], w1)
              end
          end
        else ([], w) in
      ns ++ match find_ptr p w1 with
            | None => []
            | Some r1 => if r_installed r1 then [] else n_consider p w1
            end
  end.

(** route.c:1165-1187 route_lost *)
Definition n_lost (k : skey) (w : world) : list note :=
  let '(b, w1) := find_best_route (kdest k) true None w in
  match match b with
        | Some q => match find_ptr q w1 with
                    | Some r => if feasible r w1 then Some q else None
                    | None => None end
        | None => None end with
  | Some q => n_consider q w1
  | None => []
  end.

(** route.c:232-285 flush_route; line 252 *)
Definition n_flush (p : Z) (w : world) : list note :=
  match find_ptr p w with
  | None => []
  | Some r =>
      let w1 := if r_installed r then uninstall_route p w else w in
      (if r_installed r then n_uninstall p w else []) ++ rnote Flush p w1 ++
      (if r_installed r then n_lost (r_src r) (unlink_route (rdest r) p w1) else [])
  end.

(** route.c:287-305 flush_all_routes *)
Fixpoint n_flush_slot (fuel : nat) (i : nat) (w : world) : list note :=
  match fuel with
  | O => []
  | S f =>
      match nth_error (w_rt w) i with
      | None => []
      | Some [] => []
      | Some (r :: _) =>
          let w1 := if r_installed r then uninstall_route (r_ptr r) w else w in
          (if r_installed r then n_uninstall (r_ptr r) w else []) ++
          n_flush (r_ptr r) w1 ++ n_flush_slot f i (flush_route (r_ptr r) w1)
      end
  end.
Fixpoint n_flush_all_loop (n : nat) (w : world) : list note :=
  match n with
  | O => []
  | S i => n_flush_slot (S (length (concat (w_rt w)))) i w ++
           n_flush_all_loop i (flush_slot (S (length (concat (w_rt w)))) i w)
  end.
Definition n_flush_all (w : world) : list note := n_flush_all_loop (length (w_rt w)) w.

(** route.c:307-350 flush_neighbour_routes, flush_interface_routes *)
Fixpoint n_flush_sel (fuel : nat) (sel : world -> route -> bool) (i : nat) (w : world) : list note :=
  match fuel with
  | O => []
  | S f =>
      match nth_error (w_rt w) i with
      | None => []
      | Some l =>
          match find (sel w) l with
          | Some r => n_flush (r_ptr r) w ++ n_flush_sel f sel i (flush_route (r_ptr r) w)
          | None => n_flush_sel f sel (S i) w
          end
      end
  end.
Definition n_flush_interface_routes (ifp : Z) (v4only : bool) (w : world) : list note :=
  n_flush_sel (flush_fuel w)
    (fun w r => through_if ifp w r && (negb v4only || v4mapped (r_nexthop r))) 0 w.

(** route.c:758-785 update_route_metric *)
Definition n_urm (p : Z) (w : world) : list note :=
  match find_ptr p w with
  | None => []
  | Some r =>
      let oldmetric := route_metric r in
      let '(oldsm, w1) := smoothed_metric p w in
      if route_expired r w then
        if r_refmetric r <? INFINITY then
          match src_of r w1 with
          | None => []
          | Some s =>
              let w2 := map_ptr p (set_r_seqno (seqno_plus (s_seqno s) 1)) w1 in
              n_retract p w2 ++
              (if oldmetric <? INFINITY then n_changed p (r_src r) oldmetric (retract_route p w2) else [])
          end
        else []
      else
        match nb_if (r_neigh r) w1 with
        | None => []
        | Some (n, i) =>
            let add := input_filter (c_infs (w_cfg w1)) (Some (k_id (r_src r))) (rdest r)
                                    (Some (n_addr n)) (if_ifindex i) in
            let w2 := change_route_metric p (r_refmetric r) (neighbour_cost (w_now w1) i n) add w1 in
            n_metric p (r_refmetric r) (neighbour_cost (w_now w1) i n) add w1 ++
            match find_ptr p w2 with
            | None => []
            | Some r2 =>
                if negb (route_metric r2 =? oldmetric) then n_changed p (r_src r) oldmetric w2
                else
                  let '(sm, w3) := smoothed_metric p w2 in
                  if negb (sm =? oldsm) then n_changed p (r_src r) oldmetric w3 else []
            end
        end
  end.

(** route.c:797-802, 815-820: the walks of M_Route.walk_slot and walk_slots *)
Fixpoint n_walk_slot (fuel : nat) (sel : world -> route -> bool) (f : Z -> world -> world)
    (nf : Z -> world -> list note) (p : Z) (w : world) : list note :=
  match fuel with
  | O => []
  | S k =>
      match find_ptr p w with
      | None => []
      | Some r =>
          let w1 := if sel w r then f p w else w in
          (if sel w r then nf p w else []) ++
          match next_ptr p w1 with
          | None => []
          | Some q => n_walk_slot k sel f nf q w1
          end
      end
  end.
Fixpoint n_walk_slots (n : nat) (fuel : nat) (sel : world -> route -> bool)
    (f : Z -> world -> world) (nf : Z -> world -> list note) (i : nat) (w : world) : list note :=
  match n with
  | O => []
  | S n' =>
      match nth_error (w_rt w) i with
      | None => []
      | Some [] => []
      | Some (r :: _) => n_walk_slot fuel sel f nf (r_ptr r) w ++
                         n_walk_slots n' fuel sel f nf (S i) (walk_slot fuel sel f (r_ptr r) w)
      end
  end.
(** route.c:789-807, 809-822 *)
Definition n_unm (n : Z) (changed : bool) (w : world) : list note :=
  if changed then
    n_walk_slots (length (w_rt w)) (walk_fuel w) (fun _ r => r_neigh r =? n) update_route_metric n_urm 0 w
  else [].
Definition n_uim (ifp : Z) (w : world) : list note :=
  n_walk_slots (length (w_rt w)) (walk_fuel w) (through_if ifp) update_route_metric n_urm 0 w.
(** route.c:1061-1080 retract_neighbour_routes *)
Definition n_retract1 (p : Z) (w : world) : list note :=
  match find_ptr p w with
  | None => []
  | Some r =>
      if negb (r_refmetric r =? INFINITY) then
        let oldmetric := route_metric r in
        let w1 := retract_route p w in
        n_retract p w ++
        (if negb (oldmetric =? INFINITY) then
           match find_ptr p w1 with
           | Some r1 => n_changed p (r_src r1) oldmetric w1
           | None => []
           end
         else [])
      else []
  end.
Definition n_rnr (n : Z) (w : world) : list note :=
  n_walk_slots (length (w_rt w)) (walk_fuel w) (fun _ r => r_neigh r =? n) retract1 n_retract1 0 w.

(** route.c:893-937: an update for a known route.  The source of the route is changed in line 919
    without a notification of its own; the next one is that of change_route_metric. *)
Definition n_update_known (r : route) (k : skey) (feas : bool) (seqno refmetric cost add hold : Z)
    (w : world) : list note :=
  let p := r_ptr r in
  let oldinst := r_installed r in
  let oldsrc := r_src r in
  let oldmetric := route_metric r in
  let lost0 := negb feas && oldinst && negb (skey_eqb k oldsrc) in
  let w1 := if lost0 then uninstall_route p w else w in
  let w2 := retain_source k w1 in
  let w3 := map_ptr p (fun r => set_r_seqno seqno
                         (set_r_time (if refmetric <? INFINITY then sec w else r_time r)
                           (set_r_src k r))) w2 in
  let w4 := map_ptr p (set_r_hold_time hold) (change_route_metric p refmetric cost add w3) in
  let w5 := route_changed p oldsrc oldmetric w4 in
  let lost := lost0 || (oldinst && match find_installed (kdest k) w5 with None => true | Some _ => false end) in
  (if lost0 then n_uninstall p w else []) ++ n_metric p refmetric cost add w3 ++
  n_changed p oldsrc oldmetric w4 ++ (if lost then n_lost oldsrc w5 else []).

(** route.c:825-982 update_route; line 978 *)
Definition n_update (id : option (list Z)) (d : dest) (seqno refmetric interval : Z)
    (n : Z) (nexthop : option (list Z)) (w : world) : list note :=
  let hold := hold_time interval in
  let c := w_cfg w in
  if match id with
     | None => refmetric <? INFINITY
     | Some i => beq i (c_myid c) end then []
  else if martian_prefix (d_prefix d) (d_plen d) || martian_prefix (d_src d) (d_splen d) then []
  else if negb (eqb (v4mapped (d_prefix d)) (v4mapped (d_src d))) then []
  else
    match nb_if n w with
    | None => []
    | Some (nb, i) =>
        let add := input_filter (c_infs c) id d (Some (n_addr nb)) (if_ifindex i) in
        if add >=? INFINITY then []
        else
          let cost := neighbour_cost (w_now w) i nb in
          match find_route d n w with
          | None =>
              if refmetric >=? INFINITY then []
              else
                match id with
                | None => []
                | Some i =>
                    let '(s, t) := find_source (sec w) (mkey i d) true seqno (w_srcs w) in
                    let w1 := set_w_srcs t w in
                    let feas := update_feasible (sec w) s seqno refmetric in
                    let metric := Z.min (refmetric + cost + add) INFINITY in
                    match nexthop with
                    | None => []
                    | Some nh =>
                        let k := mkey i d in
                        let w2 := if feas then w1
                                  else send_unfeasible_request n false seqno metric k w1 in
                        let w3 := retain_source k w2 in
                        let r := new_route (w_next w3) k seqno refmetric cost add hold (sec w) n nh in
                        let w4 := insert_route r (set_w_next (w_next w3 + 1) w3) in
                        rnote Add (r_ptr r) w4 ++ n_consider (r_ptr r) w4
                    end
                end
          | Some r =>
              let i := match id with Some i => i | None => k_id (r_src r) end in
              let '(k, s, w1) :=
                if beq (k_id (r_src r)) i then (r_src r, src_of r w, w)
                else let '(s, t) := find_source (sec w) (mkey i d) true seqno (w_srcs w) in
                     (mkey i d, s, set_w_srcs t w) in
              match s with
              | None => []
              | Some _ =>
                  let feas := update_feasible (sec w) s seqno refmetric in
                  n_update_known r k feas seqno refmetric cost add hold w1
              end
          end
    end.

(** route.c:1191-1224 expire_routes *)
Fixpoint n_expire_loop (fuel : nat) (i : nat) (p : option Z) (w : world) : list note :=
  match fuel with
  | O => []
  | S f =>
      match p with
      | None =>
          match nth_error (w_rt w) i with
          | None => []
          | Some [] => []
          | Some (r :: _) => n_expire_loop f i (Some (r_ptr r)) w
          end
      | Some p =>
          match find_ptr p w with
          | None => []
          | Some r =>
              if (r_time r >? sec w) || route_old r w
              then n_flush p w ++ n_expire_loop f i None (flush_route p w)
              else
                let w1 := update_route_metric p w in
                n_urm p w ++
                match find_ptr p w1 with
                | None => []
                | Some r1 =>
                    let w2 := if r_installed r1 && (r_refmetric r1 <? INFINITY) && route_old r1 w1
                              then send_unicast_request (r_neigh r1) (rdest r1) w1 else w1 in
                    match next_ptr p w2 with
                    | Some q => n_expire_loop f i (Some q) w2
                    | None => n_expire_loop f (S i) None w2
                    end
                end
          end
      end
  end.

(** neighbour.c:45-74 flush_neighbour, 227-266 check_neighbours *)
Definition n_flush_neighbour (n : Z) (w : world) : list note :=
  n_flush_sel (flush_fuel w) (fun _ r => r_neigh r =? n) 0 w.
Definition n_check1 (mw : Z * world) (n : Z) : list note :=
  let '(msecs, w) := mw in
  match get_nb n w with
  | None => []
  | Some nb =>
      match check_neigh1 (w_now w) nb with
      | None =>
          let h := fst (update_hist (w_now w) (n_hello nb) (-1) 0) in
          let u := fst (update_hist (w_now w) (n_uhello nb) (-1) 0) in
          n_flush_neighbour n (map_nb n (fun x => set_n_uhello u (set_n_hello h x)) w)
      | Some (nb', changed) => n_unm n changed (map_nb n (fun _ => nb') w)
      end
  end.
Fixpoint n_checks (l : list Z) (mw : Z * world) : list note :=
  match l with
  | [] => []
  | n :: l' => n_check1 mw n ++ n_checks l' (check_neighbour1 mw n)
  end.
Definition n_check_neighbours (w : world) : list note := n_checks (map n_id (w_nbs w)) (50000, w).

(** ** xroute.c *)

(** xroute.c:118-153 add_xroute; line 151 *)
Definition n_add_xroute (d : dest) (metric ifindex proto : Z) (w : world) : list note :=
  match find_xroute_slot d w with
  | Found _ => []
  | NotFound _ => xnote Add (mkXr d (u16 metric) ifindex proto)
  end.
(** xroute.c:155-204 flush_xroute; line 172 *)
Definition n_flush_xroute (i : nat) (w : world) : list note :=
  match nth_error (w_xr w) i, w_xr w with
  | Some x, x0 :: _ =>
      let d := mkDest (d_prefix (x_dest x)) (d_plen (x_dest x0))
                      (d_src (x_dest x0)) (d_splen (x_dest x)) in
      let w1 := set_w_xr (remove_at (Z.of_nat i) (w_xr w)) w in
      let '(b, w2) := find_best_route d true None w1 in
      xnote Flush x ++
      match match b with
            | Some q => match find_ptr q w2 with
                        | Some r => if (route_metric r <? INFINITY) && feasible r w2
                                    then Some q else None
                        | None => None end
            | None => None end with
      | Some q => n_install q w2
      | None => []
      end
  | _, _ => []
  end.
(** xroute.c:358-369 modify_xroute; line 364 *)
Definition n_modify_xroute (i : nat) (k : kroute) (w : world) : list note :=
  match nth_error (w_xr w) i with
  | None => []
  | Some x =>
      if negb (x_metric x =? kr_metric k) || negb (x_proto x =? kr_proto k)
      then xnote Change (set_x_metric (u16 (kr_metric k)) (set_x_proto (kr_proto k) x)) else []
  end.
(** xroute.c:371-380 flush_duplicate_route *)
Definition n_duplicate (k : kroute) (w : world) : list note :=
  match find_installed (kr_dest k) w with
  | Some r =>
      if (c_allow_dup (w_cfg w) <? 0) || (kr_metric k <? c_allow_dup (w_cfg w))
      then n_uninstall (r_ptr r) w else []
  | None => []
  end.
(** xroute.c:383-433 kernel_route_notify *)
Definition n_notify (add : bool) (k0 : kroute) (w : world) : list note :=
  let k := filter_kroute w k0 in
  if kr_metric k >=? INFINITY then []
  else
    match find_xroute_slot (kr_dest k) w with
    | Found i => if add then n_modify_xroute (Z.to_nat i) k w else n_flush_xroute (Z.to_nat i) w
    | NotFound _ =>
        if negb add then []
        else if martian_prefix (d_prefix (kr_dest k)) (d_plen (kr_dest k)) then []
        else
          let '(ok, w1) := add_xroute (kr_dest k) (kr_metric k) (kr_ifindex k) (kr_proto k) w in
          n_add_xroute (kr_dest k) (kr_metric k) (kr_ifindex k) (kr_proto k) w ++
          (if ok then n_duplicate k w1 else [])
    end.
(** xroute.c:489-539: the merge loop *)
Fixpoint n_merge (fuel : nat) (rs : list kroute) (j : nat) (send : bool) (w : world) : list note :=
  match fuel with
  | O => []
  | S f =>
      let flush := fun _ : unit => n_flush_xroute j w ++ n_merge f rs j send (flush_xroute j send w) in
      match rs with
      | [] => if (j <? length (w_xr w))%nat then flush tt else []
      | k :: rs' =>
          if kr_metric k >=? INFINITY then n_merge f rs' j send w
          else
            let add := fun _ : unit =>
              if negb (martian_prefix (d_prefix (kr_dest k)) (d_plen (kr_dest k))) then
                let '(ok, w1) := add_xroute (kr_dest k) (kr_metric k) (kr_ifindex k) (kr_proto k) w in
                n_add_xroute (kr_dest k) (kr_metric k) (kr_ifindex k) (kr_proto k) w ++
                (if ok then
                   let w2 := flush_duplicate_route k w1 in
                   let w3 := if send then send_update_all false (kr_dest k) w2 else w2 in
                   n_duplicate k w1 ++ n_merge f rs' (S j) send w3
                 else n_merge f rs' j send w1)
              else n_merge f rs' j send w in
            match nth_error (w_xr w) j with
            | None => add tt
            | Some x =>
                let rc := dest_compare (kr_dest k) (x_dest x) in
                if rc <? 0 then add tt
                else if rc >? 0 then flush tt
                else n_modify_xroute j k w ++ n_merge f rs' (S j) send (modify_xroute j k send w)
            end
      end
  end.
(** xroute.c:436-552 check_xroutes *)
Definition n_scan (addrs : list (list Z * Z)) (routes : list kroute) (send : bool) (w : world) : list note :=
  let rs := map addr_route (filter (fun a => negb (in6_linklocal (fst a))) addrs) ++
            filter keep_route routes in
  let rs := map (filter_kroute w) rs in
  let rs := sort (fun a b => dest_compare (kr_dest a) (kr_dest b) <=? 0) rs in
  n_merge (S (length rs + length (w_xr w)) * 2) rs 0 send w.

(** ** Messages: message.c:692-754, 1068-1103, as in M_Daemon *)
Definition n_on_nb (n : Z) (f : neigh -> neigh * bool) (w : world) : list note :=
  match get_nb n w with
  | None => []
  | Some nb => let '(nb', changed) := f nb in n_unm n changed (map_nb n (fun _ => nb') w)
  end.
Definition n_recv_hello (n : Z) (unicast : bool) (seqno interval : Z) (w : world) : list note :=
  n_on_nb n (fun nb =>
    if unicast then let '(h, c) := update_hist (w_now w) (n_uhello nb) seqno interval in (set_n_uhello h nb, c)
    else let '(h, c) := update_hist (w_now w) (n_hello nb) seqno interval in (set_n_hello h nb, c)) w.
Definition n_recv_ihu (n txcost interval : Z) (w : world) : list note :=
  n_on_nb n (fun nb => (set_n_txcost txcost (set_n_ihu_time (w_now w) (set_n_ihu_interval interval nb)),
                        negb (txcost =? n_txcost nb))) w.
Definition n_recv_rtt (n send_us receive_us : Z) (w : world) : list note :=
  match nb_if n w with
  | None => []
  | Some (nb, i) =>
      match rtt_sample nb send_us receive_us with
      | None => []
      | Some rtt =>
          let nb1 := set_n_rtt (rtt_update (w_now w) i nb rtt) nb in
          let changed := negb (rttcost (w_now w) i nb1 =? rttcost (w_now w) i nb) in
          n_unm n changed (map_nb n (fun _ => nb1) w)
      end
  end.

(** ** Events: babeld.c:588-787, as in M_Daemon; the other events notify nothing *)
Definition n_run1 (ev : event) (w : world) : list note :=
  match ev with
  | EvUpdate id d q m iv n nh => n_update id d q m iv n nh w
  | EvWithdraw n => n_rnr n w
  | EvHello n u q iv => n_recv_hello n u q iv w
  | EvIhu n c iv => n_recv_ihu n c iv w
  | EvRtt n a b => n_recv_rtt n a b w
  | EvCheckNeighbours => n_check_neighbours w
  | EvInterfaceMetric i => n_uim i w
  | EvFlushInterfaceRoutes i v => n_flush_interface_routes i v w
  | EvExpireRoutes => n_expire_loop (expire_fuel w) 0 None w
  | EvKernel b k => n_notify b k w
  | EvScan a r s => n_scan a r s w
  | EvFlushAll => n_flush_all w
  | _ => []
  end.
Fixpoint n_run (evs : list event) (w : world) : list note :=
  match evs with
  | [] => []
  | ev :: evs' => n_run1 ev w ++ n_run evs' (run1 ev w)
  end.

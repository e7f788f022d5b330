(** M_Xroute.v: model of xroute.c, redistributed routes. *)
From Verif Require Import Base M_Util M_Slot M_Source M_Filter M_Types M_Neigh M_State M_Table M_Msg M_Route.

(** kernel.h:28-37 struct kernel_route, without the gateway *)
Record kroute := mkKr { kr_dest : dest; kr_metric : Z; kr_ifindex : Z; kr_proto : Z }.

(** xroute.c:118-153 add_xroute; the flag says whether it was added.  The metric
    and the prefix lengths are truncated to the types of struct xroute. *)
Definition add_xroute (d : dest) (metric ifindex proto : Z) (w : world) : bool * world :=
  match find_xroute_slot d w with
  | Found _ => (false, w)
  | NotFound n => (true, set_w_xr (insert_at n (mkXr d (u16 metric) ifindex proto) (w_xr w)) w)
  end.

(** xroute.c:155-204 flush_xroute, [i] being the index of the xroute.  Lines
    165-166 read plen and src_prefix from [xroutes], that is from entry 0. *)
Definition flush_xroute (i : nat) (send_updates : bool) (w : world) : world :=
  match nth_error (w_xr w) i, w_xr w with
  | Some x, x0 :: _ =>
      let d := mkDest (d_prefix (x_dest x)) (d_plen (x_dest x0))
                      (d_src (x_dest x0)) (d_splen (x_dest x)) in
      let w1 := set_w_xr (remove_at (Z.of_nat i) (w_xr w)) w in
      let '(b, w2) := find_best_route d true None w1 in
      match match b with
            | Some q => match find_ptr q w2 with
                        | Some r => if (route_metric r <? INFINITY) && feasible r w2
                                    then Some q else None
                        | None => None end
            | None => None end with
      | Some q =>
          let w3 := install_route q w2 in
          if send_updates then send_update_all false d w3 else w3
      | None => if send_updates then send_update_resend d w2 else w2
      end
  | _, _ => fault w
  end.

(** xroute.c:358-369 modify_xroute *)
Definition modify_xroute (i : nat) (k : kroute) (update : bool) (w : world) : world :=
  match nth_error (w_xr w) i with
  | None => fault w
  | Some x =>
      if negb (x_metric x =? kr_metric k) || negb (x_proto x =? kr_proto k) then
        let x' := set_x_metric (u16 (kr_metric k)) (set_x_proto (kr_proto k) x) in
        let w1 := set_w_xr (upd i x' (w_xr w)) w in
        if update then send_update_all false (x_dest x) w1 else w1
      else w
  end.

(** xroute.c:371-380 flush_duplicate_route *)
Definition flush_duplicate_route (k : kroute) (w : world) : world :=
  match find_installed (kr_dest k) w with
  | Some r =>
      if (c_allow_dup (w_cfg w) <? 0) || (kr_metric k <? c_allow_dup (w_cfg w))
      then uninstall_route (r_ptr r) w else w
  | None => w
  end.

(** xroute.c:392-400, 473-484: the redistribute filter applied to a kernel route *)
Definition filter_kroute (w : world) (k : kroute) : kroute :=
  let d := kr_dest k in
  let '(m, res) := redistribute_filter (c_redistfs (w_cfg w)) d (kr_ifindex k) (kr_proto k) in
  mkKr (match fr_src res with
        | Some (p, l) => mkDest (d_prefix d) (d_plen d) p l
        | None => d end) m (kr_ifindex k) (kr_proto k).

(** xroute.c:383-433 kernel_route_notify *)
Definition kernel_route_notify (add : bool) (k0 : kroute) (w : world) : world :=
  let k := filter_kroute w k0 in
  if kr_metric k >=? INFINITY then w
  else
    match find_xroute_slot (kr_dest k) w with
    | Found i =>
        if add then modify_xroute (Z.to_nat i) k true w
        else flush_xroute (Z.to_nat i) true w
    | NotFound _ =>
        if negb add then w
        else if martian_prefix (d_prefix (kr_dest k)) (d_plen (kr_dest k)) then w
        else
          let '(ok, w1) := add_xroute (kr_dest k) (kr_metric k) (kr_ifindex k) (kr_proto k) w in
          if ok then send_update_all false (kr_dest k) (flush_duplicate_route k w1) else w1
    end.

(** xroute.c:489-539: the merge loop of check_xroutes; [rs] are the kernel routes
    from i on, [j] the index in the table.  xroutes[j] is read afresh each time. *)
Fixpoint merge (fuel : nat) (rs : list kroute) (j : nat) (send : bool) (w : world) : world :=
  match fuel with
  | O => nofuel w
  | S f =>
      let flush := fun _ : unit => merge f rs j send (flush_xroute j send w) in
      match rs with
      | [] => if (j <? length (w_xr w))%nat then flush tt else w
      | k :: rs' =>
          if kr_metric k >=? INFINITY then merge f rs' j send w
          else
            let add := fun _ : unit =>
              if negb (martian_prefix (d_prefix (kr_dest k)) (d_plen (kr_dest k))) then
                let '(ok, w1) := add_xroute (kr_dest k) (kr_metric k) (kr_ifindex k) (kr_proto k) w in
                if ok then
                  let w2 := flush_duplicate_route k w1 in
                  let w3 := if send then send_update_all false (kr_dest k) w2 else w2 in
                  merge f rs' (S j) send w3
                else merge f rs' j send w1
              else merge f rs' j send w in
            match nth_error (w_xr w) j with
            | None => add tt
            | Some x =>
                let rc := dest_compare (kr_dest k) (x_dest x) in
                if rc <? 0 then add tt
                else if rc >? 0 then flush tt
                else merge f rs' (S j) send (modify_xroute j k send w)
            end
      end
  end.

(** xroute.c:244-260 filter_route, 276-310 filter_address: what is kept of the
    kernel's dump of routes and addresses *)
Definition keep_route (k : kroute) : bool :=
  negb (martian_prefix (d_prefix (kr_dest k)) (d_plen (kr_dest k))) &&
  negb (martian_prefix (d_src (kr_dest k)) (d_splen (kr_dest k))).
(** IN6_IS_ADDR_LINKLOCAL: fe80::/10 *)
Definition in6_linklocal (a : list Z) : bool :=
  (at_ a 0 =? 254) && (Z.land (at_ a 1) 192 =? 128).
Definition addr_route (a : list Z * Z) : kroute :=
  mkKr (mkDest (fst a) 128 (if v4mapped (fst a) then v4prefix else zeroes 16)
               (if v4mapped (fst a) then 96 else 0)) 0 (snd a) RTPROT_BABEL_LOCAL.

(** xroute.c:436-552 check_xroutes, given the kernel's addresses and routes.
    Simplification: the array always grows to hold the whole dump (lines 546-551
    give up at 256 * 1024 entries). *)
Definition check_xroutes (addrs : list (list Z * Z)) (routes : list kroute) (send : bool)
    (w : world) : world :=
  let rs := map addr_route (filter (fun a => negb (in6_linklocal (fst a))) addrs) ++
            filter keep_route routes in
  let rs := map (filter_kroute w) rs in
  let rs := sort (fun a b => dest_compare (kr_dest a) (kr_dest b) <=? 0) rs in
  merge (S (length rs + length (w_xr w)) * 2) rs 0 send w.

(** M_Msg.v: pending retransmissions (resend.c) and the sending side of message.c
    at the level of messages.  Bytes and packets are the subject of M_Buf.v: here
    putting a TLV in an output buffer appends it to [w_out].  Simplifications:
    the timers of the output buffers are not in this model,
    and allocation never fails. *)
From Verif Require Import Base M_Util M_Slot M_Source M_Filter M_Types M_Neigh M_State M_Table.

Definition RESEND_REQUEST : Z := 1.
Definition RESEND_UPDATE : Z := 2.
Definition RESEND_MAX : Z := 3.
Definition REQUEST_TIMEOUT : Z := 65000.

Definition dest_eqb (a b : dest) : bool := dest_compare a b =? 0.

(** ** resend.c *)

(** resend.c:41-50 resend_match *)
Definition resend_match (kind : Z) (d : dest) (r : resend) : bool :=
  (rs_kind r =? kind) && dest_eqb (rs_dest r) d.
(** resend.c:60-80 find_resend, 82-89 find_request *)
Definition find_resend (kind : Z) (d : dest) (w : world) : option resend :=
  find (resend_match kind d) (w_rsd w).
Definition find_request (d : dest) (w : world) : option resend := find_resend RESEND_REQUEST d w.
(** writing through the pointer returned by find_resend *)
Fixpoint upd_first {A} (f : A -> bool) (g : A -> A) (l : list A) : list A :=
  match l with
  | [] => []
  | x :: l' => if f x then g x :: l' else x :: upd_first f g l'
  end.

(** resend.c:159-168 resend_expired *)
Definition resend_expired (w : world) (r : resend) : bool :=
  if rs_kind r =? RESEND_REQUEST then
    timeval_minus_msec (w_now w) (rs_time r) >=? REQUEST_TIMEOUT
  else rs_max r <=? 0.

(** resend.c:277-294 recompute_resend_time *)
Definition resend_live (w : world) (r : resend) : bool :=
  negb (resend_expired w r) && (rs_delay r >? 0) && (rs_max r >? 0).
Definition resend_due (r : resend) : timeval := timeval_add_msec (rs_time r) (rs_delay r).
Definition recompute_resend_time (w : world) : world :=
  set_w_rsd_time
    (fold_left (fun t r => if resend_live w r then timeval_min t (resend_due r) else t)
               (w_rsd w) tv0) w.

(** resend.c:98: ifp ? ifp->ifindex : 0 *)
Definition if_index (ifp : option Z) (w : world) : Z :=
  match ifp with
  | None => 0
  | Some i => match get_if i w with Some x => if_ifindex x | None => 0 end
  end.

(** resend.c:113-130: an entry that is recorded again; the flag says whether to
    go on to line 151. *)
Definition opt_eqb (a b : option Z) : bool :=
  match a, b with Some x, Some y => x =? y | None, None => true | _, _ => false end.
Definition again_resend (now : timeval) (seqno : Z) (id : option (list Z)) (ifp : option Z)
    (delay : Z) (r : resend) : resend * bool :=
  let dl := if negb (rs_delay r =? 0) && negb (delay =? 0) then Z.min (rs_delay r) delay
            else if negb (delay =? 0) then delay else rs_delay r in
  let r1 := set_rs_max RESEND_MAX (set_rs_time now (set_rs_delay dl r)) in
  match id with
  | Some i =>
      if beq (rs_id r1) i && (seqno_compare (rs_seqno r1) seqno >? 0) then (r1, false)
      else (set_rs_ifp (if opt_eqb (rs_ifp r1) ifp then rs_ifp r1 else None)
             (set_rs_seqno seqno (set_rs_id i r1)), true)
  | None =>
      (set_rs_ifp (if opt_eqb (rs_ifp r1) ifp then rs_ifp r1 else None)
             (set_rs_seqno seqno (set_rs_id (zeroes 8) r1)), true)
  end.

(** resend.c:91-157 record_resend (the result is not used by any caller) *)
Definition record_resend (kind : Z) (d : dest) (seqno : Z) (id : option (list Z))
    (ifp : option Z) (delay : Z) (w : world) : world :=
  let ifindex := if_index ifp w in
  let c := w_cfg w in
  if ((kind =? RESEND_REQUEST) && (input_filter (c_infs c) None d None ifindex >=? INFINITY)) ||
     ((kind =? RESEND_UPDATE) && (output_filter (c_outfs c) None d ifindex >=? INFINITY))
  then w
  else
    let delay := Z.min delay 65535 in
    match find_resend kind d w with
    | Some r =>
        let '(r', go) := again_resend (w_now w) seqno id ifp delay r in
        let w1 := set_w_rsd (upd_first (resend_match kind d) (fun _ => r') (w_rsd w)) w in
        if go && negb (rs_delay r' =? 0)
        then set_w_rsd_time (timeval_min (w_rsd_time w1) (resend_due r')) w1 else w1
    | None =>
        let r' := mkRsd kind RESEND_MAX delay (w_now w) d seqno
                        (match id with Some i => i | None => zeroes 8 end) ifp in
        let w1 := set_w_rsd (r' :: w_rsd w) w in
        if negb (rs_delay r' =? 0)
        then set_w_rsd_time (timeval_min (w_rsd_time w1) (resend_due r')) w1 else w1
    end.

(** resend.c:170-186 unsatisfied_request *)
Definition unsatisfied_request (d : dest) (seqno : Z) (id : list Z) (w : world) : bool :=
  match find_request d w with
  | None => false
  | Some r =>
      if resend_expired w r then false
      else negb (beq (rs_id r) id) || (seqno_compare (rs_seqno r) seqno <=? 0)
  end.

(** resend.c:188-218 request_redundant; every caller passes an interface *)
Definition request_redundant (ifp : iface) (d : dest) (seqno : Z) (id : list Z) (w : world) : bool :=
  match find_request d w with
  | None => false
  | Some r =>
      if resend_expired w r then false
      else if beq (rs_id r) id && (seqno_compare (rs_seqno r) seqno >? 0) then false
      else if match rs_ifp r with Some i => negb (i =? if_id ifp) | None => false end then false
      else if rs_max r >? 0 then true
      else timeval_minus_msec (w_now w) (rs_time r) <? Z.min (if_hello_interval ifp) 1000
  end.

(** resend.c:220-246 satisfy_request (the result is not used by any caller) *)
Definition satisfy_request (d : dest) (seqno : Z) (id : list Z) (ifp : option Z) (w : world) : world :=
  match find_request d w with
  | None => w
  | Some r =>
      if match ifp with Some i => negb (opt_eqb (rs_ifp r) (Some i)) | None => false end then w
      else if negb (beq (rs_id r) id) || (seqno_compare (rs_seqno r) seqno <=? 0) then
        recompute_resend_time
          (set_w_rsd (upd_first (resend_match RESEND_REQUEST d)
                        (fun r => set_rs_time (mkTv 0 (tv_usec (rs_time r))) (set_rs_max 0 r))
                        (w_rsd w)) w)
      else w
  end.

(** resend.c:248-275 expire_resend *)
Definition expire_resend (w : world) : world :=
  let l := filter (fun r => negb (resend_expired w r)) (w_rsd w) in
  if (length l =? length (w_rsd w))%nat then w
  else recompute_resend_time (set_w_rsd l w).

(** ** message.c, sending *)

Definition emit (b : obuf) (t : tlv) (w : world) : world := set_w_out (w_out w ++ [(b, t)]) w.

(** interface.c:147-156 update_jitter, 158-162 set_timeout *)
Definition update_jitter (i : iface) (urgent : bool) (w : world) : Z * world :=
  let '(r, w1) := rand w in
  (roughly (Z.min (if_hello_interval i) (if urgent then 100 else 4000)) r, w1).
Definition set_timeout (msecs : Z) (w : world) : timeval * world :=
  let '(r, w1) := rand w in (timeval_add_msec (w_now w) (roughly msecs r), w1).

(** message.c:1437-1545 really_buffer_update, without the encoding (M_Buf.v).
    A v4 update needs an IPv4 address or v4-via-v6 on the interface. *)
Definition really_buffer_update (b : obuf) (i : iface) (id : list Z) (d : dest)
    (seqno metric : Z) (w : world) : world :=
  let is_ss := negb (is_default (d_src d) (d_splen d)) in
  if negb (if_up i) then w
  else if is_ss && flag i IF_RFC6126 then w
  else
    let add := output_filter (c_outfs (w_cfg w)) (Some id) d (if_ifindex i) in
    if add >=? INFINITY then w
    else
      let metric := Z.min (metric + add) INFINITY in
      let v4 := (d_plen d >=? 96) && v4mapped (d_prefix d) in
      if v4 && match if_ipv4 i with None => negb (flag i IF_V4VIAV6) | Some _ => false end then w
      else emit b (TUpdate id d seqno metric (u16 ((if_update_interval i + 5) / 10))) w.

(** FOR_ALL_NEIGHBOURS(neigh) if(neigh->ifp == ifp) on neigh->buf, else ifp->buf *)
Definition buffers (i : iface) (w : world) : list obuf :=
  if flag i IF_UNICAST
  then map (fun n => BNb (n_id n)) (filter (fun n => n_if n =? if_id i) (w_nbs w))
  else [BIf (if_id i)].

(** message.c:1547-1570 really_send_update *)
Definition really_send_update (i : iface) (id : list Z) (d : dest) (seqno metric : Z)
    (w : world) : world :=
  if negb (if_up i) then w
  else fold_left (fun w b => really_buffer_update b i id d seqno metric w) (buffers i w) w.

(** message.h:90-96 struct buffered_update: id and destination *)
Definition bupd := (list Z * dest)%type.

(** message.c:1572-1613 compare_buffered_updates *)
Definition b2z (b : bool) : Z := if b then 1 else 0.
Definition compare_buffered (a b : bupd) : Z :=
  let '(ida, da) := a in
  let '(idb, db) := b in
  let v4a := (d_plen da >=? 96) && v4mapped (d_prefix da) in
  let v4b := (d_plen db >=? 96) && v4mapped (d_prefix db) in
  let ma := negb v4a && (d_plen da =? 128) && beq (firstn 8 (skipn 8 (d_prefix da))) ida in
  let mb := negb v4b && (d_plen db =? 128) && beq (firstn 8 (skipn 8 (d_prefix db))) idb in
  andthen (memcmp ida idb)
  (andthen (zcmp (b2z v4a) (b2z v4b))
  (andthen (zcmp (b2z mb) (b2z ma))
  (andthen (zcmp (d_plen db) (d_plen da))
  (andthen (memcmp (d_prefix da) (d_prefix db))
  (andthen (zcmp (d_splen da) (d_splen db))
           (memcmp (d_src da) (d_src db))))))).

(** qsort, message.c:1659 and xroute.c:486.  Simplification: a fixed sorting
    algorithm (insertion sort). *)
Fixpoint sort_insert {A} (le : A -> A -> bool) (x : A) (l : list A) : list A :=
  match l with
  | [] => [x]
  | y :: l' => if le x y then x :: l else y :: sort_insert le x l'
  end.
Definition sort {A} (le : A -> A -> bool) (l : list A) : list A :=
  fold_right (sort_insert le) [] l.

(** message.c:1650-1657 *)
Definition bupd_of (w : world) (d : dest) : bupd :=
  (match find_installed d w with Some r => k_id (r_src r) | None => c_myid (w_cfg w) end, d).

(** message.c:1661-1722, one pending update; [last] is (last_prefix, ...) *)
Definition flush1 (i : iface) (wl : world * option dest) (b : bupd) : world * option dest :=
  let '(w, last) := wl in
  let d := snd b in
  if match last with Some l => dest_eqb d l | None => false end then (w, last)
  else
    let xr := find_xroute d w in
    let rt := find_installed d w in
    match xr, rt with
    | Some x, None =>
        (really_send_update i (c_myid (w_cfg w)) (x_dest x) (w_seqno w) (x_metric x) w,
         Some (x_dest x))
    | _, Some r =>
        if match xr with Some x => x_metric x <=? c_kernel_metric (w_cfg w) | None => false end
        then
          match xr with
          | Some x =>
              (really_send_update i (c_myid (w_cfg w)) (x_dest x) (w_seqno w) (x_metric x) w,
               Some (x_dest x))
          | None => (w, last)
          end
        else
          let seqno := r_seqno r in
          let metric := route_metric r in
          let w1 := if metric <? INFINITY
                    then satisfy_request (rdest r) seqno (k_id (r_src r)) (Some (if_id i)) w
                    else w in
          match nb_if (r_neigh r) w1 with
          | None => (fault w1, last)
          | Some (_, ri) =>
              if flag i IF_SPLIT_HORIZON && (if_id ri =? if_id i) then (w1, last)
              else
                let w2 := really_send_update i (k_id (r_src r)) (rdest r) seqno metric w1 in
                (set_w_srcs (update_source (sec w2) (r_src r) seqno metric (w_srcs w2)) w2,
                 Some (rdest r))
          end
    | None, None =>
        (really_send_update i (c_myid (w_cfg w)) d (w_seqno w) INFINITY w, last)
    end.

(** message.c:1615-1739 flushupdates on one interface *)
Definition flushupdates (ifp : Z) (w : world) : world :=
  match get_if ifp w with
  | None => fault w
  | Some i =>
      let w1 := map_if ifp (fun x => set_if_pend [] (set_if_bufsize 0 x)) w in
      let w2 :=
        if match if_pend i with [] => true | _ => false end then w
        else if negb (if_up i) then w1
        else
          let b := sort (fun a b => compare_buffered a b <=? 0) (map (bupd_of w1) (if_pend i)) in
          fst (fold_left (flush1 i) b (w1, None)) in
      map_if ifp (set_if_flush_timeout tv0) w2
  end.
(** flushupdates(NULL) *)
Definition flushupdates_all (w : world) : world :=
  fold_left (fun w i => flushupdates i w) (map if_id (w_ifs w)) w.

(** message.c:1741-1750 schedule_update_flush *)
Definition schedule_update_flush (ifp : Z) (urgent : bool) (w : world) : world :=
  match get_if ifp w with
  | None => fault w
  | Some i =>
      let '(msecs, w1) := update_jitter i urgent w in
      if negb (tv_sec (if_flush_timeout i) =? 0) &&
         (timeval_minus_msec (if_flush_timeout i) (w_now w1) <? msecs) then w1
      else
        let '(t, w2) := set_timeout msecs w1 in
        map_if ifp (set_if_flush_timeout t) w2
  end.

(** message.c:1752-1791 buffer_update *)
Definition buffer_update (ifp : Z) (d : dest) (w : world) : world :=
  match get_if ifp w with
  | None => fault w
  | Some i =>
      let n := Z.of_nat (length (if_pend i)) in
      let w1 := if (n >? 0) && (n >=? if_bufsize i) then flushupdates ifp w else w in
      let size := Z.max (Z.of_nat (length (w_rt w1)) + Z.of_nat (length (w_xr w1)) + 4)
                        (if_cap i / 16) in
      map_if ifp (fun x =>
        let x := if if_bufsize x =? 0 then set_if_pend [] (set_if_bufsize size x) else x in
        set_if_pend (if_pend x ++ [d]) x) w1
  end.

(** message.c:1796-1854 send_update with an interface and both prefixes *)
Definition send_update_if (ifp : Z) (urgent : bool) (d : dest) (w : world) : world :=
  match get_if ifp w with
  | None => fault w
  | Some i => if negb (if_up i) then w
              else schedule_update_flush ifp urgent (buffer_update ifp d w)
  end.

(** message.c:1917-1944 send_self_update with an interface *)
Definition send_self_update_if (ifp : Z) (w : world) : world :=
  fold_left (fun w x => send_update_if ifp false (x_dest x) w) (w_xr w) w.

(** route.c:359-401 route_stream(1): the installed routes *)
Definition installed_stream (w : world) : list route :=
  flat_map (fun l => match l with
                     | r :: _ => if r_installed r then [r] else []
                     | [] => [] end) (w_rt w).

(** message.c:1825-1848, 1853: wildcard update; [ss] is false for the standard
    one (prefix == NULL) and true for the specific one (src_prefix == NULL) *)
Definition send_update_wild (ifp : Z) (urgent : bool) (ss : bool) (w : world) : world :=
  match get_if ifp w with
  | None => fault w
  | Some i =>
      if negb (if_up i) then w
      else
        let w1 := send_self_update_if ifp w in
        let w2 := fold_left (fun w r =>
                     let is_ss := negb (is_default (k_src (r_src r)) (k_splen (r_src r))) in
                     if eqb is_ss ss then buffer_update ifp (rdest r) w else w)
                   (installed_stream w1) w1 in
        let '(t, w3) := set_timeout (if_update_interval i) w2 in
        let w4 := map_if ifp (fun x => set_if_last_update (sec w3) (set_if_update_timeout t x)) w3 in
        schedule_update_flush ifp urgent w4
  end.
(** message.c:1849-1853: send_update(ifp, urgent, NULL, 0, NULL, 0) *)
Definition send_update_full (ifp : Z) (urgent : bool) (w : world) : world :=
  match get_if ifp w with
  | None => fault w
  | Some i =>
      if negb (if_up i) then w
      else schedule_update_flush ifp urgent
             (send_update_wild ifp urgent true (send_update_wild ifp urgent false w))
  end.

(** message.c:1801-1815: send_update(NULL, urgent, prefix...) *)
Definition send_update_all (urgent : bool) (d : dest) (w : world) : world :=
  let w1 := fold_left (fun w i => send_update_if i urgent d w) (map if_id (w_ifs w)) w in
  match find_installed d w1 with
  | Some r =>
      if route_metric r <? INFINITY then
        match src_of r w1 with
        | Some s => satisfy_request d (s_seqno s) (k_id (r_src r)) None w1
        | None => fault w1
        end
      else w1
  | None => w1
  end.

(** message.c:1856-1866 send_update_resend(NULL, ...) *)
Definition send_update_resend (d : dest) (w : world) : world :=
  let w1 := send_update_all true d w in
  record_resend RESEND_UPDATE d 0 None None (c_resend_delay (w_cfg w1)) w1.

(** message.c:1885-1908 send_wildcard_retraction with an interface *)
Definition send_wildcard_retraction (ifp : Z) (w : world) : world :=
  match get_if ifp w with
  | None => fault w
  | Some i =>
      if negb (if_up i) then w
      else fold_left (fun w b => emit b (TWildRetract (w_seqno w)) w) (buffers i w) w
  end.

(** message.c:1910-1915 update_myseqno *)
Definition update_myseqno (w : world) : world :=
  set_w_seqno_time (w_now w) (set_w_seqno (seqno_plus (w_seqno w) 1) w).

(** message.c:2062-2109 send_request, without the encoding.  [d] = None is the
    wildcard request; then is_default(NULL, 0) is true (util.h:111-115, plen == 0). *)
Definition send_request (b : obuf) (i : iface) (d : option dest) (w : world) : world :=
  if match d with Some d => negb (is_default (d_src d) (d_splen d)) | None => false end
     && flag i IF_RFC6126 then w
  else emit b (TRequest d) w.

(** message.c:2111-2143 send_multicast_request *)
Definition send_multicast_request_if (d : option dest) (ifp : Z) (w : world) : world :=
  match get_if ifp w with
  | None => fault w
  | Some i =>
      if negb (if_up i) then w
      else
        let w1 := flushupdates ifp w in
        fold_left (fun w b => send_request b i d w) (buffers i w1) w1
  end.
Definition send_multicast_request_all (d : option dest) (w : world) : world :=
  fold_left (fun w i => send_multicast_request_if d i w) (map if_id (w_ifs w)) w.

(** message.c:2145-2156 send_unicast_request *)
Definition send_unicast_request (n : Z) (d : dest) (w : world) : world :=
  match nb_if n w with
  | None => fault w
  | Some (_, i) =>
      if negb (if_up i) then w
      else send_request (BNb n) i (Some d) (flushupdates (if_id i) w)
  end.

(** message.c:2158-2202 send_multihop_request, without the encoding; the hop count
    is written as a byte *)
Definition send_multihop_request (b : obuf) (i : iface) (d : dest) (seqno : Z) (id : list Z)
    (hop : Z) (w : world) : world :=
  if negb (is_default (d_src d) (d_splen d)) && flag i IF_RFC6126 then w
  else emit b (TMhRequest d seqno (u8 hop) id) w.

(** message.c:2204-2245 send_multicast_multihop_request *)
Definition send_multicast_multihop_request_if (d : dest) (seqno : Z) (id : list Z) (hop : Z)
    (ifp : Z) (w : world) : world :=
  match get_if ifp w with
  | None => fault w
  | Some i =>
      let w1 := flushupdates ifp w in
      if negb (if_up i) then w1
      else fold_left (fun w b => send_multihop_request b i d seqno id hop w) (buffers i w1) w1
  end.
Definition send_multicast_multihop_request (ifp : option Z) (d : dest) (seqno : Z) (id : list Z)
    (hop : Z) (w : world) : world :=
  match ifp with
  | Some i => send_multicast_multihop_request_if d seqno id hop i w
  | None =>
      fold_left (fun w i =>
          match get_if i w with
          | Some x => if if_up x then send_multicast_multihop_request_if d seqno id hop i w else w
          | None => fault w
          end) (map if_id (w_ifs w)) w
  end.

(** message.c:2247-2259 send_unicast_multihop_request *)
Definition send_unicast_multihop_request (n : Z) (d : dest) (seqno : Z) (id : list Z) (hop : Z)
    (w : world) : world :=
  match nb_if n w with
  | None => fault w
  | Some (_, i) => send_multihop_request (BNb n) i d seqno id hop (flushupdates (if_id i) w)
  end.

(** resend.c:296-330 do_resend.  The calls made here never add or remove entries,
    so the list is walked by index. *)
Definition do_resend1 (w : world) (k : nat) : world :=
  match nth_error (w_rsd w) k with
  | None => w
  | Some r =>
      if resend_live w r && (timeval_compare (w_now w) (resend_due r) >=? 0) then
        let w1 :=
          if rs_kind r =? RESEND_REQUEST then
            send_multicast_multihop_request (rs_ifp r) (rs_dest r) (rs_seqno r) (rs_id r) 127 w
          else
            match rs_ifp r with
            | Some i => send_update_if i true (rs_dest r) w
            | None => send_update_all true (rs_dest r) w
            end in
        match nth_error (w_rsd w1) k with
        | None => w1
        | Some r1 =>
            set_w_rsd (upd k (set_rs_max (u8 (rs_max r1 - 1))
                               (set_rs_delay (Z.min 65535 (rs_delay r1 * 2)) r1)) (w_rsd w1)) w1
        end
      else w
  end.
Definition do_resend (w : world) : world :=
  recompute_resend_time (fold_left do_resend1 (seq 0 (length (w_rsd w))) w).

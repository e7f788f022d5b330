(** M_Neigh.v: model of neighbour.c (the functions that work on one neighbour)
    and of the RTT code of parse_packet. *)
From Verif Require Import Base M_Util M_Filter M_Source M_Types.

Definition tv0 : timeval := mkTv 0 0.

(** interface.h:74-96 *)
Definition IF_UP : Z := 1.
Definition IF_SPLIT_HORIZON : Z := 4.
Definition IF_LQ : Z := 8.
Definition IF_UNICAST : Z := 32.
Definition IF_TIMESTAMPS : Z := 64.
Definition IF_ACCEPT_BAD_SIGNATURES : Z := 256.
Definition IF_V4VIAV6 : Z := 1024.
Definition flag (i : iface) (f : Z) : bool := negb (Z.land (if_flags i) f =? 0).
(** interface.h:163-167 if_up *)
Definition if_up (i : iface) : bool := flag i IF_UP.

(** neighbour.c:96-115: the neighbour made by find_neighbour.  calloc zeroes the
    rest of the structure. *)
Definition new_hist : hist := mkHist 0 0 (-1) tv0.
Definition new_pc : pcst := mkPc 0 0 None (zeroes 8) tv0 tv0 tv0.
Definition new_neigh (now : timeval) (id : Z) (address : list Z) (ifp : Z) : neigh :=
  mkNeigh id address new_hist new_hist INFINITY now 0 0 tv0 0 tv0 new_pc ifp.

(** neighbour.c:132-197 update_neighbour.  [hello] < 0 means a periodic check.
    Returns the history and rc. *)
Definition update_hist (now : timeval) (h : hist) (hello hello_interval : Z) : hist * bool :=
  if hello <? 0 then
    let missed :=
      if h_interval h >? 0 then
        Z.quot (s32 (timeval_minus_msec now (h_time h)) - h_interval h * 7) (h_interval h * 10)
      else 16 in
    if missed <=? 0 then (h, false)
    else
      (* 149-150, 179-186 *)
      (mkHist (if missed >=? 16 then 0 else Z.shiftr (h_reach h) missed)
              (h_interval h)
              (seqno_plus (u16 (h_seqno h)) missed)
              (timeval_add_msec (h_time h) (missed * h_interval h * 10)), true)
  else
    let '(reach1, missed, rc1) :=
      if (h_seqno h >=? 0) && (h_reach h >? 0) then
        let m := seqno_minus hello (u16 (h_seqno h)) - 1 in
        if m <? -8 then (0, 0, true)
        else if m <? 0 then (u16 (Z.shiftl (h_reach h) (- m)), 0, true)
        else (h_reach h, m, false)
      else (h_reach h, 0, false) in
    let '(t, itv) := if negb (hello_interval =? 0) then (now, hello_interval)
                     else (h_time h, h_interval h) in
    let '(reach2, rc2) :=
      if missed >? 0 then
        ((if missed >=? 16 then 0 else Z.shiftr reach1 missed), true)
      else (reach1, rc1) in
    let reach3 := Z.lor (Z.shiftr reach2 1) 32768 in
    (mkHist reach3 itv hello t,
     rc2 || negb (Z.land reach3 64512 =? 64512)).

(** neighbour.c:199-219 reset_txcost: new neighbour and rc.  [delay] and
    ihu_interval * 30 are compared as unsigned; ihu_interval*10*3 < 2^31. *)
Definition reset_txcost (now : timeval) (n : neigh) : neigh * bool :=
  let delay := timeval_minus_msec now (n_ihu_time n) in
  if (n_ihu_interval n >? 0) && (delay <? n_ihu_interval n * 10 * 3) then (n, false)
  else if (delay >=? 180000) || (Z.land (h_reach (n_hello n)) 65520 =? 0) ||
          ((n_ihu_interval n >? 0) && (delay >=? n_ihu_interval n * 10 * 10))
  then (set_n_ihu_time now (set_n_txcost INFINITY n), true)
  else (n, false).

(** neighbour.c:242-244: the condition for flushing in check_neighbours *)
Definition neigh_dead (now : timeval) (n : neigh) : bool :=
  (h_reach (n_hello n) =? 0) ||
  (tv_sec (h_time (n_hello n)) >? tv_sec now) ||
  (timeval_minus_msec now (h_time (n_hello n)) >? 300000).

(** neighbour.c:236-253, one neighbour: both histories are aged, then the neighbour is
    flushed (None) or its txcost possibly reset; the flag is [changed]. *)
Definition check_neigh1 (now : timeval) (n : neigh) : option (neigh * bool) :=
  let '(h, c1) := update_hist now (n_hello n) (-1) 0 in
  let '(u, c2) := update_hist now (n_uhello n) (-1) 0 in
  let n1 := set_n_uhello u (set_n_hello h n) in
  if neigh_dead now n1 then None
  else let '(n2, c3) := reset_txcost now n1 in Some (n2, c1 || c2 || c3).

(** neighbour.c:256-261: contribution to the next check, in milliseconds *)
Definition check_msecs (n : neigh) (msecs : Z) : Z :=
  let m1 := if h_interval (n_hello n) >? 0 then Z.min msecs (h_interval (n_hello n) * 10) else msecs in
  let m2 := if h_interval (n_uhello n) >? 0 then Z.min m1 (h_interval (n_uhello n) * 10) else m1 in
  if n_ihu_interval n >? 0 then Z.min m2 (n_ihu_interval n * 10) else m2.

(** neighbour.c:269-280 two_three *)
Definition two_three (reach : Z) : bool :=
  if Z.land reach 49152 =? 49152 then true
  else if Z.land reach 49152 =? 0 then false
  else if negb (Z.land reach 8192 =? 0) then true else false.

(** neighbour.c:282-312 neighbour_rxcost.  In line 304 [cost] is converted to
    unsigned and the product wraps modulo 2^32. *)
Definition neighbour_rxcost (now : timeval) (i : iface) (n : neigh) : Z :=
  let reach := h_reach (n_hello n) in
  let ureach := h_reach (n_uhello n) in
  let delay := timeval_minus_msec now (h_time (n_hello n)) in
  let udelay := timeval_minus_msec now (h_time (n_uhello n)) in
  if ((Z.land reach 65520 =? 0) || (delay >=? 180000)) &&
     ((Z.land ureach 65520 =? 0) || (udelay >=? 180000)) then INFINITY
  else if flag i IF_LQ then
    let sreach := Z.shiftr (Z.land reach 32768) 2 + Z.shiftr (Z.land reach 16384) 1 +
                  Z.land reach 16383 in
    let cost := (32768 * if_cost i) / (sreach + 1) in
    let cost := if delay >=? 40000
                then s32 (u32 (u32 (u32 cost * (delay - 20000)) + 10000) / 20000)
                else cost in
    Z.min cost INFINITY
  else if two_three reach || two_three ureach then if_cost i else INFINITY.
(** No signed overflow in lines 296-301. *)
Definition rxcost_safe (i : iface) : bool := int_ok (32768 * if_cost i).

(** neighbour.c:372-376 valid_rtt *)
Definition valid_rtt (now : timeval) (n : neigh) : bool :=
  timeval_minus_msec now (n_rtt_time n) <? 180000.

(** neighbour.c:314-335 neighbour_rttcost; None if the assertion of line 330 fails *)
Definition neighbour_rttcost (now : timeval) (i : iface) (n : neigh) : option Z :=
  if (if_max_rtt_penalty i =? 0) || negb (valid_rtt now n) then Some 0
  else if n_rtt n <=? if_rtt_min i then Some 0
  else if n_rtt n <=? if_rtt_max i then
    let tmp := (if_max_rtt_penalty i * u32 (n_rtt n - if_rtt_min i)) mod 18446744073709551616
               / u32 (if_rtt_max i - if_rtt_min i) in
    if Z.land tmp 2147483647 =? tmp then Some tmp else None
  else Some (if_max_rtt_penalty i).
Definition rttcost (now : timeval) (i : iface) (n : neigh) : Z :=
  match neighbour_rttcost now i n with Some c => c | None => 0 end.

(** neighbour.c:337-370 neighbour_cost (the assertion is [rttcost_ok]) *)
Definition neighbour_cost (now : timeval) (i : iface) (n : neigh) : Z :=
  if negb (if_up i) then INFINITY
  else
    let a := n_txcost n in
    if a >=? INFINITY then INFINITY
    else
      let b := neighbour_rxcost now i n in
      if b >=? INFINITY then INFINITY
      else
        let cost :=
          if negb (flag i IF_LQ) || ((a <? 256) && (b <? 256)) then a
          else Z.shiftr (u32 (u32 (Z.max a 256 * Z.max b 256) + 128)) 8 in
        Z.min (u32 (cost + rttcost now i n)) INFINITY.

(** message.c:1068-1099: RTT update at the end of parse_packet; [t1] and [t2] are
    hello_send_us and hello_rtt_receive_time from the IHU (0 if absent).  Returns
    the neighbour with its rtt (rtt_time is set at the end, line 1102), or None
    when nothing changes.  MAX(0, x) with int arguments is converted to unsigned.
    The assertion of line 1097 holds as the sample is at most 600000000. *)
Definition rtt_sample (n : neigh) (t1 t2 : Z) : option Z :=
  let remote := s32 (n_hello_send_us n - t2) in
  let local := s32 (time_us (n_hello_rtt_time n) - t1) in
  if (remote <? 0) || (local <? 0) || (remote >? 600000000) || (local >? 600000000) then None
  else Some (Z.max 0 (local - remote)).
Definition rtt_update (now : timeval) (i : iface) (n : neigh) (rtt : Z) : Z :=
  if valid_rtt now n then
    let smoothed := u32 (u32 (if_rtt_decay i * rtt) +
                         u32 (u32 (256 - if_rtt_decay i) * n_rtt n)) in
    if n_rtt n >=? rtt then smoothed / 256 else u32 (smoothed + 255) / 256
  else u32 (2 * rtt).

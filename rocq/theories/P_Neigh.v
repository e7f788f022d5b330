(** P_Neigh.v: property theorems C34 to C37. *)
From Verif Require Import Base M_Util S_Util M_Filter M_Source M_Types M_Neigh S_Neigh L_Neigh.

(** C34: after any sequence of Hellos and periodic checks, at any times, a slot of
    the history is marked only if the Hello of that slot was received. *)
Theorem C34_marked_only_if_heard : forall es k, Forall hev_ok es -> 0 <= k < 16 ->
  let h := hrun es new_hist in
  slot_heard h k = true -> heard es ((h_seqno h - k) mod 65536).
Proof. exact heard_bits. Qed.
Print Assumptions C34_marked_only_if_heard.

(** The exact effect of a Hello on a non-empty history: [g] lost Hellos leave
    exactly [g] unmarked slots; a Hello late by [b] rolls the window back; any
    other jump resets the history to that single Hello. *)
Theorem C34_hello_effect : forall now h s i, hist_ok h -> h_reach h > 0 -> seqno_ok s ->
  let h' := fst (update_hist now h s i) in
  h_seqno h' = s /\ 0 <= h_reach h' < 65536 /\ h_reach h' > 0 /\
  (forall g, ahead s (h_seqno h) = g + 1 -> 0 <= g < 16 ->
     forall k, 0 <= k < 16 -> slot_heard h' k =
       if k =? 0 then true else if k <=? g then false else slot_heard h (k - g - 1)) /\
  (forall b, behind s (h_seqno h) = b -> 0 <= b < 8 ->
     forall k, 0 <= k < 16 -> slot_heard h' k =
       if k =? 0 then true else if k + b <? 16 then slot_heard h (k + b) else false) /\
  (17 <= ahead s (h_seqno h) <= 65528 -> h_reach h' = 32768).
Proof. exact hello_step. Qed.
Print Assumptions C34_hello_effect.

(** The first Hello (or the first after silence) gives a history of one. *)
Theorem C34_first_hello : forall now h s i, seqno_ok s -> h_reach h = 0 ->
  h_reach (fst (update_hist now h s i)) = 32768 /\ h_seqno (fst (update_hist now h s i)) = s.
Proof. exact hello_step_first. Qed.
Print Assumptions C34_first_hello.

(** In-order Hellos fill the history. *)
Theorem C34_consecutive_fill : forall es s, consecutive s es -> Forall hev_ok es ->
  forall k, 0 <= k < 16 -> k < Z.of_nat (length es) -> slot_heard (hrun es new_hist) k = true.
Proof. exact consecutive_fill. Qed.
Print Assumptions C34_consecutive_fill.

(** Invariant used above: every reachable history is well formed. *)
Theorem C34_history_wellformed : forall es, Forall hev_ok es -> hist_ok (hrun es new_hist).
Proof. exact (fun es => hrun_ok es new_hist new_hist_ok). Qed.
Print Assumptions C34_history_wellformed.

Definition ex_hellos : list hev :=
  [EvHello (mkTv 100 0) 65534 400; EvHello (mkTv 104 0) 65535 400; EvHello (mkTv 108 0) 0 400;
   EvCheck (mkTv 110 0); EvHello (mkTv 120 0) 3 400].
Example C34_ex : Forall hev_ok ex_hellos /\ h_reach (hrun ex_hellos new_hist) = 39936 /\
  consecutive 65534 (firstn 3 ex_hellos) /\ h_reach (hrun (firstn 3 ex_hellos) new_hist) = 57344.
Proof.
  split; [repeat constructor; simpl; lia|]. split; [vm_compute; reflexivity|].
  split; [repeat constructor|vm_compute; reflexivity].
Qed.

(** C35: the receive cost is a 16-bit number, infinite when both hello streams are dead. *)
Theorem C35_rxcost_range : forall now i n, iface_ok i -> neigh_ok n ->
  0 <= neighbour_rxcost now i n <= INFINITY.
Proof. exact rxcost_range. Qed.
Print Assumptions C35_rxcost_range.

Theorem C35_rxcost_infinite_when_silent : forall now i n, neigh_ok n ->
  stream_dead now (n_hello n) -> stream_dead now (n_uhello n) ->
  neighbour_rxcost now i n = INFINITY.
Proof. exact rxcost_dead. Qed.
Print Assumptions C35_rxcost_infinite_when_silent.

(** Without link quality estimation: the configured cost exactly when a stream is
    alive and two of the last three Hellos of some stream were heard. *)
Theorem C35_rxcost_wired : forall now i n, iface_ok i -> neigh_ok n -> flag i IF_LQ = false ->
  neighbour_rxcost now i n = INFINITY /\
    ((stream_dead now (n_hello n) /\ stream_dead now (n_uhello n)) \/
     (~ heard_two_of_three (n_hello n) /\ ~ heard_two_of_three (n_uhello n))) \/
  neighbour_rxcost now i n = if_cost i /\
    ~ (stream_dead now (n_hello n) /\ stream_dead now (n_uhello n)) /\
    (heard_two_of_three (n_hello n) \/ heard_two_of_three (n_uhello n)).
Proof. exact rxcost_wired. Qed.
Print Assumptions C35_rxcost_wired.

(** With link quality estimation: at least the configured cost, while the last
    Hello is less than 40 s old ... *)
Theorem C35_rxcost_at_least_nominal : forall now i n, iface_ok i -> neigh_ok n ->
  timeval_minus_msec now (h_time (n_hello n)) < 40000 ->
  if_cost i <= neighbour_rxcost now i n.
Proof. exact rxcost_lq. Qed.
Print Assumptions C35_rxcost_at_least_nominal.

(** ... or less than 180 s old, the last Hello was not missed, and the configured
    cost is at most 6710 (then the product in line 304 fits in 32 bits). *)
Theorem C35_rxcost_at_least_nominal_slow : forall now i n, iface_ok i -> neigh_ok n -> tv_ok now ->
  timeval_minus_msec now (h_time (n_hello n)) < 180000 ->
  h_reach (n_hello n) >= 32768 -> if_cost i <= 6710 ->
  if_cost i <= neighbour_rxcost now i n.
Proof. exact rxcost_lq_nowrap. Qed.
Print Assumptions C35_rxcost_at_least_nominal_slow.

(** Finding: in general it is false.  With 30 s hellos, 11 of which were missed, the
    32-bit product of neighbour.c:304 wraps and a nominal cost of 96 becomes 2. *)
Definition ex_lq_if : iface :=
  mkIf 1 3 (IF_UP + IF_LQ) 96 tv0 tv0 tv0 None [] 1500 [] 0 0 30000 120000 42 10000 120000 0.
Definition ex_lq_events : list hev :=
  [EvHello (mkTv 1000 0) 5 3000; EvCheck (mkTv 1360 0)].
Definition ex_lq_neigh : neigh :=
  set_n_hello (hrun ex_lq_events new_hist) (new_neigh (mkTv 1000 0) 1 (llprefix) 1).
Theorem C35_rxcost_at_least_nominal_refuted : exists now i n es,
  iface_ok i /\ neigh_ok n /\ Forall hev_ok es /\ n_hello n = hrun es new_hist /\
  check_neigh1 now n <> None /\
  neighbour_rxcost now i n < if_cost i.
Proof.
  exists (mkTv 1373 211000), ex_lq_if, ex_lq_neigh, ex_lq_events.
  split; [unfold iface_ok; simpl; lia|].
  assert (F : Forall hev_ok ex_lq_events) by (repeat constructor; simpl; lia).
  split; [|split; [exact F|split; [reflexivity|split; [vm_compute; discriminate|vm_compute; reflexivity]]]].
  split; [exact (hrun_ok ex_lq_events new_hist new_hist_ok F)|].
  split; [exact new_hist_ok|]. unfold ex_lq_neigh, tv_ok; simpl; unfold INFINITY; lia.
Qed.
Print Assumptions C35_rxcost_at_least_nominal_refuted.

(** Total cost: the exact unbounded-arithmetic formula, so nothing wraps ... *)
Theorem C35_cost_formula : forall now i n, iface_ok i -> neigh_ok n ->
  neighbour_cost now i n =
    if if_up i && (n_txcost n <? INFINITY) && (neighbour_rxcost now i n <? INFINITY) then
      Z.min INFINITY
       ((if flag i IF_LQ && ((256 <=? n_txcost n) || (256 <=? neighbour_rxcost now i n))
         then (Z.max (n_txcost n) 256 * Z.max (neighbour_rxcost now i n) 256 + 128) / 256
         else n_txcost n) + rttcost now i n)
    else INFINITY.
Proof. exact cost_spec. Qed.
Print Assumptions C35_cost_formula.

(** ... and its bounds: finite only if both directions are alive, and then at least
    the neighbour's announced cost (and, under link quality, our own). *)
Theorem C35_cost_bounds : forall now i n, iface_ok i -> neigh_ok n ->
  0 <= neighbour_cost now i n <= INFINITY /\
  (neighbour_cost now i n < INFINITY ->
   if_up i = true /\ n_txcost n < INFINITY /\ neighbour_rxcost now i n < INFINITY /\
   n_txcost n <= neighbour_cost now i n /\
   (flag i IF_LQ = true -> 256 <= neighbour_rxcost now i n -> neighbour_rxcost now i n <= neighbour_cost now i n)).
Proof. exact cost_range. Qed.
Print Assumptions C35_cost_bounds.

Definition ex_wired_if : iface :=
  mkIf 1 3 IF_UP 96 tv0 tv0 tv0 None [] 1500 [] 0 0 4000 16000 42 10000 120000 96.
Definition ex_neigh : neigh :=
  set_n_rtt 65000 (set_n_rtt_time (mkTv 119 0) (set_n_txcost 96
    (set_n_hello (hrun (firstn 3 ex_hellos) new_hist) (new_neigh (mkTv 100 0) 1 llprefix 1)))).
Example C35_ex : iface_ok ex_wired_if /\ neigh_ok ex_neigh /\
  neighbour_cost (mkTv 120 0) ex_wired_if ex_neigh = 144.
Proof.
  split; [unfold iface_ok; simpl; lia|]. split; [|vm_compute; reflexivity].
  split; [apply (hrun_ok _ new_hist new_hist_ok); repeat constructor; simpl; lia|].
  split; [exact new_hist_ok|]. unfold tv_ok; simpl; lia.
Qed.

(** C36: the smoothed RTT lies between the old value and the sample, and moves,
    for values below 16.7 s ... *)
Theorem C36_rtt_is_an_average : forall now i n rtt, iface_ok i -> valid_rtt now n = true ->
  0 <= n_rtt n <= 16777214 -> 0 <= rtt <= 16777214 ->
  let r' := rtt_update now i n rtt in
  Z.min (n_rtt n) rtt <= r' <= Z.max (n_rtt n) rtt /\
  (n_rtt n <> rtt -> r' <> n_rtt n).
Proof. exact rtt_avg. Qed.
Print Assumptions C36_rtt_is_an_average.

(** ... but not for larger ones, which pass the 10 minutes sanity check: the 32-bit
    weighted sum wraps (message.c:1089-1090). *)
Theorem C36_rtt_is_an_average_refuted : exists now i n t1 t2 rtt,
  iface_ok i /\ neigh_ok n /\ valid_rtt now n = true /\ rtt_sample n t1 t2 = Some rtt /\
  n_rtt n = rtt /\ rtt_update now i n rtt < rtt.
Proof.
  exists (mkTv 120 0), ex_wired_if,
    (set_n_rtt 17000000 (set_n_hello_rtt_time (mkTv 120 0) (set_n_hello_send_us 1000 ex_neigh))),
    103000000, 1000, 17000000.
  split; [unfold iface_ok; simpl; lia|]. split.
  { destruct C35_ex as (_ & (A & B & C & D & E & F & G) & _).
    split; [exact A|]. split; [exact B|]. split; [exact C|]. split; [exact D|].
    split; [exact E|]. split; [simpl; lia|exact G]. }
  split; [vm_compute; reflexivity|]. split; [vm_compute; reflexivity|].
  split; vm_compute; reflexivity.
Qed.
Print Assumptions C36_rtt_is_an_average_refuted.

(** The penalty is the documented piecewise linear function (in particular the
    assertion in the code never fails) ... *)
Theorem C36_rtt_penalty : forall now i n, iface_ok i -> neigh_ok n ->
  neighbour_rttcost now i n = Some (if valid_rtt now n then
    rtt_penalty_spec (if_max_rtt_penalty i) (if_rtt_min i) (if_rtt_max i) (n_rtt n) else 0).
Proof. exact rttcost_spec. Qed.
Print Assumptions C36_rtt_penalty.

(** ... which is monotone and capped. *)
Theorem C36_penalty_monotone : forall pen mn mx r1 r2, 0 <= pen -> mn < mx -> r1 <= r2 ->
  rtt_penalty_spec pen mn mx r1 <= rtt_penalty_spec pen mn mx r2.
Proof. exact rtt_penalty_mono. Qed.
Print Assumptions C36_penalty_monotone.
Theorem C36_penalty_capped : forall pen mn mx rtt, 0 <= pen -> mn < mx ->
  0 <= rtt_penalty_spec pen mn mx rtt <= pen.
Proof. exact rtt_penalty_range. Qed.
Print Assumptions C36_penalty_capped.

(** A sample is used iff both waiting times, read as signed 32-bit differences, are
    within 0 .. 10 minutes. *)
Theorem C36_sample_iff_consistent : forall n t1 t2 rtt,
  rtt_sample n t1 t2 = Some rtt <->
  (0 <= s32 (n_hello_send_us n - t2) <= 600000000 /\
   0 <= s32 (time_us (n_hello_rtt_time n) - t1) <= 600000000 /\
   rtt = Z.max 0 (s32 (time_us (n_hello_rtt_time n) - t1) - s32 (n_hello_send_us n - t2))).
Proof. exact rtt_sample_iff. Qed.
Print Assumptions C36_sample_iff_consistent.

Example C36_ex : rtt_update (mkTv 120 0) ex_wired_if ex_neigh 30000 = 59257 /\
  rtt_sample (set_n_hello_rtt_time (mkTv 120 0) (set_n_hello_send_us 4000 ex_neigh)) 119990000 1000 = Some 7000.
Proof. split; vm_compute; reflexivity. Qed.

(** C37: a neighbour whose Hellos stopped is flushed by the first check made 16.7
    announced intervals after the last one, whatever checks ran in between. *)
Theorem C37_silent_neighbour_flushed : forall es now n, neigh_ok n -> tv_ok now -> silent es ->
  h_interval (n_hello n) > 0 ->
  us now - us (h_time (n_hello n)) >= 167000 * h_interval (n_hello n) + 1000 ->
  check_neigh1 now (set_n_hello (hrun es (n_hello n)) n) = None.
Proof. exact silent_flushed. Qed.
Print Assumptions C37_silent_neighbour_flushed.

(** A neighbour whose latest Hello is less than 1.7 intervals (and 300 s) old is kept. *)
Theorem C37_live_neighbour_kept : forall now n, neigh_ok n -> tv_ok now ->
  slot_heard (n_hello n) 0 = true -> h_interval (n_hello n) > 0 ->
  tv_sec (h_time (n_hello n)) <= tv_sec now ->
  us now - us (h_time (n_hello n)) < 17000 * h_interval (n_hello n) - 1000 ->
  us now - us (h_time (n_hello n)) < 299999000 ->
  exists n' c, check_neigh1 now n = Some (n', c) /\ n_hello n' = n_hello n.
Proof. exact live_kept. Qed.
Print Assumptions C37_live_neighbour_kept.

(** The transmit cost becomes infinite at the first check 10 announced IHU intervals
    after the last IHU (180 s if no interval was announced), and is kept within 3. *)
Theorem C37_txcost_expires : forall now n n' c, neigh_ok n -> tv_ok now ->
  (0 < n_ihu_interval n /\ us now - us (n_ihu_time n) >= 100000 * n_ihu_interval n + 1000 \/
   n_ihu_interval n = 0 /\ us now - us (n_ihu_time n) >= 180001000) ->
  check_neigh1 now n = Some (n', c) -> n_txcost n' = INFINITY.
Proof. exact txcost_reset. Qed.
Print Assumptions C37_txcost_expires.
Theorem C37_txcost_kept : forall now n n' c, neigh_ok n -> tv_ok now ->
  us now - us (n_ihu_time n) < 30000 * n_ihu_interval n - 1000 ->
  n_ihu_interval n > 0 ->
  check_neigh1 now n = Some (n', c) -> n_txcost n' = n_txcost n.
Proof. exact txcost_kept. Qed.
Print Assumptions C37_txcost_kept.

Example C37_ex : neigh_ok ex_neigh /\ h_interval (n_hello ex_neigh) = 400 /\
  silent [EvCheck (mkTv 130 0); EvCheck (mkTv 150 0)] /\
  us (mkTv 180 0) - us (h_time (n_hello ex_neigh)) >= 167000 * 400 + 1000 /\
  check_neigh1 (mkTv 112 0) ex_neigh <> None.
Proof.
  split; [apply C35_ex|]. split; [reflexivity|].
  split; [repeat constructor; unfold tv_ok; simpl; lia|].
  split; [vm_compute; discriminate|vm_compute; discriminate].
Qed.

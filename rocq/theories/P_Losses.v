(** P_Losses.v: C83, a link survives the loss of Hellos and IHUs. *)
From Verif Require Import Base M_Util S_Util M_Filter M_Source M_Types M_Neigh S_Neigh L_Util L_Neigh
  M_Link S_Link L_Link L_Link2.

(** The receiver.  A new neighbour whose hello interval is [H] ms (at most 66 s) sends a
    Hello at most [G] thousandths of that after the other, which arrive within [D] thousandths, where
    2G + D <= 2.7 intervals; of any three Hellos in a row at most one is lost.  Then,
    whenever the periodic check runs or the cost is asked for, the neighbour is never
    flushed; from the second Hello heard on the receiving cost of a wired interface is the
    configured one; and the transmission cost is the one of the last IHU heard, if an IHU
    is heard at least every 5 Hellos, or every 20 if the interval is at most 6.3 s. *)
Theorem C83_link_kept : forall G D H M now es clk last sq s t n i,
  1000 <= G -> 0 <= D -> 2 * G + D <= 2700 -> 1 <= H <= 66000 ->
  (0 <= M <= 5 \/ 0 <= M <= 20 /\ H <= 6300) ->
  neigh_ok n -> h_reach (n_hello n) = 0 -> seqno_ok sq -> iface_ok i -> flag i IF_LQ = false ->
  flows G D H clk last ((Got s t :: es) ++ [Chk now]) -> sparse 0 (Got s t :: es) ->
  often M None (Got s t :: es) ->
  exists n', lrun H (Got s t :: es) sq n = Some n' /\
    link_check now n' <> None /\
    (2 <= hellos (Got s t :: es) -> neighbour_rxcost now i n' = if_cost i) /\
    (forall c, last_ihu None (Got s t :: es) = Some c -> n_txcost n' = c) /\
    (* so the link has the cost announced by the neighbour *)
    (forall c, 2 <= hellos (Got s t :: es) -> last_ihu None (Got s t :: es) = Some c -> c < INFINITY ->
       if_up i = true -> if_cost i < INFINITY -> if_max_rtt_penalty i = 0 -> neighbour_cost now i n' = c).
Proof.
  intros G D H M now es clk last sq s t n i HG HD HGD HH HM Nok R Hsq Hi Lq F Sp Of.
  destruct (link_kept G D H M HG HD HGD HH HM now es clk last sq s t n i Nok R Hsq Hi Lq F Sp Of)
    as (n' & A1 & A2 & A3 & A4 & A5).
  exists n'. split; auto. split; auto. split; auto. split; auto.
  intros c Hh Hc Hlt Up Ic Pen. unfold neighbour_cost. rewrite Up. cbn [negb].
  rewrite (A5 c Hc), (A4 Hh), Lq. cbn [negb orb].
  replace (c >=? INFINITY) with false by lia. replace (if_cost i >=? INFINITY) with false by lia.
  assert (E : rttcost now i n' = 0) by (unfold rttcost, neighbour_rttcost; rewrite Pen; reflexivity).
  rewrite E, Z.add_0_r. pose proof (A5 c Hc) as Ec. destruct A2 as (_ & _ & Tx & _). rewrite Ec in Tx.
  unfold u32, INFINITY in *. rewrite Z.mod_small by lia. lia.
Qed.
Print Assumptions C83_link_kept.

(** The sender.  On an interface without timestamps, or speaking RFC 6126, or that sends
    everything by unicast: Hellos are numbered one by one and announce the hello interval,
    and a neighbour that is there all the time gets an IHU after every third Hello at the
    latest, before the next one -- whatever else is asked for and sent in between. *)
Theorem C83_every_third : forall es k nb,
  (k_ts k = false \/ k_rfc k = true \/ k_unicast k = true) ->
  0 < k_H k -> seqno_ok (k_seq k) -> Forall (there nb) es ->
  numbered ((k_seq k + 1) mod 65536) (hello_announced (k_H k)) (snd (krun es k)) /\
  waits nb 0 (snd (krun es k)).
Proof.
  intros es k nb Q HH Hs F. split.
  - apply in_order; auto.
  - apply every_third; auto. split; [lia|]. apply Z.mod_pos_bound; lia.
Qed.
Print Assumptions C83_every_third.

(** On any interface: a scheduled Hello goes out the first time the main loop runs at or
    after its time, not before; the next one is due 0.75 to 1.25 intervals later, and
    nothing else moves that. *)
Theorem C83_on_time : forall k e, 2 <= k_H k -> tv_ok (k_timeout k) -> kev_ok e ->
  let '(k', o) := kstep e k in
  k_H k' = k_H k /\ tv_ok (k_timeout k') /\
  match e with
  | KLoop now r f ps =>
      if us (k_timeout k) <=? us now then
        (exists o', o = OHello ((k_seq k + 1) mod 65536) (hello_announced (k_H k)) :: o') /\
        us now + 750 * (k_H k - 1) <= us (k_timeout k') < us now + 1250 * k_H k
      else k' = k /\ o = []
  | _ => k_timeout k' = k_timeout k
  end.
Proof.
  intros k e HH Ht He. destruct e as [now r f ps|now r f p|]; cbn [kstep kev_ok] in *.
  - destruct He as [Hn Hr]. rewrite compare_us by auto.
    destruct (us (k_timeout k) <=? us now); [|auto].
    destruct (hello_clock now r f ps k ltac:(lia)) as (A1 & A2 & A3).
    rewrite (surjective_pairing (hello now r f ps k)). rewrite A1, A2.
    pose proof (roughly_bounds (k_H k) r Hr HH) as B.
    destruct (timeval_add_msec_us now (roughly (k_H k) r) Hn ltac:(lia)) as [T1 T2].
    rewrite T2. split; auto. split; auto. split; [exact A3|lia].
  - rewrite (surjective_pairing (ihu now r f p k)). destruct (ihu_clock now r f p k) as [A1 A2].
    rewrite A1, A2. auto.
  - cbn [k_H k_timeout]. auto.
Qed.
Print Assumptions C83_on_time.

(** With timestamps the IHUs of one neighbour can starve those of another one: each IHU
    sent in answer to a request takes a Hello of its own, which counts.  Neighbour 2 is
    there all the time, up to 21845 Hellos are sent on schedule (a day of them), not one
    IHU for it. *)
Theorem C83_starved_refuted : forall n : nat, Z.of_nat n <= 21845 ->
  exists k es, seqno_ok (k_seq k) /\ 0 < k_H k /\ Forall (there 2) es /\ Forall kev_ok es /\
    length (filter (fun x => match x with OHello _ v => v >? 0 | _ => false end) (snd (krun es k))) = n /\
    (forall c v, ~ In (OIhu 2 c v) (snd (krun es k))).
Proof.
  intros n Hn. exists (kst (3 * 0) 0 false), (rounds n 10).
  destruct (starved n 0 10 0 ltac:(lia) ltac:(lia) ltac:(lia)) as [A B].
  destruct (rounds_there n 10) as [C1 C2].
  split; [unfold seqno_ok; cbn; lia|]. split; [cbn; lia|]. split; auto. split; auto. split; [exact A|].
  intros c v Hin. assert (T : existsb (for_nb 2) (snd (krun (rounds n 10) (kst (3 * 0) 0 false))) = true).
  { apply existsb_exists. exists (OIhu 2 c v). split; auto. }
  rewrite B in T. discriminate.
Qed.
Print Assumptions C83_starved_refuted.

Definition ex_n : neigh := new_neigh (mkTv 100 0) 1 (repeat 0 16) 1.
Definition ex_i : iface := mkIf 1 1 1 96 tv0 tv0 tv0 None [] 0 [] 0 0 4000 16000 42 10000 120000 0.
Fixpoint steady (n : nat) (t p : Z) : list lev :=
  match n with O => [] | S n => Got (t * 1000000) (mkTv t 0) :: steady n (t + p) p end.

(** The bound on the interval is needed: with 150 s, 12 Hellos heard, none lost, the link
    is unusable (187 s after the last Hello, 0.5 s before the next one). *)
Theorem C83_long_refuted :
  let es := steady 12 1000 187 in
  let now := mkTv 3243 500000 in
  flows 1250 100 150000 999000000 999000000 (es ++ [Chk now]) /\ sparse 0 es /\ often 5 None es /\
  hellos es = 12 /\
  exists n', lrun 150000 es 17 ex_n = Some n' /\ neighbour_rxcost now ex_i n' = INFINITY.
Proof.
  cbv zeta. split; [repeat split; vm_compute; first [reflexivity|discriminate|exact Logic.I]|]. split; [cbn; auto|]. split; [cbn; auto|]. split; [reflexivity|].
  exists (match lrun 150000 (steady 12 1000 187) 17 ex_n with Some n => n | None => ex_n end).
  split; vm_compute; reflexivity.
Qed.
Print Assumptions C83_long_refuted.

(** Two Hellos of three lost are too many: the cost is infinite at once. *)
Definition ex_two : list lev := steady 4 100 4 ++ [Lost 116000000; Lost 120000000; Got 124000000 (mkTv 124 0)].
Theorem C83_two_lost_refuted :
  exists es now n', flows 1250 200 4000 99000000 99000000 (es ++ [Chk now]) /\ hellos es = 5 /\
    lrun 4000 es 17 ex_n = Some n' /\ neighbour_rxcost now ex_i n' = INFINITY.
Proof.
  exists ex_two, (mkTv 125 0), (match lrun 4000 ex_two 17 ex_n with Some n => n | None => ex_n end). split; [repeat split; vm_compute; first [reflexivity|discriminate|exact Logic.I]|]. split; [reflexivity|]. split; vm_compute; reflexivity.
Qed.
Print Assumptions C83_two_lost_refuted.

(** A case: intervals of 4 s, seven Hellos sent of which the third and the sixth are lost,
    the periodic check running all the while; the sequence number wraps. *)
Definition ex_es : list lev :=
  [Got 100000000 (mkTv 100 100000); Ihu (mkTv 100 100000) 96; Chk (mkTv 103 0);
   Got 105000000 (mkTv 105 700000); Chk (mkTv 106 0); Chk (mkTv 109 0); Lost 110000000; Chk (mkTv 112 500000);
   Chk (mkTv 114 900000); Got 115000000 (mkTv 115 1000); Chk (mkTv 120 0); Got 120000000 (mkTv 120 0);
   Lost 125000000; Chk (mkTv 127 500000); Chk (mkTv 130 0); Got 130000000 (mkTv 130 0)].
Example C83_example : exists n',
  flows 1250 200 4000 99000000 99000000 (ex_es ++ [Chk (mkTv 135 0)]) /\ sparse 0 ex_es /\ often 20 None ex_es /\
  lrun 4000 ex_es 65533 ex_n = Some n' /\ neighbour_cost (mkTv 135 0) ex_i n' = 96 /\
  h_seqno (n_hello n') = 3 /\ h_reach (n_hello n') = 46592 (* heard, lost, heard, heard, lost, heard, heard *).
Proof.
  exists (match lrun 4000 ex_es 65533 ex_n with Some n => n | None => ex_n end). split; [repeat split; vm_compute; first [reflexivity|discriminate|exact Logic.I]|]. split; [cbn; lia|]. split; [cbn; lia|].
  split; [vm_compute; reflexivity|]. split; [vm_compute; reflexivity|]. split; vm_compute; reflexivity.
Qed.
(** A sender with two neighbours, one marginal, across the wrap of its numbers. *)
Example C83_sender :
  snd (krun [KLoop (mkTv 10 0) 0 [] [p1; mkPeer 2 96 true false false]; KSent; KAsk (mkTv 11 0) 0 false p1;
             KLoop (mkTv 12 0) 0 [] [p1; p2]; KLoop (mkTv 13 0) 5 [] [p1; p2]; KLoop (mkTv 17 0) 5 [] [p1; p2]]
        (mkLink false false false 4000 65533 (mkTv 9 0) false)) =
  [OHello 65534 400; OIhu 2 96 1200; OIhu 1 96 1200; OHello 65535 400; OIhu 1 96 1200; OIhu 2 96 1200;
   OHello 0 400; OIhu 1 96 1200; OIhu 2 96 1200].
Proof. vm_compute. reflexivity. Qed.

(** What is announced, in hundredths of a second, covers the interval [H] (in milliseconds)
    of the Hellos and thrice that for the IHUs, and by less than a hundredth too much: up
    to 218.45 s for the IHUs, up to 655.35 s (the longest the parser accepts) for Hellos. *)
Theorem C83_announced : forall H,
  (1 <= H <= 655350 -> H <= 10 * hello_announced H < H + 10 /\ 1 <= hello_announced H < 65536) /\
  (1 <= H <= 218450 -> 3 * H <= 10 * ihu_announced H < 3 * H + 10 /\ 1 <= ihu_announced H < 65536).
Proof.
  intros H. unfold hello_announced, ihu_announced, u16. split; intros HH.
  - pose proof (Z_div_mod_eq_full (H + 9) 10). pose proof (Z.mod_pos_bound (H + 9) 10 ltac:(lia)). lia.
  - pose proof (Z_div_mod_eq_full (3 * H + 9) 10). pose proof (Z.mod_pos_bound (3 * H + 9) 10 ltac:(lia)).
    rewrite Z.mod_small by lia. lia.
Qed.
Print Assumptions C83_announced.

Example C83_announced_4s : hello_announced 4000 = 400 /\ ihu_announced 4000 = 1200.
Proof. split; reflexivity. Qed.

(** Beyond, the interval announced in IHUs wraps: a hello interval of 300 s announces IHUs
    every 244.64 s instead of every 900 s, and one of 218.452 s every 0 s. *)
Theorem C83_ihu_wrap_refuted :
  (exists H, 1 <= H <= 655350 /\ ihu_announced H = 0) /\
  (forall H, 218451 <= H <= 655350 -> 10 * ihu_announced H < 3 * H).
Proof.
  split.
  - exists 218452. split; [lia|reflexivity].
  - intros H HH. unfold ihu_announced, u16. pose proof (Z.mod_pos_bound ((3 * H + 9) / 10) 65536 ltac:(lia)).
    assert (65536 <= (3 * H + 9) / 10) by (apply Z.div_le_lower_bound; lia).
    pose proof (Z_div_mod_eq_full (3 * H + 9) 10). pose proof (Z.mod_pos_bound (3 * H + 9) 10 ltac:(lia)).
    pose proof (Z_div_mod_eq_full ((3 * H + 9) / 10) 65536). nia.
Qed.
Print Assumptions C83_ihu_wrap_refuted.

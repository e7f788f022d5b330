(** P_Buf.v: what is sent: C03 (acknowledgements), C09, C10, C11, C12 (sender), C62. *)
From Verif Require Import Base M_Util S_Util M_Filter M_Types M_Wire S_Wire L_Wire L_Wire2 M_Auth M_Buf S_Buf L_Buf L_Buf2 L_Buf4 L_Buf5 L_Buf6 L_Buf7 L_Buf8.

Definition x_ll : list Z := [254;128;0;0;0;0;0;0;2;0;0;0;0;0;0;1].
Definition x_peer : list Z := [254;128;0;0;0;0;0;0;2;0;0;0;0;0;0;2].
Definition x_mac (k : unit) (m : list Z) : option (list Z) := Some (be32 (Z.of_nat (length m)) ++ zeroes 28).
(** The peer, and an interface with an mtu of 512, MTU probing and timestamps *)
Definition x_c : rctx := mkR x_ll [x_peer] true.
Definition x_v (k : option unit) : benv unit := mkEnv 460 500 true true true k [26;41] (firstn 16 ([255;2] ++ zeroes 11 ++ [1;0;6])).
Definition x_s : est := mkE [] (-1) None None None (mkTv 0 0) 0 (zeroes 8) 65534 (Some [10;0;0;1]) [x_ll] None
  (mkTv 100 0) [mkTv 101 5; mkTv 102 7] [1; 2; 3; 4; 5; 6; 7; 8; 9] [Some (be32 7 ++ be32 9)] [] false.
Definition x_p4 : dest := mkDest (zeroes 10 ++ [255;255;10;1;0;0]) 112 (zeroes 10 ++ [255;255;0;0;0;0]) 96.
Definition x_p6 : dest := mkDest ([32;1;13;184;0;1] ++ zeroes 10) 48 (zeroes 16) 0.
Definition x_p7 : dest := mkDest ([32;1;13;184;0;1;0;2] ++ zeroes 8) 64 ([32;1;13;184] ++ zeroes 12) 32.
Definition x_id : list Z := [1;2;3;4;5;6;7;8].
Definition x_ops : list bop :=
  [BHello false 400 true; BIhu 96 1200 x_peer (Some (17, 18)); BUpdate x_id x_p6 5 100 1600; BUpdate x_id x_p7 6 200 1600;
   BUpdate x_id x_p4 7 300 1600; BAck 77 100; BIpv4 None; BUpdate x_id x_p4 8 65535 1600; BWild 9; BRequest (Some x_p7); BRequest None;
   BMhRequest x_p4 3 63 x_id; BHello false 400 false; BHello false 400 true; BChallenge x_id; BReply (zeroes 20)].

Lemma x_bytes : forall l, forallb (fun x => (0 <=? x) && (x <=? 255)) l = true -> bytes_ok l.
Proof. intros l H. rewrite forallb_forall in H. apply Forall_forall. intros x X. specialize (H x X). unfold byte_ok. lia. Qed.
Lemma x_dest4 : dest_wire x_p4.
Proof. split; [split; (split; [split; [reflexivity|apply x_bytes; reflexivity]|split; [cbn; lia|vm_compute; reflexivity]])|]. vm_compute. split; [auto|discriminate]. Qed.
Lemma x_dest6 : dest_wire x_p6.
Proof. split; [split; (split; [split; [reflexivity|apply x_bytes; reflexivity]|split; [cbn; lia|vm_compute; reflexivity]])|]. vm_compute. intros [X _]. discriminate. Qed.
Lemma x_dest7 : dest_wire x_p7.
Proof. split; [split; (split; [split; [reflexivity|apply x_bytes; reflexivity]|split; [cbn; lia|vm_compute; reflexivity]])|]. vm_compute. intros [X _]. discriminate. Qed.
Lemma x_ops_ok : forall b, Forall (op_ok b) x_ops.
Proof.
  intros b. pose proof x_dest4. pose proof x_dest6. pose proof x_dest7.
  assert (Bi : length x_id = 8%nat /\ bytes_ok x_id) by (split; [reflexivity|apply x_bytes; reflexivity]).
  assert (Bp : addr_ok x_peer) by (split; [reflexivity|apply x_bytes; reflexivity]).
  destruct Bi as [Bi1 Bi2]. assert (Zr : Z.of_nat (length (zeroes 20)) <= 192 /\ bytes_ok (zeroes 20)) by (split; [cbn; lia|apply x_bytes; reflexivity]).
  unfold x_ops. repeat (apply Forall_cons; [cbn [op_ok]; repeat match goal with |- _ /\ _ => split end; try assumption; try apply Zr; try exact Logic.I; try discriminate; try lia|]).
  constructor.
Qed.
Lemma x_env_ok : forall k, env_ok unit x_mac (x_v k).
Proof.
  intros k. split; [cbn; lia|]. intros _ k' m. eexists. split; [reflexivity|]. split; [reflexivity|].
  apply bytes_ok_app. split; [apply be32_ok|apply bytes_ok_zeroes].
Qed.
Lemma x_start : forall k, start_ok unit (x_v k) x_s.
Proof.
  intros k. repeat split; try (apply x_bytes; reflexivity); try discriminate. constructor; [split; [reflexivity|apply x_bytes; reflexivity]|constructor].
Qed.
Lemma x_from : addr_ok (r_from x_c).
Proof. split; [reflexivity|apply x_bytes; reflexivity]. Qed.

Lemma is_update_untimed : forall l, filter is_update (untimed l) = filter is_update l.
Proof. induction l as [|a l IH]; [auto|]. unfold untimed in *. destruct a; cbn; rewrite ?IH; auto. Qed.
Lemma not_hello_update : forall l, filter is_update (filter (fun a => negb (is_hello a)) l) = filter is_update l.
Proof. induction l as [|a l IH]; [auto|]. destruct a; cbn; rewrite ?IH; auto. Qed.

Lemma flushed : forall key mac v c s l, env_ok key mac v -> addr_ok (r_from c) -> linklocal (r_from c) = true -> start_ok key v s ->
  Forall (op_ok (has_key v)) l -> let s' := bsteps key mac v s (l ++ [BFlush]) in
  binv key v c (own_of s) s' (all_wanted key mac c v s l) (flat_map raw_wanted l) /\ fresh s'.
Proof.
  intros key mac v c s l V A L St O. cbv zeta. pose proof (history key mac v c V A L s l St O) as B.
  unfold bsteps in *. rewrite fold_left_app. cbn [fold_left bstep].
  destruct (flush_ok key mac v c V A L (own_of s) _ _ _ B) as (B1 & F & _). auto.
Qed.

(** ** C09: every sequence of announcements, with requests, Hellos and anything else in
    between, is decoded to the same announcements. *)
Theorem C09_updates : forall key mac v c s l,
  env_ok key mac v -> addr_ok (r_from c) -> linklocal (r_from c) = true -> start_ok key v s ->
  Forall (op_ok (has_key v)) l ->
  filter is_update (decoded c (e_sent (bsteps key mac v s (l ++ [BFlush])))) =
  filter is_update (others_wanted c (v_46 v) (e_ipv4 s) l).
Proof.
  intros key mac v c s l V A L St O. destruct (flushed key mac v c s l V A L St O) as [B F].
  destruct (drained key v c _ _ _ _ B F) as (_ & D & _).
  rewrite <- (plain_ok key mac v c l s), <- D, not_hello_update, is_update_untimed. reflexivity.
Qed.
Print Assumptions C09_updates.
Example C09_ex : filter is_update (decoded x_c (e_sent (bsteps unit x_mac (x_v (Some tt)) x_s (x_ops ++ [BFlush])))) =
  [AUpdate (Some x_id) x_p6 5 100 1600 (Some x_ll); AUpdate (Some x_id) x_p7 6 200 1600 (Some x_ll);
   AUpdate (Some x_id) x_p4 7 300 1600 (Some (zeroes 10 ++ [255;255;10;0;0;1])); AUpdate (Some x_id) x_p4 8 65535 1600 (Some x_ll); AWithdraw].
Proof.
  rewrite (C09_updates unit x_mac (x_v (Some tt)) x_c x_s x_ops (x_env_ok _) x_from eq_refl (x_start _) (x_ops_ok _)). vm_compute. reflexivity.
Qed.

(** ** C10: the same for all messages.  Hellos are numbered consecutively, each that is
    forced is sent, and the others may be. *)
Theorem C10_messages : forall key mac v c s l,
  env_ok key mac v -> addr_ok (r_from c) -> linklocal (r_from c) = true -> start_ok key v s ->
  Forall (op_ok (has_key v)) l ->
  let out := e_sent (bsteps key mac v s (l ++ [BFlush])) in
  let got := untimed (decoded c out) in
  Forall (fun pkt => exists a, parse_packet c pkt = Ret a) out /\
  filter (fun a => negb (is_hello a)) got = others_wanted c (v_46 v) (e_ipv4 s) l /\
  got = all_wanted key mac c v s l /\
  (map hello_no (filter is_hello got) =
     map (fun k => (e_hseq s + Z.of_nat k) mod 65536) (seq 1 (length (filter is_hello got))) /\
   (length (filter forced l) <= length (filter is_hello got) <= length (filter asked l))%nat) /\
  exists fss, Forall2 (fun pkt fs => frames (body pkt) fs true) out fss /\
    filter is_raw (concat fss) = flat_map raw_wanted l.
Proof.
  intros key mac v c s l V A L St O. destruct (flushed key mac v c s l V A L St O) as [B F]. cbv zeta.
  destruct (drained key v c _ _ _ _ B F) as (P & D & R). split; [exact P|]. fold (decoded c) in D. unfold decoded. rewrite D.
  split; [apply plain_ok|]. split; [auto|]. split; [apply hello_seq|exact R].
Qed.
Print Assumptions C10_messages.
Example C10_ex : decoded x_c (e_sent (bsteps unit x_mac (x_v (Some tt)) x_s (x_ops ++ [BFlush]))) =
  [AHello false 65535 400 (Some 101000005); AIhu 96 1200; AUpdate (Some x_id) x_p6 5 100 1600 (Some x_ll);
   AUpdate (Some x_id) x_p7 6 200 1600 (Some x_ll); AUpdate (Some x_id) x_p4 7 300 1600 (Some (zeroes 10 ++ [255;255;10;0;0;1]));
   AUpdate (Some x_id) x_p4 8 65535 1600 (Some x_ll); AWithdraw; ARequest (Some x_p7); ARequest None; ASeqno x_p4 63 3 x_id; ARtt 17 18;
   AHello false 0 400 (Some 102000007)] /\ length (e_sent (bsteps unit x_mac (x_v (Some tt)) x_s (x_ops ++ [BFlush]))) = 2%nat.
Proof. vm_compute. auto. Qed.

(** ** C11: bounds *)
Theorem C11_bounds : forall key mac v s l,
  env_ok key mac v -> start_ok key v s -> Forall (op_ok (has_key v)) l ->
  let s' := bsteps key mac v s l in
  e_bad s' = false /\ zlen (e_buf s') <= v_size v /\ Forall (fun pkt => zlen pkt <= 4 + v_size v) (e_sent s').
Proof.
  intros key mac v s l V St O.
  pose proof (history key mac v x_c V x_from eq_refl s l St O) as B. exact (not_bad key v x_c _ _ _ _ B).
Qed.
Print Assumptions C11_bounds.
Example C11_ex : map zlen (e_sent (bsteps unit x_mac (x_v (Some tt)) x_s (x_ops ++ [BFlush]))) = [464; 464].
Proof. vm_compute. reflexivity. Qed.

(** With MTU probing, a datagram of the interface's own (multicast) buffer which
    carries a Hello has exactly the size of the buffer. *)
Theorem C11_padded : forall key mac v s l,
  env_ok key mac v -> start_ok key v s -> Forall (op_ok (has_key v)) l -> e_mc s = None -> v_probe v = true ->
  Forall (fun pkt => forall fs, frames (body pkt) fs true -> In MESSAGE_HELLO (map fst fs) -> zlen pkt = 4 + v_size v)
    (e_sent (bsteps key mac v s l)).
Proof.
  intros key mac v s l V St O Ow Pr.
  pose proof (history key mac v x_c V x_from eq_refl s l St O) as B. refine (padded key v x_c _ _ _ _ B _ Pr). unfold own_of. rewrite Ow. auto.
Qed.
Print Assumptions C11_padded.

(** Not so in the buffer of a neighbour: whether a datagram is padded depends on the
    interface's multicast buffer (message.c:1153), whose last Hello has gone. *)
Theorem C11_unicast_probe_refuted : exists (v : benv unit) s l, env_ok unit x_mac v /\ start_ok unit v s /\ v_probe v = true /\
  Forall (op_ok (has_key v)) l /\
  exists pkt fs, In pkt (e_sent (bsteps unit x_mac v s l)) /\ frames (body pkt) fs true /\ In MESSAGE_HELLO (map fst fs) /\ zlen pkt < 4 + v_size v.
Proof.
  exists (x_v None), (set_e_mc (Some (-1)) x_s), [BHello true 400 true; BFlush].
  split; [apply x_env_ok|]. split; [exact (x_start None)|]. split; [reflexivity|]. split; [repeat constructor; cbn; lia|].
  exists [42;2;0;14;4;12;128;0;255;255;1;144;3;4;6;5;35;69], [(4, [128;0;255;255;1;144;3;4;6;5;35;69])].
  split; [vm_compute; auto|]. split; [|split; [cbn; auto|reflexivity]].
  change (body _) with ([4;12] ++ [128;0;255;255;1;144;3;4;6;5;35;69] ++ []). apply (fr_tlv 4 12 _ [] [] true); [lia|reflexivity|constructor].
Qed.
Print Assumptions C11_unicast_probe_refuted.

(** And when the link-local addresses of an interface with a key have gone while it is
    up (interface.c:199-252), nothing can be signed: flushbuf leaves the buffer full,
    and what is appended next is written outside of it. *)
Theorem C11_no_address_refuted : exists (v : benv unit) s l, env_ok unit x_mac v /\ start_ok unit v s /\
  e_bad (bsteps unit x_mac v s l) = true.
Proof.
  exists (x_v (Some tt)), x_s, (BLls [] :: map (fun _ => BReply (zeroes 192)) [1;2;3;4]).
  split; [apply x_env_ok|]. split; [exact (x_start _)|]. vm_compute. reflexivity.
Qed.
Print Assumptions C11_no_address_refuted.

(** ** C12: all that is sent on an interface with a key verifies with that key. *)
Theorem C12_sent_verifies : forall key mac v s o k src lls, (forall k' m d, mac k' m = Some d -> zlen d <= 32) ->
  v_key v = Some k -> e_lls s = src :: lls -> exists l, e_sent (bstep key mac v s o) = e_sent s ++ l /\
  Forall (fun pkt => exists n, firstn 4 pkt = 42 :: 2 :: be16 n /\ 0 <= n <= zlen pkt - 4 /\
    check_hmac key mac (v_port v) src (v_dst v) pkt n k = Ret 1) l.
Proof. exact step_signed. Qed.
Print Assumptions C12_sent_verifies.
Example C12_sent_ex : exists pkt, e_sent (bsteps unit x_mac (x_v (Some tt)) x_s [BHello false 400 true; BFlush]) = [pkt] /\
  check_hmac unit x_mac [26;41] x_ll (v_dst (x_v None)) pkt 28 tt = Ret 1.
Proof. eexists. split; [vm_compute; reflexivity|vm_compute; reflexivity]. Qed.

(** ** C03: a timer expires within the window of its jittered delay. *)
Theorem C03_timer_window : forall msecs s, timed s -> 2 <= msecs -> let s' := set_timeout_ms msecs s in
  exists t, deadline (e_timeout s') = Some t /\
    us (e_now s) * 4 + 1000 * (3 * msecs - 3) <= 4 * t < us (e_now s) * 4 + 5000 * msecs.
Proof.
  intros m s T M. cbv zeta. unfold set_timeout_ms. pose proof (timed_random s T) as (T1 & R & N & O). destruct (e_random s) as [r s1]. cbn [fst snd] in *.
  cbn [set_e_timeout e_timeout]. pose proof (L_Util.roughly_bounds m r R M) as Q. pose proof (t_now _ T1) as C.
  exists (us (timeval_add_msec (e_now s1) (roughly m r))). split.
  - unfold deadline. pose proof (add_sec _ (roughly m r) C ltac:(lia)). replace (_ =? 0) with false by lia. reflexivity.
  - rewrite <- N, (proj2 (L_Util.timeval_add_msec_us (e_now s1) (roughly m r) (proj1 C) ltac:(lia))). lia.
Qed.
Print Assumptions C03_timer_window.

(** ** C03: an acknowledgement is sent in time: after send_ack, whatever the pending
    timer, the buffer is to be flushed within 10 * interval milliseconds. *)
Theorem C03_ack_deadline : forall key mac (v : benv key) nonce interval s,
  timed s -> 0 <= v_flush v -> 0 <= interval < 65536 ->
  let s' := send_ack key mac v nonce interval s in
  exists t, deadline (e_timeout s') = Some t /\ t <= us (e_now s') + 10000 * interval.
Proof.
  intros key mac v nonce interval s T Fl Hi. cbv zeta.
  destruct (ack_deadline key mac v nonce interval s T Fl Hi) as [A B]. cbv zeta in A, B. exists (us (e_timeout (send_ack key mac v nonce interval s))).
  split; [|exact B]. unfold deadline. replace (_ =? 0) with false by lia. reflexivity.
Qed.
Print Assumptions C03_ack_deadline.
Example C03_ack_ex : timed (set_e_timeout (mkTv 100 900000) x_s) /\
  e_timeout (send_ack unit x_mac (x_v None) 5 40 (set_e_timeout (mkTv 100 900000) x_s)) = mkTv 100 143000.
Proof.
  split; [|vm_compute; reflexivity].
  constructor; cbn; unfold clock_ok, tv_ok; cbn; try lia; repeat constructor; cbn; lia.
Qed.

(** ** C62: round-trip times can be measured: an IHU with its timestamps is in the same
    datagram as a Hello with its own, unless the packet being built holds no Hello and has
    30 to 39 bytes left for it (62 being kept for authentication where there is a key). *)
Theorem C62_same_packet : forall key mac v c s l u rx iv a x y,
  env_ok key mac v -> addr_ok (r_from c) -> linklocal (r_from c) = true -> start_ok key v s -> Forall (op_ok (has_key v)) l ->
  v_ts v = true -> let s1 := bsteps key mac v s l in
  let left := v_size v - (if has_key v then 62 else 0) - zlen (e_buf s1) in
  ~ (e_hello s1 = -1 /\ 30 <= left <= 39) ->
  0 <= rx < 65536 -> 0 <= iv < 65536 -> addr_ok a -> linklocal a = true -> u32_ok x -> u32_ok y -> x <> 0 -> y <> 0 -> In a (r_lls c) ->
  exists earlier pkt acts, e_sent (flushbuf key mac v (send_ihu_buf key mac v u true rx iv a (Some (x, y)) s1)) = e_sent s1 ++ earlier ++ [pkt] /\
    parse_packet c pkt = Ret acts /\
    (exists un q i t, In (AHello un q i (Some t)) acts) /\ In (AIhu rx iv) acts /\ In (ARtt x y) acts.
Proof.
  intros key mac v c s l u rx iv a x y V A L St O Ts s1 lft Hn Hr Hi Ha La Hx Hy Nx Ny Ia.
  pose proof (history key mac v c V A L s l St O) as B. fold s1 in B.
  refine (ihu_with_hello key mac v c V A L _ s1 _ _ u rx iv a x y Ts B _ Hr Hi Ha La Hx Hy Nx Ny Ia).
  intros [X Y]. apply Hn. split; [exact X|]. unfold lft, has_key. unfold avail, auth_room in Y. destruct (v_key v); lia.
Qed.
Print Assumptions C62_same_packet.
(** A key, and a packet too full for the two of them, so that it is sent first *)
Definition x_full : list bop := [BReply (zeroes 192); BReply (zeroes 182)].
Lemma x_full_left : zlen (e_buf (bsteps unit x_mac (x_v (Some tt)) x_s x_full)) = 378.
Proof. vm_compute. reflexivity. Qed.
Lemma x_full_ok : Forall (op_ok true) x_full.
Proof. repeat (constructor; [split; [cbn; lia|apply x_bytes; reflexivity]|]); constructor. Qed.
Example C62_ex : exists earlier pkt acts,
  e_sent (flushbuf unit x_mac (x_v (Some tt)) (send_ihu_buf unit x_mac (x_v (Some tt)) false true 96 1200 x_peer (Some (17, 18))
    (bsteps unit x_mac (x_v (Some tt)) x_s x_full))) = earlier ++ [pkt] /\
  parse_packet x_c pkt = Ret acts /\
  (exists un q i t, In (AHello un q i (Some t)) acts) /\ In (AIhu 96 1200) acts /\ In (ARtt 17 18) acts.
Proof.
  assert (Pe : addr_ok x_peer) by (split; [reflexivity|apply x_bytes; reflexivity]).
  assert (Le : ~ (e_hello (bsteps unit x_mac (x_v (Some tt)) x_s x_full) = -1 /\
    30 <= v_size (x_v (Some tt)) - (if has_key (x_v (Some tt)) then 62 else 0) - zlen (e_buf (bsteps unit x_mac (x_v (Some tt)) x_s x_full)) <= 39)).
  { rewrite x_full_left. change (v_size (x_v (Some tt))) with 460. change (has_key (x_v (Some tt))) with true. lia. }
  exact (C62_same_packet unit x_mac (x_v (Some tt)) x_c x_s x_full false 96 1200 x_peer 17 18 (x_env_ok _) x_from eq_refl (x_start _) x_full_ok
    eq_refl Le ltac:(lia) ltac:(lia) Pe eq_refl ltac:(unfold u32_ok; lia) ltac:(unfold u32_ok; lia) ltac:(lia) ltac:(lia) (or_introl eq_refl)).
Qed.
(** But send_ihu makes sure of 30 bytes only (message.c:2032): with 30 to 39 left, the
    Hello ends a packet and the IHU begins the next; the peer learns no round-trip time. *)
Theorem C62_same_packet_refuted : exists (v : benv unit) c s l, env_ok unit x_mac v /\ addr_ok (r_from c) /\ linklocal (r_from c) = true /\
  start_ok unit v s /\ Forall (op_ok (has_key v)) l /\ v_key v = None /\ v_ts v = true /\
  let got := decoded c (e_sent (flushbuf unit x_mac v (send_ihu_buf unit x_mac v false true 96 1200 x_peer (Some (17, 18)) (bsteps unit x_mac v s l)))) in
  In (AHello false 65535 0 (Some 102000007)) got /\ In (AIhu 96 1200) got /\ ~ In (ARtt 17 18) got.
Proof.
  exists (x_v None), x_c, x_s, [BReply (zeroes 192); BReply (zeroes 192); BReply (zeroes 40)].
  split; [apply x_env_ok|]. split; [apply x_from|]. split; [reflexivity|]. split; [apply x_start|].
  split; [repeat (constructor; [split; [cbn; lia|apply x_bytes; reflexivity]|]); constructor|]. split; [reflexivity|]. split; [reflexivity|].
  cbv zeta. match goal with |- In _ ?g /\ _ => assert (E : g = [AHello false 65535 0 (Some 102000007); AIhu 96 1200]) by (vm_compute; reflexivity); rewrite E end.
  split; [left; auto|]. split; [right; left; auto|]. intros [X|[X|[]]]; discriminate X.
Qed.
Print Assumptions C62_same_packet_refuted.

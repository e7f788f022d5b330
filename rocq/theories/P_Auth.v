(** P_Auth.v: authentication. *)
From Coq Require Import Bool.
From Verif Require Import Base M_Util S_Util M_Filter M_Types M_Neigh M_Wire M_Auth S_Auth S_Wire L_Wire L_Wire2 L_Auth L_Auth2 L_Auth3.

(** ** C07, on an interface with a key *)
Theorem C07_auth_total : forall key (mac : key -> list Z -> option (list Z)) port k bad c to_ pkt s,
  addr_ok (r_from c) -> bytes_ok pkt -> 4 <= zlen pkt ->
  exists r, parse_packet_key mac port k bad c to_ pkt s = Ret r.
Proof. exact parse_key_total. Qed.
Print Assumptions C07_auth_total.

(** ** C12: MACs *)

(** What the sender signs verifies with the same key and addresses, whatever follows
    the MAC. *)
Theorem C12_signed_verifies : forall key (mac : key -> list Z -> option (list Z)) port src lls dst buf size k tl rest,
  (forall k' m d, mac k' m = Some d -> zlen d <= 32) ->
  add_hmac key mac port (src :: lls) dst ([42; 2] ++ be16 (zlen buf)) buf size k = Some tl ->
  check_hmac key mac port src dst (([42; 2] ++ be16 (zlen buf)) ++ buf ++ tl ++ rest) (zlen buf) k = Ret 1.
Proof. exact signed_verifies. Qed.
Print Assumptions C12_signed_verifies.

(** Only a MAC TLV in the trailer with the keyed hash of addresses, header and body
    verifies. *)
Theorem C12_only_matching : forall key (mac : key -> list Z -> option (list Z)) port src dst pkt n k,
  bytes_ok pkt -> 0 <= n -> check_hmac key mac port src dst pkt n k = Ret 1 ->
  exists a h b, pkt = a ++ (16 :: zlen h :: h) ++ b /\ 4 + n <= zlen a /\
    mac k (src ++ port ++ dst ++ port ++ firstn 4 pkt ++ firstn (Z.to_nat n) (skipn 4 pkt)) = Some h.
Proof.
  intros key mac port src dst pkt n k B N E.
  destruct (check_loop_sound key mac port src dst pkt n k (S (length pkt)) (n + 4) (-1) B ltac:(lia) ltac:(lia) E)
    as (a & h & b & X1 & X2 & X3). exists a, h, b. split; [exact X1|]. split; [lia|exact X3].
Qed.
Print Assumptions C12_only_matching.

(** A trailer which is a sequence of TLVs other than Pad1: verified if one of them is a
    matching MAC, refused if there are only others, reported as unsigned if there is no
    MAC. *)
Theorem C12_trailer : forall key (mac : key -> list Z -> option (list Z)) port src dst k hb n fs,
  zlen hb = 4 + n -> 
  let pkt := hb ++ flat fs in
  let good f := fst f = 16 /\
    mac k (src ++ port ++ dst ++ port ++ firstn 4 pkt ++ firstn (Z.to_nat n) (skipn 4 pkt)) = Some (snd f) in
  exists r, check_hmac key mac port src dst pkt n k = Ret r /\
    ((exists f, In f fs /\ good f) -> r = 1) /\
    ((forall f, In f fs -> ~ good f) -> (exists f, In f fs /\ fst f = 16) -> r = 0) /\
    ((forall f, In f fs -> fst f <> 16) -> r = -1).
Proof.
  intros key mac port src dst k hb n fs L pkt good.
  destruct (check_loop_flat key mac port src dst pkt n k [] fs hb (S (length pkt)) (-1)) as (r & E & H1 & H2).
  - unfold pkt. rewrite app_nil_r. auto.
  - unfold pkt. rewrite app_nil_r, app_length. lia.
  - rewrite zlen_nil. lia.
  - auto.
  - exists r. split; [unfold check_hmac; replace (n + 4) with (zlen hb) by lia; exact E|]. split; [exact H1|]. split.
    + intros Hg He. apply (H2 Hg). auto.
    + intros Hn. apply H2; [|auto]. intros f Hf [X _]. exact (Hn f Hf X).
Qed.
Print Assumptions C12_trailer.

(** A MAC which follows a Pad1 in the trailer is not seen: the byte of the Pad1 and the
    type of the MAC are taken for a type and a length. *)
Definition x_mac (k m : list Z) : option (list Z) := Some (firstn 16 (k ++ rev m ++ zeroes 16)).
Definition x_src : list Z := [254;128;0;0;0;0;0;0;0;0;0;0;0;0;0;1].
Definition x_dst : list Z := [255;2;0;0;0;0;0;0;0;0;0;0;0;1;0;6].
Definition x_port : list Z := [26; 40].
Theorem C12_pad1_refuted : exists key (mac : key -> list Z -> option (list Z)) port src dst hb n k h,
  zlen hb = 4 + n /\
  mac k (src ++ port ++ dst ++ port ++ hb) = Some h /\ frames (0 :: 16 :: zlen h :: h) [(16, h)] true /\
  check_hmac key mac port src dst (hb ++ 16 :: zlen h :: h) n k = Ret 1 /\
  check_hmac key mac port src dst (hb ++ 0 :: 16 :: zlen h :: h) n k = Ret (-1).
Proof.
  exists (list Z), x_mac, x_port, x_src, x_dst, [42;2;0;4;4;2;1;2], 4, [1;2;3], 
    [1;2;3;2;1;2;4;4;0;2;42;40;26;6;0;1].
  split; [reflexivity|]. split; [reflexivity|]. split.
  - apply fr_pad1. apply (fr_tlv 16 16 [1;2;3;2;1;2;4;4;0;2;42;40;26;6;0;1] [] [] true); [lia|reflexivity|constructor].
  - split; vm_compute; reflexivity.
Qed.
Print Assumptions C12_pad1_refuted.

Example x_signed : exists tl, add_hmac (list Z) x_mac x_port [x_src] x_dst ([42; 2] ++ be16 4) [4;2;1;2] 1000 [1;2;3] = Some tl
  /\ (forall k' m d, x_mac k' m = Some d -> zlen d <= 32).
Proof.
  eexists. split; [vm_compute; reflexivity|]. intros k' m d E. unfold x_mac in E.
  pose proof (f_equal (fun o => match o with Some x => x | None => [] end) E) as X. cbv beta iota in X. rewrite <- X.
  unfold zlen. rewrite firstn_length. lia.
Qed.

(** ** C13: replay *)

(** Of two packets of the same class accepted one after the other, with anything in
    between, the second has the index of the first and a larger counter, unless a
    challenge was completed after the first. *)
Theorem C13_no_replay : forall s mcast pkt n fs full s1 s2 pkt' n' fs' full' s3,
  areach s -> bytes_ok pkt -> 0 <= n -> 4 + n <= zlen pkt -> frames (firstn (Z.to_nat n) (skipn 4 pkt)) fs full ->
  bytes_ok pkt' -> 0 <= n' -> 4 + n' <= zlen pkt' -> frames (firstn (Z.to_nat n') (skipn 4 pkt')) fs' full' ->
  preparse_packet pkt n mcast s = Ret (s1, true) -> asteps s1 s2 ->
  preparse_packet pkt' n' mcast s2 = Ret (s3, true) ->
  exists pc ix pc' ix', 0 <= pc < 4294967296 /\ 0 <= pc' < 4294967296 /\
    find is_pc fs = Some (17, be32 pc ++ ix) /\ find is_pc fs' = Some (17, be32 pc' ++ ix') /\
    ((ix' = ix /\ pc < pc') \/ exists add nn t, a_log s3 = add ++ a_log s1 /\ In (NHonoured nn t) add).
Proof. exact no_replay. Qed.
Print Assumptions C13_no_replay.

(** In particular a packet is not accepted twice if no challenge is completed in
    between. *)
Theorem C13_once : forall s mcast pkt n s1 s2 s3,
  areach s -> bytes_ok pkt -> 0 <= n -> 4 + n <= zlen pkt ->
  preparse_packet pkt n mcast s = Ret (s1, true) -> asteps s1 s2 ->
  preparse_packet pkt n mcast s2 = Ret (s3, true) ->
  exists add nn t, a_log s3 = add ++ a_log s1 /\ In (NHonoured nn t) add.
Proof.
  intros s mcast pkt n s1 s2 s3 R B N0 L E St E'.
  destruct (frames_total (firstn (Z.to_nat n) (skipn 4 pkt)) ltac:(apply bytes_ok_firstn, bytes_ok_skipn; auto))
    as (fs & full & Fr).
  destruct (no_replay _ _ _ _ _ _ _ _ _ _ _ _ _ R B N0 L Fr B N0 L Fr E St E')
    as (pc & ix & pc' & ix' & R1 & R2 & F1 & F2 & [[X1 X2]|X]); [|auto].
  exfalso. rewrite F1 in F2. subst ix'.
  assert (F3 : be32 pc ++ ix = be32 pc' ++ ix) by congruence. clear F2. rename F3 into F2. apply app_inv_tail in F2.
  apply be32_inj in F2; [lia|auto|auto].
Qed.
Print Assumptions C13_once.

(** But the challenge need not be in the packet which is replayed.  A run: the
    receiver knows the sender by index I and counter 5; a packet with another index
    (recorded before the sender restarted) makes it send a challenge; the sender
    answers with counter 6, then sends a packet with counter 7 which is overtaken by
    nothing and arrives first.  It is accepted; then the answer is, which takes the
    counter back to 6, and the packet with counter 7 is accepted again. *)
Definition x_i : list Z := [1;1;1;1;1;1;1;1].
Definition x_j : list Z := [2;2;2;2;2;2;2;2].
Definition x_pc (i : list Z) (p : Z) : list Z := [17; 12] ++ be32 p ++ i.
Definition x_reply (n : list Z) : list Z := [19; 8] ++ n.
Definition x_packet (b : list Z) : list Z := [42; 2] ++ be16 (zlen b) ++ b.
Definition x_n1 : list Z := [3;3;3;3;3;3;3;3].
Definition x_n2 : list Z := [4;4;4;4;4;4;4;4].
Definition x_p7 : list Z := x_packet (x_pc x_i 7 ++ [4;6;0;0;0;1;0;100]).
Definition x_answer : list Z := x_packet (x_reply x_n2 ++ x_pc x_i 6).

Definition x_step (t : Z) (p : list Z) (s : ast) : ast :=
  let s := mkA (mkTv t 0) [] (a_rnd s) (a_pc s) (a_found s) (a_log s) in
  match preparse_packet p (zlen p - 4) false s with Ret r => fst r | _ => s end.
Lemma x_step_reach : forall t p s, 0 < t -> areach s -> us (a_now s) <= us (mkTv t 0) -> areach (x_step t p s).
Proof.
  intros t p s T0 R T. unfold x_step. cbv zeta.
  assert (M : mono (mkTv t 0) []) by (unfold mono, tv_ok, us; cbn [tv_sec tv_usec]; repeat split; lia).
  pose proof (ar_time s (mkTv t 0) [] (a_rnd s) R T M) as R1.
  destruct (preparse_packet _ _ _ _) as [[s1 b]| |] eqn:E; [|exact R1..]. exact (ar_pkt _ _ _ _ _ _ R1 E).
Qed.

Definition x_s0 : ast := mkA (mkTv 100 0) [] [Some x_n1; Some x_n2] new_pc false [].
Definition x_s1 : ast := x_step 101 (x_packet (x_pc x_i 4)) x_s0.
Definition x_s2 : ast := x_step 102 (x_packet (x_reply x_n1 ++ x_pc x_i 5)) x_s1.
Definition x_s3 : ast := x_step 103 (x_packet (x_pc x_j 9)) x_s2.
Lemma x_s3_reach : areach x_s3.
Proof.
  unfold x_s3. apply x_step_reach; [lia| |vm_compute; discriminate].
  unfold x_s2. apply x_step_reach; [lia| |vm_compute; discriminate].
  unfold x_s1. apply x_step_reach; [lia| |vm_compute; discriminate]. constructor. unfold mono, tv_ok, us. cbn [tv_sec tv_usec].
  repeat split; lia.
Qed.

Definition x_get (p : list Z) (s : ast) : ast :=
  match preparse_packet p (zlen p - 4) false s with Ret r => fst r | _ => s end.
Lemma x_replay : exists s1 s2 s3, preparse_packet x_p7 22 false x_s3 = Ret (s1, true) /\
  preparse_packet x_answer 24 false s1 = Ret (s2, true) /\ preparse_packet x_p7 22 false s2 = Ret (s3, true).
Proof.
  exists (x_get x_p7 x_s3), (x_get x_answer (x_get x_p7 x_s3)), (x_get x_p7 (x_get x_answer (x_get x_p7 x_s3))).
  split; [vm_compute; reflexivity|]. split; vm_compute; reflexivity.
Qed.
Lemma x_frames7 : frames (x_pc x_i 7 ++ [4;6;0;0;0;1;0;100]) [(17, be32 7 ++ x_i); (4, [0;0;0;1;0;100])] true.
Proof.
  apply (fr_tlv 17 12 (be32 7 ++ x_i) (4 :: 6 :: [0;0;0;1;0;100] ++ []) [(4, [0;0;0;1;0;100])] true); [lia|reflexivity|].
  apply (fr_tlv 4 6 [0;0;0;1;0;100] [] [] true); [lia|reflexivity|constructor].
Qed.
Lemma x_frames6 : frames (x_reply x_n2 ++ x_pc x_i 6) [(19, x_n2); (17, be32 6 ++ x_i)] true.
Proof.
  apply (fr_tlv 19 8 x_n2 (17 :: 12 :: (be32 6 ++ x_i) ++ []) [(17, be32 6 ++ x_i)] true); [lia|reflexivity|].
  apply (fr_tlv 17 12 (be32 6 ++ x_i) [] [] true); [lia|reflexivity|constructor].
Qed.

Theorem C13_replay_refuted : exists s s1 s2 s3 i pkt n body p fs answer n' body' p' fs',
  areach s /\ bytes_ok pkt /\ bytes_ok answer /\
  pkt = [42; 2] ++ be16 n ++ body /\ zlen body = n /\ frames body ((17, be32 p ++ i) :: fs) true /\
  (forall v, ~ In (19, v) fs) /\
  answer = [42; 2] ++ be16 n' ++ body' /\ zlen body' = n' /\ frames body' fs' true /\
  In (17, be32 p' ++ i) fs' /\ p' < p /\
  preparse_packet pkt n false s = Ret (s1, true) /\
  preparse_packet answer n' false s1 = Ret (s2, true) /\
  preparse_packet pkt n false s2 = Ret (s3, true).
Proof.
  destruct x_replay as (s1 & s2 & s3 & E1 & E2 & E3).
  exists x_s3, s1, s2, s3, x_i, x_p7, 22, (x_pc x_i 7 ++ [4;6;0;0;0;1;0;100]), 7, [(4, [0;0;0;1;0;100])],
    x_answer, 24, (x_reply x_n2 ++ x_pc x_i 6), 6, [(19, x_n2); (17, be32 6 ++ x_i)].
  split; [exact x_s3_reach|].
  split; [repeat constructor; try lia|]. split; [repeat constructor; try lia|].
  split; [reflexivity|]. split; [reflexivity|]. split; [exact x_frames7|].
  split. { intros v [X|[]]. discriminate. }
  split; [reflexivity|]. split; [reflexivity|]. split; [exact x_frames6|].
  split; [right; left; reflexivity|]. split; [lia|]. split; [exact E1|]. split; [exact E2|exact E3].
Qed.
Print Assumptions C13_replay_refuted.

(** The hypotheses of C13_no_replay and C13_once: the run above goes through two
    accepted packets, with counters 5 and 7. *)
Example x_accepted : exists s4, areach x_s1 /\ asteps x_s2 x_s3 /\
  snd (match preparse_packet (x_packet (x_reply x_n1 ++ x_pc x_i 5)) 24 false x_s1 with Ret r => r | _ => (x_s1, false) end) = true /\
  preparse_packet x_p7 22 false x_s3 = Ret (s4, true).
Proof.
  eexists. split.
  { unfold x_s1. apply x_step_reach; [lia| |vm_compute; discriminate]. constructor. unfold mono, tv_ok, us. cbn [tv_sec tv_usec].
    repeat split; lia. }
  split.
  { assert (M : mono (mkTv 103 0) []) by (unfold mono, tv_ok, us; cbn [tv_sec tv_usec]; repeat split; lia).
    pose proof (as_time x_s2 x_s2 (mkTv 103 0) [] (a_rnd x_s2) (as_refl _) ltac:(vm_compute; discriminate) M) as R1.
    unfold x_s3, x_step. cbv zeta.
    destruct (preparse_packet _ _ _ _) as [[s1 b]| |] eqn:E; [|exact R1..]. exact (as_pkt _ _ _ _ _ _ _ R1 E). }
  split; vm_compute; reflexivity.
Qed.

(** ** C14: challenges *)
Theorem C14_challenges : forall s, areach s -> challenges_ok (a_log s) /\ spaced (a_log s).
Proof. intros s R. split; [exact (AI_ch _ (areach_AI _ R))|exact (AI_sp _ (areach_AI _ R))]. Qed.
Print Assumptions C14_challenges.

(** What is logged as honoured is a challenge reply in the packet, of 8 bytes; and the
    index and the counters are taken from a packet without comparing them to the
    previous ones only if it completes a challenge. *)
Theorem C14_adopts : forall pkt n mcast s s' fs full, areach s -> bytes_ok pkt -> 0 <= n -> 4 + n <= zlen pkt ->
  frames (firstn (Z.to_nat n) (skipn 4 pkt)) fs full -> preparse_packet pkt n mcast s = Ret (s', true) ->
  exists pc ix, find is_pc fs = Some (17, be32 pc ++ ix) /\ pc_index (a_pc s') = Some ix /\
    (if mcast then pc_m (a_pc s') else pc_u (a_pc s')) = pc /\
    ((pc_index (a_pc s) = Some ix /\ (if mcast then pc_m (a_pc s) else pc_u (a_pc s)) < pc) \/
     exists nn t older newer, a_log s' = newer ++ NHonoured nn t :: older ++ a_log s /\ In (19, nn) fs).
Proof. exact preparse_adopts. Qed.
Print Assumptions C14_adopts.

(** ** C15: the sender *)
Theorem C15_distinct : forall rs i0, NoDup (fst (send_pcs rs (mkS 0 i0))) -> NoDup (snd (send_pcs rs (mkS 0 i0))).
Proof.
  intros rs i0 N. apply (send_pcs_fresh rs (mkS 0 i0) []); [cbn; lia|auto|intros ? ? []|cbn; lia].
Qed.
Print Assumptions C15_distinct.
(** Just before the counter wraps: the next packet draws a new index. *)
Example x_wrap : snd (send_pcs [None; Some x_j; None] (mkS 4294967295 x_i)) =
  [x_pc x_i 4294967295; x_pc x_j 0; x_pc x_j 1].
Proof. vm_compute. reflexivity. Qed.
Example x_distinct : fst (send_pcs [Some x_i; None; None] (mkS 0 x_j)) = [x_i] /\
  snd (send_pcs [Some x_i; None; None] (mkS 0 x_j)) = [x_pc x_i 0; x_pc x_i 1; x_pc x_i 2].
Proof. vm_compute. auto. Qed.

(** ** C16: packets which are not authentic *)

(** Without a valid MAC: nothing happens. *)
Theorem C16_no_mac : forall key (mac : key -> list Z -> option (list Z)) port k c to_ pkt s,
  addr_ok (r_from c) -> bytes_ok pkt -> 4 <= zlen pkt ->
  (forall a h b, pkt = a ++ (16 :: zlen h :: h) ++ b -> 4 + body_len pkt <= zlen a ->
     mac k (r_from c ++ port ++ to_ ++ port ++ firstn 4 pkt ++ body pkt) <> Some h) ->
  parse_packet_key mac port k false c to_ pkt s = Ret (s, None).
Proof. exact no_mac_nothing. Qed.
Print Assumptions C16_no_mac.

(** With a valid MAC, but refused by the counter check: no action on the tables; the
    index and the counters stay. *)
Theorem C16_refused : forall key (mac : key -> list Z -> option (list Z)) port k c to_ pkt s r,
  addr_ok (r_from c) -> bytes_ok pkt -> 4 <= zlen pkt -> babel_header c pkt = true ->
  parse_packet_key mac port k false c to_ pkt s = Ret r ->
  (forall s', preparse_packet pkt (body_len pkt) (at_ to_ 0 =? 255) s <> Ret (s', true)) ->
  snd r = None /\ pc_u (a_pc (fst r)) = pc_u (a_pc s) /\ pc_m (a_pc (fst r)) = pc_m (a_pc s) /\
  pc_index (a_pc (fst r)) = pc_index (a_pc s).
Proof. exact refused_nothing. Qed.
Print Assumptions C16_refused.

(** So a packet which is acted upon has a valid MAC and passed the counter check. *)
Theorem C16_accepted : forall key (mac : key -> list Z -> option (list Z)) port k c to_ pkt s s' acts,
  areach s -> bytes_ok pkt -> 4 <= zlen pkt ->
  parse_packet_key mac port k false c to_ pkt s = Ret (s', Some acts) ->
  (exists a h b, pkt = a ++ (16 :: zlen h :: h) ++ b /\ 4 + body_len pkt <= zlen a /\
     mac k (r_from c ++ port ++ to_ ++ port ++ firstn 4 pkt ++ body pkt) = Some h) /\
  exists add m i p, a_log s' = add ++ a_log s /\ In (NAccept m i p) add.
Proof. intros. eapply accepted_signed; eauto. apply areach_AI; auto. Qed.
Print Assumptions C16_accepted.

(** A signed packet is accepted: the hypotheses of C16_accepted; and the same packet
    again is refused: those of C16_refused. *)
Definition x_sign (p : list Z) : list Z :=
  p ++ 16 :: 16 :: match x_mac [1;2;3] (x_src ++ x_port ++ x_dst ++ x_port ++ p) with Some h => h | None => [] end.
Example x_accept : exists s' s'' acts,
  parse_packet_key x_mac x_port [1;2;3] false (mkR x_src [] true) x_dst (x_sign x_p7) x_s3 = Ret (s', Some acts) /\
  acts <> [] /\
  parse_packet_key x_mac x_port [1;2;3] false (mkR x_src [] true) x_dst (x_sign x_p7) s' = Ret (s'', None) /\
  parse_packet_key x_mac x_port [1;2;4] false (mkR x_src [] true) x_dst (x_sign x_p7) x_s3 = Ret (x_s3, None).
Proof.
  eexists _, _, _. split; [vm_compute; reflexivity|]. split; [discriminate|].
  split; vm_compute; reflexivity.
Qed.

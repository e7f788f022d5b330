(** L_Buf.v: an output buffer holds the encoding of a sequence of messages which the
    peer decodes to what was wanted; its size is never exceeded. *)
From Verif Require Import Base M_Util S_Util L_Util M_Filter M_Types M_Wire S_Wire L_Wire L_Wire2 M_Auth M_Buf S_Buf L_Codec.

(** *** Sequences of TLVs *)
Definition enc (fs : list (Z * list Z)) : list Z := flat_map (fun f => fst f :: zlen (snd f) :: snd f) fs.
Definition frame_ok (f : Z * list Z) : Prop := 0 < fst f < 256 /\ zlen (snd f) < 256 /\ bytes_ok (snd f).

Lemma zlen_zeroes : forall n, zlen (zeroes n) = Z.of_nat n.
Proof. intros. unfold zlen, zeroes. rewrite repeat_length. auto. Qed.
Lemma bytes_ok_zeroes : forall n, bytes_ok (zeroes n).
Proof. intros n. unfold zeroes. induction n; constructor; auto. unfold byte_ok. lia. Qed.
Lemma enc_app : forall a b, enc (a ++ b) = enc a ++ enc b.
Proof. intros. unfold enc. apply flat_map_app. Qed.
Lemma enc_one : forall t v, enc [(t, v)] = t :: zlen v :: v.
Proof. intros. unfold enc. cbn [flat_map fst snd]. rewrite app_nil_r. reflexivity. Qed.
Lemma frames_enc : forall fs, Forall frame_ok fs -> frames (enc fs) fs true.
Proof.
  induction 1 as [|[t v] fs (T & _) _ IH]; [constructor|]. cbn [enc flat_map fst snd].
  change (flat_map _ fs) with (enc fs). cbn [app]. constructor; auto. cbn [fst] in T. lia.
Qed.
Lemma enc_bytes : forall fs, Forall frame_ok fs -> bytes_ok (enc fs).
Proof.
  induction 1 as [|[t v] fs (T & L & B) _ IH]; [constructor|]. cbn [enc flat_map fst snd] in *.
  change (flat_map _ fs) with (enc fs). cbn [app]. pose proof (zlen_nonneg _ v).
  constructor; [unfold byte_ok; lia|]. constructor; [unfold byte_ok; lia|]. apply bytes_ok_app. auto.
Qed.
Lemma tlvs_app : forall c a b p,
  tlvs c p (a ++ b) = (fst (tlvs c (fst (tlvs c p a)) b), snd (tlvs c p a) ++ snd (tlvs c (fst (tlvs c p a)) b)).
Proof.
  intros c a. induction a as [|[t v] a IH]; intros b p; cbn [tlvs app fst snd].
  - destruct (tlvs c p b); auto.
  - rewrite IH. cbn [fst snd]. rewrite app_assoc. auto.
Qed.
Lemma tlvs_snoc : forall c a t v p,
  tlvs c p (a ++ [(t, v)]) = (fst (one c (fst (tlvs c p a)) t v), snd (tlvs c p a) ++ snd (one c (fst (tlvs c p a)) t v)).
Proof. intros. rewrite tlvs_app. cbn [tlvs fst snd]. rewrite app_nil_r. auto. Qed.
Lemma untimed_app : forall a b, untimed (a ++ b) = untimed a ++ untimed b.
Proof. intros. apply flat_map_app. Qed.

Section Mac.
Variable key : Type.
Variable mac : key -> list Z -> option (list Z).
Notation env := (benv key).
Variable v : env.
Variable c : rctx.
Hypothesis VOK : env_ok key mac v.
Hypothesis FROM : addr_ok (r_from c).
Hypothesis LL : linklocal (r_from c) = true.
(** Whether the buffer is that of the interface *)
Variable own : bool.

(** Space kept for the packet counter and the MAC *)
Definition auth_room : Z := match v_key v with Some _ => 62 | None => 0 end.
Definition avail (s : est) : Z := v_size v - auth_room - zlen (e_buf s).
Lemma auth_room_cases : auth_room = 0 \/ auth_room = 62.
Proof. unfold auth_room. destruct (v_key v); auto. Qed.

(** *** The current packet.  [F None] is what is in the buffer, [F (Some t)] what
    is sent at time [t]. *)
Definition htail (o : option Z) : list Z :=
  if v_ts v then match o with None => [1; 4; 0; 0; 0; 0] | Some t => 3 :: 4 :: be32 t end else [].
Definition t_ok (o : option Z) : Prop := match o with Some t => u32_ok t | None => True end.
Definition shape (h : Z) (F : option Z -> list (Z * list Z)) : Prop :=
  (h = -1 /\ forall o, F o = F None) \/
  (exists pre post u sq iv, h = zlen (enc pre) /\
     forall o, F o = pre ++ (MESSAGE_HELLO, hello_body u sq iv (htail o)) :: post).
(** What the peer knows of what we think it knows *)
Definition coupled (s : est) (p : pst) : Prop :=
  (forall i, e_id s = Some i -> p_id p = Some i) /\
  (forall n, e_nh s = Some n -> length n = 4%nat /\ p_nh4 p = Some (v4tov6 n)) /\
  (forall q, e_prefix s = Some q -> p_v6 p = Some q /\ v4mapped q = false /\ addr_ok q) /\
  p_nh6 p = None.
Record cur (s : est) (E : list action) (R : list (Z * list Z)) (F : option Z -> list (Z * list Z)) : Prop := mkCur {
  c_buf : e_buf s = enc (F None);
  c_shape : shape (e_hello s) F;
  c_ok : forall o, t_ok o -> Forall frame_ok (F o);
  c_acts : forall o, t_ok o -> untimed (snd (tlvs c p0 (F o))) = E;
  c_raw : forall o, filter is_raw (F o) = R;
  c_coupled : forall o, t_ok o -> coupled s (fst (tlvs c p0 (F o)));
  c_avail : 0 <= avail s;
  c_bad : e_bad s = false;
  c_index : length (e_index s) = 8%nat /\ bytes_ok (e_index s);
  c_ipv4 : match e_ipv4 s with Some x => length x = 4%nat /\ bytes_ok x | None => True end;
  c_rndb : Forall (fun r => match r with Some i => length i = 8%nat /\ bytes_ok i | None => True end) (e_rndb s);
  c_lls : v_key v <> None -> e_lls s <> [];
  c_own : own = true -> e_mc s = None;
  c_hello : e_hello s = -1 -> Forall (fun f => fst f <> MESSAGE_HELLO) (F None)
}.

(** *** The packets sent *)
Definition pkt_ok (pkt : list Z) : Prop :=
  bytes_ok pkt /\ 4 < zlen pkt <= 4 + v_size v /\ exists a, parse_packet c pkt = Ret a.
Definition acts (pkt : list Z) : list action := match parse_packet c pkt with Ret a => a | _ => [] end.
Definition sent (l : list (list Z)) (E : list action) (R : list (Z * list Z)) : Prop :=
  Forall pkt_ok l /\ untimed (flat_map acts l) = E /\
  exists fss, Forall2 (fun pkt fs => frames (body pkt) fs true /\
      (own = true -> v_probe v = true -> In MESSAGE_HELLO (map fst fs) -> zlen pkt = 4 + v_size v)) l fss /\
    filter is_raw (concat fss) = R.

Definition binv (s : est) (E : list action) (R : list (Z * list Z)) : Prop :=
  exists E1 E2 R1 R2 F, E = E1 ++ E2 /\ R = R1 ++ R2 /\ sent (e_sent s) E1 R1 /\ cur s E2 R2 F.

(** States that differ in their timers only *)
Definition quiet (s s' : est) : Prop :=
  e_buf s' = e_buf s /\ e_hello s' = e_hello s /\ e_id s' = e_id s /\ e_nh s' = e_nh s /\ e_prefix s' = e_prefix s /\
  e_pc s' = e_pc s /\ e_index s' = e_index s /\ e_hseq s' = e_hseq s /\ e_ipv4 s' = e_ipv4 s /\ e_lls s' = e_lls s /\
  e_mc s' = e_mc s /\ e_rndb s' = e_rndb s /\ e_sent s' = e_sent s /\ e_bad s' = e_bad s.
Lemma quiet_refl : forall s, quiet s s.
Proof. intros. unfold quiet. repeat split. Qed.
Lemma quiet_trans : forall a b d, quiet a b -> quiet b d -> quiet a d.
Proof. unfold quiet. intros. intuition congruence. Qed.
Lemma quiet_cur : forall s s' E R F, quiet s s' -> cur s E R F -> cur s' E R F.
Proof.
  intros s s' E R F (Q1 & Q2 & Q3 & Q4 & Q5 & Q6 & Q7 & Q8 & Q9 & Q10 & Q11 & Q12 & Q13 & Q14) [].
  constructor; unfold coupled, avail in *;
  rewrite ?Q1, ?Q2, ?Q3, ?Q4, ?Q5, ?Q6, ?Q7, ?Q8, ?Q9, ?Q10, ?Q11, ?Q12, ?Q13, ?Q14; auto.
Qed.
Lemma quiet_binv : forall s s' E R, quiet s s' -> binv s E R -> binv s' E R.
Proof.
  intros s s' E R Q (E1 & E2 & R1 & R2 & F & X1 & X2 & X3 & X4). exists E1, E2, R1, R2, F.
  split; auto. split; auto. split; [|exact (quiet_cur _ _ _ _ _ Q X4)].
  destruct Q as (_ & _ & _ & _ & _ & _ & _ & _ & _ & _ & _ & _ & Q & _). rewrite Q. auto.
Qed.

Lemma quiet_set_timeout : forall t s, quiet s (set_e_timeout t s).
Proof. intros. unfold quiet. repeat split. Qed.
Lemma quiet_random : forall s, quiet s (snd (e_random s)).
Proof. intros s. unfold e_random. destruct (e_rnd s); unfold quiet; repeat split. Qed.
Lemma quiet_gettime : forall s, quiet s (e_gettime s).
Proof. intros s. unfold e_gettime. destruct (e_clk s); unfold quiet; repeat split. Qed.
Lemma quiet_flush_ms : forall m s, quiet s (schedule_flush_ms m s).
Proof.
  intros m s. unfold schedule_flush_ms, set_timeout_ms. destruct (_ && _); [apply quiet_refl|].
  pose proof (quiet_random s). destruct (e_random s) as [r s1]. cbn [snd] in *. exact H.
Qed.
Lemma quiet_schedule : forall s, quiet s (schedule_flush key v s).
Proof.
  intros s. unfold schedule_flush, jitter0. pose proof (quiet_random s). destruct (e_random s) as [r s1]. cbn [snd] in *.
  eapply quiet_trans; [exact H|apply quiet_flush_ms].
Qed.
Lemma quiet_now : forall s, quiet s (schedule_flush_now s).
Proof.
  intros s. unfold schedule_flush_now. pose proof (quiet_random s). destruct (e_random s) as [r s1]. cbn [snd] in *.
  eapply quiet_trans; [exact H|apply quiet_flush_ms].
Qed.

(** *** Flushing *)
Lemma probe_pad_len : forall f room, 0 <= room -> (Z.to_nat room <= f)%nat -> zlen (probe_pad f room) = room.
Proof.
  induction f as [|f IH]; intros room R L; cbn [probe_pad].
  - rewrite zlen_nil. lia.
  - destruct (room <=? 0) eqn:A; [rewrite zlen_nil; lia|]. destruct (room >=? 2) eqn:B.
    + rewrite !zlen_cons, zlen_app, zlen_zeroes, IH by lia. lia.
    + rewrite zlen_cons, IH by lia. lia.
Qed.
Lemma probe_pad_bytes : forall f room, 0 <= room -> bytes_ok (probe_pad f room).
Proof.
  induction f as [|f IH]; intros room R; cbn [probe_pad]; [constructor|].
  destruct (room <=? 0) eqn:A; [constructor|]. destruct (room >=? 2) eqn:B.
  - constructor; [unfold byte_ok; lia|]. constructor; [unfold byte_ok; lia|]. apply bytes_ok_app.
    split; [apply bytes_ok_zeroes|apply IH; lia].
  - constructor; [unfold byte_ok; lia|]. apply IH. lia.
Qed.

Lemma tlvs_extra : forall fs extra, Forall (fun f : Z * list Z => 10 < fst f < 256) extra ->
  forall p, tlvs c p (fs ++ extra) = tlvs c p fs.
Proof.
  intros fs extra H p. rewrite tlvs_app.
  assert (X : forall q, tlvs c q extra = (q, [])).
  { clear p. induction H as [|[t w] l T _ IH]; intros q; [reflexivity|]. cbn [tlvs fst snd] in *.
    rewrite one_unknown by (unfold byte_ok; lia). cbn [fst snd]. rewrite IH. reflexivity. }
  rewrite X. cbn [fst snd]. rewrite app_nil_r. destruct (tlvs c p fs); auto.
Qed.

Lemma body_of : forall b rest, zlen b < 65536 -> body ((42 :: 2 :: be16 (zlen b)) ++ b ++ rest) = b.
Proof.
  intros b rest L. unfold body, body_len. pose proof (zlen_nonneg _ b). pose proof (zlen_nonneg _ rest).
  change (nth 2 ((42 :: 2 :: be16 (zlen b)) ++ b ++ rest) 0) with (zlen b / 256 mod 256).
  change (nth 3 ((42 :: 2 :: be16 (zlen b)) ++ b ++ rest) 0) with (zlen b mod 256).
  rewrite un_be16 by lia. change (skipn 4 ((42 :: 2 :: be16 (zlen b)) ++ b ++ rest)) with (b ++ rest).
  rewrite !zlen_app. change (zlen (42 :: 2 :: be16 (zlen b))) with 4.
  replace (Z.min (zlen b) (4 + (zlen b + zlen rest) - 4)) with (zlen b) by lia.
  unfold zlen. rewrite Nat2Z.id, firstn_app, firstn_all, Nat.sub_diag. cbn [firstn]. apply app_nil_r.
Qed.

Lemma untimed_rtt : forall p, untimed (rtt_action p) = [].
Proof. intros p. unfold rtt_action. destruct (_ && _); reflexivity. Qed.

(** One more datagram *)
Lemma sent_snoc : forall l E1 R1 fs extra rest E2 R2,
  sent l E1 R1 -> Forall frame_ok fs -> Forall frame_ok extra ->
  Forall (fun f : Z * list Z => 10 < fst f < 256 /\ is_raw f = false) extra ->
  0 < zlen (enc (fs ++ extra)) -> zlen (enc (fs ++ extra)) + zlen rest <= v_size v -> bytes_ok rest ->
  untimed (snd (tlvs c p0 fs)) = E2 -> filter is_raw fs = R2 ->
  (own = true -> v_probe v = true -> In MESSAGE_HELLO (map fst fs) -> zlen (enc (fs ++ extra)) + zlen rest = v_size v) ->
  sent (l ++ [(42 :: 2 :: be16 (zlen (enc (fs ++ extra)))) ++ enc (fs ++ extra) ++ rest]) (E1 ++ E2) (R1 ++ R2).
Proof.
  intros l E1 R1 fs extra rest E2 R2 (P & A & fss & X1 & X2) Fok Xok Ex L0 L B U Rw Pad.
  set (b := enc (fs ++ extra)) in *. set (pkt := _ ++ b ++ rest).
  pose proof (zlen_nonneg _ b). pose proof (zlen_nonneg _ rest). pose proof (proj1 VOK) as [V1 V2].
  assert (Fall : Forall frame_ok (fs ++ extra)) by (apply Forall_app; auto).
  assert (Bp : bytes_ok pkt).
  { unfold pkt. apply bytes_ok_app. split; [|apply bytes_ok_app; split; [apply enc_bytes; auto|auto]].
    constructor; [unfold byte_ok; lia|]. constructor; [unfold byte_ok; lia|]. apply be16_ok. }
  assert (Lp : zlen pkt = 4 + zlen b + zlen rest).
  { unfold pkt. rewrite !zlen_app. change (zlen (42 :: 2 :: be16 (zlen b))) with 4. lia. }
  assert (Fr : frames (body pkt) (fs ++ extra) true).
  { unfold pkt. rewrite body_of by lia. apply frames_enc. auto. }
  destruct (parse_packet_frames c pkt _ _ FROM Bp ltac:(lia) Fr) as [Pk _].
  assert (Hh : babel_header c pkt = true) by (unfold babel_header; rewrite LL; reflexivity).
  rewrite Hh in Pk.
  assert (Tx : tlvs c p0 (fs ++ extra) = tlvs c p0 fs).
  { apply tlvs_extra. eapply Forall_impl; [|exact Ex]. cbv beta. tauto. }
  rewrite Tx in Pk.
  split; [|split].
  - apply Forall_app. split; auto. constructor; [|constructor]. split; auto. split; [lia|]. eauto.
  - rewrite flat_map_app. cbn [flat_map]. rewrite app_nil_r, untimed_app, A. f_equal. unfold acts at 1. rewrite Pk.
    rewrite untimed_app, untimed_rtt, app_nil_r. auto.
  - exists (fss ++ [fs ++ extra]). split.
    { apply Forall2_app; auto. constructor; [|constructor]. split; auto. intros O1 O2 O3. rewrite Lp, <- (Pad O1 O2); [lia|].
      rewrite map_app in O3. apply in_app_or in O3. destruct O3 as [O3|O3]; auto. exfalso.
      apply in_map_iff in O3. destruct O3 as (f & O3 & O4). rewrite Forall_forall in Ex. specialize (Ex f O4).
      unfold MESSAGE_HELLO in O3. lia. }
    rewrite concat_app, filter_app. cbn [concat]. rewrite app_nil_r, X2, filter_app, Rw. f_equal.
    assert (N : filter is_raw extra = []).
    { clear - Ex. induction Ex as [|f l [_ Hf] _ IH]; [auto|]. cbn [filter]. rewrite Hf. auto. }
    rewrite N. apply app_nil_r.
Qed.

(** What a flush does not change *)
Definition keeps (s s' : est) : Prop :=
  e_hseq s' = e_hseq s /\ e_ipv4 s' = e_ipv4 s /\ e_lls s' = e_lls s /\ e_mc s' = e_mc s.
Definition fresh (s : est) : Prop :=
  e_buf s = [] /\ e_hello s = -1 /\ e_id s = None /\ e_nh s = None /\ e_prefix s = None.

Lemma cur_fresh : forall s s', fresh s' -> keeps s s' -> e_bad s' = false ->
  length (e_index s') = 8%nat /\ bytes_ok (e_index s') ->
  Forall (fun r => match r with Some i => length i = 8%nat /\ bytes_ok i | None => True end) (e_rndb s') ->
  match e_ipv4 s with Some x => length x = 4%nat /\ bytes_ok x | None => True end ->
  (v_key v <> None -> e_lls s <> []) -> (own = true -> e_mc s = None) -> cur s' [] [] (fun _ => []).
Proof.
  intros s s' (F1 & F2 & F3 & F4 & F5) (K1 & K2 & K3 & K4) B Ix Rb I4 Ll Ow.
  constructor; auto.
  - left. auto.
  - intros o _. unfold coupled. rewrite F3, F4, F5. repeat split; intros; try discriminate.
  - unfold avail. rewrite F1, zlen_nil. destruct auth_room_cases; destruct VOK as [[? ?] _]; lia.
  - rewrite K2. auto.
  - rewrite K3. auto.
  - rewrite K4. auto.
Qed.

Lemma hello_split : forall u sq iv o, v_ts v = true ->
  enc [(MESSAGE_HELLO, hello_body u sq iv (htail o))] =
  ([4; 12] ++ be16 (if u then 32768 else 0) ++ be16 sq ++ be16 iv) ++ htail o.
Proof. intros u sq iv o T. rewrite enc_one. unfold htail. rewrite T. destruct o; reflexivity. Qed.

Lemma fill_patch : forall F s, e_buf s = enc (F None) -> shape (e_hello s) F ->
  exists o, t_ok o /\ quiet (set_e_buf (enc (F o)) s) (fill_rtt key v s) /\ zlen (enc (F o)) = zlen (e_buf s) /\
    (v_ts v = true -> 0 <= e_hello s -> o = Some (time_us (e_now (e_gettime s)))).
Proof.
  intros F s B Sh.
  assert (Same : v_ts v = false \/ e_hello s = -1 -> exists o, t_ok o /\ quiet (set_e_buf (enc (F o)) s) s /\ zlen (enc (F o)) = zlen (e_buf s) /\
    (v_ts v = true -> 0 <= e_hello s -> o = Some (time_us (e_now (e_gettime s))))).
  { intros D. exists None. split; [exact I|]. rewrite B. split; [unfold quiet; rewrite <- B; repeat split|]. split; [auto|].
    intros D1 D2. destruct D as [D|D]; [congruence|lia]. }
  unfold fill_rtt. destruct (v_ts v) eqn:T; [|exact (Same (or_introl eq_refl))]. cbn [andb].
  destruct Sh as [[H _]|(pre & post & u & sq & iv & H & HF)].
  { specialize (Same (or_intror H)). rewrite H in *. exact Same. }
  pose proof (zlen_nonneg _ (enc pre)) as Np.
  replace (e_hello s >=? 0) with true by lia.
  set (w := [4; 12] ++ be16 (if u then 32768 else 0) ++ be16 sq ++ be16 iv).
  assert (Eb : forall o, enc (F o) = (enc pre ++ w) ++ htail o ++ enc post).
  { intros o. rewrite HF, enc_app. change ((MESSAGE_HELLO, hello_body u sq iv (htail o)) :: post)
      with ([(MESSAGE_HELLO, hello_body u sq iv (htail o))] ++ post).
    rewrite enc_app, hello_split by auto. fold w. rewrite <- !app_assoc. auto. }
  assert (Lw : length (enc pre ++ w) = (Z.to_nat (e_hello s) + 8)%nat).
  { rewrite app_length, H. unfold zlen. rewrite Nat2Z.id. reflexivity. }
  assert (Ht0 : htail None = [1; 4; 0; 0; 0; 0]) by (unfold htail; rewrite T; auto).
  assert (Lz : zlen (e_buf s) = zlen (enc pre) + 14 + zlen (enc post)).
  { rewrite B, Eb, Ht0, !zlen_app. unfold w. rewrite !zlen_app. change (zlen [4; 12]) with 2. change (zlen [1; 4; 0; 0; 0; 0]) with 6.
    unfold be16. rewrite !zlen_cons, zlen_nil. lia. }
  pose proof (zlen_nonneg _ (enc post)) as Nq.
  replace (e_hello s + 14 >? zlen (e_buf s)) with false by lia.
  assert (A : forall k, at_ (e_buf s) (Z.to_nat (e_hello s) + 8 + k) = nth k (htail None ++ enc post) 0).
  { intros k. unfold at_. rewrite B, Eb, app_nth2 by lia. rewrite Lw. f_equal. lia. }
  pose proof (A 0%nat) as A0. pose proof (A 1%nat) as A1. rewrite Ht0 in A0, A1. cbn [app nth] in A0, A1.
  replace (Z.to_nat (e_hello s) + 8 + 0)%nat with (Z.to_nat (e_hello s) + 8)%nat in A0 by lia.
  replace (Z.to_nat (e_hello s) + 8 + 1)%nat with (Z.to_nat (e_hello s) + 9)%nat in A1 by lia.
  rewrite A0, A1. change ((1 =? SUBTLV_PADN) && (4 =? 4)) with true. cbv iota.
  pose proof (quiet_gettime s) as Qg. set (s1 := e_gettime s) in *.
  assert (B1 : e_buf s1 = e_buf s) by (destruct Qg as (Q & _); auto).
  exists (Some (time_us (e_now s1))). split.
  { cbn [t_ok]. unfold u32_ok, time_us, u32. apply Z.mod_pos_bound. lia. }
  assert (X : firstn (Z.to_nat (e_hello s) + 8) (e_buf s1) ++ [SUBTLV_TIMESTAMP; 4] ++ be32 (time_us (e_now s1))
     ++ skipn (Z.to_nat (e_hello s) + 14) (e_buf s1) = enc (F (Some (time_us (e_now s1))))).
  { rewrite Eb, B1, B, Eb. rewrite <- Lw at 1. rewrite firstn_app, firstn_all, Nat.sub_diag. cbn [firstn]. rewrite app_nil_r.
    f_equal. unfold htail at 2. rewrite T. cbn [app]. do 2 f_equal. f_equal.
    rewrite skipn_app, (skipn_all2 (enc pre ++ w)) by lia. rewrite Lw. cbn [app].
    replace (Z.to_nat (e_hello s) + 14 - (Z.to_nat (e_hello s) + 8))%nat with 6%nat by lia. rewrite Ht0. reflexivity. }
  rewrite X. split.
  - destruct Qg as (Q1 & Q2 & Q3 & Q4 & Q5 & Q6 & Q7 & Q8 & Q9 & Q10 & Q11 & Q12 & Q13 & Q14).
    unfold quiet. cbn [set_e_buf e_buf e_hello e_id e_nh e_prefix e_pc e_index e_hseq e_ipv4 e_lls e_mc e_rndb e_sent e_bad].
    repeat split; auto.
  - split; [|auto]. rewrite B, !Eb, !zlen_app. f_equal. f_equal. unfold htail. rewrite T. reflexivity.
Qed.

(** A TLV at the end of the packet *)
Lemma shape_snoc : forall h F f, shape h F -> shape h (fun o => F o ++ [f]).
Proof.
  intros h F f [[H X]|(pre & post & u & sq & iv & H & X)].
  - left. split; auto. intros o. rewrite X. auto.
  - right. exists pre, (post ++ [f]), u, sq, iv. split; auto. intros o. rewrite X, <- app_assoc. auto.
Qed.

Lemma firstn_all8 : forall l : list Z, length l = 8%nat -> firstn (Z.to_nat 8) (skipn (Z.to_nat 0) l) = l.
Proof. intros l L. change (skipn (Z.to_nat 0) l) with l. change (Z.to_nat 8) with 8%nat. rewrite <- L. apply firstn_all. Qed.

(** send_pc: nothing, or a packet counter TLV *)
Lemma pc_ok : forall s E R F, cur s E R F -> v_key v <> None ->
  exists s' extra, s' = send_pc key v s /\
    e_buf s' = e_buf s ++ enc extra /\ zlen (enc extra) <= 14 /\ e_hello s' = e_hello s /\
    Forall frame_ok extra /\ Forall (fun f : Z * list Z => 10 < fst f < 256 /\ is_raw f = false) extra /\
    (extra = [] \/ exists f, extra = [f]) /\
    e_bad s' = false /\ keeps s s' /\ e_sent s' = e_sent s /\
    (length (e_index s') = 8%nat /\ bytes_ok (e_index s')) /\
    Forall (fun r => match r with Some i => length i = 8%nat /\ bytes_ok i | None => True end) (e_rndb s').
Proof.
  intros s E R F C K. unfold send_pc.
  assert (Z0 : 0 <= v_size v - 62 - zlen (e_buf s)).
  { pose proof (c_avail _ _ _ _ C) as Av. unfold avail, auth_room in Av. destruct (v_key v); [auto|congruence]. }
  replace (v_size v - zlen (e_buf s) <? 48 + 6 + 8) with false by lia.
  set (write := fun s : est => set_e_pc (u32 (e_pc s + 1))
    (puts key v (e_index s) 0 8 (put key v (MESSAGE_PC :: 12 :: be32 (e_pc s)) s))).
  assert (W : forall s1, e_buf s1 = e_buf s -> e_hello s1 = e_hello s -> e_bad s1 = false -> keeps s s1 -> e_sent s1 = e_sent s ->
    length (e_index s1) = 8%nat -> bytes_ok (e_index s1) ->
    Forall (fun r => match r with Some i => length i = 8%nat /\ bytes_ok i | None => True end) (e_rndb s1) ->
    exists s' extra, s' = write s1 /\
    e_buf s' = e_buf s ++ enc extra /\ zlen (enc extra) <= 14 /\ e_hello s' = e_hello s /\
    Forall frame_ok extra /\ Forall (fun f : Z * list Z => 10 < fst f < 256 /\ is_raw f = false) extra /\
    (extra = [] \/ exists f, extra = [f]) /\
    e_bad s' = false /\ keeps s s' /\ e_sent s' = e_sent s /\
    (length (e_index s') = 8%nat /\ bytes_ok (e_index s')) /\
    Forall (fun r => match r with Some i => length i = 8%nat /\ bytes_ok i | None => True end) (e_rndb s')).
  { intros s1 Hb Hh Hbad Hk Hs Hl Hx Hr. exists (write s1), [(MESSAGE_PC, be32 (e_pc s1) ++ e_index s1)].
    split; auto. rewrite enc_one.
    assert (Li : zlen (be32 (e_pc s1) ++ e_index s1) = 12).
    { rewrite zlen_app. unfold zlen at 2. rewrite Hl. reflexivity. }
    assert (Lx : zlen (e_index s1) = 8) by (unfold zlen; rewrite Hl; reflexivity).
    assert (Wr : write s1 = set_e_pc (u32 (e_pc s1 + 1)) (set_e_buf (e_buf s1 ++ MESSAGE_PC :: 12 :: be32 (e_pc s1) ++ e_index s1) s1)).
    { unfold write, puts, put, bad_if. rewrite firstn_all8 by auto. rewrite Hb.
      replace (zlen (e_buf s) + zlen (MESSAGE_PC :: 12 :: be32 (e_pc s1)) >? v_size v) with false
        by (change (zlen (MESSAGE_PC :: 12 :: be32 (e_pc s1))) with 6; lia).
      cbn [e_buf set_e_buf]. rewrite zlen_app.
      replace (zlen (e_buf s) + zlen (MESSAGE_PC :: 12 :: be32 (e_pc s1)) + zlen (e_index s1) >? v_size v) with false
        by (change (zlen (MESSAGE_PC :: 12 :: be32 (e_pc s1))) with 6; lia).
      rewrite Lx. change ((8 <? 0) || (0 + 8 >? 8)) with false. cbv iota. rewrite <- app_assoc. reflexivity. }
    rewrite Wr, Li, Hb. cbn [set_e_pc set_e_buf e_buf e_hello e_bad e_sent e_index e_rndb].
    split; [auto|]. split; [rewrite !zlen_cons, Li; lia|]. split; [auto|].
    split. { constructor; [|constructor]. unfold frame_ok. cbn [fst snd]. rewrite Li. unfold MESSAGE_PC.
             split; [lia|]. split; [lia|]. apply bytes_ok_app. split; [apply be32_ok|auto]. }
    split. { constructor; [|constructor]. split; [cbn [fst]; unfold MESSAGE_PC; lia|reflexivity]. }
    split; [right; eauto|]. split; [auto|]. split; [exact Hk|]. split; [auto|]. split; [auto|]. auto. }
  destruct C as [? ? ? ? ? ? ? Cb [Cx Cy] ? Cr ? ? ?].
  change (set_e_pc (u32 (e_pc s + 1)) (puts key v (e_index s) 0 8 (put key v (MESSAGE_PC :: 12 :: be32 (e_pc s)) s))) with (write s).
  destruct (e_pc s =? 0).
  - unfold e_randomb. destruct (e_rndb s) as [|r l] eqn:Er.
    + exists s, []. split; auto. cbn [enc flat_map]. rewrite app_nil_r, zlen_nil, Er. repeat split; auto. lia.
    + inversion Cr as [|? ? Hr Hl]; subst. destruct r as [i|].
      * apply W; auto; try reflexivity; cbn [set_e_index e_index]; try tauto. repeat split.
      * exists (set_e_rndb l s), []. split; auto. cbn [enc flat_map set_e_rndb e_buf e_rndb].
        rewrite app_nil_r, zlen_nil. repeat split; auto. lia.
  - apply W; auto. repeat split.
Qed.

Lemma flush_ok : forall s E R, binv s E R -> 
  binv (flushbuf key mac v s) E R /\ fresh (flushbuf key mac v s) /\ keeps s (flushbuf key mac v s).
Proof.
  intros s E R (E1 & E2 & R1 & R2 & F & -> & -> & Sn & C).
  assert (Sz : zlen (e_buf s) <= v_size v).
  { pose proof (c_avail _ _ _ _ C) as Av. unfold avail in Av. destruct auth_room_cases; lia. }
  unfold flushbuf. replace (zlen (e_buf s) >? v_size v) with false by lia. cbn [bad_if].
  destruct (zlen (e_buf s) >? 0) eqn:Z0.
  2:{ assert (B0 : e_buf s = []).
      { destruct (e_buf s); [auto|]. rewrite zlen_cons in Z0. pose proof (zlen_nonneg _ l). lia. }
      assert (F0 : F None = []).
      { pose proof (c_buf _ _ _ _ C) as Cb. rewrite B0 in Cb. destruct (F None) as [|[t w] l]; [auto|discriminate Cb]. }
      assert (X : E2 = [] /\ R2 = []).
      { pose proof (c_acts _ _ _ _ C None Logic.I) as Ca. pose proof (c_raw _ _ _ _ C None) as Cr. rewrite F0 in Ca, Cr. auto. }
      destruct X as [-> ->]. split; [|split].
      - exists E1, [], R1, [], (fun _ => []). split; [auto|]. split; [auto|]. split; [exact Sn|].
        destruct C. apply (cur_fresh s); auto; repeat split.
      - repeat split.
      - repeat split. }
  (* the packet counter *)
  set (s1 := match v_key v with Some _ => send_pc key v s | None => s end).
  assert (P : exists extra, e_buf s1 = e_buf s ++ enc extra /\ zlen (enc extra) <= (if auth_room =? 0 then 0 else 14) /\ e_hello s1 = e_hello s /\
    Forall frame_ok extra /\ Forall (fun f : Z * list Z => 10 < fst f < 256 /\ is_raw f = false) extra /\
    (extra = [] \/ exists f, extra = [f]) /\
    e_bad s1 = false /\ keeps s s1 /\ e_sent s1 = e_sent s /\
    (length (e_index s1) = 8%nat /\ bytes_ok (e_index s1)) /\
    Forall (fun r => match r with Some i => length i = 8%nat /\ bytes_ok i | None => True end) (e_rndb s1)).
  { unfold s1, auth_room. destruct (v_key v) as [k|] eqn:K.
    - destruct (pc_ok s E2 R2 F C ltac:(congruence)) as (s' & extra & -> & Hp). exists extra. exact Hp.
    - exists []. cbn [enc flat_map]. rewrite app_nil_r, zlen_nil. destruct C. repeat split; auto; try tauto. exact (Z.le_refl 0). }
  destruct P as (extra & P1 & P2 & P3 & P4 & P5 & P6 & P7 & P8 & P9 & P10 & P11).
  set (F1 := fun o => F o ++ extra).
  assert (B1 : e_buf s1 = enc (F1 None)) by (unfold F1; rewrite enc_app, P1, (c_buf _ _ _ _ C); auto).
  assert (Sh : shape (e_hello s1) F1).
  { rewrite P3. unfold F1. destruct P6 as [-> |(f & ->)]; [|apply shape_snoc, C].
    pose proof (c_shape _ _ _ _ C) as Q. clear - Q. destruct Q as [[Q1 Q2]|(pre & post & u & sq & iv & Q1 & Q2)].
    - left. split; auto. intros o. rewrite Q2. auto.
    - right. exists pre, post, u, sq, iv. split; auto. intros o. rewrite app_nil_r. auto. }
  destruct (fill_patch F1 s1 B1 Sh) as (o & To & Q & Lo & _).
  set (header := 42 :: 2 :: be16 (zlen (e_buf s1))).
  set (s2 := fill_rtt key v s1) in *.
  destruct Q as (Q1 & Q2 & Q3 & Q4 & Q5 & Q6 & Q7 & Q8 & Q9 & Q10 & Q11 & Q12 & Q13 & Q14).
  cbn [set_e_buf e_buf e_hello e_id e_nh e_prefix e_pc e_index e_hseq e_ipv4 e_lls e_mc e_rndb e_sent e_bad] in *.
  pose proof (c_avail _ _ _ _ C) as Av. unfold avail in Av.
  assert (L1 : zlen (e_buf s1) = zlen (e_buf s) + zlen (enc extra)) by (rewrite P1, zlen_app; auto).
  pose proof (zlen_nonneg _ (enc extra)) as Nx.
  assert (Tr : exists tl, match v_key v with
      | None => Some []
      | Some k => add_hmac key mac (v_port v) (e_lls s2) (v_dst v) header (e_buf s2) (v_size v) k
      end = Some tl /\ bytes_ok tl /\ zlen (e_buf s2) + zlen tl <= v_size v).
  { assert (P2' : v_key v <> None -> zlen (enc extra) <= 14 /\ 0 <= v_size v - 62 - zlen (e_buf s)).
    { unfold auth_room in P2, Av. destruct (v_key v); [|congruence]. auto. }
    assert (P2'' : v_key v = None -> zlen (enc extra) <= 0).
    { intros Kn. unfold auth_room in P2. rewrite Kn in P2. exact P2. }
    destruct (v_key v) as [k|] eqn:K.
    - destruct (P2' ltac:(congruence)) as [X1 X2].
      unfold add_hmac, compute_hmac.
      destruct (e_lls s2) as [|src lls] eqn:El.
      { exfalso. apply (c_lls _ _ _ _ C); [congruence|]. destruct P8 as (_ & _ & P8 & _). congruence. }
      rewrite Q1, Lo. replace (zlen (e_buf s1) + 2 + 32 >? v_size v) with false by lia.
      match goal with |- context [mac k ?m] => destruct (proj2 VOK ltac:(congruence) k m) as (d & -> & Ld & Bd) end.
      pose proof (zlen_nonneg _ d). eexists. split; [reflexivity|]. split.
      + constructor; [unfold byte_ok, MESSAGE_MAC; lia|]. constructor; [|auto]. unfold byte_ok, u8. lia.
      + rewrite !zlen_cons. lia.
    - exists []. split; auto. split; [constructor|]. rewrite Q1, Lo, zlen_nil. specialize (P2'' eq_refl). lia. }
  destruct Tr as (tl & -> & Btl & Ltl).
  replace (zlen (e_buf s2) + zlen tl >? v_size v) with false by lia. cbn [bad_if].
  set (padding := if v_probe v && _ then _ else _).
  assert (Pd : bytes_ok padding /\ zlen (e_buf s2) + zlen tl + zlen padding <= v_size v).
  { unfold padding. destruct (_ && _); [|rewrite zlen_nil; split; [constructor|lia]].
    rewrite probe_pad_len by lia. split; [apply probe_pad_bytes; lia|lia]. }
  destruct Pd as [Bpd Lpd].
  split; [|split].
  - exists (E1 ++ E2), [], (R1 ++ R2), [], (fun _ => []). split; [rewrite app_nil_r; auto|]. split; [rewrite app_nil_r; auto|].
    split.
    + cbn [buf_reset set_e_sent set_e_timeout set_e_prefix set_e_nh set_e_id set_e_hello set_e_buf e_sent].
      rewrite Q13, P9. unfold header. rewrite <- Lo, Q1. unfold F1.
      apply sent_snoc; auto.
      * apply (c_ok _ _ _ _ C o To).
      * fold (F1 o). rewrite Lo. lia.
      * fold (F1 o). rewrite <- Q1, zlen_app. lia.
      * apply bytes_ok_app. auto.
      * apply (c_acts _ _ _ _ C o To).
      * apply (c_raw _ _ _ _ C o).
      * fold (F1 o). rewrite <- Q1, zlen_app. intros O1 O2 O3.
        assert (Hn : e_hello s2 <> -1).
        { rewrite Q2, P3. intros Hn. destruct (c_shape _ _ _ _ C) as [[_ Fc]|(pre & post & u & sq & iv & X & _)].
          - rewrite Fc in O3. pose proof (c_hello _ _ _ _ C Hn) as Nh. apply in_map_iff in O3. destruct O3 as (f & O3 & O4).
            rewrite Forall_forall in Nh. apply (Nh f O4 O3).
          - pose proof (zlen_nonneg _ (enc pre)). lia. }
        assert (Hp : e_hello s2 >= 0).
        { destruct Sh as [[X _]|(pre & post & u & sq & iv & X & _)]; [congruence|].
          pose proof (zlen_nonneg _ (enc pre)). rewrite Q2. lia. }
        assert (Em : e_mc s2 = None).
        { destruct P8 as (_ & _ & _ & P8). rewrite Q11, P8. apply (c_own _ _ _ _ C O1). }
        unfold padding. rewrite O2, Em. replace (e_hello s2 >=? 0) with true by lia. cbn [andb].
        rewrite probe_pad_len by lia. lia.
    + destruct P8 as (K1 & K2 & K3 & K4). destruct C.
      set (s3 := buf_reset _).
      assert (Y : keeps s s3) by (unfold keeps; cbn; repeat split; congruence).
      assert (Y2 : e_index s3 = e_index s1) by (cbn; congruence).
      assert (Y3 : e_rndb s3 = e_rndb s1) by (cbn; congruence).
      assert (Y4 : e_bad s3 = false) by (cbn; congruence).
      apply (cur_fresh s); auto; rewrite ?Y2, ?Y3; auto. repeat split.
  - repeat split.
  - destruct P8 as (K1 & K2 & K3 & K4). unfold keeps.
    cbn [buf_reset set_e_sent set_e_timeout set_e_prefix set_e_nh set_e_id set_e_hello set_e_buf e_hseq e_ipv4 e_lls e_mc].
    repeat split; congruence.
Qed.
End Mac.

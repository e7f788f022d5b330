(** L_Codec.v: each TLV written by the encoder is read back. *)
From Verif Require Import Base M_Util S_Util L_Util M_Filter M_Wire S_Wire L_Wire L_Wire2 S_Buf.

Lemma norm_firstn : forall q n k, prefix_ok q n -> n <= 8 * Z.of_nat k -> (k <= 16)%nat ->
  normalize_prefix (pad16 (firstn k q)) n = q.
Proof.
  intros q n k (A & N & Q) H K. rewrite <- Q at 2.
  apply normalize_eq_iff; [apply pad16_ok, bytes_ok_firstn, A|exact A|exact N|].
  intros i Hi. unfold abit. f_equal. unfold at_, pad16.
  assert (L : length (firstn k q) = k) by (rewrite firstn_length, (proj1 A); lia).
  rewrite nth_firstn by lia. rewrite app_nth1 by (rewrite L; lia). rewrite nth_firstn by lia. reflexivity.
Qed.
Lemma rds_at : forall a b c p n, p = zlen a -> n = zlen b -> rds (a ++ b ++ c) p n = Ret b.
Proof.
  intros a b c p n -> ->. unfold rds. pose proof (zlen_nonneg _ a) as Na. pose proof (zlen_nonneg _ c) as Nc.
  destruct (zlen b <=? 0) eqn:E.
  - destruct b; [auto|]. rewrite zlen_cons in E. pose proof (zlen_nonneg _ b). lia.
  - replace ((0 <=? zlen a) && (zlen a + zlen b <=? zlen (a ++ b ++ c))) with true by (rewrite !zlen_app; lia).
    unfold zlen. rewrite !Nat2Z.id. rewrite skipn_app, skipn_all, Nat.sub_diag. cbn [skipn app].
    rewrite firstn_app, firstn_all, Nat.sub_diag. cbn [firstn]. rewrite app_nil_r. auto.
Qed.

Lemma np6 : forall pkt q n om p dp len, prefix_ok q n -> 0 <= om <= n / 8 -> (n + 7) / 8 - om <= len ->
  rds pkt p ((n + 7) / 8 - om) = Ret (firstn (Z.to_nat ((n + 7) / 8 - om)) (skipn (Z.to_nat om) q)) ->
  (om = 0 \/ exists d, dp = Some d /\ v4mapped d = false /\ firstn (Z.to_nat om) d = firstn (Z.to_nat om) q) ->
  network_prefix pkt AE_IPV6 n om p dp len = Ret (Some ((n + 7) / 8 - om, q)).
Proof.
  intros pkt q n om p dp len (A & N & Q) Hom Hl E D. unfold network_prefix, AE_IPV6, AE_WILDCARD, AE_IPV4, AE_V4VIAV6.
  replace (n >=? 0) with true by lia. cbv zeta. replace ((n + 7) / 8 >? 16) with false by lia.
  change (2 =? 0) with false. change ((2 =? 1) || (2 =? 4)) with false. change (2 =? 2) with true. cbv iota.
  replace ((om >? 16) || (((n + 7) / 8 >? om) && (len <? (n + 7) / 8 - om))) with false by lia.
  set (bs := firstn (Z.to_nat ((n + 7) / 8 - om)) (skipn (Z.to_nat om) q)) in *.
  assert (J : firstn (Z.to_nat om) q ++ bs = firstn (Z.to_nat ((n + 7) / 8)) q).
  { unfold bs. rewrite <- (firstn_skipn (Z.to_nat om) (firstn (Z.to_nat ((n + 7) / 8)) q)).
    rewrite firstn_firstn_le by lia. f_equal. rewrite skipn_firstn_comm. f_equal. lia. }
  replace (n <? 0) with false by lia. change (ae_is_v4 2) with false. cbv iota.
  assert (F : normalize_prefix (pad16 (firstn (Z.to_nat om) q ++ bs)) n = q).
  { rewrite J. apply norm_firstn; [exact (conj A (conj N Q))|lia|lia]. }
  destruct (om =? 0) eqn:O.
  - replace (Z.to_nat om) with 0%nat in F by lia. cbn [firstn app] in F. rewrite E. cbn [bind app]. rewrite F. auto.
  - destruct D as [D|(d & -> & V & D)]; [lia|]. rewrite V, E. cbn [bind]. rewrite D, F. auto.
Qed.

Lemma np4 : forall pkt ae q n p dp len, (ae = AE_IPV4 \/ ae = AE_V4VIAV6) -> prefix_ok q n -> 96 <= n ->
  v4mapped q = true -> (n - 96 + 7) / 8 <= len ->
  rds pkt p ((n - 96 + 7) / 8) = Ret (firstn (Z.to_nat ((n - 96 + 7) / 8)) (skipn 12 q)) ->
  network_prefix pkt ae (n - 96) 0 p dp len = Ret (Some ((n - 96 + 7) / 8, q)).
Proof.
  intros pkt ae q n p dp len Ae (A & N & Q) N96 V Hl E. unfold network_prefix.
  replace (n - 96 >=? 0) with true by lia. cbv zeta. replace ((n - 96 + 7) / 8 >? 16) with false by lia.
  replace (ae =? AE_WILDCARD) with false by (unfold AE_IPV4, AE_V4VIAV6, AE_WILDCARD in *; lia).
  replace ((ae =? AE_IPV4) || (ae =? AE_V4VIAV6)) with true by (unfold AE_IPV4, AE_V4VIAV6, AE_WILDCARD in *; lia).
  replace ((0 >? 4) || ((n - 96 + 7) / 8 >? 4) ||
    (((n - 96 + 7) / 8 >? 0) && (len <? (n - 96 + 7) / 8 - 0))) with false by lia.
  change (0 =? 0) with true. cbv iota.
  replace ((n - 96 + 7) / 8 - 0) with ((n - 96 + 7) / 8) by lia. rewrite E. cbn [bind].
  replace (n - 96 <? 0) with false by lia.
  replace (ae_is_v4 ae) with true by (unfold ae_is_v4, AE_IPV4, AE_V4VIAV6 in *; lia).
  replace (n - 96 + 96) with n by lia. apply v4mapped_firstn in V. rewrite <- V.
  replace (firstn 12 q ++ firstn (Z.to_nat ((n - 96 + 7) / 8)) (skipn 12 q)) with (firstn (Z.to_nat ((n + 7) / 8)) q).
  - rewrite norm_firstn; [auto|exact (conj A (conj N Q))|lia|lia].
  - rewrite <- (firstn_skipn 12 (firstn (Z.to_nat ((n + 7) / 8)) q)).
    rewrite firstn_firstn_le by lia. f_equal. rewrite skipn_firstn_comm. f_equal. lia.
Qed.

(** ** Reading a TLV at known indices *)
Lemma rd_nth : forall w k, 0 <= k < zlen w -> rd w k = Ret (nth (Z.to_nat k) w 0).
Proof. intros w k H. exact (rd_win w 0 w k (win_refl w) H). Qed.
Lemma un_be16 : forall x, 0 <= x < 65536 -> un16 (x / 256 mod 256) (x mod 256) = x.
Proof. intros x H. exact (be16_un16 x H). Qed.
Lemma rd16_at : forall w k x, 0 <= k -> k + 1 < zlen w -> 0 <= x < 65536 ->
  nth (Z.to_nat k) w 0 = x / 256 mod 256 -> nth (S (Z.to_nat k)) w 0 = x mod 256 -> rd16 w k = Ret x.
Proof.
  intros w k x K L X E1 E2. unfold rd16. rewrite !rd_nth by lia. cbn [bind].
  replace (Z.to_nat (k + 1)) with (S (Z.to_nat k)) by lia. rewrite E1, E2, un_be16 by auto. auto.
Qed.
Lemma rd_at : forall w k x, 0 <= k < zlen w -> nth (Z.to_nat k) w 0 = x -> rd w k = Ret x.
Proof. intros w k x K <-. apply rd_nth. auto. Qed.

Ltac zl := rewrite ?zlen_app, ?zlen_cons, ?zlen_nil in *.
Ltac zln := repeat match goal with
  | |- context [zlen (_ ++ _)] => rewrite zlen_app
  | |- context [zlen (_ :: _)] => rewrite zlen_cons
  | |- context [zlen []] => rewrite zlen_nil
  end.
Ltac rdk := first [apply rd_at; [zln; lia|reflexivity] | apply rd16_at; [lia|zln; lia|auto|reflexivity|reflexivity]].

Lemma subs_nil : forall St (f : St -> Z -> Z -> Z -> pr (option St)) pkt off s, subs f pkt off 0 s = Ret (Some s).
Proof. intros. reflexivity. Qed.

(** *** Hello *)
Definition hello_body (u : bool) (seqno interval : Z) (tail : list Z) : list Z :=
  be16 (if u then 32768 else 0) ++ be16 seqno ++ be16 interval ++ tail.
Inductive hello_tail : list Z -> option Z -> Prop :=
| ht_none : hello_tail [] None
| ht_pad : hello_tail [1; 4; 0; 0; 0; 0] None
| ht_ts : forall t, 0 <= t < 4294967296 -> hello_tail (3 :: 4 :: be32 t) (Some t).
Lemma one_hello_ok : forall c p u seqno interval tail ts, 0 <= seqno < 65536 -> 0 <= interval < 65536 ->
  hello_tail tail ts ->
  one c p MESSAGE_HELLO (hello_body u seqno interval tail) =
    (match ts with Some _ => set_p_hello true p | None => p end, [AHello u seqno interval ts]).
Proof.
  intros c p u seqno interval tail ts S1 S2 T. unfold one.
  set (v := hello_body u seqno interval tail). set (w := MESSAGE_HELLO :: zlen v :: v).
  assert (Lt : zlen tail = 0 \/ zlen tail = 6) by (destruct T; cbn; auto).
  assert (Lv : zlen v = 6 + zlen tail) by (unfold v, hello_body, be16; zln; lia).
  assert (Lw : zlen w = 8 + zlen tail) by (unfold w; zln; lia).
  change (parse_tlv c w MESSAGE_HELLO 0 (zlen v) p) with (p_hello_tlv w 0 (zlen v) p).
  unfold p_hello_tlv. replace (zlen v <? 6) with false by lia.
  assert (R1 : rd w (0 + 2) = Ret (if u then 128 else 0)).
  { apply rd_at; [lia|]. destruct u; reflexivity. }
  assert (R2 : rd16 w (0 + 4) = Ret seqno) by (apply rd16_at; [lia|lia|auto|reflexivity|reflexivity]).
  assert (R3 : rd16 w (0 + 6) = Ret interval) by (apply rd16_at; [lia|lia|auto|reflexivity|reflexivity]).
  rewrite R1, R2, R3. cbn [bind].
  assert (R4 : subs (hello_step w) w (0 + 8) (zlen v - 6) None = Ret (Some ts)).
  { rewrite Lv. replace (6 + zlen tail - 6) with (zlen tail) by lia.
    clear R1 R2 R3. destruct T as [| |t Ht].
    - reflexivity.
    - assert (Lw' : zlen w = 14) by (rewrite Lw; reflexivity).
      unfold subs, sub_loop.
      assert (Q1 : rd w (0 + 8 + 0) = Ret 1) by (apply rd_at; [lia|reflexivity]).
      assert (Q2 : rd w (0 + 8 + 0 + 1) = Ret 4) by (apply rd_at; [lia|reflexivity]).
      change (zlen [1; 4; 0; 0; 0; 0]) with 6. change (0 <? 6) with true. cbv iota.
      change (S (Z.to_nat 6)) with 7%nat. rewrite Q1. cbn [bind]. change (1 =? SUBTLV_PAD1) with false.
      change (0 + 2 >? 6) with false. cbv iota. rewrite Q2. reflexivity.
    - assert (Lw' : zlen w = 14) by (rewrite Lw; reflexivity).
      unfold subs, sub_loop.
      assert (Q1 : rd w (0 + 8 + 0) = Ret 3) by (apply rd_at; [lia|reflexivity]).
      assert (Q2 : rd w (0 + 8 + 0 + 1) = Ret 4) by (apply rd_at; [lia|reflexivity]).
      assert (Q3 : rd32 w (0 + 8 + 0 + 2) = Ret t).
      { unfold rd32. rewrite !rd_nth by lia. cbn [bind].
        change (nth (Z.to_nat (0 + 8 + 0 + 2)) w 0) with (at_ (be32 t) 0).
        change (nth (Z.to_nat (0 + 8 + 0 + 2 + 1)) w 0) with (at_ (be32 t) 1).
        change (nth (Z.to_nat (0 + 8 + 0 + 2 + 2)) w 0) with (at_ (be32 t) 2).
        change (nth (Z.to_nat (0 + 8 + 0 + 2 + 3)) w 0) with (at_ (be32 t) 3).
        rewrite be32_un32 by auto. auto. }
      change (zlen (3 :: 4 :: be32 t)) with 6. change (0 <? 6) with true. cbv iota.
      change (S (Z.to_nat 6)) with 7%nat. rewrite Q1. cbn [bind]. change (3 =? SUBTLV_PAD1) with false.
      change (0 + 2 >? 6) with false. cbv iota. rewrite Q2. cbn [bind].
      change (0 + 4 + 2 >? 6) with false. change (3 =? SUBTLV_PADN) with false. cbv iota.
      unfold hello_step. change (3 =? SUBTLV_TIMESTAMP) with true. change (4 >=? 4) with true. cbv iota.
      rewrite Q3. cbn [bind]. reflexivity. }
  rewrite R4. cbn [bind]. destruct u; reflexivity.
Qed.

(** *** A single sub-TLV *)
Lemma subs_one : forall St F inv, @step_ok St F inv -> forall pkt off t v s, t <> 0 -> t <> 1 -> inv s ->
  win pkt off (t :: zlen v :: v) -> bytes_ok (t :: zlen v :: v) ->
  subs (F pkt) pkt off (zlen (t :: zlen v :: v)) s = Ret (sub1 St F s t v).
Proof.
  intros St F inv Fok pkt off t v s T0 T1 Hs W B.
  assert (Fr : frames (t :: zlen v :: v) [(t, v)] true).
  { rewrite <- (app_nil_r v) at 2. constructor; auto. constructor. }
  destruct (subs_frames St F inv Fok _ _ _ pkt off s Fr W B Hs) as [E _]. rewrite E. f_equal.
  cbn [sub_fold]. unfold SUBTLV_PADN. replace (t =? 1) with false by lia.
  destruct (sub1 St F s t v); reflexivity.
Qed.
Lemma win_end : forall a b m, m = zlen a -> win (a ++ b) m b.
Proof. intros a b m ->. exists a, []. rewrite app_nil_r. auto. Qed.

Lemma rd32_be : forall x l, 0 <= x < 4294967296 -> rd32 (be32 x ++ l) 0 = Ret x.
Proof.
  intros x l X. unfold rd32. pose proof (zlen_nonneg _ l).
  rewrite !rd_nth by (unfold be32; zln; lia). cbn [bind].
  change (nth (Z.to_nat 0) (be32 x ++ l) 0) with (at_ (be32 x) 0).
  change (nth (Z.to_nat (0 + 1)) (be32 x ++ l) 0) with (at_ (be32 x) 1).
  change (nth (Z.to_nat (0 + 2)) (be32 x ++ l) 0) with (at_ (be32 x) 2).
  change (nth (Z.to_nat (0 + 3)) (be32 x ++ l) 0) with (at_ (be32 x) 3).
  rewrite be32_un32 by auto. auto.
Qed.
Lemma rd32_be4 : forall y x l, 0 <= x < 4294967296 -> rd32 (be32 y ++ be32 x ++ l) (0 + 4) = Ret x.
Proof.
  intros y x l X. unfold rd32. pose proof (zlen_nonneg _ l).
  rewrite !rd_nth by (unfold be32; zln; lia). cbn [bind].
  change (nth (Z.to_nat (0 + 4)) (be32 y ++ be32 x ++ l) 0) with (at_ (be32 x) 0).
  change (nth (Z.to_nat (0 + 4 + 1)) (be32 y ++ be32 x ++ l) 0) with (at_ (be32 x) 1).
  change (nth (Z.to_nat (0 + 4 + 2)) (be32 y ++ be32 x ++ l) 0) with (at_ (be32 x) 2).
  change (nth (Z.to_nat (0 + 4 + 3)) (be32 y ++ be32 x ++ l) 0) with (at_ (be32 x) 3).
  rewrite be32_un32 by auto. auto.
Qed.

(** *** IHU *)
Definition ihu_tail (rtt : option (Z * Z)) : list Z :=
  match rtt with Some (a, b) => 3 :: 8 :: be32 a ++ be32 b | None => [] end.
Definition ihu_body (rxcost interval : Z) (a : list Z) (rtt : option (Z * Z)) : list Z :=
  (if linklocal a then AE_IPV6_LOCAL else AE_IPV6) :: 0 :: be16 rxcost ++ be16 interval
  ++ (if linklocal a then skipn 8 a else a) ++ ihu_tail rtt.
Definition rtt_ok (rtt : option (Z * Z)) : Prop :=
  match rtt with Some (a, b) => u32_ok a /\ u32_ok b | None => True end.
Lemma ihu_tail_ok : forall rtt, bytes_ok (ihu_tail rtt).
Proof.
  intros [[a b]|]; [|constructor]. cbn [ihu_tail].
  constructor; [unfold byte_ok; lia|]. constructor; [unfold byte_ok; lia|].
  apply bytes_ok_app. split; apply be32_ok.
Qed.
Lemma ihu_tail_subs : forall pkt off rtt, rtt_ok rtt -> win pkt off (ihu_tail rtt) ->
  subs (ihu_step pkt) pkt off (zlen (ihu_tail rtt)) None = Ret (Some rtt).
Proof.
  intros pkt off [[a b]|] R W; [|reflexivity].
  pose proof (ihu_tail_ok (Some (a, b))) as B. cbn [ihu_tail] in *.
  change 8 with (zlen (be32 a ++ be32 b)) in *.
  rewrite (subs_one _ ihu_step _ ihu_step_ok) by (auto; lia).
  unfold sub1, ihu_step. change (3 =? SUBTLV_TIMESTAMP) with true.
  change (zlen (be32 a ++ be32 b) >=? 8) with true. cbv iota.
  rewrite rd32_be by apply R. cbn [bind]. rewrite <- (app_nil_r (be32 b)).
  rewrite rd32_be4 by apply R. reflexivity.
Qed.
Lemma linklocal_firstn : forall a, linklocal a = true -> firstn 8 a = firstn 8 llprefix.
Proof. intros a H. unfold linklocal, memcmp_n in H. apply Z.eqb_eq in H. apply memcmp_0. auto. Qed.
Lemma pad16_id : forall a, length a = 16%nat -> pad16 a = a.
Proof. intros a L. unfold pad16. rewrite firstn_app, L. rewrite <- L at 1. rewrite firstn_all. cbn [firstn Nat.sub]. apply app_nil_r. Qed.
Lemma norm128 : forall a, length a = 16%nat -> normalize_prefix (pad16 a) 128 = a.
Proof. intros a L. rewrite pad16_id by auto. unfold normalize_prefix. change (128 >=? 128) with true. cbv iota. rewrite <- L. apply firstn_all. Qed.

Lemma one_ihu_ok : forall c p rxcost interval a rtt, 0 <= rxcost < 65536 -> 0 <= interval < 65536 ->
  addr_ok a -> rtt_ok rtt ->
  one c p MESSAGE_IHU (ihu_body rxcost interval a rtt) =
    (if existsb (fun l => beq l a) (r_lls c) then
      (match rtt with Some (x, y) => set_p_ts x y p | None => p end, [AIhu rxcost interval])
     else (p, [])).
Proof.
  intros c p rxcost interval a rtt X1 X2 [La Ba] R. unfold one.
  set (v := ihu_body rxcost interval a rtt). set (w := MESSAGE_IHU :: zlen v :: v).
  set (ab := if linklocal a then skipn 8 a else a).
  assert (Lab : zlen ab = if linklocal a then 8 else 16).
  { unfold ab, zlen. destruct (linklocal a); rewrite ?skipn_length, La; reflexivity. }
  pose proof (zlen_nonneg _ (ihu_tail rtt)) as Nt.
  assert (Lv : zlen v = 6 + zlen ab + zlen (ihu_tail rtt)) by (unfold v, ihu_body, be16; fold ab; zln; lia).
  assert (Lw : zlen w = 2 + zlen v) by (unfold w; zln; lia).
  assert (Lab0 : 8 <= zlen ab) by (destruct (linklocal a); lia).
  set (ae := if linklocal a then AE_IPV6_LOCAL else AE_IPV6) in *.
  set (hd := [MESSAGE_IHU; zlen v; ae; 0; rxcost / 256 mod 256; rxcost mod 256; interval / 256 mod 256; interval mod 256]).
  assert (Ew : w = hd ++ ab ++ ihu_tail rtt) by reflexivity.
  change (parse_tlv c w MESSAGE_IHU 0 (zlen v) p) with (p_ihu c w 0 (zlen v) p).
  unfold p_ihu. replace (zlen v <? 6) with false by lia.
  assert (R1 : rd w (0 + 2) = Ret ae) by (apply rd_at; [lia|reflexivity]).
  assert (R2 : rd16 w (0 + 4) = Ret rxcost) by (apply rd16_at; [lia|lia|auto|reflexivity|reflexivity]).
  assert (R3 : rd16 w (0 + 6) = Ret interval) by (apply rd16_at; [lia|lia|auto|reflexivity|reflexivity]).
  rewrite R1, R2, R3. cbn [bind].
  replace (negb (known_ae ae)) with false by (unfold ae; destruct (linklocal a); reflexivity).
  assert (R4 : network_address w ae (0 + 8) (zlen v - 6) = Ret (Some (zlen ab, a))).
  { assert (Q : rds w (0 + 8) (zlen ab) = Ret ab) by (rewrite Ew; apply rds_at; [reflexivity|auto]).
    unfold network_address, network_prefix, ae. cbv zeta. change (-1 >=? 0) with false. change (-1 <? 0) with true. cbv iota.
    assert (Fa : linklocal a = true -> firstn 8 llprefix ++ skipn 8 a = a).
    { intros G. rewrite <- (linklocal_firstn a G). apply firstn_skipn. }
    unfold ab in Q, Lab, Lv |- *. destruct (linklocal a) eqn:G.
    - change (AE_IPV6_LOCAL =? 1) with false. cbv iota. change (16 >? 16) with false. cbv iota.
      change (AE_IPV6_LOCAL =? AE_WILDCARD) with false.
      change ((AE_IPV6_LOCAL =? AE_IPV4) || (AE_IPV6_LOCAL =? AE_V4VIAV6)) with false.
      change (AE_IPV6_LOCAL =? AE_IPV6) with false. change (AE_IPV6_LOCAL =? AE_IPV6_LOCAL) with true. cbv iota.
      replace ((16 >? 8) && (zlen v - 6 <? 16 - 8)) with false by lia.
      change (16 - 8) with 8. rewrite Lab in Q. rewrite Q. cbn [bind]. rewrite Lab.
      rewrite Fa by auto. rewrite norm128 by auto. reflexivity.
    - change (AE_IPV6 =? 1) with false. cbv iota. change (16 >? 16) with false. cbv iota.
      change (AE_IPV6 =? AE_WILDCARD) with false.
      change ((AE_IPV6 =? AE_IPV4) || (AE_IPV6 =? AE_V4VIAV6)) with false.
      change (AE_IPV6 =? AE_IPV6) with true. cbv iota.
      replace ((0 >? 16) || ((16 >? 0) && (zlen v - 6 <? 16 - 0))) with false by lia.
      change (0 =? 0) with true. cbv iota.
      change (16 - 0) with 16. rewrite Lab in Q. rewrite Q. cbn [bind app]. rewrite Lab.
      rewrite norm128 by auto. reflexivity. }
  rewrite R4. cbn [bind]. replace (zlen ab <? 0) with false by lia.
  replace (ae =? AE_WILDCARD) with false by (unfold ae; destruct (linklocal a); reflexivity). cbn [orb].
  change (existsb (fun l => memcmp l a =? 0) (r_lls c)) with (existsb (fun l => beq l a) (r_lls c)).
  destruct (existsb _ _); [|reflexivity].
  replace (zlen v - 6 - zlen ab) with (zlen (ihu_tail rtt)) by lia.
  rewrite ihu_tail_subs; [|auto|rewrite Ew, app_assoc; apply win_end; unfold hd; zln; lia].
  cbn [bind]. destruct rtt as [[x y]|]; reflexivity.
Qed.

(** *** Router-id, next hop, acknowledgement *)
Lemma one_router_id_ok : forall c p id, length id = 8%nat ->
  one c p MESSAGE_ROUTER_ID (be16 0 ++ id) = (set_p_id (Some id) p, []).
Proof.
  intros c p id L. unfold one. set (v := be16 0 ++ id).
  assert (Lv : zlen v = 10) by (unfold v, be16, zlen; cbn [app length]; lia).
  change (parse_tlv c (MESSAGE_ROUTER_ID :: zlen v :: v) MESSAGE_ROUTER_ID 0 (zlen v) p)
    with (p_router_id (MESSAGE_ROUTER_ID :: zlen v :: v) 0 (zlen v) p).
  unfold p_router_id. rewrite Lv. change (10 <? 10) with false. cbv iota.
  assert (Q : rds (MESSAGE_ROUTER_ID :: 10 :: v) (0 + 4) 8 = Ret id).
  { replace (MESSAGE_ROUTER_ID :: 10 :: v) with ([MESSAGE_ROUTER_ID; 10; 0; 0] ++ id ++ [])
      by (rewrite app_nil_r; reflexivity).
    apply rds_at; [reflexivity|]. unfold zlen. lia. }
  rewrite Q. reflexivity.
Qed.
Lemma one_nh_ok : forall c p a, length a = 4%nat ->
  one c p MESSAGE_NH ([AE_IPV4; 0] ++ a) = (set_p_nh4 (Some (v4tov6 a)) p, []).
Proof.
  intros c p a L. unfold one. set (v := [AE_IPV4; 0] ++ a).
  assert (Lv : zlen v = 6) by (unfold v, zlen; cbn [app length]; lia).
  change (parse_tlv c (MESSAGE_NH :: zlen v :: v) MESSAGE_NH 0 (zlen v) p)
    with (p_nh (MESSAGE_NH :: zlen v :: v) 0 (zlen v) p).
  unfold p_nh. rewrite Lv. change (6 <? 2) with false. cbv iota.
  set (w := MESSAGE_NH :: 6 :: v).
  assert (Lw : zlen w = 8) by (unfold w; zln; lia).
  assert (R1 : rd w (0 + 2) = Ret AE_IPV4) by (apply rd_at; [lia|reflexivity]).
  rewrite R1. cbn [bind].
  assert (Q : rds w (0 + 4) (4 - 0) = Ret a).
  { replace w with ([MESSAGE_NH; 6; AE_IPV4; 0] ++ a ++ []) by (rewrite app_nil_r; reflexivity).
    apply rds_at; [reflexivity|]. unfold zlen. lia. }
  unfold network_address, network_prefix. cbv zeta. change (-1 >=? 0) with false. change (-1 <? 0) with true.
  change (AE_IPV4 =? 1) with true. cbv iota. change (4 >? 16) with false. cbv iota.
  change (AE_IPV4 =? AE_WILDCARD) with false. change ((AE_IPV4 =? AE_IPV4) || (AE_IPV4 =? AE_V4VIAV6)) with true. cbv iota.
  change ((0 >? 4) || (4 >? 4) || ((4 >? 0) && (6 - 2 <? 4 - 0))) with false.
  change (0 =? 0) with true. cbv iota. rewrite Q. cbn [bind].
  change (negb (known_ae AE_IPV4)) with false. change (AE_IPV4 =? 0) with false. change (4 - 0 <? 0) with false.
  change (AE_IPV4 =? AE_V4VIAV6) with false. change (AE_IPV4 =? AE_IPV4) with true. cbv iota.
  rewrite norm128 by (rewrite app_length, L; reflexivity).
  change (6 - 2 - (4 - 0)) with 0. rewrite subs_nil. cbn [bind]. unfold ignore.
  unfold v4tov6. rewrite (firstn_all2 a) by lia. reflexivity.
Qed.
Lemma one_ack_ok : forall c p nonce, one c p MESSAGE_ACK (be16 nonce) = (p, []).
Proof. reflexivity. Qed.

(** *** Source prefixes *)
Definition real_splen (d : dest) : Z := if is4 d then d_splen d - 96 else d_splen d.
Definition spb (d : dest) : Z := (real_splen d + 7) / 8.
Definition src_tail (d : dest) : list Z :=
  if is_default (d_src d) (d_splen d) then []
  else SUBTLV_SOURCE_PREFIX :: (1 + spb d) :: real_splen d ::
       firstn (Z.to_nat (spb d)) (skipn (if is4 d then 12 else 0) (d_src d)).

Lemma norm_zero : forall q, prefix_ok q 0 -> q = zeroes 16.
Proof.
  intros q (A & N & Q). rewrite <- Q. unfold normalize_prefix. change (0 >=? 128) with false.
  change (Z.to_nat (0 / 8)) with 0%nat. change (0 mod 8 =? 0) with true. reflexivity.
Qed.
Lemma norm_v4prefix : forall q, prefix_ok q 96 -> v4mapped q = true -> q = v4prefix.
Proof.
  intros q (A & N & Q) V. rewrite <- Q. unfold normalize_prefix. change (96 >=? 128) with false.
  change (Z.to_nat (96 / 8)) with 12%nat. change (96 mod 8 =? 0) with true. cbv zeta. cbn [negb].
  apply v4mapped_firstn in V. rewrite V. reflexivity.
Qed.

Lemma spb_range : forall d, dest_wire d -> 0 <= real_splen d <= 128 /\ 0 <= spb d <= 16 /\
  (is4 d = true -> real_splen d <= 32 /\ spb d <= 4).
Proof.
  intros d ((_ & _ & Ns & _) & W). unfold spb, real_splen. destruct (is4 d).
  - destruct W as [_ W]. repeat split; intros; lia.
  - repeat split; intros; try discriminate; lia.
Qed.
Lemma src_bytes_len : forall d, dest_wire d ->
  zlen (firstn (Z.to_nat (spb d)) (skipn (if is4 d then 12 else 0) (d_src d))) = spb d.
Proof.
  intros d W. destruct (spb_range d W) as (R & S & R4). destruct W as ((_ & (La & _) & _) & _).
  unfold zlen. rewrite firstn_length, skipn_length, La. destruct (is4 d); [specialize (R4 eq_refl); lia|lia].
Qed.
Lemma src_tail_len : forall d, dest_wire d ->
  zlen (src_tail d) = if is_default (d_src d) (d_splen d) then 0 else 3 + spb d.
Proof.
  intros d W. unfold src_tail. destruct (is_default _ _); [reflexivity|].
  rewrite !zlen_cons, src_bytes_len by auto. lia.
Qed.
Lemma src_tail_bytes : forall d, dest_wire d -> bytes_ok (src_tail d).
Proof.
  intros d W. unfold src_tail. destruct (is_default _ _); [constructor|].
  destruct (spb_range d W) as (R & S & R4). destruct W as ((_ & (_ & B) & _) & _).
  constructor; [unfold SUBTLV_SOURCE_PREFIX, byte_ok; lia|]. constructor; [unfold byte_ok; lia|].
  constructor; [unfold byte_ok; lia|]. apply bytes_ok_firstn, bytes_ok_skipn, B.
Qed.

Definition fam (ae : Z) (d : dest) : Prop := if is4 d then ae = AE_IPV4 \/ ae = AE_V4VIAV6 else ae = AE_IPV6.

Lemma np_src : forall ae d pkt p, dest_wire d -> fam ae d ->
  rds pkt p (spb d) = Ret (firstn (Z.to_nat (spb d)) (skipn (if is4 d then 12 else 0) (d_src d))) ->
  network_prefix pkt ae (real_splen d) 0 p None (spb d) = Ret (Some (spb d, d_src d)).
Proof.
  intros ae d pkt p W Fa E. unfold fam in Fa. destruct W as ((_ & Ps) & W). unfold spb, real_splen in *.
  destruct (is4 d).
  - apply np4; auto; [apply W|apply W|lia].
  - subst ae. pose proof (proj1 (proj2 Ps)) as N.
    pose proof (np6 pkt (d_src d) (d_splen d) 0 p None ((d_splen d + 7) / 8) Ps ltac:(lia) ltac:(lia)) as Q.
    replace ((d_splen d + 7) / 8 - 0) with ((d_splen d + 7) / 8) in Q by lia. apply Q; [exact E|auto].
Qed.

Lemma fam_v4 : forall ae d, fam ae d -> ae_is_v4 ae = is4 d.
Proof. intros ae d. unfold fam. destruct (is4 d); [intros [-> | ->]; reflexivity|intros ->; reflexivity]. Qed.
Lemma no_src_dest : forall ae d, dest_wire d -> fam ae d -> is_default (d_src d) (d_splen d) = true ->
  no_src ae = (d_src d, d_splen d, false).
Proof.
  intros ae d W Fa D. unfold no_src. rewrite (fam_v4 ae d Fa). destruct W as ((_ & Ps) & W).
  unfold is_default in D. destruct (is4 d).
  - assert (E : d_splen d = 96) by lia. rewrite E in *.
    rewrite (norm_v4prefix _ Ps) by apply W. reflexivity.
  - assert (E : d_splen d = 0) by (destruct (v4mapped (d_src d)); [|lia]; destruct (Z.eq_dec (d_splen d) 96); [tauto|lia]).
    rewrite E in *. rewrite (norm_zero _ Ps). reflexivity.
Qed.
Lemma nodef_splen : forall d, dest_wire d -> is_default (d_src d) (d_splen d) = false -> 1 <= real_splen d.
Proof.
  intros d W D. destruct (spb_range d W) as (R & _). destruct W as (_ & W). unfold is_default, real_splen in *.
  destruct (is4 d); [destruct W as [W W2]; rewrite W in D; lia|lia].
Qed.
Lemma real_splen_u8 : forall ae d, dest_wire d -> fam ae d ->
  u8 (if ae_is_v4 ae then real_splen d + 96 else real_splen d) = d_splen d.
Proof.
  intros ae d W Fa. rewrite (fam_v4 ae d Fa). destruct W as ((_ & (_ & N & _)) & _). unfold real_splen, u8.
  destruct (is4 d); [|apply Z.mod_small; lia]. replace (d_splen d - 96 + 96) with (d_splen d) by lia.
  apply Z.mod_small; lia.
Qed.

Lemma src_sub1 : forall ae d, dest_wire d -> fam ae d -> is_default (d_src d) (d_splen d) = false ->
  let v := real_splen d :: firstn (Z.to_nat (spb d)) (skipn (if is4 d then 12 else 0) (d_src d)) in
  sub1 srcp (fun pkt => source_step pkt ae) (no_src ae) 128 v = Some (d_src d, d_splen d, true) /\
  sub1 srcp (fun pkt => seqno_source_step pkt ae) (no_src ae) 128 v = Some (d_src d, d_splen d, true).
Proof.
  intros ae d W Fa D v. pose proof (nodef_splen d W D) as L1. destruct (spb_range d W) as (R & S & _).
  assert (Lv : zlen v = 1 + spb d) by (unfold v; rewrite zlen_cons, src_bytes_len by auto; lia).
  assert (R0 : rd v 0 = Ret (real_splen d)) by (apply rd_at; [lia|reflexivity]).
  assert (N : network_prefix v ae (real_splen d) 0 (0 + 1) None (zlen v - 1) = Ret (Some (spb d, d_src d))).
  { replace (zlen v - 1) with (spb d) by lia. apply np_src; auto. unfold v.
    rewrite <- (app_nil_r (firstn _ _)) at 1.
    change (real_splen d :: ?l) with ([real_splen d] ++ l).
    apply rds_at; [reflexivity|rewrite src_bytes_len; auto]. }
  unfold sub1, source_step, seqno_source_step. change (128 =? SUBTLV_SOURCE_PREFIX) with true. cbv iota.
  replace (zlen v <? 1) with false by lia. rewrite R0. cbn [bind].
  replace (real_splen d =? 0) with false by lia.
  assert (Sn : snd (no_src ae) = false) by (unfold no_src; destruct (ae_is_v4 ae); reflexivity).
  rewrite Sn, N. cbn [bind]. replace (spb d <? 0) with false by lia. rewrite real_splen_u8 by auto. auto.
Qed.

Lemma src_subs : forall ae d pkt off, dest_wire d -> fam ae d -> win pkt off (src_tail d) ->
  exists b, subs (source_step pkt ae) pkt off (zlen (src_tail d)) (no_src ae) = Ret (Some (d_src d, d_splen d, b)) /\
            subs (seqno_source_step pkt ae) pkt off (zlen (src_tail d)) (no_src ae) = Ret (Some (d_src d, d_splen d, b)).
Proof.
  intros ae d pkt off W Fa Wi. unfold src_tail in *.
  pose proof (src_tail_bytes d W) as B. unfold src_tail in B.
  destruct (is_default (d_src d) (d_splen d)) eqn:D.
  - exists false. change (zlen []) with 0. rewrite !subs_nil, (no_src_dest ae d) by auto. auto.
  - exists true. destruct (src_sub1 ae d W Fa D) as [E1 E2]. cbv zeta in E1, E2.
    set (v := real_splen d :: firstn _ _) in *.
    assert (Lv : 1 + spb d = zlen v) by (unfold v; rewrite zlen_cons, src_bytes_len by auto; lia).
    rewrite Lv in *.
    rewrite (subs_one _ (fun pkt => source_step pkt ae) _ (source_step_ok ae)); auto using no_src_ok;
      [|unfold SUBTLV_SOURCE_PREFIX; lia..].
    rewrite (subs_one _ (fun pkt => seqno_source_step pkt ae) _ (seqno_source_step_ok ae)); auto;
      [|unfold SUBTLV_SOURCE_PREFIX; lia..|apply no_src_ok].
    change SUBTLV_SOURCE_PREFIX with 128. rewrite E1, E2. auto.
Qed.

(** *** Prefixes *)
Definition real_plen (d : dest) : Z := if is4 d then d_plen d - 96 else d_plen d.
Definition pb (d : dest) : Z := (real_plen d + 7) / 8.
Definition pbytes (d : dest) (om : Z) : list Z :=
  firstn (Z.to_nat (pb d - om)) (skipn ((if is4 d then 12 else 0) + Z.to_nat om) (d_prefix d)).
Lemma is4_ge : forall d, is4 d = true -> 96 <= d_plen d /\ v4mapped (d_prefix d) = true.
Proof. intros d H. unfold is4 in H. apply andb_true_iff in H. destruct H. split; auto. lia. Qed.
Lemma pb_range : forall d, dest_wire d -> 0 <= real_plen d <= 128 /\ 0 <= pb d <= 16 /\
  (is4 d = true -> real_plen d <= 32 /\ pb d <= 4).
Proof.
  intros d (((_ & N & _) & _) & _). unfold pb, real_plen. destruct (is4 d) eqn:E.
  - apply is4_ge in E. repeat split; intros; lia.
  - repeat split; intros; try discriminate; lia.
Qed.
Lemma pbytes_len : forall d om, dest_wire d -> 0 <= om <= real_plen d / 8 -> (is4 d = true -> om = 0) ->
  zlen (pbytes d om) = pb d - om.
Proof.
  intros d om W O O4. destruct (pb_range d W) as (R & P & R4). destruct W as ((((La & _) & _) & _) & _).
  unfold pbytes, zlen. rewrite firstn_length, skipn_length, La. unfold pb in *.
  destruct (is4 d); [specialize (R4 eq_refl); specialize (O4 eq_refl); lia|lia].
Qed.
Lemma pbytes_bytes : forall d om, dest_wire d -> bytes_ok (pbytes d om).
Proof. intros d om W. destruct W as ((((_ & B) & _) & _) & _). apply bytes_ok_firstn, bytes_ok_skipn, B. Qed.

Definition omits (d : dest) (om : Z) (dp : option (list Z)) : Prop :=
  om = 0 \/ (is4 d = false /\ exists q, dp = Some q /\ v4mapped q = false /\ firstn (Z.to_nat om) q = firstn (Z.to_nat om) (d_prefix d)).
Lemma np_dest : forall ae d pkt p om dp len, dest_wire d -> fam ae d -> 0 <= om <= real_plen d / 8 ->
  omits d om dp -> pb d - om <= len -> rds pkt p (pb d - om) = Ret (pbytes d om) ->
  network_prefix pkt ae (real_plen d) om p dp len = Ret (Some (pb d - om, d_prefix d)).
Proof.
  intros ae d pkt p om dp len W Fa O Om L E. unfold fam, omits, pbytes, pb, real_plen in *. destruct W as ((Pp & _) & _).
  destruct (is4 d) eqn:E4.
  - destruct Om as [-> | [H _]]; [|discriminate]. apply is4_ge in E4. destruct E4 as [E4 E5].
    replace ((d_plen d - 96 + 7) / 8 - 0) with ((d_plen d - 96 + 7) / 8) in * by lia.
    apply np4; auto.
  - subst ae. apply np6; auto. destruct Om as [-> | (_ & q & Q)]; [auto|]. right. exists q. auto.
Qed.
Lemma plen_u8 : forall ae d, dest_wire d -> fam ae d -> u8 (real_plen d + (if ae_is_v4 ae then 96 else 0)) = d_plen d.
Proof.
  intros ae d W Fa. rewrite (fam_v4 ae d Fa). destruct W as (((_ & N & _) & _) & _). unfold real_plen, u8.
  destruct (is4 d); [replace (d_plen d - 96 + 96) with (d_plen d) by lia|replace (d_plen d + 0) with (d_plen d) by lia];
  apply Z.mod_small; lia.
Qed.
Lemma fam_known : forall ae d, fam ae d -> known_ae ae = true /\ ae <> 0.
Proof. intros ae d. unfold fam. destruct (is4 d); [intros [-> | ->]|intros ->]; split; reflexivity || discriminate. Qed.
Lemma dest_eta : forall d, mkDest (d_prefix d) (d_plen d) (d_src d) (d_splen d) = d.
Proof. intros []. reflexivity. Qed.

(** *** Update *)
Definition update_body (ae fl om interval seqno metric : Z) (d : dest) : list Z :=
  ae :: fl :: real_plen d :: om :: be16 interval ++ be16 seqno ++ be16 metric ++ pbytes d om ++ src_tail d.

Lemma one_update_ok : forall c p ae fl om interval seqno metric d p1 p2 nh id,
  dest_wire d -> fam ae d -> 0 <= interval < 65536 -> 0 <= seqno < 65536 -> 0 <= metric < 65536 ->
  0 <= om <= real_plen d / 8 -> byte_ok fl ->
  omits d om (if ae =? AE_IPV6 then p_v6 p else None) ->
  (ae = AE_V4VIAV6 -> r_46 c = true) ->
  (bit fl 128 = true -> ae = AE_IPV6) ->
  p1 = (if bit fl 128 then set_p_v6 (Some (d_prefix d)) p else p) ->
  (bit fl 64 = true -> ae = AE_IPV6) ->
  p2 = (if bit fl 64 then set_p_id (Some (firstn 8 (skipn 8 (d_prefix d)))) p1 else p1) ->
  p_id p2 = Some id ->
  (if ae =? AE_IPV4 then p_nh4 p = Some nh else nh = match p_nh6 p with Some n => n | None => r_from c end) ->
  one c p MESSAGE_UPDATE (update_body ae fl om interval seqno metric d) =
    (p2, [AUpdate (Some id) d seqno metric interval (Some nh)]).
Proof.
  intros c p ae fl om interval seqno metric d p1 p2 nh id W Fa Hi Hs Hm Ho Hf Om H46 F128 E1 F64 E2 Eid Enh.
  unfold one. set (v := update_body _ _ _ _ _ _ _). set (w := MESSAGE_UPDATE :: zlen v :: v).
  assert (O4 : is4 d = true -> om = 0) by (destruct Om as [->|[-> _]]; [auto|discriminate]).
  pose proof (pbytes_len d om W Ho O4) as Lb. pose proof (zlen_nonneg _ (src_tail d)) as Nt.
  pose proof (zlen_nonneg _ (pbytes d om)) as Nb. destruct (pb_range d W) as (Rp & Pp & _).
  assert (Lv : zlen v = 10 + (pb d - om) + zlen (src_tail d)).
  { unfold v, update_body, be16. rewrite !zlen_cons, !zlen_app, !zlen_cons, !zlen_nil, Lb. lia. }
  assert (Lw : zlen w = 2 + zlen v) by (unfold w; rewrite !zlen_cons; lia).
  set (hd := [MESSAGE_UPDATE; zlen v; ae; fl; real_plen d; om; interval / 256 mod 256; interval mod 256;
              seqno / 256 mod 256; seqno mod 256; metric / 256 mod 256; metric mod 256]).
  assert (Ew : w = hd ++ pbytes d om ++ src_tail d) by reflexivity.
  change (parse_tlv c w MESSAGE_UPDATE 0 (zlen v) p) with (p_update c w 0 (zlen v) p).
  unfold p_update. replace (zlen v <? 10) with false by lia.
  destruct (fam_known ae d Fa) as [K K0].
  assert (R1 : rd w (0 + 2) = Ret ae) by (apply rd_at; [lia|reflexivity]).
  assert (R2 : rd w (0 + 3) = Ret fl) by (apply rd_at; [lia|reflexivity]).
  assert (R3 : rd w (0 + 4) = Ret (real_plen d)) by (apply rd_at; [lia|reflexivity]).
  assert (R4 : rd w (0 + 5) = Ret om) by (apply rd_at; [lia|reflexivity]).
  assert (R5 : rd16 w (0 + 6) = Ret interval) by (apply rd16_at; [lia|lia|auto|reflexivity|reflexivity]).
  assert (R6 : rd16 w (0 + 8) = Ret seqno) by (apply rd16_at; [lia|lia|auto|reflexivity|reflexivity]).
  assert (R7 : rd16 w (0 + 10) = Ret metric) by (apply rd16_at; [lia|lia|auto|reflexivity|reflexivity]).
  rewrite R1, R2, R3, R4, R5, R6, R7. cbn [bind]. rewrite K. cbn [negb].
  replace ((ae =? AE_V4VIAV6) && negb (r_46 c)) with false.
  2:{ symmetry. destruct (ae =? AE_V4VIAV6) eqn:G; [|auto]. rewrite H46 by lia. auto. }
  cbv zeta.
  set (dp := if ae =? AE_IPV4 then p_v4 p else if ae =? AE_IPV6 then p_v6 p else if ae =? AE_V4VIAV6 then p_46 p else None).
  assert (Om' : omits d om dp).
  { unfold omits in *. destruct Om as [Om|[N4 Om]]; [auto|]. right. split; [auto|]. unfold fam in Fa. rewrite N4 in Fa.
    subst ae. exact Om. }
  assert (N : network_prefix w ae (real_plen d) om (0 + 12) dp (zlen v - 10) = Ret (Some (pb d - om, d_prefix d))).
  { apply np_dest; auto; [lia|]. rewrite Ew. apply rds_at; [reflexivity|lia]. }
  assert (C : (om =? 0) || match dp with Some _ => true | None => false end = true).
  { destruct Om' as [-> | (_ & q & -> & _)]; [reflexivity|]. apply orb_true_r. }
  rewrite C, N. cbn [bind].
  assert (Q : pb d - om <? 0 = false) by (unfold pb in *; lia).
  rewrite Q. rewrite plen_u8 by auto.
  assert (X1 : (if bit fl 128 then if ae =? AE_IPV4 then set_p_v4 (Some (d_prefix d)) p
      else if ae =? AE_IPV6 then set_p_v6 (Some (d_prefix d)) p
      else if ae =? AE_V4VIAV6 then set_p_46 (Some (d_prefix d)) p else p else p) = p1).
  { rewrite E1. destruct (bit fl 128); [|auto]. rewrite F128 by auto. reflexivity. }
  rewrite X1.
  assert (X2 : (if bit fl 64 then set_p_id (Some (if ae_is_v4 ae then zeroes 4 ++ firstn 4 (skipn 12 (d_prefix d))
      else firstn 8 (skipn 8 (d_prefix d)))) p1 else p1) = p2).
  { rewrite E2. destruct (bit fl 64); [|auto]. rewrite F64 by auto. reflexivity. }
  rewrite X2, Eid.
  replace ((metric <? INFINITY) && false && negb (ae =? AE_WILDCARD)) with false by (destruct (metric <? INFINITY); reflexivity).
  assert (P4 : p_nh4 p2 = p_nh4 p /\ p_nh6 p2 = p_nh6 p).
  { rewrite E2, E1. destruct (bit fl 64), (bit fl 128); auto. }
  destruct P4 as [P4 P6]. rewrite P4, P6.
  assert (X3 : (if ae =? AE_IPV4 then
      match p_nh4 p with Some n => Some (Some n) | None => if metric <? INFINITY then None else Some None end
      else match p_nh6 p with Some n => Some (Some n) | None => Some (Some (r_from c)) end) = Some (Some nh)).
  { destruct (ae =? AE_IPV4); [rewrite Enh; auto|]. subst nh. destruct (p_nh6 p); auto. }
  rewrite X3.
  destruct (src_subs ae d w (0 + 2 + (10 + (pb d - om))) W Fa) as (b & S1 & _).
  { rewrite Ew, app_assoc. apply win_end. unfold hd. rewrite !zlen_app, !zlen_cons, zlen_nil. lia. }
  replace (zlen v - (10 + (pb d - om))) with (zlen (src_tail d)) by lia.
  rewrite S1. cbn [bind]. replace (ae =? AE_WILDCARD) with false by (unfold AE_WILDCARD; lia).
  rewrite dest_eta. reflexivity.
Qed.

(** A peer without v4-via-v6 ignores such an update. *)
Lemma one_update_46 : forall c p fl om interval seqno metric d, r_46 c = false -> dest_wire d ->
  0 <= om <= real_plen d / 8 -> (is4 d = true -> om = 0) ->
  one c p MESSAGE_UPDATE (update_body AE_V4VIAV6 fl om interval seqno metric d) = (p, []).
Proof.
  intros c p fl om interval seqno metric d H W Ho O4. unfold one. set (v := update_body _ _ _ _ _ _ _).
  set (w := MESSAGE_UPDATE :: zlen v :: v).
  pose proof (pbytes_len d om W Ho O4) as Lb. pose proof (zlen_nonneg _ (src_tail d)) as Nt.
  pose proof (zlen_nonneg _ (pbytes d om)) as Nb.
  assert (Lv : zlen v = 10 + (pb d - om) + zlen (src_tail d)).
  { unfold v, update_body, be16. rewrite !zlen_cons, !zlen_app, !zlen_cons, !zlen_nil, Lb. lia. }
  assert (Lw : zlen w = 2 + zlen v) by (unfold w; rewrite !zlen_cons; lia).
  change (parse_tlv c w MESSAGE_UPDATE 0 (zlen v) p) with (p_update c w 0 (zlen v) p).
  unfold p_update. replace (zlen v <? 10) with false by lia.
  assert (R1 : rd w (0 + 2) = Ret AE_V4VIAV6) by (apply rd_at; [lia|reflexivity]).
  rewrite R1. cbn [bind]. rewrite H. reflexivity.
Qed.

(** The wildcard retraction *)
Lemma one_wild_ok : forall c p seqno, p_nh6 p = None ->
  one c p MESSAGE_UPDATE ([AE_WILDCARD; 0; 0; 0] ++ be16 65535 ++ be16 seqno ++ be16 65535) = (p, [AWithdraw]).
Proof.
  intros c p seqno H. unfold one. set (v := _ ++ _).
  change (zlen v) with 10. set (w := MESSAGE_UPDATE :: 10 :: v).
  change (parse_tlv c w MESSAGE_UPDATE 0 10 p) with (p_update c w 0 10 p).
  unfold p_update. change (10 <? 10) with false. cbv iota.
  assert (Lw : zlen w = 12) by reflexivity.
  assert (R1 : rd w (0 + 2) = Ret 0) by (apply rd_at; [lia|reflexivity]).
  assert (R2 : rd w (0 + 3) = Ret 0) by (apply rd_at; [lia|reflexivity]).
  assert (R3 : rd w (0 + 4) = Ret 0) by (apply rd_at; [lia|reflexivity]).
  assert (R4 : rd w (0 + 5) = Ret 0) by (apply rd_at; [lia|reflexivity]).
  assert (R5 : rd16 w (0 + 6) = Ret 65535) by (apply rd16_at; [lia|lia|lia|reflexivity|reflexivity]).
  assert (R6 : exists x, rd16 w (0 + 8) = Ret x).
  { eexists. unfold rd16. rewrite !rd_nth by lia. reflexivity. }
  assert (R7 : rd16 w (0 + 10) = Ret 65535) by (apply rd16_at; [lia|lia|lia|reflexivity|reflexivity]).
  destruct R6 as [x R6].
  rewrite R1, R2, R3, R4, R5, R6, R7. cbn [bind].
  change (negb (known_ae 0)) with false. change ((0 =? AE_V4VIAV6) && negb (r_46 c)) with false. cbv iota zeta.
  change (0 =? AE_IPV4) with false. change (0 =? AE_IPV6) with false. change (0 =? AE_V4VIAV6) with false. cbv iota.
  change ((0 =? 0) || false) with true. cbv iota.
  change (network_prefix w 0 0 0 (0 + 12) None (10 - 10)) with (Ret (Some (0, normalize_prefix (pad16 []) 0))).
  cbn [bind]. change (0 <? 0) with false. change (bit 0 128) with false. change (bit 0 64) with false. cbv iota.
  replace ((65535 <? INFINITY) && match p_id p with Some _ => false | None => true end && negb (0 =? AE_WILDCARD))
    with false by reflexivity.
  rewrite H. change (10 - (10 + 0)) with 0. rewrite subs_nil. reflexivity.
Qed.

(** *** Requests *)
Lemma one_request_any : forall c p, one c p MESSAGE_REQUEST [AE_WILDCARD; 0] = (p, [ARequest None]).
Proof. reflexivity. Qed.

Definition request_body (d : dest) : list Z :=
  (if is4 d then AE_IPV4 else AE_IPV6) :: real_plen d :: pbytes d 0 ++ src_tail d.
Lemma one_request_ok : forall c p d, dest_wire d ->
  one c p MESSAGE_REQUEST (request_body d) = (p, [ARequest (Some d)]).
Proof.
  intros c p d W. unfold one. set (v := request_body d). set (w := MESSAGE_REQUEST :: zlen v :: v).
  destruct (pb_range d W) as (Rp & Pp & _).
  pose proof (pbytes_len d 0 W ltac:(lia) (fun _ : is4 d = true => eq_refl)) as Lb. pose proof (zlen_nonneg _ (src_tail d)) as Nt.
  set (ae := if is4 d then AE_IPV4 else AE_IPV6).
  assert (Fa : fam ae d) by (unfold fam, ae; destruct (is4 d); auto).
  assert (Lv : zlen v = 2 + pb d + zlen (src_tail d)) by (unfold v, request_body; rewrite !zlen_cons, zlen_app; lia).
  assert (Lw : zlen w = 2 + zlen v) by (unfold w; rewrite !zlen_cons; lia).
  set (hd := [MESSAGE_REQUEST; zlen v; ae; real_plen d]).
  assert (Ew : w = hd ++ pbytes d 0 ++ src_tail d) by reflexivity.
  change (parse_tlv c w MESSAGE_REQUEST 0 (zlen v) p) with (p_request w 0 (zlen v) p).
  unfold p_request. replace (zlen v <? 2) with false by lia.
  destruct (fam_known ae d Fa) as [K K0].
  assert (R1 : rd w (0 + 2) = Ret ae) by (apply rd_at; [lia|reflexivity]).
  assert (R2 : rd w (0 + 3) = Ret (real_plen d)) by (apply rd_at; [lia|reflexivity]).
  rewrite R1, R2. cbn [bind]. rewrite K. cbn [negb].
  assert (N : network_prefix w ae (real_plen d) 0 (0 + 4) None (zlen v - 2) = Ret (Some (pb d - 0, d_prefix d))).
  { apply np_dest; auto; [lia|left; auto|lia|]. rewrite Ew. apply rds_at; [reflexivity|lia]. }
  rewrite N. cbn [bind]. replace (pb d - 0 <? 0) with false by lia. cbv zeta. rewrite plen_u8 by auto.
  destruct (src_subs ae d w (0 + 4 + (pb d - 0)) W Fa) as (b & S1 & _).
  { rewrite Ew, app_assoc. apply win_end. unfold hd. rewrite !zlen_app, !zlen_cons, zlen_nil. lia. }
  replace (zlen v - 2 - (pb d - 0)) with (zlen (src_tail d)) by lia.
  rewrite S1. cbn [bind]. replace (ae =? AE_WILDCARD) with false by (unfold AE_WILDCARD; lia).
  rewrite dest_eta. reflexivity.
Qed.

Definition mh_body (d : dest) (seqno hop : Z) (id : list Z) : list Z :=
  (if is4 d then AE_IPV4 else AE_IPV6) :: real_plen d :: be16 seqno ++ [hop; real_splen d] ++ id
  ++ pbytes d 0 ++ src_tail d.
Lemma one_mh_ok : forall c p d seqno hop id, dest_wire d -> 0 <= seqno < 65536 -> length id = 8%nat ->
  one c p MESSAGE_MH_REQUEST (mh_body d seqno hop id) = (p, [ASeqno d hop seqno id]).
Proof.
  intros c p d seqno hop id W Hs Li. unfold one. set (v := mh_body d seqno hop id).
  set (w := MESSAGE_MH_REQUEST :: zlen v :: v).
  destruct (pb_range d W) as (Rp & Pp & _).
  pose proof (pbytes_len d 0 W ltac:(lia) (fun _ : is4 d = true => eq_refl)) as Lb. pose proof (zlen_nonneg _ (src_tail d)) as Nt.
  assert (Lid : zlen id = 8) by (unfold zlen; lia).
  set (ae := if is4 d then AE_IPV4 else AE_IPV6).
  assert (Fa : fam ae d) by (unfold fam, ae; destruct (is4 d); auto).
  assert (Lv : zlen v = 14 + pb d + zlen (src_tail d)).
  { unfold v, mh_body, be16. rewrite !zlen_cons, !zlen_app, !zlen_cons, !zlen_nil. lia. }
  assert (Lw : zlen w = 2 + zlen v) by (unfold w; rewrite !zlen_cons; lia).
  set (hd := [MESSAGE_MH_REQUEST; zlen v; ae; real_plen d; seqno / 256 mod 256; seqno mod 256; hop; real_splen d]).
  assert (Ew : w = (hd ++ id) ++ pbytes d 0 ++ src_tail d) by (rewrite <- app_assoc; reflexivity).
  change (parse_tlv c w MESSAGE_MH_REQUEST 0 (zlen v) p) with (p_mh_request w 0 (zlen v) p).
  unfold p_mh_request. replace (zlen v <? 14) with false by lia.
  destruct (fam_known ae d Fa) as [K K0].
  assert (R1 : rd w (0 + 2) = Ret ae) by (apply rd_at; [lia|reflexivity]).
  assert (R2 : rd w (0 + 3) = Ret (real_plen d)) by (apply rd_at; [lia|reflexivity]).
  assert (R3 : rd16 w (0 + 4) = Ret seqno) by (apply rd16_at; [lia|lia|auto|reflexivity|reflexivity]).
  assert (R4 : rd w (0 + 6) = Ret hop) by (apply rd_at; [lia|reflexivity]).
  assert (R5 : rds w (0 + 8) 8 = Ret id).
  { rewrite Ew, <- app_assoc. apply rds_at; [reflexivity|lia]. }
  rewrite R1, R2, R3, R4, R5. cbn [bind]. rewrite K. cbn [negb].
  assert (Lh : zlen (hd ++ id) = 16) by (rewrite zlen_app, Lid; reflexivity).
  assert (N : network_prefix w ae (real_plen d) 0 (0 + 16) None (zlen v - 14) = Ret (Some (pb d - 0, d_prefix d))).
  { apply np_dest; auto; [lia|left; auto|lia|]. rewrite Ew. apply rds_at; lia. }
  rewrite N. cbn [bind]. replace (pb d - 0 <? 0) with false by lia.
  destruct (src_subs ae d w (0 + 16 + (pb d - 0)) W Fa) as (b & _ & S1).
  { rewrite Ew, app_assoc. apply win_end. rewrite zlen_app. lia. }
  replace (zlen v - 14 - (pb d - 0)) with (zlen (src_tail d)) by lia.
  rewrite S1. cbn [bind]. rewrite plen_u8 by auto. rewrite dest_eta. reflexivity.
Qed.

(** L_Nlink.v: proofs about netlink messages. *)
From Verif Require Import Base M_Util S_Util L_Util M_Source M_Filter M_Types M_Neigh M_State M_Table M_Msg M_Route M_Xroute M_Nlink S_Nlink.

Notation zl l := (Z.of_nat (length l)).

(** ** Buffers *)
Lemma rd8_app pre x post : rd8 (pre ++ x :: post) (zl pre) = Some x.
Proof.
  unfold rd8. replace (zl pre <? 0) with false by lia. rewrite Nat2Z.id.
  rewrite nth_error_app2 by lia. now rewrite Nat.sub_diag.
Qed.
Lemma rd8_at b k x : nth_error b k = Some x -> rd8 b (Z.of_nat k) = Some x.
Proof. intros H. unfold rd8. replace (Z.of_nat k <? 0) with false by lia. now rewrite Nat2Z.id. Qed.
Lemma rd16_app pre x y post off : off = zl pre -> rd16 (pre ++ x :: y :: post) off = Some (x + 256 * y).
Proof.
  intros ->. unfold rd16. rewrite rd8_app. replace (zl pre + 1) with (zl (pre ++ [x])) by (rewrite app_length; cbn; lia).
  change (x :: y :: post) with ([x] ++ y :: post). rewrite app_assoc, rd8_app. reflexivity.
Qed.
Lemma rd32_app pre a b c d post off : off = zl pre -> rd32 (pre ++ a :: b :: c :: d :: post) off = Some (num [a; b; c; d]).
Proof.
  intros ->. unfold rd32. rewrite rd16_app by reflexivity. change (a :: b :: c :: d :: post) with ([a; b] ++ c :: d :: post). rewrite app_assoc.
  rewrite rd16_app by (rewrite app_length; cbn; lia). f_equal. cbn. lia.
Qed.
Lemma firstn_app_l {A} (a b : list A) n : n = length a -> firstn n (a ++ b) = a.
Proof. intros ->. rewrite firstn_app, Nat.sub_diag, firstn_all. cbn. apply app_nil_r. Qed.
Lemma skipn_app_l {A} (a b : list A) n : n = length a -> skipn n (a ++ b) = b.
Proof. intros ->. rewrite skipn_app, Nat.sub_diag, skipn_all. reflexivity. Qed.
Lemma rdn_app pre x post off n : off = zl pre -> n = zl x -> rdn (pre ++ x ++ post) off n = Some x.
Proof.
  intros -> ->. unfold rdn. replace (_ && _ && _) with true by (rewrite !app_length; lia). rewrite !Nat2Z.id.
  rewrite skipn_app_l by reflexivity. now rewrite firstn_app_l by reflexivity.
Qed.
Lemma poke_app pre old new post off : off = zl pre -> length new = length old -> poke off new (pre ++ old ++ post) = Some (pre ++ new ++ post).
Proof.
  intros -> E. unfold poke. replace (_ && _) with true by (rewrite !app_length; lia). rewrite Nat2Z.id.
  rewrite firstn_app_l by reflexivity. rewrite (app_assoc pre old post).
  rewrite (skipn_app_l (pre ++ old) post) by (rewrite app_length; lia). reflexivity.
Qed.
Lemma zeroes_split a b : zeroes (a + b) = zeroes a ++ zeroes b.
Proof. apply repeat_app. Qed.
Lemma num_le16 x : 0 <= x < 65536 -> num (le16 x) = x.
Proof. intros H. cbn [num le16]. Z.div_mod_to_equations. lia. Qed.
Lemma num_le32 x : 0 <= x < 4294967296 -> num (le32 x) = x.
Proof. intros H. cbn [num le32]. Z.div_mod_to_equations. lia. Qed.
Lemma len_le16 x : length (le16 x) = 2%nat. Proof. reflexivity. Qed.
Lemma len_le32 x : length (le32 x) = 4%nat. Proof. reflexivity. Qed.
Lemma le2_le16 x : le 2 x = le16 x.
Proof. cbn. rewrite Z.div_1_r. reflexivity. Qed.
Lemma le4_le32 x : le 4 x = le32 x.
Proof. cbn. rewrite Z.div_1_r. reflexivity. Qed.

(** ** Building a request *)
Definition enc (a : Z * list Z) : list Z := le16 (4 + zl (snd a)) ++ le16 (fst a) ++ snd a.
Definition padn (n : nat) : nat := ((4 - n mod 4) mod 4)%nat.
Definition pad (l : list Z) : list Z := l ++ zeroes (padn (length l)).
Fixpoint join (last : list Z) (l : list (Z * list Z)) : list Z :=
  match l with [] => last | a :: l => pad last ++ join (enc a) l end.
Lemma pad_len l : zl (pad l) = align4 (zl l).
Proof.
  unfold pad, zeroes, padn, align4. rewrite app_length, repeat_length. 
  pose proof (Nat.mod_upper_bound (length l) 4 ltac:(lia)) as U. pose proof (Nat.div_mod (length l) 4 ltac:(lia)) as D.
  set (q := (length l / 4)%nat) in *. set (r := (length l mod 4)%nat) in *.
  assert (C : (r = 0 \/ r = 1 \/ r = 2 \/ r = 3)%nat) by lia.
  destruct C as [C|[C|[C|C]]]; rewrite C; cbn [Nat.sub Nat.modulo Nat.divmod snd fst]; Z.div_mod_to_equations; lia.
Qed.
Lemma enc_len a : zl (enc a) = 4 + zl (snd a).
Proof. unfold enc. rewrite !app_length, !len_le16. lia. Qed.
(** [last] is nothing yet or an attribute *)
Definition lastok (last : list Z) : Prop := last = [] \/ exists a, last = enc a /\ zl (snd a) < 65532.
Lemma rd_last pre last k : lastok last -> (2 <= k)%nat -> rd16 (pre ++ last ++ zeroes k) (zl pre) = Some (zl last).
Proof.
  intros [->|(a & -> & A)] K.
  - destruct k as [|[|k]]; try lia. cbn [app zeroes repeat]. now rewrite rd16_app by reflexivity.
  - rewrite enc_len. unfold enc, le16 at 1. rewrite <- app_assoc. cbn [app]. rewrite rd16_app by reflexivity. f_equal.
    pose proof (num_le16 (4 + zl (snd a)) ltac:(lia)) as N. cbn [num le16] in N. lia.
Qed.
Lemma put_attr_spec a pre last k : lastok last -> zl (snd a) < 65532 ->
  align4 (zl last) - zl last + zl (enc a) <= Z.of_nat k -> (2 <= k)%nat ->
  exists k', put_attr a (Some (pre ++ last ++ zeroes k, zl pre)) = Some ((pre ++ pad last) ++ enc a ++ zeroes k', zl (pre ++ pad last)) /\
    Z.of_nat k' = Z.of_nat k - (align4 (zl last) - zl last) - zl (enc a).
Proof.
  intros L A K K2. pose proof (pad_len last) as P. unfold pad in P. rewrite app_length in P. unfold zeroes in P at 1. rewrite repeat_length in P.
  set (n := padn (length last)) in *. exists (k - n - length (enc a))%nat. split; [|lia].
  cbn [put_attr]. rewrite rd_last by assumption. fold (enc a).
  replace (zeroes k) with (zeroes n ++ zeroes (length (enc a)) ++ zeroes (k - n - length (enc a))) by (rewrite <- !zeroes_split; f_equal; lia).
  replace (pre ++ last ++ zeroes n ++ zeroes (length (enc a)) ++ zeroes (k - n - length (enc a)))
    with ((pre ++ pad last) ++ zeroes (length (enc a)) ++ zeroes (k - n - length (enc a))) by (unfold pad; fold n; rewrite <- !app_assoc; reflexivity).
  rewrite poke_app.
  - f_equal. f_equal. rewrite app_length. pose proof (pad_len last). lia.
  - rewrite app_length. pose proof (pad_len last). lia.
  - unfold zeroes. now rewrite repeat_length.
Qed.
Fixpoint room (last : Z) (l : list (Z * list Z)) : Z :=
  match l with [] => 0 | a :: l => align4 last - last + (4 + zl (snd a)) + room (4 + zl (snd a)) l end.
Lemma align4_ge n : n <= align4 n. Proof. unfold align4. Z.div_mod_to_equations. lia. Qed.
Lemma room_ge l : forall n, 0 <= room n l.
Proof. induction l as [|a l IH]; intros n; cbn [room]; [lia|]. pose proof (align4_ge n). specialize (IH (4 + zl (snd a))). lia. Qed.
Lemma put_attrs l : forall pre last k, lastok last -> Forall (fun a => zl (snd a) < 65532) l ->
  room (zl last) l + 2 <= Z.of_nat k ->
  exists pre' last' k', fold_left (fun st a => put_attr a st) l (Some (pre ++ last ++ zeroes k, zl pre)) = Some (pre' ++ last' ++ zeroes k', zl pre') /\
    pre' ++ last' = pre ++ join last l /\ lastok last' /\ Z.of_nat k' = Z.of_nat k - room (zl last) l.
Proof.
  induction l as [|a l IH]; intros pre last k L F K; cbn [fold_left join room] in *.
  - exists pre, last, k. split; [reflexivity|]. split; [reflexivity|]. split; [exact L|]. lia.
  - apply Forall_cons_iff in F. destruct F as (A & F). pose proof (room_ge l (4 + zl (snd a))) as G. pose proof (align4_ge (zl last)) as G2.
    destruct (put_attr_spec a pre last k L A ltac:(rewrite enc_len; lia) ltac:(lia)) as (k1 & E & K1). rewrite E.
    destruct (IH (pre ++ pad last) (enc a) k1) as (pre' & last' & k' & E2 & E3 & E4 & E5).
    + right. eauto.
    + exact F.
    + rewrite enc_len in *. lia.
    + exists pre', last', k'. rewrite enc_len in *. split; [exact E2|]. split; [rewrite E3, <- app_assoc; reflexivity|]. split; [exact E4|lia].
Qed.

(** Reading the attributes back *)
Definition aok (a : Z * list Z) : Prop := 0 <= fst a < 65536 /\ zl (snd a) < 65532.
Lemma tlvs_enc a rest f : aok a -> tlvs (S f) (pad (enc a) ++ rest) =
  match tlvs f rest with Some l => Some (a :: l) | None => None end.
Proof.
  intros (T & A). destruct a as (t, d). cbn [fst snd] in *. pose proof (pad_len (enc (t, d))) as P. rewrite enc_len in P. cbn [snd] in P.
  unfold pad. unfold pad in P. rewrite app_length in P. unfold enc in *. cbn [fst snd] in *.
  set (z := zeroes _) in *. 
  assert (N : num (le16 (4 + zl d)) = 4 + zl d) by (apply num_le16; lia). assert (N2 : num (le16 t) = t) by (apply num_le16; lia).
  unfold le16 in *. cbn [app tlvs length] in *. rewrite N, N2. replace (4 + zl d - 4) with (zl d) by lia.
  assert (Q : zl (d ++ z) = (zl d + 3) / 4 * 4). { rewrite app_length. unfold align4 in P. revert P. Z.div_mod_to_equations. lia. }
  replace (_ || _) with false. 2:{ rewrite !app_length. lia. }
  rewrite <- !app_assoc. rewrite Nat2Z.id, firstn_app_l by reflexivity. rewrite <- Q, Nat2Z.id, app_assoc, skipn_app_l by reflexivity. reflexivity.
Qed.
Lemma tlvs_last a f : aok a -> tlvs (S f) (enc a) = Some [a].
Proof.
  intros (T & A). destruct a as (t, d). unfold enc. cbn [fst snd] in *.
  assert (N : num (le16 (4 + zl d)) = 4 + zl d) by (apply num_le16; lia). assert (N2 : num (le16 t) = t) by (apply num_le16; lia).
  unfold le16 in *. cbn [app tlvs length] in *. rewrite N, N2. replace (4 + zl d - 4) with (zl d) by lia.
  replace (_ || _) with false by lia. rewrite Nat2Z.id, firstn_all.
  rewrite skipn_all2. 2:{ Z.div_mod_to_equations. lia. } now destruct f.
Qed.
Lemma tlvs_join l : forall a f, aok a -> Forall aok l -> (length l < f)%nat -> tlvs f (join (enc a) l) = Some (a :: l).
Proof.
  induction l as [|b l IH]; intros a f A F G; cbn [join].
  - destruct f as [|f]; [cbn in G; lia|]. now apply tlvs_last.
  - apply Forall_cons_iff in F. destruct F as (B & F). destruct f as [|f]; [cbn in G; lia|]. rewrite tlvs_enc by exact A.
    rewrite IH; auto. cbn in G. lia.
Qed.

Lemma room_le l : forall n, Forall (fun a => zl (snd a) <= 18) l -> room n l <= 25 * zl l.
Proof.
  induction l as [|a l IH]; intros n F; cbn [room length]; [lia|]. apply Forall_cons_iff in F. destruct F as (A & F).
  specialize (IH (4 + zl (snd a)) F). assert (align4 n - n <= 3) by (unfold align4; Z.div_mod_to_equations; lia). lia.
Qed.
Lemma join_len l : forall last, zl (join last l) = zl last + room (zl last) l.
Proof.
  induction l as [|a l IH]; intros last; cbn [join room]; [lia|]. rewrite app_length, Nat2Z.inj_add, pad_len, IH, enc_len. lia.
Qed.

(** What the kernel can be asked for: addresses have 16 bytes, IPv4 prefixes at least 96
    bits, the preferred source is of the family of the destination, the families are consistent, and
    only IPv6 routes have a source (kernel_netlink.c:988-999 and 1032-1037). *)
Record askable (d : dest) (pref_src : option (list Z)) (gate : list Z) (ifindex metric : Z) : Prop := {
  as_prefix : addr_ok (d_prefix d);
  as_src : addr_ok (d_src d);
  as_gate : addr_ok gate;
  as_plen : 0 <= d_plen d <= 128 /\ (v4mapped (d_prefix d) = true -> 96 <= d_plen d);
  as_splen : 0 <= d_splen d <= 128;
  as_pref : forall a, pref_src = Some a -> addr_ok a /\ v4mapped a = v4mapped (d_prefix d);
  as_if : 0 <= ifindex < 2147483648;
  as_metric : 0 <= metric < 2147483648;
  as_family : family_ok d gate = true;
  as_sub : is_default (d_src d) (d_splen d) = true \/ v4mapped (d_prefix d) = false }.

Lemma v4_split a : length a = 16%nat -> v4mapped a = true -> a = mapped4 (skipn 12 a) /\ length (skipn 12 a) = 4%nat.
Proof.
  intros L V. unfold v4mapped, memcmp_n in V. fold (beq (firstn 12 a) (firstn 12 v4prefix)) in V. apply beq_true in V.
  split; [|rewrite skipn_length; lia]. unfold mapped4. rewrite <- (firstn_skipn 12 a) at 1. rewrite V. reflexivity.
Qed.

Definition req_hdr (add : bool) (seq : Z) : list Z :=
  le16 (if add then RTM_NEWROUTE else RTM_DELROUTE) ++ le16 (if add then 1541 else 5) ++ le32 seq ++ le32 0.
Definition req_rtm (table : Z) (d : dest) (metric : Z) : list Z :=
  [if v4mapped (d_prefix d) then AF_INET else AF_INET6; u8 (if v4mapped (d_prefix d) then d_plen d - 96 else d_plen d);
   if negb (is_default (d_src d) (d_splen d)) then u8 (d_splen d) else 0; 0;
   u8 table; RTPROT_BABEL; 0; if metric <? KERNEL_INFINITY then 1 else 7] ++ le32 (if metric <? KERNEL_INFINITY then 4 else 0).
Lemma request_bytes add seq table d pref gate ifindex metric a l :
  req_attrs d pref gate ifindex metric = a :: l -> (length l <= 5)%nat -> Forall (fun a => zl (snd a) <= 18) (a :: l) ->
  nl_request add seq table d pref gate ifindex metric =
    Some (le32 (28 + zl (join (enc a) l)) ++ req_hdr add seq ++ req_rtm table d metric ++ join (enc a) l).
Proof.
  intros E L F. unfold nl_request. cbv zeta. fold (req_rtm table d metric). rewrite <- (app_assoc (le32 0)). 
  replace (le32 0 ++ _) with ((le32 0 ++ req_hdr add seq) ++ req_rtm table d metric).
  2:{ unfold req_hdr. rewrite <- !app_assoc. reflexivity. }
  set (h := (le32 0 ++ req_hdr add seq) ++ req_rtm table d metric).
  assert (Lh : length h = 28%nat) by (destruct add; reflexivity).
  replace (zeroes 1024) with ([] ++ zeroes (length h) ++ zeroes 996) by (rewrite Lh; reflexivity).
  rewrite poke_app by (unfold zeroes; rewrite ?repeat_length; reflexivity). cbn [app].
  assert (R : room 0 (a :: l) <= 150). { pose proof (room_le (a :: l) 0 F) as R. cbn [length] in R. lia. }
  destruct (put_attrs (a :: l) h [] 996) as (pre & last & k & P1 & P2 & P3 & P4).
  { left. reflexivity. }
  { eapply Forall_impl; [|exact F]. cbv beta. intros x X. lia. }
  { cbn [length]. change (Z.of_nat 0) with 0. lia. }
  replace (zl h) with 28 in P1 by lia. change (h ++ [] ++ zeroes 996) with (h ++ zeroes 996) in P1. rewrite E, P1.
  change (zl (@nil Z)) with 0 in P4. rewrite rd_last by (try exact P3; lia).
  rewrite app_assoc, P2. cbn [join]. change (pad [] ++ join (enc a) l) with (join (enc a) l).
  assert (T : zl pre + zl last = 28 + zl (join (enc a) l)).
  { apply (f_equal (@length Z)) in P2. rewrite !app_length in P2. cbn [join] in P2. change (pad [] ++ join (enc a) l) with (join (enc a) l) in P2. lia. }
  rewrite T. unfold h. rewrite <- !app_assoc.
  change (le32 0 ++ ?x) with ([] ++ le32 0 ++ x). rewrite poke_app by reflexivity. cbn [app].
  set (b := le32 _ ++ _). 
  replace b with ([] ++ (le32 (28 + zl (join (enc a) l)) ++ req_hdr add seq ++ req_rtm table d metric ++ join (enc a) l) ++ zeroes k)
    by (unfold b; cbn [app]; rewrite <- !app_assoc; reflexivity).
  apply rdn_app; [reflexivity|]. rewrite !app_length, len_le32. unfold req_hdr, req_rtm. rewrite !app_length, !len_le16, !len_le32. cbn [length]. lia.
Qed.

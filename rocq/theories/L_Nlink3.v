(** L_Nlink3.v: messages of the kernel are understood. *)
From Verif Require Import Base M_Util S_Util L_Util M_Source M_Filter M_Types M_Neigh M_State M_Table M_Msg M_Route M_Xroute M_Nlink S_Nlink L_Nlink.

Lemma attr_bytes_pad a : attr_bytes a = pad (enc a).
Proof. unfold attr_bytes, padded, pad, padn, enc, zeroes. rewrite !le2_le16. reflexivity. Qed.
Lemma attr_bytes_len a : zl (attr_bytes a) = align4 (4 + zl (snd a)).
Proof. rewrite attr_bytes_pad, pad_len, enc_len. reflexivity. Qed.
Lemma attrs_count l : (length l <= length (concat (map attr_bytes l)))%nat.
Proof.
  induction l as [|a l IH]; cbn [map concat length]; [lia|]. rewrite app_length. pose proof (attr_bytes_len a) as A.
  pose proof (align4_ge (4 + zl (snd a))). lia.
Qed.
Lemma align4_mod n : align4 n mod 4 = 0.
Proof. unfold align4. apply Z.mod_mul. lia. Qed.
Lemma attrs_mod l : zl (concat (map attr_bytes l)) mod 4 = 0.
Proof.
  induction l as [|a l IH]; cbn [map concat]; [reflexivity|]. rewrite app_length, Nat2Z.inj_add, attr_bytes_len.
  pose proof (align4_mod (4 + zl (snd a))) as M. rewrite Z.add_mod, M, IH by lia. reflexivity.
Qed.
Lemma align4_id n : n mod 4 = 0 -> align4 n = n.
Proof. unfold align4. intros H. Z.div_mod_to_equations. lia. Qed.

(** What one attribute does *)
Definition step1 (v4 : bool) (dst_len src_len : Z) (r : pr) (a : Z * list Z) : pr :=
  let base := if v4 then 96 else 0 in
  let full x := if v4 then mapped4 x else x in
  let (t, d) := a in
  if t =? 1 then mkPr (full d) (base + dst_len) (pr_src r) (pr_splen r) (pr_metric r) (pr_ifindex r) (pr_table r)
  else if t =? 2 then mkPr (pr_prefix r) (pr_plen r) (full d) (base + src_len) (pr_metric r) (pr_ifindex r) (pr_table r)
  else if t =? 5 then r
  else if t =? 4 then mkPr (pr_prefix r) (pr_plen r) (pr_src r) (pr_splen r) (pr_metric r) (num d) (pr_table r)
  else if t =? 6 then mkPr (pr_prefix r) (pr_plen r) (pr_src r) (pr_splen r)
    (if (0 <=? s32 (num d)) && (s32 (num d) <=? 65535) then s32 (num d) else 65535) (pr_ifindex r) (pr_table r)
  else if t =? 15 then mkPr (pr_prefix r) (pr_plen r) (pr_src r) (pr_splen r) (pr_metric r) (pr_ifindex r) (s32 (num d))
  else r.
Definition a_ok (v4 : bool) (a : Z * list Z) : Prop :=
  attr_ok a /\
  ((fst a = 1 \/ fst a = 2 \/ fst a = 5) -> length (snd a) = (if v4 then 4 else 16)%nat) /\
  ((fst a = 4 \/ fst a = 6 \/ fst a = 15) -> length (snd a) = 4%nat).
Lemma rd_attr pre a post : attr_ok a -> let b := pre ++ attr_bytes a ++ post in
  rd16 b (zl pre) = Some (4 + zl (snd a)) /\ rd16 b (zl pre + 2) = Some (fst a) /\
  rdn b (zl pre + 4) (zl (snd a)) = Some (snd a) /\
  (length (snd a) = 4%nat -> rd32 b (zl pre + 4) = Some (num (snd a))).
Proof.
  intros (A1 & A2) b. destruct a as (t, d). cbn [fst snd] in *. unfold b. rewrite attr_bytes_pad. unfold pad, enc. cbn [fst snd].
  set (z := zeroes _). clearbody z. rewrite <- !app_assoc.
  assert (N1 : num (le16 (4 + zl d)) = 4 + zl d) by (apply num_le16; lia). assert (N2 : num (le16 t) = t) by (apply num_le16; lia).
  unfold le16 in *. cbn [num] in N1, N2. split; [|split; [|split]].
  - cbn [app]. rewrite rd16_app by reflexivity. f_equal. lia.
  - change ([?x; ?y] ++ ?l) with ([x; y] ++ l). rewrite (app_assoc pre). cbn [app]. rewrite rd16_app by (rewrite app_length; cbn; lia). f_equal. lia.
  - rewrite (app_assoc pre). rewrite (app_assoc (pre ++ _)). apply rdn_app; [rewrite !app_length; cbn; lia|reflexivity].
  - intros L. destruct d as [|x [|y [|u [|v [|]]]]]; try discriminate L. rewrite (app_assoc pre). rewrite (app_assoc (pre ++ _)). cbn [app].
    apply rd32_app. rewrite !app_length; cbn; lia.
Qed.
Lemma v4tov6_mapped x : length x = 4%nat -> v4tov6 x = mapped4 x.
Proof. intros L. unfold v4tov6, mapped4. rewrite (firstn_all2 (n := 4) x) by lia. reflexivity. Qed.
Lemma rta1_spec pre a post v4 dl sl r : a_ok v4 a ->
  rta1 (pre ++ attr_bytes a ++ post) (zl pre) (fst a) (4 + zl (snd a)) v4 dl sl r = PYes (step1 v4 dl sl r a).
Proof.
  intros (A & B & C). destruct (rd_attr pre a post A) as (_ & _ & R1 & R2). destruct a as (t, d). cbn [fst snd] in *.
  assert (CA : length d = (if v4 then 4 else 16)%nat -> copy_addr (pre ++ attr_bytes (t, d) ++ post) (zl pre) (4 + zl d) v4 = PYes (if v4 then mapped4 d else d)).
  { intros L. unfold copy_addr. assert (Ez : (if v4 then 4 else 16) = zl d) by (rewrite L; destruct v4; reflexivity).
    rewrite Ez. replace (4 + zl d - 4 <? zl d) with false by lia. rewrite R1. destruct v4; [rewrite v4tov6_mapped by exact L|]; reflexivity. }
  unfold rta1, step1. cbv zeta. unfold RTA_DST, RTA_SRC, RTA_GATEWAY, RTA_OIF, RTA_PRIORITY, RTA_TABLE.
  destruct (Z.eqb_spec t 1); [rewrite CA by auto; reflexivity|].
  destruct (Z.eqb_spec t 2); [rewrite CA by auto; reflexivity|].
  destruct (Z.eqb_spec t 5); [rewrite CA by auto; reflexivity|].
  destruct (Z.eqb_spec t 4); [rewrite R2 by auto; reflexivity|].
  destruct (Z.eqb_spec t 6).
  { rewrite R2 by auto. unfold KERNEL_INFINITY. f_equal. f_equal.
    destruct (s32 (num d) <? 0) eqn:E1, (s32 (num d) >? 65535) eqn:E2, (0 <=? s32 (num d)) eqn:E3, (s32 (num d) <=? 65535) eqn:E4; cbn [orb andb]; lia. }
  destruct (Z.eqb_spec t 15); [rewrite R2 by auto; reflexivity|]. reflexivity.
Qed.
Lemma rta_loop_spec l : forall pre post fuel v4 dl sl r, Forall (a_ok v4) l -> (length l <= fuel)%nat ->
  rta_loop (pre ++ concat (map attr_bytes l) ++ post) fuel (zl pre) (zl (concat (map attr_bytes l))) v4 dl sl r =
  PYes (fold_left (step1 v4 dl sl) l r).
Proof.
  induction l as [|a l IH]; intros pre post fuel v4 dl sl r F L.
  - cbn [map concat length fold_left]. destruct fuel; reflexivity.
  - cbn [map concat fold_left]. destruct fuel as [|fuel]; [cbn in L; lia|]. apply Forall_cons_iff in F. destruct F as (A & F).
    cbn [rta_loop]. pose proof (attr_bytes_len a) as La. pose proof (align4_ge (4 + zl (snd a))) as G.
    rewrite <- app_assoc. destruct (rd_attr pre a (concat (map attr_bytes l) ++ post) (proj1 A)) as (R1 & R2 & _).
    replace (_ <? 4) with false by (rewrite app_length; lia). rewrite R1, R2.
    replace (_ || _) with false. 2:{ rewrite app_length. lia. }
    rewrite rta1_spec by exact A. rewrite app_assoc.
    replace (zl pre + align4 (4 + zl (snd a))) with (zl (pre ++ attr_bytes a)) by (rewrite app_length; lia).
    replace (zl (attr_bytes a ++ concat (map attr_bytes l)) - align4 (4 + zl (snd a))) with (zl (concat (map attr_bytes l))) by (rewrite app_length; lia).
    apply IH; [exact F|cbn in L; lia].
Qed.

Lemma attr_snoc t l a : last_attr t (l ++ [a]) = (if t =? fst a then Some (snd a) else last_attr t l).
Proof. unfold last_attr. rewrite rev_app_distr. cbn [rev app attr]. destruct a. reflexivity. Qed.
Lemma steps_said v4 dl sl l r0 : fold_left (step1 v4 dl sl) l r0 =
  let base := if v4 then 96 else 0 in
  let full x := if v4 then mapped4 x else x in
  mkPr (match last_attr 1 l with Some x => full x | None => pr_prefix r0 end) (match last_attr 1 l with Some x => base + dl | None => pr_plen r0 end)
    (match last_attr 2 l with Some x => full x | None => pr_src r0 end) (match last_attr 2 l with Some x => base + sl | None => pr_splen r0 end)
    (match last_attr 6 l with Some d => if (0 <=? s32 (num d)) && (s32 (num d) <=? 65535) then s32 (num d) else 65535 | None => pr_metric r0 end)
    (match last_attr 4 l with Some d => num d | None => pr_ifindex r0 end)
    (match last_attr 15 l with Some d => s32 (num d) | None => pr_table r0 end).
Proof.
  induction l as [|(t, d) l IH] using rev_ind.
  - destruct r0; reflexivity.
  - rewrite fold_left_app. cbn [fold_left]. rewrite IH. cbv zeta. rewrite !attr_snoc. cbn [fst snd]. unfold step1.
    destruct (Z.eqb_spec t 1) as [->|]; [reflexivity|].
    destruct (Z.eqb_spec t 2) as [->|]; [reflexivity|].
    destruct (Z.eqb_spec t 5) as [->|]; [reflexivity|].
    destruct (Z.eqb_spec t 4) as [->|]; [reflexivity|].
    destruct (Z.eqb_spec t 6) as [->|]; [reflexivity|].
    destruct (Z.eqb_spec t 15) as [->|]; [reflexivity|].
    destruct (Z.eqb_spec 1 t); [congruence|]. destruct (Z.eqb_spec 2 t); [congruence|]. destruct (Z.eqb_spec 4 t); [congruence|].
    destruct (Z.eqb_spec 6 t); [congruence|]. destruct (Z.eqb_spec 15 t); [congruence|]. reflexivity.
Qed.

(** ** Routes *)
Lemma existsb_in x l : existsb (Z.eqb x) l = true <-> In x l.
Proof.
  rewrite existsb_exists. split; [intros (y & I & E); apply Z.eqb_eq in E; now subst|intros I; exists x; split; [exact I|apply Z.eqb_refl]].
Qed.
Lemma land512 x : (Z.land x 512 =? 0) = negb (Z.testbit x 9).
Proof.
  destruct (Z.testbit x 9) eqn:T; cbn [negb].
  - apply Z.eqb_neq. intros E. assert (Z.testbit (Z.land x 512) 9 = true) by (rewrite Z.land_spec, T; reflexivity). rewrite E, Z.bits_0 in H. discriminate.
  - apply Z.eqb_eq. apply Z.bits_inj'. intros n N. rewrite Z.land_spec, Z.bits_0. destruct (Z.eqb_spec n 9) as [->|D]; [now rewrite T|].
    change 512 with (2 ^ 9). rewrite Z.pow2_bits_false by lia. apply andb_false_r.
Qed.
Lemma attrs_all family l : Forall attr_ok l -> route_attrs_ok family l -> Forall (a_ok (family =? 2)) l.
Proof.
  intros F R. rewrite Forall_forall in *. intros (t, d) I. destruct (R t d I) as (R1 & R2). split; [exact (F _ I)|]. cbn [fst snd].
  split; [exact R1|]. intros X. now apply R2.
Qed.
Lemma rd8_k pre l post k x : nth_error l k = Some x -> (k < length l)%nat -> rd8 (pre ++ l ++ post) (zl pre + Z.of_nat k) = Some x.
Proof.
  intros N L. replace (zl pre + Z.of_nat k) with (Z.of_nat (length pre + k)) by lia. apply rd8_at.
  rewrite nth_error_app2 by lia. replace (length pre + k - length pre)%nat with k by lia. now rewrite nth_error_app1 by lia.
Qed.
Lemma parse_route pre post tables family dst_len src_len tos table proto scope rtype flags l :
  Forall attr_ok l -> info_ok (IRoute true family dst_len src_len tos table proto scope rtype flags l) ->
  let body := route_body family dst_len src_len tos table proto scope rtype flags ++ concat (map attr_bytes l) in
  parse_kernel_route_rta tables (pre ++ body ++ post) (zl pre) (zl body) =
  if existsb (Z.eqb (route_table table l)) tables then PYes (route_said family dst_len src_len proto l) else PNo.
Proof.
  intros F (Hf & Hfl & R) body. unfold body. unfold parse_kernel_route_rta.
  set (h := route_body family dst_len src_len tos table proto scope rtype flags).
  assert (Lh : length h = 12%nat) by reflexivity.
  pose proof (rd8_k pre h (concat (map attr_bytes l) ++ post)) as K. rewrite <- app_assoc.
  pose proof (K 0%nat _ eq_refl ltac:(cbn; lia)) as K0. pose proof (K 1%nat _ eq_refl ltac:(cbn; lia)) as K1. pose proof (K 2%nat _ eq_refl ltac:(cbn; lia)) as K2.
  pose proof (K 4%nat _ eq_refl ltac:(cbn; lia)) as K4. pose proof (K 5%nat _ eq_refl ltac:(cbn; lia)) as K5.
  change (Z.of_nat 0) with 0 in K0. rewrite Z.add_0_r in K0. change (Z.of_nat 1) with 1 in K1. change (Z.of_nat 2) with 2 in K2. change (Z.of_nat 4) with 4 in K4. change (Z.of_nat 5) with 5 in K5.
  rewrite K0, K1, K2, K4, K5. unfold AF_INET. rewrite app_assoc.
  replace (zl pre + 12) with (zl (pre ++ h)) by (rewrite app_length; cbn; lia).
  replace (zl (h ++ concat (map attr_bytes l)) - 12) with (zl (concat (map attr_bytes l))) by (rewrite app_length; cbn; lia).
  rewrite rta_loop_spec; [|now apply attrs_all|pose proof (attrs_count l); rewrite !app_length; lia].
  rewrite steps_said. unfold route_said, route_table. destruct (family =? 2); cbn [pr_table pr_prefix pr_plen pr_src pr_splen pr_metric pr_ifindex];
  destruct (existsb _ _); try reflexivity; destruct (last_attr 1 l), (last_attr 2 l); reflexivity.
Qed.
Lemma num_bytes4 d : length d = 4%nat -> bytes_ok d -> 0 <= num d < 4294967296.
Proof.
  intros L B. destruct d as [|a [|b [|c [|e [|]]]]]; try discriminate L. unfold bytes_ok in B. rewrite Forall_forall in B.
  pose proof (B a ltac:(now left)). pose proof (B b ltac:(right; now left)). pose proof (B c ltac:(right; right; now left)). pose proof (B e ltac:(do 3 right; now left)).
  unfold byte_ok in *. cbn [num]. lia.
Qed.
Lemma said_metric family dl sl proto l : kr_metric (route_said family dl sl proto l) <= 65535.
Proof. unfold route_said. cbn [kr_metric]. destruct (last_attr 6 l); [|lia]. destruct (_ && _) eqn:E; lia. Qed.
(** The reading of the header *)
Definition hdr (m : kmsg) : list Z := firstn 16 (msg_bytes m).
Lemma msg_len m : zl (msg_bytes m) = 16 + zl (m_body m ++ concat (map attr_bytes (m_attrs m))).
Proof. unfold msg_bytes. rewrite !le4_le32, !le2_le16, !app_length, !len_le32, !len_le16. lia. Qed.
Lemma msg_split m : msg_bytes m = hdr m ++ m_body m ++ concat (map attr_bytes (m_attrs m)) /\ length (hdr m) = 16%nat.
Proof.
  assert (E : exists h, msg_bytes m = h ++ m_body m ++ concat (map attr_bytes (m_attrs m)) /\ length h = 16%nat).
  { unfold msg_bytes. rewrite !app_assoc. eexists. rewrite <- (app_assoc _ (m_body m)). split; [reflexivity|]. rewrite !le4_le32, !le2_le16, !app_length, !len_le32, !len_le16. lia. }
  destruct E as (h & E & L). unfold hdr. rewrite E. rewrite firstn_app_l by lia. split; [reflexivity|exact L].
Qed.
Lemma msg_hdr pre m post : msg_ok m -> let b := pre ++ msg_bytes m ++ post in
  rd32 b (zl pre) = Some (zl (msg_bytes m)) /\ rd16 b (zl pre + 4) = Some (m_type m) /\ rd32 b (zl pre + 8) = Some (m_seq m) /\ rd32 b (zl pre + 12) = Some (m_pid m).
Proof.
  intros (A1 & A2 & A3 & A4 & A5 & A6) b. unfold b. rewrite msg_len in A6. rewrite msg_len. unfold msg_bytes. rewrite !le4_le32, !le2_le16.
  set (l := m_body m ++ _) in *. clearbody l. rewrite <- !app_assoc.
  assert (N1 : num (le32 (16 + zl l)) = 16 + zl l) by (apply num_le32; lia). assert (N2 : num (le16 (m_type m)) = m_type m) by (apply num_le16; lia).
  assert (N3 : num (le32 (m_seq m)) = m_seq m) by (apply num_le32; lia). assert (N4 : num (le32 (m_pid m)) = m_pid m) by (apply num_le32; lia).
  unfold le32, le16 in *. split; [|split; [|split]].
  - cbn [app]. rewrite rd32_app by reflexivity. now rewrite N1.
  - rewrite (app_assoc pre). cbn [app]. rewrite rd16_app by (rewrite app_length; cbn; lia). f_equal. cbn [num] in N2. lia.
  - rewrite (app_assoc pre). rewrite (app_assoc (pre ++ _)). rewrite (app_assoc ((pre ++ _) ++ _)). cbn [app]. rewrite rd32_app by (rewrite !app_length; cbn; lia). now rewrite N3.
  - rewrite (app_assoc pre). rewrite (app_assoc (pre ++ _)). rewrite (app_assoc ((pre ++ _) ++ _)). rewrite (app_assoc (((pre ++ _) ++ _) ++ _)). cbn [app].
    rewrite rd32_app by (rewrite !app_length; cbn; lia). now rewrite N4.
Qed.
Lemma msg_aligned m : msg_ok m -> align4 (zl (msg_bytes m)) = zl (msg_bytes m).
Proof.
  intros (_ & _ & _ & A4 & _). apply align4_id. rewrite msg_len, app_length, Nat2Z.inj_add. pose proof (attrs_mod (m_attrs m)) as M.
  assert (zl (m_body m) mod 4 = 0) by (pose proof (Nat2Z.inj_mod (length (m_body m)) 4); rewrite A4 in H; cbn in H; lia).
  Z.div_mod_to_equations. lia.
Qed.
Lemma filter_route pre post tables fl seq pid new family dst_len src_len tos table proto scope rtype flags l :
  let x := IRoute new family dst_len src_len tos table proto scope rtype flags l in let m := to_msg fl seq pid x in
  msg_ok m -> info_ok x -> exists o, filter_kernel_routes tables (pre ++ msg_bytes m ++ post) (zl pre) (zl (msg_bytes m)) =
    match o with Some r => PYes r | None => PNo end /\ told tables x (match o with Some r => [NRoute new r] | None => [] end).
Proof.
  intros x m M I. destruct (msg_split m) as (S1 & S2). pose proof (msg_len m) as L. 
  assert (F : Forall attr_ok l) by apply M. rewrite L. rewrite S1. cbn [m_body m_attrs m to_msg x] in *.
  pose proof (fun p => parse_route p post tables family dst_len src_len tos table proto scope rtype flags l F) as P.
  pose proof I as (If & Ifl & _).
  assert (K5 : forall p q, rd8 (p ++ (route_body family dst_len src_len tos table proto scope rtype flags ++ q) ++ post) (zl p + 5) = Some proto).
  { intros p q. unfold route_body. rewrite <- !app_assoc. apply (rd8_k p _ _ 5%nat); [reflexivity|cbn; lia]. }
  assert (K8 : forall p q, rd32 (p ++ (route_body family dst_len src_len tos table proto scope rtype flags ++ q) ++ post) (zl p + 8) = Some flags).
  { intros p q. unfold route_body. rewrite <- !app_assoc. rewrite le4_le32. pose proof (num_le32 flags Ifl) as N. unfold le32 in *. rewrite (app_assoc p). cbn [app].
    rewrite rd32_app by (rewrite !app_length; cbn; lia). now rewrite N. }
  set (h := hdr _) in *. clearbody h. rewrite <- (app_assoc h), (app_assoc pre).
  unfold filter_kernel_routes. replace (zl pre + 16) with (zl (pre ++ h)) by (rewrite app_length; lia). rewrite K5, K8.
  unfold RTPROT_BABEL, RTM_F_CLONED. destruct (Z.eqb_spec proto 42) as [->|Np].
  { exists None. split; [reflexivity|]. apply told_quiet. intros (X & _). now apply X. }
  rewrite land512, Bool.negb_involutive. destruct (Z.testbit flags 9) eqn:T.
  { exists None. split; [reflexivity|]. apply told_quiet. intros (_ & X & _). congruence. }
  replace (16 + _ - 16) with (zl (route_body family dst_len src_len tos table proto scope rtype flags ++ concat (map attr_bytes l))) by lia.
  rewrite (P (pre ++ h)) by exact I. destruct (existsb (Z.eqb (route_table table l)) tables) eqn:Ex.
  2:{ exists None. split; [reflexivity|]. apply told_quiet. intros (_ & _ & X & _). apply existsb_in in X. congruence. }
  apply existsb_in in Ex. pose proof (said_metric family dst_len src_len proto l) as Sm. unfold KERNEL_INFINITY.
  destruct (_ && _) eqn:D.
  - exists None. split; [reflexivity|]. apply told_quiet. intros (_ & _ & _ & X). apply X. lia.
  - eexists (Some _). split; [reflexivity|]. apply told_route. split; [exact Np|]. split; [exact T|]. split; [exact Ex|]. cbv zeta. lia.
Qed.

(** ** Addresses *)
Definition addr_after (family : Z) (l : list (Z * list Z)) (a : option (list Z)) : option (list Z) :=
  match addr_said family l with Some x => Some x | None => a end.
Lemma addr_loop_spec l : forall pre post fuel family a, (family = 2 \/ family = 10) -> Forall attr_ok l ->
  (forall t d, In (t, d) l -> t = 1 \/ t = 2 -> length d = (if family =? 2 then 4%nat else 16%nat)) -> (length l <= fuel)%nat ->
  addr_loop (pre ++ concat (map attr_bytes l) ++ post) fuel (zl pre) (zl (concat (map attr_bytes l))) family a = PYes (addr_after family l a).
Proof.
  induction l as [|x l IH]; intros pre post fuel family a Hf F R L.
  - cbn [map concat length]. destruct fuel; reflexivity.
  - cbn [map concat]. destruct fuel as [|fuel]; [cbn in L; lia|]. apply Forall_cons_iff in F. destruct F as (A & F).
    cbn [addr_loop]. pose proof (attr_bytes_len x) as La. pose proof (align4_ge (4 + zl (snd x))) as G.
    rewrite <- app_assoc. destruct (rd_attr pre x (concat (map attr_bytes l) ++ post) A) as (R1 & R2 & R3 & _).
    replace (_ <? 4) with false by (rewrite app_length; lia). rewrite R1, R2.
    replace (_ || _) with false. 2:{ rewrite app_length. lia. }
    assert (N : forall a', addr_loop (pre ++ attr_bytes x ++ concat (map attr_bytes l) ++ post) fuel (zl pre + align4 (4 + zl (snd x)))
       (zl (attr_bytes x ++ concat (map attr_bytes l)) - align4 (4 + zl (snd x))) family a' = PYes (addr_after family l a')).
    { intros a'. rewrite app_assoc.
      replace (zl pre + align4 (4 + zl (snd x))) with (zl (pre ++ attr_bytes x)) by (rewrite app_length; lia).
      replace (zl (attr_bytes x ++ concat (map attr_bytes l)) - align4 (4 + zl (snd x))) with (zl (concat (map attr_bytes l))) by (rewrite app_length; lia).
      apply IH; [exact Hf|exact F|intros t d I; apply R; now right|cbn in L; lia]. }
    destruct x as (t, d). cbn [fst snd] in *. specialize (R t d (or_introl eq_refl)).
    assert (S1 : addr_said family ((t, d) :: l) = let full x := if family =? 2 then mapped4 x else x in
      if t =? 2 then Some (full d) else match addr_said family l with Some y => Some y | None => if t =? 1 then Some (full d) else None end).
    { unfold addr_said. cbn [attr]. rewrite (Z.eqb_sym 2 t). destruct (t =? 2); [reflexivity|]. destruct (attr 2 l); [reflexivity|].
      unfold last_attr. cbn [rev]. clear. induction (rev l) as [|(t', d') r IH]; cbn [app attr]; [rewrite (Z.eqb_sym 1 t); destruct (t =? 1); reflexivity|].
      destruct (1 =? t'); [reflexivity|exact IH]. }
    unfold addr_after at 1. rewrite S1. cbv zeta.
    destruct ((t =? 1) || (t =? 2)) eqn:T.
    + assert (Hd : length d = (if family =? 2 then 4%nat else 16%nat)) by (apply R; lia). unfold AF_INET, AF_INET6.
      assert (Y : exists y, (if family =? 2 then mapped4 d else d) = y) by eauto. destruct Y as (y & Y). rewrite Y.
      assert (Z1 : forall {B} (k : list Z -> parsed B), (if family =? 2 then match rdn (pre ++ attr_bytes (t, d) ++ concat (map attr_bytes l) ++ post) (zl pre + 4) 4 with Some x => k (v4tov6 x) | None => PUb end
        else if family =? 10 then match rdn (pre ++ attr_bytes (t, d) ++ concat (map attr_bytes l) ++ post) (zl pre + 4) 16 with Some x => k x | None => PUb end else PNo) = k y).
      { intros B k. rewrite <- Y. clear N. revert R3. generalize (pre ++ attr_bytes (t, d) ++ concat (map attr_bytes l) ++ post). intros b R3.
        rewrite Hd in R3. destruct Hf as [->| ->]; cbn [Z.eqb Pos.eqb] in Hd, R3 |- *; [change (Z.of_nat 4) with 4 in R3|change (Z.of_nat 16) with 16 in R3]; rewrite R3; [rewrite v4tov6_mapped by exact Hd|]; reflexivity. }
      etransitivity; [refine (Z1 _ (fun a0 => if t =? 2 then PYes (Some a0) else addr_loop (pre ++ attr_bytes (t, d) ++ concat (map attr_bytes l) ++ post) fuel
        (zl pre + align4 (4 + zl d)) (zl (attr_bytes (t, d) ++ concat (map attr_bytes l)) - align4 (4 + zl d)) family (Some a0)))|]. cbv beta. destruct (Z.eqb_spec t 2); [reflexivity|]. rewrite N. unfold addr_after. replace (t =? 1) with true by lia. destruct (addr_said family l); reflexivity.
    + rewrite N. unfold addr_after. replace (t =? 1) with false by lia. replace (t =? 2) with false by lia. destruct (addr_said family l); reflexivity.
Qed.
Lemma filter_addr pre post tables fl seq pid new family plen flags scope ifindex l :
  let x := IAddr new family plen flags scope ifindex l in let m := to_msg fl seq pid x in
  msg_ok m -> info_ok x -> filter_addresses (pre ++ msg_bytes m ++ post) (zl pre) (zl (msg_bytes m)) = PYes (addr_said family l, ifindex) /\
    told tables x [NAddr new (addr_said family l) ifindex].
Proof.
  intros x m M I. split; [|constructor]. destruct (msg_split m) as (S1 & S2). pose proof (msg_len m) as L.
  assert (F : Forall attr_ok l) by apply M. rewrite L. rewrite S1. cbn [m_body m_attrs m to_msg x] in *. destruct I as (If & Ii & Ia).
  set (h := hdr _) in *. clearbody h. rewrite <- (app_assoc h), (app_assoc pre). rewrite le4_le32.
  pose proof (num_le32 ifindex Ii) as N. unfold le32 in *. unfold filter_addresses. replace (zl pre + 16) with (zl (pre ++ h)) by (rewrite app_length; lia).
  set (p := pre ++ h). clearbody p. cbn [app]. set (c := concat (map attr_bytes l)). 
  rewrite rd8_app. match goal with |- context [family :: plen :: flags :: scope :: ?a :: ?b :: ?e :: ?g :: ?q] => change (family :: plen :: flags :: scope :: a :: b :: e :: g :: q) with ([family; plen; flags; scope] ++ a :: b :: e :: g :: q) end.
  rewrite (app_assoc p). rewrite rd32_app by (rewrite app_length; cbn; lia). rewrite N.
  match goal with |- context [(p ++ ?u) ++ ?a :: ?b :: ?e :: ?g :: ?q] => change (a :: b :: e :: g :: q) with ([a; b; e; g] ++ q); set (v := [a; b; e; g]) end.
  rewrite (app_assoc (p ++ _)). set (p' := (p ++ _) ++ v). assert (Lp : zl p' = zl p + 8) by (unfold p'; rewrite !app_length; cbn; lia).
  replace (zl p + 8) with (zl p') by lia. match goal with |- context [addr_loop _ _ _ ?n _ _] => replace n with (zl c) by (cbn [length]; lia) end.
  unfold c. rewrite addr_loop_spec; [unfold addr_after; destruct (addr_said family l); reflexivity|exact If|exact F|exact Ia|].
  pose proof (attrs_count l). rewrite !app_length. lia.
Qed.

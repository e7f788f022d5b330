(** L_Nlink2.v: a request is read by the kernel as it was meant. *)
From Verif Require Import Base M_Util S_Util L_Util M_Source M_Filter M_Types M_Neigh M_State M_Table M_Msg M_Route M_Xroute M_Nlink S_Nlink L_Nlink.

Lemma iparg_ok t a : length a = 16%nat -> (t =? RTA_VIA) && v4mapped a = false ->
  zl (snd (iparg t a)) <= 18 /\ fst (iparg t a) = t.
Proof.
  intros L V. unfold iparg. destruct (v4mapped a) eqn:E.
  - destruct (v4_split a L E) as (_ & Q). cbn [fst snd]. rewrite Q. split; [lia|reflexivity].
  - destruct (t =? RTA_VIA); cbn [fst snd]; rewrite ?app_length, ?len_le16, L; split; lia || reflexivity.
Qed.
Lemma s32_id x : 0 <= x < 2147483648 -> s32 x = x.
Proof. intros H. unfold s32. Z.div_mod_to_equations. destruct (_ <? _) eqn:E in |- *; lia. Qed.

(** What is left to check once the header and the attributes are read. *)
Definition said (add : bool) (seq table : Z) (d : dest) (metric : Z) (l : list (Z * list Z)) : option (bool * Z * kreq) :=
  let v4 := v4mapped (d_prefix d) in
  let full x := if v4 then mapped4 x else x in
  let base := if v4 then 96 else 0 in
  let size := if v4 then 4 else 16 in
  match attr 1 l, attr 6 l with
  | Some dst, Some prio =>
      let src := match attr 2 l with Some x => Some (full x, base + (if negb (is_default (d_src d) (d_splen d)) then u8 (d_splen d) else 0)) | None => None end in
      let req via := Some (add, seq, mkKreq (u8 table) (full dst) (base + u8 (if v4 then d_plen d - 96 else d_plen d)) src (s32 (num prio)) via) in
      if negb (zl dst =? size) then None
      else if metric <? KERNEL_INFINITY then
        match attr 4 l, attr 5 l, attr 18 l with
        | Some i, Some g, None => if negb (zl g =? size) then None
            else req (Some (num i, full g, match attr 7 l with Some x => Some (full x) | None => None end))
        | Some i, None, Some (a :: a' :: g) => if negb (num [a; a'] =? 10) || negb (zl g =? 16) then None
            else req (Some (num i, g, match attr 7 l with Some x => Some (full x) | None => None end))
        | _, _, _ => None
        end
      else req None
  | _, _ => None
  end.
Lemma reads_said add seq table d metric a l : 0 <= seq < 65536 -> Forall aok (a :: l) -> zl (join (enc a) l) <= 900 -> (length l <= 5)%nat ->
  kernel_reads (le32 (28 + zl (join (enc a) l)) ++ req_hdr add seq ++ req_rtm table d metric ++ join (enc a) l) = said add seq table d metric (a :: l).
Proof.
  intros S F J L. unfold kernel_reads. set (j := join (enc a) l) in *. set (b := le32 _ ++ _).
  assert (Lb : zl b = 28 + zl j). { unfold b, req_hdr, req_rtm. rewrite !app_length, !len_le16, !len_le32. cbn [length]. lia. }
  assert (S0 : num (slice 0 4 b) = 28 + zl j). { change (slice 0 4 b) with (le32 (28 + zl j)). apply num_le32. lia. }
  assert (S1 : num (slice 8 4 b) = seq). { change (slice 8 4 b) with (le32 seq). apply num_le32. lia. }
  assert (S2 : num (slice 4 2 b) = (if add then 24 else 25)) by (destruct add; reflexivity).
  assert (S3 : num (slice 6 2 b) = (if add then 1541 else 5)) by (destruct add; reflexivity).
  assert (S4 : slice 16 12 b = req_rtm table d metric) by reflexivity.
  assert (S5 : tlvs (length b) (skipn 28 b) = Some (a :: l)).
  { change (skipn 28 b) with j. apply tlvs_join; [inversion F; assumption|inversion F; assumption|]. lia. }
  rewrite S0, S1, S2, S3, S4, S5, Lb. rewrite Z.eqb_refl. replace (28 + zl j <? 28) with false by lia. cbn [negb orb].
  unfold req_rtm, said. cbn [app le32].
  assert (Fam : ((if v4mapped (d_prefix d) then AF_INET else AF_INET6) =? 2) = v4mapped (d_prefix d)) by (destruct (v4mapped (d_prefix d)); reflexivity).
  assert (Fam2 : v4mapped (d_prefix d) || ((if v4mapped (d_prefix d) then AF_INET else AF_INET6) =? 10) = true) by (destruct (v4mapped (d_prefix d)); reflexivity).
  cbv zeta. rewrite Fam, Fam2.
  destruct add; cbn [negb orb andb Z.eqb Pos.eqb RTPROT_BABEL Z.add Pos.add Pos.succ]; (destruct (metric <? KERNEL_INFINITY); cbn [Z.eqb Pos.eqb andb]; reflexivity).
Qed.

Theorem request_read : forall add seq table d pref gate ifindex metric, askable d pref gate ifindex metric -> 0 <= seq < 65536 ->
  exists b, nl_request add seq table d pref gate ifindex metric = Some b /\ zl b <= 1024 /\
    kernel_reads b = Some (add, seq, kreq_of table d pref gate ifindex metric).
Proof.
  intros add seq table d pref gate ifindex metric A S. destruct A as [(P1 & P2) (Q1 & Q2) (G1 & G2) (Pl & Pm) Sp Pf If Me Fa Su].
  assert (B : exists a l, req_attrs d pref gate ifindex metric = a :: l /\ (length l <= 5)%nat /\
    Forall (fun a => zl (snd a) <= 18) (a :: l) /\ Forall aok (a :: l) /\
    said add seq table d metric (a :: l) = Some (add, seq, kreq_of table d pref gate ifindex metric)).
  { unfold req_attrs, said, kreq_of. destruct (v4mapped (d_prefix d)) eqn:V.
    - destruct Su as [Su|Su]; [|discriminate Su]. rewrite Su. destruct (v4_split _ P1 V) as (Ep & Lp). cbn [negb app].
      assert (U : 96 + u8 (d_plen d - 96) = d_plen d). { unfold u8. rewrite Z.mod_small by lia. lia. }
      destruct (metric <? KERNEL_INFINITY) eqn:M.
      + assert (Nm : num (le32 metric) = metric) by (apply num_le32; lia). assert (Ni : num (le32 ifindex) = ifindex) by (apply num_le32; lia).
        assert (Gt : exists t g, iparg (if true && negb (v4mapped gate) then RTA_VIA else RTA_GATEWAY) gate = (t, g) /\ 0 <= t < 65536 /\ zl g <= 18 /\
          ((t = RTA_GATEWAY /\ zl g = 4 /\ gate = mapped4 g) \/ (t = RTA_VIA /\ exists x y, g = x :: y :: gate /\ num [x; y] = 10))).
        { destruct (v4mapped gate) eqn:Vg; cbn [andb negb].
          - destruct (v4_split _ G1 Vg) as (Eg & Lg). exists RTA_GATEWAY, (skipn 12 gate). unfold iparg. rewrite Vg. split; [reflexivity|]. split; [cbv [RTA_GATEWAY RTA_VIA]; lia|]. split; [lia|].
            left. split; [reflexivity|]. split; [lia|exact Eg].
          - exists RTA_VIA, (le16 AF_INET6 ++ gate). unfold iparg. rewrite Vg. split; [reflexivity|]. split; [cbv [RTA_GATEWAY RTA_VIA]; lia|]. split; [rewrite app_length, len_le16; lia|].
            right. split; [reflexivity|]. exists 10, 0. split; reflexivity. }
        destruct Gt as (t & g & -> & Tt & Lg & Cg). cbn [app].
        destruct pref as [ps|].
        * destruct (Pf ps eq_refl) as ((Lps & _) & Vps). destruct (v4_split _ Lps Vps) as (Eps & Lps4). unfold iparg. rewrite Vps.
          eexists _, _. split; [reflexivity|]. split; [cbn [length]; lia|]. split; [repeat constructor; cbn [snd]; rewrite ?len_le32; lia|].
          split; [repeat constructor; cbn [fst snd]; rewrite ?len_le32; cbv [RTA_DST RTA_PRIORITY RTA_OIF RTA_PREFSRC]; lia|].
          destruct Cg as [(-> & Cg1 & Cg2)|(-> & x & y & -> & Cxy)].
          -- cbn [attr Z.eqb Pos.eqb RTA_DST RTA_PRIORITY RTA_OIF RTA_PREFSRC RTA_GATEWAY fst snd]. rewrite Nm, Ni, Lp, Cg1, U, <- Ep, <- Cg2, <- Eps. cbn [negb Z.of_nat Z.eqb Pos.eqb Pos.of_succ_nat Pos.succ].
             rewrite s32_id by lia. reflexivity.
          -- cbn [attr Z.eqb Pos.eqb RTA_DST RTA_PRIORITY RTA_OIF RTA_PREFSRC RTA_VIA fst snd]. rewrite Nm, Ni, Lp, U, Cxy, G1, <- Ep, <- Eps. cbn [negb orb Z.of_nat Z.eqb Pos.eqb Pos.of_succ_nat Pos.succ].
             rewrite s32_id by lia. reflexivity.
        * eexists _, _. split; [reflexivity|]. split; [cbn [length]; lia|]. split; [repeat constructor; cbn [snd]; rewrite ?len_le32; lia|].
          split; [repeat constructor; cbn [fst snd]; rewrite ?len_le32; cbv [RTA_DST RTA_PRIORITY RTA_OIF RTA_PREFSRC]; lia|].
          destruct Cg as [(-> & Cg1 & Cg2)|(-> & x & y & -> & Cxy)].
          -- cbn [attr Z.eqb Pos.eqb RTA_DST RTA_PRIORITY RTA_OIF RTA_PREFSRC RTA_GATEWAY fst snd]. rewrite Nm, Ni, Lp, Cg1, U, <- Ep, <- Cg2. cbn [negb Z.of_nat Z.eqb Pos.eqb Pos.of_succ_nat Pos.succ].
             rewrite s32_id by lia. reflexivity.
          -- cbn [attr Z.eqb Pos.eqb RTA_DST RTA_PRIORITY RTA_OIF RTA_PREFSRC RTA_VIA fst snd]. rewrite Nm, Ni, Lp, U, Cxy, G1, <- Ep. cbn [negb orb Z.of_nat Z.eqb Pos.eqb Pos.of_succ_nat Pos.succ].
             rewrite s32_id by lia. reflexivity.
      + eexists _, _. split; [reflexivity|]. split; [cbn [length]; lia|]. split; [repeat constructor; cbn [snd]; rewrite ?len_le32; lia|].
        split; [repeat constructor; cbn [fst snd]; rewrite ?len_le32; cbv [RTA_DST RTA_PRIORITY RTA_OIF RTA_PREFSRC]; lia|].
        cbn [attr Z.eqb Pos.eqb RTA_DST RTA_PRIORITY RTA_OIF RTA_PREFSRC RTA_GATEWAY fst snd]. rewrite Lp, U, <- Ep. cbn [negb Z.of_nat Z.eqb Pos.eqb Pos.of_succ_nat Pos.succ]. reflexivity.
    - assert (Vg : v4mapped gate = false /\ v4mapped (d_src d) = false).
      { unfold family_ok in Fa. rewrite V, andb_false_r in Fa. apply negb_true_iff, orb_false_iff in Fa. exact Fa. }
      destruct Vg as (Vg & Vs). cbn [andb app]. unfold iparg. rewrite Vg. cbn [Z.eqb Pos.eqb RTA_GATEWAY RTA_VIA].
      assert (U : u8 (d_plen d) = d_plen d) by (unfold u8; rewrite Z.mod_small by lia; lia).
      assert (Us : u8 (d_splen d) = d_splen d) by (unfold u8; rewrite Z.mod_small by lia; lia).
      assert (Nm : 0 <= metric < 65535 -> s32 (num (le32 metric)) = metric) by (intros; rewrite num_le32 by lia; apply s32_id; lia).
      assert (Ni : num (le32 ifindex) = ifindex) by (apply num_le32; lia).
      assert (Ps : forall a, pref = Some a -> zl a = 16 /\ v4mapped a = false). { intros a E. destruct (Pf a E) as ((La & _) & Va). split; [lia|exact Va]. }
      destruct (is_default (d_src d) (d_splen d)) eqn:D; cbn [negb app]; (destruct (metric <? KERNEL_INFINITY) eqn:M; [unfold KERNEL_INFINITY in M; assert (Nm' := Nm ltac:(lia))|]);
      [destruct pref as [ps|]; [destruct (Ps ps eq_refl) as (Lps & Vps); rewrite Vps|]|
       |destruct pref as [ps|]; [destruct (Ps ps eq_refl) as (Lps & Vps); rewrite Vps|]|];
      cbn [Z.eqb Pos.eqb RTA_PREFSRC RTA_VIA app];
      (eexists _, _; split; [reflexivity|]; split; [cbn [length]; lia|]; split; [repeat constructor; cbn [snd]; rewrite ?len_le32; lia|];
       split; [repeat constructor; cbn [fst snd]; rewrite ?len_le32; cbv [RTA_DST RTA_SRC RTA_PRIORITY RTA_OIF RTA_GATEWAY RTA_PREFSRC]; lia|];
       cbn [attr Z.eqb Pos.eqb RTA_DST RTA_SRC RTA_PRIORITY RTA_OIF RTA_GATEWAY RTA_PREFSRC fst snd]; rewrite ?Nm', ?Ni, ?P1, ?G1, ?U, ?Us, ?Z.add_0_l;
       cbn [negb Z.of_nat Z.eqb Pos.eqb Pos.of_succ_nat Pos.succ]; reflexivity). }
  destruct B as (a & l & E & L & F & Ok & Sd).
  assert (J : zl (join (enc a) l) <= 900). { rewrite join_len, enc_len. pose proof (room_le l (4 + zl (snd a)) ltac:(inversion F; assumption)). inversion F; subst. lia. }
  eexists. split; [apply request_bytes; eassumption|]. split.
  - unfold req_hdr, req_rtm. rewrite !app_length, !len_le16, !len_le32. cbn [length]. lia.
  - rewrite reads_said; assumption.
Qed.

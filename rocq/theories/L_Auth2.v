(** L_Auth2.v: MACs, totality of the pre-parser, the sender's counter. *)
From Coq Require Import Bool.
From Verif Require Import Base M_Util S_Util M_Filter M_Types M_Neigh M_Wire M_Auth S_Auth S_Wire L_Wire L_Wire2 L_Auth.

Lemma skipn_add : forall (A : Type) n m (l : list A), skipn n (skipn m l) = skipn (m + n) l.
Proof. intros A n m. induction m as [|m IH]; intros l; [reflexivity|]. destruct l; [destruct n; reflexivity|]. apply IH. Qed.

(** ** check_hmac *)
Section Mac.
Variable key : Type.
Variable mac : key -> list Z -> option (list Z).

Lemma compare_hmac_iff : forall port src dst pkt n h k,
  compare_hmac key mac port src dst pkt n h k = true <->
  mac k (src ++ port ++ dst ++ port ++ firstn 4 pkt ++ firstn (Z.to_nat n) (skipn 4 pkt)) = Some h.
Proof.
  intros. unfold compare_hmac, compute_hmac, hmac_input. destruct (mac k _) as [d|].
  - rewrite andb_true_iff, !Z.eqb_eq, memcmp_0. split; [intros [_ ->]; auto|]. intros E. injection E as <-. auto.
  - split; discriminate.
Qed.

Lemma check_loop_total : forall port src dst pkt n k f i rc, bytes_ok pkt -> 0 <= i ->
  zlen pkt - i < Z.of_nat f -> exists r, check_loop key mac port src dst pkt n k f i rc = Ret r.
Proof.
  intros port src dst pkt n k f. induction f as [|f IH]; intros i rc B I0 F; cbn [check_loop].
  - replace (i <? zlen pkt) with false by lia. eauto.
  - destruct (i <? zlen pkt) eqn:L; [|eauto]. destruct (i + 2 >? zlen pkt) eqn:L2; [eauto|].
    destruct (rd_post pkt (i + 1) B ltac:(lia)) as (len & E1 & B1). rewrite E1. cbn [bind].
    destruct (rd_post pkt i B ltac:(lia)) as (t & E2 & B2). rewrite E2. cbn [bind]. unfold byte_ok in B1.
    destruct (t =? MESSAGE_MAC); [|apply IH; auto; lia].
    destruct (i + len + 2 >? zlen pkt) eqn:L3; [eauto|].
    destruct (rds_post pkt (i + 2) len B ltac:(lia)) as (h & E3 & _). rewrite E3. cbn [bind].
    destruct (compare_hmac _ _ _ _ _ _ _ _ _); [eauto|]. apply IH; auto; lia.
Qed.

Lemma check_loop_sound : forall port src dst pkt n k f i rc, bytes_ok pkt -> 0 <= i -> rc <> 1 ->
  check_loop key mac port src dst pkt n k f i rc = Ret 1 ->
  exists a h b, pkt = a ++ (MESSAGE_MAC :: zlen h :: h) ++ b /\ i <= zlen a /\
    mac k (src ++ port ++ dst ++ port ++ firstn 4 pkt ++ firstn (Z.to_nat n) (skipn 4 pkt)) = Some h.
Proof.
  intros port src dst pkt n k f. induction f as [|f IH]; intros i rc B I0 Rc E; cbn [check_loop] in E.
  - destruct (i <? zlen pkt); [discriminate|]. injection E as E. lia.
  - destruct (i <? zlen pkt) eqn:L; [|injection E as E; lia].
    destruct (i + 2 >? zlen pkt) eqn:L2; [injection E as E; lia|].
    destruct (rd_post pkt (i + 1) B ltac:(lia)) as (len & E1 & B1). rewrite E1 in E. cbn [bind] in E.
    destruct (rd_post pkt i B ltac:(lia)) as (t & E2 & B2). rewrite E2 in E. cbn [bind] in E. unfold byte_ok in B1.
    destruct (t =? MESSAGE_MAC) eqn:Tm.
    2:{ destruct (IH (i + len + 2) rc B ltac:(lia) Rc E) as (a & h & b & X1 & X2 & X3). exists a, h, b. split; [auto|]. split; [lia|auto]. }
    destruct (i + len + 2 >? zlen pkt) eqn:L3; [discriminate|].
    destruct (rds_post pkt (i + 2) len B ltac:(lia)) as (h & E3 & Bh & Lh). rewrite E3 in E. cbn [bind] in E.
    destruct (compare_hmac key mac port src dst pkt n h k) eqn:C.
    2:{ destruct (IH (i + len + 2) 0 B ltac:(lia) ltac:(lia) E) as (a & h' & b & X1 & X2 & X3). exists a, h', b. split; [auto|]. split; [lia|auto]. }
    apply compare_hmac_iff in C.
    exists (firstn (Z.to_nat i) pkt), h, (skipn (Z.to_nat (i + 2 + len)) pkt). split; [|split; [|auto]].
    + assert (Ha : forall j, 0 <= j < zlen pkt -> skipn (Z.to_nat j) pkt = nth (Z.to_nat j) pkt 0 :: skipn (Z.to_nat (j + 1)) pkt).
      { intros j J. replace (Z.to_nat (j + 1)) with (S (Z.to_nat j)) by lia.
        assert (X : (Z.to_nat j < length pkt)%nat) by (unfold zlen in J; lia). clear - X.
        revert X. generalize (Z.to_nat j). induction pkt as [|x l IHl]; intros m X; [cbn in X; lia|].
        destruct m; [reflexivity|]. cbn [skipn nth]. rewrite IHl by (cbn in X; lia). reflexivity. }
      apply nth_rd in E1. apply nth_rd in E2.
      rewrite <- (firstn_skipn (Z.to_nat i) pkt) at 1. f_equal.
      rewrite Ha by lia. rewrite Ha by lia. rewrite E2, E1. cbn [app].
      assert (Eh : h = firstn (Z.to_nat len) (skipn (Z.to_nat (i + 2)) pkt)).
      { unfold rds in E3. destruct (len <=? 0) eqn:L0.
        - injection E3 as <-. replace (Z.to_nat len) with 0%nat by lia. reflexivity.
        - destruct (_ && _); [|discriminate]. injection E3 as <-. auto. }
      replace t with MESSAGE_MAC by lia. f_equal. f_equal; [lia|].
      replace (i + 1 + 1) with (i + 2) by lia.
      rewrite <- (firstn_skipn (Z.to_nat len) (skipn (Z.to_nat (i + 2)) pkt)). rewrite <- Eh. f_equal.
      rewrite skipn_add. f_equal. lia.
    + unfold zlen. rewrite firstn_length. unfold zlen in L. lia.
Qed.

Lemma check_loop_range : forall port src dst pkt n k f i r0 r, (r0 = 0 \/ r0 = -1) ->
  check_loop key mac port src dst pkt n k f i r0 = Ret r -> r = 0 \/ r = -1 \/ r = 1.
Proof.
  intros port src dst pkt n k. induction f as [|f IH]; intros i r0 r H0 X; cbn [check_loop] in X.
  - destruct (i <? zlen pkt); [discriminate|]. injection X as <-. tauto.
  - destruct (i <? zlen pkt); [|injection X as <-; tauto].
    destruct (i + 2 >? zlen pkt); [injection X as <-; tauto|].
    destruct (rd pkt (i + 1)) as [l1| |]; cbn [bind] in X; [|discriminate..].
    destruct (rd pkt i) as [t| |]; cbn [bind] in X; [|discriminate..].
    destruct (t =? MESSAGE_MAC); [|(eapply IH; [|exact X]; auto)].
    destruct (i + l1 + 2 >? zlen pkt); [injection X as <-; auto|].
    destruct (rds pkt (i + 2) l1); cbn [bind] in X; [|discriminate..].
    destruct (compare_hmac _ _ _ _ _ _ _ _ _); [injection X as <-; auto|]. (eapply IH; [|exact X]; auto).
Qed.

(** *** A trailer made of TLVs *)
Definition flat (fs : list (Z * list Z)) : list Z := concat (map (fun f => fst f :: zlen (snd f) :: snd f) fs).
Definition good_mac (port src dst pkt : list Z) (n : Z) (k : key) (f : Z * list Z) : Prop :=
  fst f = MESSAGE_MAC /\
  mac k (src ++ port ++ dst ++ port ++ firstn 4 pkt ++ firstn (Z.to_nat n) (skipn 4 pkt)) = Some (snd f).

Lemma check_loop_flat : forall port src dst pkt n k rest fs a f rc, pkt = a ++ flat fs ++ rest ->
  (length (flat fs ++ rest) < f)%nat -> zlen rest < 2 -> (rc = 0 \/ rc = -1) ->
  exists r, check_loop key mac port src dst pkt n k f (zlen a) rc = Ret r /\
    ((exists x, In x fs /\ good_mac port src dst pkt n k x) -> r = 1) /\
    ((forall x, In x fs -> ~ good_mac port src dst pkt n k x) ->
      (r = 0 <-> rc = 0 \/ exists x, In x fs /\ fst x = MESSAGE_MAC) /\
      (r = -1 <-> rc = -1 /\ forall x, In x fs -> fst x <> MESSAGE_MAC)).
Proof.
  intros port src dst pkt n k rest. induction fs as [|[t v] fs IH]; intros a f rc E F R Rc;
    (destruct f as [|f]; [lia|]); cbn [check_loop].
  - cbn [flat map concat app] in E.
    assert (X : exists r, r = rc /\ (if zlen a <? zlen pkt then if zlen a + 2 >? zlen pkt then Ret rc else 
       (len <- rd pkt (zlen a + 1);; t <- rd pkt (zlen a);;
          if t =? MESSAGE_MAC then
            if zlen a + len + 2 >? zlen pkt then Ret (-1)
            else
              h <- rds pkt (zlen a + 2) len;;
              if compare_hmac key mac port src dst pkt n h k then Ret 1
              else check_loop key mac port src dst pkt n k f (zlen a + len + 2) 0
          else check_loop key mac port src dst pkt n k f (zlen a + len + 2) rc) else Ret rc) = Ret r).
    { exists rc. split; auto. assert (zlen pkt = zlen a + zlen rest) by (subst pkt; apply zlen_app).
      pose proof (zlen_nonneg _ rest). destruct (zlen a <? zlen pkt); auto.
      replace (zlen a + 2 >? zlen pkt) with true by lia. auto. }
    destruct X as (r & -> & X). exists rc. split; [exact X|]. split; [intros (x & [] & _)|].
    intros _. split; split.
    + auto.
    + intros [Y|(x & [] & _)]; auto.
    + intros Y. split; [auto|intros x []].
    + intros [Y _]. auto.
  - assert (W : win pkt (zlen a) ((t :: zlen v :: v) ++ flat fs ++ rest)).
    { exists a, []. rewrite app_nil_r. split; [|auto]. rewrite E. cbn [flat map concat fst snd]. rewrite <- app_assoc. reflexivity. }
    assert (Lp : zlen pkt = zlen a + (zlen v + 2) + zlen (flat fs) + zlen rest).
    { rewrite E. cbn [flat map concat fst snd]. fold (flat fs). rewrite !zlen_app, !zlen_cons. lia. }
    pose proof (zlen_nonneg _ v) as Nv. pose proof (zlen_nonneg _ (flat fs)) as Nf. pose proof (zlen_nonneg _ rest) as Nr.
    replace (zlen a <? zlen pkt) with true by lia. replace (zlen a + 2 >? zlen pkt) with false by lia.
    rewrite (rd_win _ _ _ 1 W) by (rewrite !zlen_app, !zlen_cons; lia).
    assert (E0 : rd pkt (zlen a) = Ret t).
    { replace (zlen a) with (zlen a + 0) by lia.
      rewrite (rd_win _ _ _ 0 W) by (rewrite !zlen_app, !zlen_cons; lia). reflexivity. }
    rewrite E0. cbn [bind].
    change (nth (Z.to_nat 1) ((t :: zlen v :: v) ++ flat fs ++ rest) 0) with (zlen v).
    assert (E' : pkt = (a ++ t :: zlen v :: v) ++ flat fs ++ rest).
    { rewrite E. cbn [flat map concat fst snd]. fold (flat fs). rewrite <- !app_assoc. reflexivity. }
    assert (Ei : zlen a + zlen v + 2 = zlen (a ++ t :: zlen v :: v)) by (rewrite zlen_app, !zlen_cons; lia).
    assert (F' : (length (flat fs ++ rest) < f)%nat).
    { cbn [flat map concat fst snd] in F. fold (flat fs) in F. rewrite <- app_assoc, app_length in F. cbn [length] in F. lia. }
    destruct (t =? MESSAGE_MAC) eqn:Tm.
    + replace (zlen a + zlen v + 2 >? zlen pkt) with false by lia.
      assert (Er : rds pkt (zlen a + 2) (zlen v) = Ret v).
      { apply (rds_le pkt (zlen a) _ _ 2 _ W eq_refl). unfold rds. destruct (zlen v <=? 0) eqn:L0.
        - destruct v; [auto|]. rewrite zlen_cons in L0. pose proof (zlen_nonneg _ v). lia.
        - replace (_ && _) with true.
          + f_equal. cbn [app]. change (Z.to_nat 2) with 2%nat. cbn [skipn]. unfold zlen. rewrite Nat2Z.id.
            rewrite firstn_app, Nat.sub_diag, firstn_all. cbn [firstn]. apply app_nil_r.
          + symmetry. apply andb_true_intro. split; [lia|]. rewrite !zlen_app, !zlen_cons. lia. }
      rewrite Er. cbn [bind]. destruct (compare_hmac key mac port src dst pkt n v k) eqn:C.
      * apply compare_hmac_iff in C. exists 1. split; [auto|]. split; [auto|].
        intros H. exfalso. apply (H (t, v)); [left; auto|]. split; [cbn; lia|exact C].
      * rewrite Ei. destruct (IH _ f 0 E' F' R ltac:(auto)) as (r & Er' & H1 & H2). exists r. split; [auto|]. split.
        -- intros (x & [<-|Hx] & G); [|eauto]. exfalso. destruct G as [_ G].
           cbn [snd] in G. apply compare_hmac_iff in G. congruence.
        -- intros H. destruct (H2 ltac:(intros x Hx; apply H; right; auto)) as [K1 K2]. split; split.
           ++ intros X. right. exists (t, v). split; [left; auto|cbn; lia].
           ++ intros _. apply K1. auto.
           ++ intros X. apply K2 in X. lia.
           ++ intros [_ X]. exfalso. apply (X (t, v)); [left; auto|cbn; lia].
    + rewrite Ei. destruct (IH _ f rc E' F' R Rc) as (r & Er' & H1 & H2). exists r. split; [auto|]. split.
      * intros (x & [<-|Hx] & G); [|eauto]. exfalso. destruct G as [G _]. cbn in G. lia.
      * intros H. destruct (H2 ltac:(intros x Hx; apply H; right; auto)) as [K1 K2]. split; split.
        -- intros X. apply K1 in X. destruct X as [X|(x & Hx & X)]; [auto|]. right. exists x. split; [right; auto|auto].
        -- intros X. apply K1. destruct X as [X|(x & [<-|Hx] & X)]; [auto|cbn in X; lia|right; eauto].
        -- intros X. apply K2 in X. destruct X as [X1 X2]. split; [auto|]. intros x [<-|Hx]; [cbn; lia|auto].
        -- intros [X1 X2]. apply K2. split; [auto|]. intros x Hx. apply X2. right; auto.
Qed.

(** What the sender signs verifies. *)
Lemma signed_verifies : forall port src lls dst buf size k tl rest,
  (forall k' m d, mac k' m = Some d -> zlen d <= 32) ->
  add_hmac key mac port (src :: lls) dst ([42; 2] ++ be16 (zlen buf)) buf size k = Some tl ->
  check_hmac key mac port src dst (([42; 2] ++ be16 (zlen buf)) ++ buf ++ tl ++ rest) (zlen buf) k = Ret 1.
Proof.
  intros port src lls dst buf size k tl rest Hm A. unfold add_hmac in A.
  destruct (zlen buf + 2 + 32 >? size); [discriminate|].
  unfold compute_hmac, hmac_input in A. destruct (mac k _) as [d|] eqn:M; [|discriminate]. injection A as <-.
  pose proof (Hm _ _ _ M) as Ld. pose proof (zlen_nonneg _ d) as Nd.
  set (hd := [42; 2] ++ be16 (zlen buf)) in *.
  replace (u8 (zlen d)) with (zlen d) by (unfold u8; lia).
  set (pkt := hd ++ buf ++ (MESSAGE_MAC :: zlen d :: d) ++ rest).
  assert (Lh : zlen hd = 4) by reflexivity.
  assert (W : win pkt (zlen buf + 4) ((MESSAGE_MAC :: zlen d :: d) ++ rest)).
  { exists (hd ++ buf), []. rewrite app_nil_r. split.
    - unfold pkt. rewrite <- app_assoc. reflexivity.
    - rewrite zlen_app, Lh. lia. }
  assert (Lp : zlen pkt = zlen buf + 4 + (zlen d + 2) + zlen rest).
  { unfold pkt. rewrite !zlen_app, !zlen_cons, Lh. lia. }
  pose proof (zlen_nonneg _ rest) as Nr. pose proof (zlen_nonneg _ buf) as Nb.
  unfold check_hmac. cbn [check_loop].
  replace (zlen buf + 4 <? zlen pkt) with true by lia. replace (zlen buf + 4 + 2 >? zlen pkt) with false by lia.
  rewrite (rd_win _ _ _ 1 W) by (rewrite zlen_app, !zlen_cons; lia).
  assert (E0 : rd pkt (zlen buf + 4) = Ret MESSAGE_MAC).
  { replace (zlen buf + 4) with (zlen buf + 4 + 0) by lia.
    rewrite (rd_win _ _ _ 0 W) by (rewrite zlen_app, !zlen_cons; lia). reflexivity. }
  rewrite E0. cbn [bind].
  change (nth (Z.to_nat 1) ((MESSAGE_MAC :: zlen d :: d) ++ rest) 0) with (zlen d).
  rewrite Z.eqb_refl.
  replace (zlen buf + 4 + zlen d + 2 >? zlen pkt) with false by lia.
  assert (Er : rds pkt (zlen buf + 4 + 2) (zlen d) = Ret d).
  { apply (rds_le pkt (zlen buf + 4) _ _ 2 _ W eq_refl). unfold rds. destruct (zlen d <=? 0) eqn:L0.
    - destruct d; [auto|]. rewrite zlen_cons in L0. pose proof (zlen_nonneg _ d). lia.
    - replace (_ && _) with true.
      + f_equal. cbn [app]. change (Z.to_nat 2) with 2%nat. cbn [skipn]. unfold zlen. rewrite Nat2Z.id.
        rewrite firstn_app, Nat.sub_diag, firstn_all. cbn [firstn]. apply app_nil_r.
      + symmetry. apply andb_true_intro. split; [lia|]. rewrite zlen_app, !zlen_cons. lia. }
  rewrite Er. cbn [bind]. replace (compare_hmac _ _ _ _ _ _ _ _ _) with true; [auto|].
  symmetry. apply compare_hmac_iff. assert (H : length hd = 4%nat) by reflexivity.
  assert (X1 : firstn 4 pkt = hd).
  { unfold pkt. rewrite firstn_app, H, Nat.sub_diag. rewrite firstn_all2 by lia. cbn [firstn]. apply app_nil_r. }
  assert (X2 : firstn (Z.to_nat (zlen buf)) (skipn 4 pkt) = buf).
  { unfold pkt. rewrite skipn_app, H, Nat.sub_diag. rewrite skipn_all2 by lia. cbn [skipn app].
    unfold zlen. rewrite Nat2Z.id, firstn_app, Nat.sub_diag, firstn_all. cbn [firstn]. apply app_nil_r. }
  rewrite X1, X2. exact M.
Qed.
End Mac.

(** ** The pre-parser reads inside the packet and terminates *)
Lemma pre_loop_total : forall pkt bodylen mcast f i s c, bytes_ok pkt -> 4 + bodylen <= zlen pkt -> 0 <= i ->
  bodylen - i < Z.of_nat f -> exists r, pre_loop pkt bodylen mcast f i s c = Ret r.
Proof.
  intros pkt bodylen mcast f. induction f as [|f IH]; intros i s c B L I0 F; cbn [pre_loop].
  - replace (i <? bodylen) with false by lia. eauto.
  - destruct (i <? bodylen) eqn:Li; [|eauto].
    destruct (rd_post pkt (4 + i) B ltac:(lia)) as (t & E1 & B1). rewrite E1. cbn [bind].
    destruct (t =? MESSAGE_PAD1); [apply IH; auto; lia|].
    destruct (i + 2 >? bodylen) eqn:L2; [eauto|].
    destruct (rd_post pkt (4 + i + 1) B ltac:(lia)) as (len & E2 & B2). rewrite E2. cbn [bind].
    unfold byte_ok in B2. destruct (i + len + 2 >? bodylen) eqn:L3; [eauto|].
    assert (Next : forall s c, exists r, pre_loop pkt bodylen mcast f (i + len + 2) s c = Ret r).
    { intros. apply IH; auto; lia. }
    destruct (t =? MESSAGE_PC).
    { destruct (sc_pc c); [auto|]. destruct (len <? 4) eqn:L4; [eauto|]. destruct (len >? 36); [eauto|].
      destruct (rd32_post pkt (4 + i + 2) B ltac:(lia) ltac:(lia)) as (pc & E3 & _). rewrite E3. cbn [bind].
      destruct (rds_post pkt (4 + i + 6) (len - 4) B ltac:(lia)) as (ix & E4 & _). rewrite E4. cbn [bind]. auto. }
    destruct (t =? MESSAGE_CHALLENGE_REQUEST).
    { destruct mcast; [auto|]. destruct (len >? 192); [eauto|].
      destruct (rds_post pkt (4 + i + 2) len B ltac:(lia)) as (ix & E4 & _). rewrite E4. cbn [bind]. auto. }
    destruct (t =? MESSAGE_CHALLENGE_REPLY); [|auto]. destruct (len >? 192); [eauto|].
    assert (Cr : exists r, challenge_reply pkt (4 + i) len s c = Ret r).
    { unfold challenge_reply. cbv zeta. destruct (_ >? 0); [eauto|]. destruct (len =? 8) eqn:L8; [|eauto].
      destruct (rds_post pkt (4 + i + 2) len B ltac:(lia)) as (ix & E4 & _). rewrite E4. cbn [bind].
      destruct (_ =? 0); eauto. }
    destruct Cr as (r & ->). cbn [bind]. auto.
Qed.

Lemma preparse_total : forall pkt bodylen mcast s, bytes_ok pkt -> 4 + bodylen <= zlen pkt ->
  exists r, preparse_packet pkt bodylen mcast s = Ret r.
Proof.
  intros pkt bodylen mcast s B L. unfold preparse_packet.
  destruct (pre_loop_total pkt bodylen mcast (S (Z.to_nat bodylen)) 0 s (mkScan None None false) B L
              ltac:(lia) ltac:(lia)) as (r & ->). cbn [bind]. eauto.
Qed.

(** The header *)
Lemma parse_header_ok : forall c pkt, bytes_ok pkt -> 4 <= zlen pkt ->
  parse_header c pkt = Ret (if babel_header c pkt then Some (body_len pkt) else None) /\
  0 <= body_len pkt /\ 4 + body_len pkt <= zlen pkt.
Proof.
  intros c pkt B L.
  assert (R : forall i, 0 <= i < zlen pkt -> rd pkt i = Ret (nth (Z.to_nat i) pkt 0)).
  { intros i H. exact (rd_win pkt 0 pkt i (win_refl pkt) H). }
  assert (U : 0 <= un16 (nth 2 pkt 0) (nth 3 pkt 0)).
  { destruct (rd16_post pkt 2 B ltac:(lia) ltac:(lia)) as (v & E & V).
    unfold rd16 in E. rewrite !R in E by lia. cbn [bind] in E. injection E as <-. apply V. }
  split; [|unfold body_len; lia].
  unfold parse_header, babel_header.
  destruct (linklocal (r_from c)); [|reflexivity]. cbn [negb andb].
  rewrite R by lia. cbn [bind]. change (Z.to_nat 0) with 0%nat.
  destruct (nth 0 pkt 0 =? 42); [|reflexivity]. cbn [negb andb].
  rewrite R by lia. cbn [bind]. change (Z.to_nat 1) with 1%nat.
  destruct (nth 1 pkt 0 =? 2); [|reflexivity]. cbn [negb andb].
  unfold rd16. rewrite !R by lia. cbn [bind].
  change (Z.to_nat 2) with 2%nat. change (Z.to_nat (2 + 1)) with 3%nat.
  do 2 f_equal. unfold body_len. destruct (_ >? _) eqn:G; lia.
Qed.

Lemma parse_body_total : forall c pkt n, addr_ok (r_from c) -> bytes_ok pkt -> 0 <= n -> 4 + n <= zlen pkt ->
  exists acts, parse_body c pkt n = Ret acts.
Proof.
  intros c pkt n A B N L. set (b := firstn (Z.to_nat n) (skipn 4 pkt)).
  assert (Lb : zlen b = n) by (unfold b, zlen in *; rewrite firstn_length, skipn_length; lia).
  assert (Bb : bytes_ok b) by (apply bytes_ok_firstn, bytes_ok_skipn; auto).
  destruct (frames_total b Bb) as (fs & full & Fr).
  assert (W : win pkt 4 ([] ++ b)).
  { exists (firstn 4 pkt), (skipn (Z.to_nat n) (skipn 4 pkt)). split.
    - cbn [app]. unfold b. rewrite firstn_skipn, firstn_skipn. auto.
    - unfold zlen in *. rewrite firstn_length. lia. }
  destruct (tlv_loop_frames c A b fs full Fr pkt [] (S (Z.to_nat n)) p0 W Bb p0_ok
              ltac:(unfold zlen in Lb; lia)) as [E _].
  unfold parse_body. rewrite zlen_nil, Lb in E. replace (0 + n) with n in E by lia. rewrite E. cbn [bind]. eauto.
Qed.

Lemma parse_key_total : forall key mac port k bad c to_ pkt s, addr_ok (r_from c) -> bytes_ok pkt -> 4 <= zlen pkt ->
  exists r, @parse_packet_key key mac port k bad c to_ pkt s = Ret r.
Proof.
  intros key mac port k bad c to_ pkt s A B L. unfold parse_packet_key.
  destruct (parse_header_ok c pkt B L) as (E & N1 & N2). rewrite E. cbn [bind].
  destruct (babel_header c pkt); [|eauto].
  destruct (check_loop_total key mac port (r_from c) to_ pkt (body_len pkt) k (S (length pkt)) (body_len pkt + 4) (-1) B
              ltac:(lia) ltac:(unfold zlen in *; lia)) as (rc & Ec).
  unfold check_hmac. rewrite Ec. cbn [bind].
  destruct (parse_body_total c pkt (body_len pkt) A B N1 N2) as (acts & Ea).
  destruct (rc <=? 0).
  - destruct (negb bad); [eauto|]. rewrite Ea. cbn [bind]. eauto.
  - destruct (preparse_total pkt (body_len pkt) (at_ to_ 0 =? 255) s B N2) as (r & Er). rewrite Er. cbn [bind].
    destruct (snd r); [rewrite Ea; cbn [bind]; eauto|eauto].
Qed.

(** ** What is needed for a packet to be acted upon *)
Lemma accepted_signed : forall key mac port k c to_ pkt s s' acts, AI s -> bytes_ok pkt -> 4 <= zlen pkt ->
  @parse_packet_key key mac port k false c to_ pkt s = Ret (s', Some acts) ->
  (exists a h b, pkt = a ++ (MESSAGE_MAC :: zlen h :: h) ++ b /\ 4 + body_len pkt <= zlen a /\
     mac k (r_from c ++ port ++ to_ ++ port ++ firstn 4 pkt ++ body pkt) = Some h) /\
  exists add m i p, a_log s' = add ++ a_log s /\ In (NAccept m i p) add.
Proof.
  intros key mac port k c to_ pkt s s' acts A B L E. unfold parse_packet_key in E.
  destruct (parse_header_ok c pkt B L) as (Eh & N1 & N2). rewrite Eh in E. cbn [bind] in E.
  destruct (babel_header c pkt); [|discriminate].
  destruct (check_hmac key mac port (r_from c) to_ pkt (body_len pkt) k) as [rc| |] eqn:Ec; cbn [bind] in E; [|discriminate..].
  destruct (rc <=? 0) eqn:R; [discriminate|].
  assert (R1 : rc = 1).
  { destruct (check_loop_range key mac port (r_from c) to_ pkt (body_len pkt) k _ _ _ _ ltac:(auto) Ec) as [X|[X|X]]; lia. }
  subst rc. split.
  - destruct (check_loop_sound key mac port (r_from c) to_ pkt (body_len pkt) k _ (body_len pkt + 4) (-1) B ltac:(lia) ltac:(lia) Ec)
      as (a & h & b & X1 & X2 & X3). exists a, h, b. split; [auto|]. split; [lia|]. exact X3.
  - destruct (preparse_packet pkt (body_len pkt) (at_ to_ 0 =? 255) s) as [[s1 ok]| |] eqn:Ep; cbn [bind] in E; [|discriminate..].
    cbn [fst snd] in E. destruct ok; [|discriminate].
    destruct (parse_body c pkt (body_len pkt)); cbn [bind] in E; [|discriminate..]. injection E as <- _.
    destruct (AI_preparse _ _ _ _ _ _ A Ep) as (_ & add & El & H & _). destruct (H eq_refl) as (i & p & Hi).
    exists add, (at_ to_ 0 =? 255), i, p. auto.
Qed.

(** ** The sender *)
Fixpoint send_pcs (rs : list (option (list Z))) (s : sender) : list (list Z) * list (list Z) :=
  match rs with
  | [] => ([], [])
  | r :: rs =>
      let '(o, s') := send_pc r s in
      let '(ds, os) := send_pcs rs s' in
      ((if s_pc s =? 0 then match r with Some i => [i] | None => [] end else []) ++ ds,
       match o with Some v => [v] | None => [] end ++ os)
  end.

Lemma be32_inj : forall x y, 0 <= x < 4294967296 -> 0 <= y < 4294967296 -> be32 x = be32 y -> x = y.
Proof.
  intros x y X Y E. rewrite <- (be32_un32 x X), <- (be32_un32 y Y), E. auto.
Qed.

Lemma send_pcs_fresh : forall rs s (used : list (list Z)), 0 <= s_pc s < 4294967296 ->
  NoDup (fst (send_pcs rs s)) ->
  (forall i, In i (fst (send_pcs rs s)) -> ~ In i used) ->
  (s_pc s <> 0 -> In (s_index s) used) ->
  NoDup (snd (send_pcs rs s)) /\
  (forall v, In v (snd (send_pcs rs s)) -> exists i p, v = [MESSAGE_PC; 12] ++ be32 p ++ i /\ 0 <= p < 4294967296 /\
     (In i (fst (send_pcs rs s)) \/ i = s_index s /\ s_pc s <> 0 /\ s_pc s <= p)).
Proof.
  induction rs as [|r rs IH]; intros s used P N D U; cbn [send_pcs].
  - cbn. split; [constructor|]. intros v [].
  - cbn [send_pcs] in N, D. destruct (send_pc r s) as [o s'] eqn:Sp.
    destruct (send_pcs rs s') as [ds os] eqn:Sr. cbn [fst snd] in *.
    unfold send_pc in Sp. destruct (s_pc s =? 0) eqn:Z0.
    + destruct r as [i|].
      * injection Sp as <- <-. cbn [app] in *. inversion N as [|? ? N1 N2]; subst.
        destruct (IH (mkS (u32 (0 + 1)) i) (i :: used)) as [H1 H2].
        { unfold u32. cbn. lia. }
        { rewrite Sr. exact N2. }
        { rewrite Sr. cbn [fst]. intros j Hj [<-|Hu]; [auto|]. exact (D j (or_intror Hj) Hu). }
        { intros _. left. auto. }
        rewrite Sr in H1, H2. cbn [fst snd] in H1, H2.
        assert (G : forall v, In v os -> exists j p, v = [MESSAGE_PC; 12] ++ be32 p ++ j /\ 0 <= p < 4294967296 /\
                  (In j ds \/ j = i /\ 1 <= p)).
        { intros v Hv. destruct (H2 v Hv) as (j & p & E & Hp & [X|(X1 & X2 & X3)]); exists j, p;
          (split; [auto|split; [auto|]]); [auto|]. right. split; [exact X1|]. cbn in X3. unfold u32 in X3. cbn in X3. lia. }
        split.
        -- constructor; [|auto]. intros Hin. destruct (G _ Hin) as (j & p & E & Hp & X).
           assert (Eb : be32 0 ++ i = be32 p ++ j) by (injection E; intros; cbn; congruence).
           assert (E4 : be32 0 = be32 p /\ i = j).
           { split.
             - apply (f_equal (firstn 4)) in Eb. exact Eb.
             - apply (f_equal (skipn 4)) in Eb. exact Eb. }
           destruct E4 as [E4 <-]. apply be32_inj in E4; [|lia|lia]. destruct X as [X|[_ X]]; [auto|lia].
        -- intros v [<-|Hv].
           ++ exists i, 0. split; [reflexivity|]. split; [lia|]. left. left. auto.
           ++ destruct (G v Hv) as (j & p & E & Hp & X). exists j, p. split; [auto|]. split; [auto|].
              left. destruct X as [X|[-> X]]; [right; auto|left; auto].
      * injection Sp as <- <-. cbn [app] in *.
        destruct (IH s used P ltac:(rewrite Sr; auto) ltac:(rewrite Sr; auto) U) as [H1 H2].
        rewrite Sr in H1, H2. auto.
    + injection Sp as <- <-. cbn [app] in *.
      assert (Hu : In (s_index s) used) by (apply U; lia).
      destruct (IH (mkS (u32 (s_pc s + 1)) (s_index s)) used) as [H1 H2].
      { unfold u32. cbn. lia. }
      { rewrite Sr. exact N. }
      { rewrite Sr. exact D. }
      { intros _. exact Hu. }
      rewrite Sr in H1, H2. cbn [fst snd s_index s_pc] in H1, H2.
      assert (G : forall v, In v os -> exists j p, v = [MESSAGE_PC; 12] ++ be32 p ++ j /\ 0 <= p < 4294967296 /\
                  (In j ds \/ j = s_index s /\ s_pc s < p)).
      { intros v Hv. destruct (H2 v Hv) as (j & p & E & Hp & [X|(X1 & X2 & X3)]); exists j, p;
          (split; [auto|split; [auto|]]); [auto|]. right. split; [exact X1|]. unfold u32 in X2, X3. lia. }
      split.
      * constructor; [|auto]. intros Hin. destruct (G _ Hin) as (j & p & E & Hp & X).
        assert (Eb : be32 (s_pc s) ++ s_index s = be32 p ++ j) by (injection E; intros; cbn; congruence).
        assert (E4 : be32 (s_pc s) = be32 p /\ s_index s = j).
        { split.
          - apply (f_equal (firstn 4)) in Eb. exact Eb.
          - apply (f_equal (skipn 4)) in Eb. exact Eb. }
        destruct E4 as [E4 <-]. apply be32_inj in E4; [|lia|lia]. destruct X as [X|[_ X]]; [|lia].
        exact (D _ X Hu).
      * intros v [<-|Hv].
        -- exists (s_index s), (s_pc s). split; [reflexivity|]. split; [auto|]. right. split; [auto|]. split; [lia|lia].
        -- destruct (G v Hv) as (j & p & E & Hp & X). exists j, p. split; [auto|]. split; [auto|].
           destruct X as [X|[-> X]]; [left; auto|right]. split; [auto|]. split; lia.
Qed.

(** L_Filter.v: proofs about the filters. *)
From Verif Require Import Base M_Util S_Util L_Util M_Filter S_Filter.

Lemma v4mapped_bits : forall p, addr_ok p -> (v4mapped p = true <-> same_bits 96 p v4prefix).
Proof.
  intros p [L H]. unfold v4mapped, memcmp_n. rewrite Z.eqb_eq, memcmp_0.
  change 96 with (8 * Z.of_nat 12).
  rewrite <- firstn_beq_same; [tauto|auto| |lia|simpl; lia].
  unfold v4prefix. repeat (constructor; [unfold byte_ok in *; lia|]). constructor.
Qed.

Lemma is_ipv4_iff : forall d, dest_ok d ->
  ((d_plen d >=? 96) && v4mapped (d_prefix d) = true <-> is_ipv4 d).
Proof.
  intros d (A & B & _). unfold is_ipv4. rewrite andb_true_iff, (v4mapped_bits _ A). intuition lia.
Qed.

Ltac cond b := destruct b eqn:?E; [split; [discriminate|intros HH; exfalso; destruct HH as [h_af0 h_id0 h_ip0 h_src0 h_len0 h_slen0 h_neigh0 h_if0 h_proto0 h_noproto0]]|].

Lemma filter_match_iff : forall f id d neigh ifindex proto, filt_ok f -> dest_ok d ->
  (filter_match f id d neigh ifindex proto = true <-> rule_holds f id d neigh ifindex proto).
Proof.
  intros f id d neigh ifindex proto (Haf & Hp & Hs & G1 & G2 & G3 & G4 & _) Hd.
  assert (D := Hd). destruct D as (D1 & D2 & D3 & D4).
  unfold filter_match.
  pose proof (is_ipv4_iff d Hd) as V4.
  cbv zeta. remember ((d_plen d >=? 96) && v4mapped (d_prefix d)) as v4.
  cond (negb (f_af f =? 0) && (if v4 then f_af f =? AF_INET6 else f_af f =? AF_INET)).
  { destruct h_af0 as [A1 A2]. destruct v4; unfold AF_INET, AF_INET6 in *.
    - apply A2; [lia|]. apply V4; auto.
    - assert (false = true); [apply V4, A1; lia|discriminate]. }
  cond (match f_id f with
          | Some fi => match id with Some i => negb (beq fi i) | None => true end
          | None => false end).
  { destruct (f_id f) as [fi|]; [|discriminate]. rewrite (h_id0 fi) in E0 by auto.
    rewrite beq_refl in E0. discriminate. }
  cond (match f_prefix f with
          | Some (p, l) => (d_plen d <? l) || negb (in_prefix (d_prefix d) p l)
          | None => false end).
  { destruct (f_prefix f) as [[p l]|]; [|discriminate].
    destruct (h_ip0 p l eq_refl) as [I1 I2]. destruct (Hp p l eq_refl).
    apply (proj2 (in_prefix_bits _ _ _ D1 H H0)) in I2. rewrite I2 in E1. lia. }
  cond (match f_src f with
          | Some (p, l) => (d_splen d <? l) || negb (in_prefix (d_src d) p l)
          | None => false end).
  { destruct (f_src f) as [[p l]|]; [|discriminate].
    destruct (h_src0 p l eq_refl) as [I1 I2]. destruct (Hs p l eq_refl).
    apply (proj2 (in_prefix_bits _ _ _ D3 H H0)) in I2. rewrite I2 in E2. lia. }
  cond (((f_plen_ge f >? 0) || (f_plen_le f <? 128)) &&
          ((d_plen d >? f_plen_le f) || (d_plen d <? f_plen_ge f))).
  { lia. }
  cond (((f_splen_ge f >? 0) || (f_splen_le f <? 128)) &&
          ((d_splen d >? f_splen_le f) || (d_splen d <? f_splen_ge f))).
  { lia. }
  cond (match f_neigh f with
          | Some fn => match neigh with Some n => negb (beq fn n) | None => true end
          | None => false end).
  { destruct (f_neigh f) as [fi|]; [|discriminate]. rewrite (h_neigh0 fi) in E5 by auto.
    rewrite beq_refl in E5. discriminate. }
  cond (match f_if f with
          | Some i => (i =? 0) || (ifindex =? 0) || negb (i =? ifindex)
          | None => false end).
  { destruct (f_if f) as [i|]; [|discriminate]. destruct (h_if0 i eq_refl). lia. }
  assert (Rest : (f_proto f <> 0 -> proto = f_proto f) -> 
                 (f_proto f = 0 -> proto <> -2 /\ proto <> 3) ->
                 rule_holds f id d neigh ifindex proto).
  { intros R1 R2. constructor; auto.
    - destruct v4; unfold AF_INET, AF_INET6 in *; split; intros A.
      + apply V4; auto.
      + lia.
      + lia.
      + intros F. apply V4 in F. discriminate.
    - intros i F. rewrite F in E0. destruct id as [i'|]; [|discriminate].
      destruct (beq i i') eqn:B; [|discriminate]. apply beq_true in B. congruence.
    - intros p l F. rewrite F in E1. destruct (Hp p l F). split; [lia|].
      apply in_prefix_bits; auto. destruct (in_prefix (d_prefix d) p l); auto; lia.
    - intros p l F. rewrite F in E2. destruct (Hs p l F). split; [lia|].
      apply in_prefix_bits; auto. destruct (in_prefix (d_src d) p l); auto; lia.
    - lia.
    - lia.
    - intros i F. rewrite F in E5. destruct neigh as [i'|]; [|discriminate].
      destruct (beq i i') eqn:B; [|discriminate]. apply beq_true in B. congruence.
    - intros i F. rewrite F in E6. lia. }
  unfold RTPROT_BABEL_LOCAL, RTPROT_BOOT.
  destruct (negb (f_proto f =? 0)) eqn:P.
  - destruct ((proto =? 0) || negb (f_proto f =? proto)) eqn:Q.
    + split; [discriminate|]. intros HH; destruct HH as [h_af0 h_id0 h_ip0 h_src0 h_len0 h_slen0 h_neigh0 h_if0 h_proto0 h_noproto0]. assert (f_proto f <> 0) by lia.
      specialize (h_proto0 H). lia.
    + split; auto. intros _. apply Rest; lia.
  - destruct (proto =? -2) eqn:Q; [|destruct (proto =? 3) eqn:Q'].
    + split; [discriminate|]. intros HH; destruct HH as [h_af0 h_id0 h_ip0 h_src0 h_len0 h_slen0 h_neigh0 h_if0 h_proto0 h_noproto0]. lia.
    + split; [discriminate|]. intros HH; destruct HH as [h_af0 h_id0 h_ip0 h_src0 h_len0 h_slen0 h_neigh0 h_if0 h_proto0 h_noproto0]. lia.
    + split; auto. intros _. apply Rest; lia.
Qed.

Lemma s32_small : forall x, 0 <= x <= 65535 -> s32 x = x.
Proof. intros. unfold s32. rewrite Z.mod_small by lia. destruct (x <? 2147483648) eqn:E; lia. Qed.

Definition fresult (o : option filter_result) : Z * filter_result :=
  match o with Some r => (fr_add_metric r, r) | None => (-1, res0) end.

Lemma do_filter_first : forall fs id d neigh ifindex proto, Forall filt_ok fs -> dest_ok d ->
  exists o, first_match fs id d neigh ifindex proto o /\
    do_filter fs id d neigh ifindex proto = fresult o.
Proof.
  induction fs; intros id d neigh ifindex proto F D; simpl.
  - exists None. split; auto. constructor. intros f [].
  - inversion F; subst.
    pose proof (filter_match_iff a id d neigh ifindex proto H1 D) as M.
    destruct (filter_match a id d neigh ifindex proto).
    + exists (Some (f_action a)). split.
      * apply (fm_some _ _ _ _ _ _ [] a fs); [reflexivity|intros g []|apply M; auto].
      * cbn [fresult]. f_equal. apply s32_small. apply H1.
    + destruct (IHfs id d neigh ifindex proto H2 D) as (o & O1 & O2). exists o. split; auto.
      assert (N : ~ rule_holds a id d neigh ifindex proto) by (intros X; apply M in X; discriminate).
      inversion O1; subst.
      * constructor. intros f [<-|I]; auto.
      * apply (fm_some _ _ _ _ _ _ (a :: fs1) f fs2); auto.
        intros g [<-|I]; auto.
Qed.

Lemma first_match_det : forall fs id d neigh ifindex proto o1 o2,
  first_match fs id d neigh ifindex proto o1 -> first_match fs id d neigh ifindex proto o2 -> o1 = o2.
Proof.
  intros fs id d neigh ifindex proto o1 o2 A B.
  inversion A as [A1|f1 f f2 A1 A2 A3]; inversion B as [B1|g1 g g2 B1 B2 B3]; subst; auto.
  - exfalso. apply (A1 g); auto. apply in_or_app; right; left; auto.
  - exfalso. apply (B1 f); auto. apply in_or_app; right; left; auto.
  - clear A B. revert g1 B1 B2. induction f1; intros g1 B1 B2.
    + destruct g1; simpl in B1; injection B1; intros; subst; auto.
      exfalso. apply (B2 f0); auto. left; auto.
    + destruct g1; simpl in B1; injection B1; intros; subst.
      * exfalso. apply (A2 g); auto. left; auto.
      * apply (IHf1 (fun x Hx => A2 x (or_intror Hx)) g1); auto.
        intros x Hx. apply B2. right; auto.
Qed.

Lemma first_match_action_ok : forall fs id d neigh ifindex proto r, Forall filt_ok fs ->
  first_match fs id d neigh ifindex proto (Some r) -> 0 <= fr_add_metric r <= INFINITY.
Proof.
  intros. inversion H0; subst. rewrite Forall_forall in H.
  assert (I : filt_ok f) by (apply H; apply in_or_app; right; left; auto).
  apply I.
Qed.

Lemma chain : forall dflt fs id d neigh ifindex proto, Forall filt_ok fs -> dest_ok d ->
  chain_spec dflt fs id d neigh ifindex proto
   (let res := fst (do_filter fs id d neigh ifindex proto) in if res <? 0 then dflt else res)
   (snd (do_filter fs id d neigh ifindex proto)).
Proof.
  intros. destruct (do_filter_first fs id d neigh ifindex proto H H0) as (o & O1 & O2).
  rewrite O2. destruct o; cbn [fresult fst snd]; [left|right]; cbv zeta.
  - exists f. pose proof (first_match_action_ok _ _ _ _ _ _ _ H O1).
    destruct (fr_add_metric f <? 0) eqn:E; [lia|]. auto.
  - auto.
Qed.

Lemma input_chain : forall fs id d neigh ifindex, Forall filt_ok fs -> dest_ok d ->
  exists r, chain_spec 0 fs id d neigh ifindex 0 (input_filter fs id d neigh ifindex) r.
Proof. intros. eexists. apply (chain 0); auto. Qed.

Lemma output_chain : forall fs id d ifindex, Forall filt_ok fs -> dest_ok d ->
  exists r, chain_spec 0 fs id d None ifindex 0 (output_filter fs id d ifindex) r.
Proof. intros. eexists. apply (chain 0); auto. Qed.

Lemma redistribute_chain : forall fs d ifindex proto, Forall filt_ok fs -> dest_ok d ->
  let '(res, r) := redistribute_filter fs d ifindex proto in
  chain_spec INFINITY fs None d None ifindex proto res r.
Proof.
  intros. unfold redistribute_filter. pose proof (chain INFINITY fs None d None ifindex proto H H0).
  destruct (do_filter fs None d None ifindex proto); auto.
Qed.

Lemma install_chain : forall fs id d ifindex, Forall filt_ok fs -> dest_ok d ->
  let '(res, r) := install_filter fs id d ifindex in
  chain_spec INFINITY fs id d None ifindex 0 res r.
Proof.
  intros. unfold install_filter. pose proof (chain INFINITY fs id d None ifindex 0 H H0).
  destruct (do_filter fs id d None ifindex 0); auto.
Qed.

Lemma chain_spec_range : forall dflt fs id d neigh ifindex proto res r, Forall filt_ok fs ->
  0 <= dflt <= INFINITY ->
  chain_spec dflt fs id d neigh ifindex proto res r -> 0 <= res <= INFINITY.
Proof.
  intros. destruct H1 as [(a & A & -> & _)|(A & -> & _)]; auto.
  eapply first_match_action_ok; eauto.
Qed.

Lemma input_filter_range : forall fs id d neigh ifindex, Forall filt_ok fs -> dest_ok d ->
  0 <= input_filter fs id d neigh ifindex <= INFINITY.
Proof.
  intros. destruct (input_chain fs id d neigh ifindex H H0) as [r R].
  eapply (chain_spec_range 0); eauto. unfold INFINITY; lia.
Qed.
Lemma output_filter_range : forall fs id d ifindex, Forall filt_ok fs -> dest_ok d ->
  0 <= output_filter fs id d ifindex <= INFINITY.
Proof.
  intros. destruct (output_chain fs id d ifindex H H0) as [r R].
  eapply (chain_spec_range 0); eauto. unfold INFINITY; lia.
Qed.

(** After finalise_config: unmatched routes are installed, local addresses redistributed. *)
Lemma rule0_ok : forall p, filt_ok (rule0 p).
Proof.
  intros. unfold filt_ok, rule0; simpl. repeat split; try discriminate; auto; lia.
Qed.

Lemma rule0_holds : forall p id d neigh ifindex proto, dest_ok d ->
  (rule_holds (rule0 p) id d neigh ifindex proto <->
   (p <> 0 -> proto = p) /\ (p = 0 -> proto <> -2 /\ proto <> 3)).
Proof.
  intros p id d neigh ifindex proto (D1 & D2 & D3 & D4).
  split; [intros H; destruct H; auto|]. intros [A B].
  constructor; simpl; auto; try discriminate; unfold AF_INET, AF_INET6; split; discriminate.
Qed.

Lemma install_default : forall fs id d ifindex, Forall filt_ok fs -> dest_ok d ->
  (forall f, In f fs -> ~ rule_holds f id d None ifindex 0) ->
  install_filter (finalise_install fs) id d ifindex = (0, res0).
Proof.
  intros fs id d ifindex F D N. unfold install_filter.
  assert (F' : Forall filt_ok (finalise_install fs)).
  { apply Forall_app; split; auto. constructor; auto. apply rule0_ok. }
  destruct (do_filter_first (finalise_install fs) id d None ifindex 0 F' D) as (o & O1 & O2).
  assert (o = Some res0).
  { eapply first_match_det; eauto. apply (fm_some _ _ _ _ _ _ fs (rule0 0) []); auto.
    apply rule0_holds; auto. split; [congruence|lia]. }
  subst o. rewrite O2. reflexivity.
Qed.

Lemma redistribute_default : forall fs d ifindex proto, Forall filt_ok fs -> dest_ok d ->
  (forall f, In f fs -> ~ rule_holds f None d None ifindex proto) ->
  redistribute_filter (finalise_redistribute fs) d ifindex proto =
  (if proto =? RTPROT_BABEL_LOCAL then 0 else INFINITY, res0).
Proof.
  intros fs d ifindex proto F D N. unfold redistribute_filter.
  assert (F' : Forall filt_ok (finalise_redistribute fs)).
  { apply Forall_app; split; auto. constructor; auto. apply rule0_ok. }
  destruct (do_filter_first (finalise_redistribute fs) None d None ifindex proto F' D) as (o & O1 & O2).
  pose proof (rule0_holds RTPROT_BABEL_LOCAL None d None ifindex proto D) as R.
  destruct (proto =? RTPROT_BABEL_LOCAL) eqn:E.
  - assert (o = Some res0).
    { eapply first_match_det; eauto. apply (fm_some _ _ _ _ _ _ fs (rule0 RTPROT_BABEL_LOCAL) []); auto.
      apply R. split; [lia|unfold RTPROT_BABEL_LOCAL; lia]. }
    subst o. rewrite O2. reflexivity.
  - assert (o = None).
    { eapply first_match_det; eauto. constructor. intros f I. apply in_app_or in I.
      destruct I as [I|[<-|[]]]; auto. intros X. apply R in X. 
      destruct X as [X _]. unfold RTPROT_BABEL_LOCAL in *; lia. }
    subst o. rewrite O2. reflexivity.
Qed.

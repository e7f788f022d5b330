(** L_Source.v: proofs about the source table. *)
From Verif Require Import Base M_Util S_Util L_Util M_Slot L_Slot M_Source S_Source.
From Coq Require Import Sorting.Sorted.

Lemma zcmp_0 : forall x y, zcmp x y = 0 <-> x = y.
Proof. intros. unfold zcmp. destruct (x <? y) eqn:E; destruct (x >? y) eqn:E2; lia. Qed.
Lemma zcmp_anti : forall x y, zcmp y x = - zcmp x y.
Proof. intros. unfold zcmp. destruct (x <? y) eqn:E; destruct (x >? y) eqn:E2;
  destruct (y <? x) eqn:E3; destruct (y >? x) eqn:E4; lia. Qed.
Lemma zcmp_trans : forall x y z, zcmp x y < 0 -> zcmp y z < 0 -> zcmp x z < 0.
Proof. intros x y z. unfold zcmp. destruct (x <? y) eqn:E; destruct (x >? y) eqn:E2;
  destruct (y <? z) eqn:E3; destruct (y >? z) eqn:E4;
  destruct (x <? z) eqn:E5; destruct (x >? z) eqn:E6; lia. Qed.

(** Lexicographic combination *)
Lemma andthen_0 : forall a b, andthen a b = 0 <-> a = 0 /\ b = 0.
Proof. intros. unfold andthen. destruct (a =? 0) eqn:E; lia. Qed.
Lemma andthen_anti : forall a b a' b', a' = - a -> b' = - b -> andthen a' b' = - andthen a b.
Proof. intros. unfold andthen. destruct (a =? 0) eqn:E; destruct (a' =? 0) eqn:E'; lia. Qed.

Lemma andthen_trans : forall {A} (c1 c2 : A -> A -> Z),
  (forall x y z, c1 x y < 0 -> c1 y z < 0 -> c1 x z < 0) ->
  (forall x y z, c1 x y = 0 -> c1 x z = c1 y z) ->
  (forall x y z, c1 y z = 0 -> c1 x z = c1 x y) ->
  (forall x y z, c2 x y < 0 -> c2 y z < 0 -> c2 x z < 0) ->
  forall x y z, andthen (c1 x y) (c2 x y) < 0 -> andthen (c1 y z) (c2 y z) < 0 ->
    andthen (c1 x z) (c2 x z) < 0.
Proof.
  intros A c1 c2 T1 L1 R1 T2 x y z. unfold andthen.
  destruct (c1 x y =? 0) eqn:E1; destruct (c1 y z =? 0) eqn:E2; intros H1 H2.
  - rewrite (L1 x y z) by lia. rewrite E2. eauto.
  - rewrite (L1 x y z) by lia. rewrite E2. auto.
  - rewrite (R1 x y z) by lia. rewrite E1. auto.
  - pose proof (T1 x y z H1 H2). destruct (c1 x z =? 0) eqn:E3; lia.
Qed.

Lemma skey_compare_0 : forall a b, skey_compare a b = 0 -> a = b.
Proof.
  intros [i p l s m] [i' p' l' s' m']. unfold skey_compare. cbn [k_id k_prefix k_plen k_src k_splen].
  rewrite !andthen_0, !memcmp_0, !zcmp_0. intuition congruence.
Qed.
Lemma skey_compare_refl : forall a, skey_compare a a = 0.
Proof.
  intros. unfold skey_compare. rewrite !andthen_0, !memcmp_0, !zcmp_0. auto.
Qed.
Lemma skey_compare_neg : forall a b, skey_compare b a = - skey_compare a b.
Proof.
  intros. unfold skey_compare. repeat apply andthen_anti; auto using memcmp_antisym, zcmp_anti.
Qed.
Lemma skey_compare_anti : forall a b, skey_compare a b < 0 <-> skey_compare b a > 0.
Proof. intros. rewrite (skey_compare_neg a b). lia. Qed.

Lemma memcmp_eq_l : forall x y z, memcmp x y = 0 -> memcmp x z = memcmp y z.
Proof. intros. apply memcmp_0 in H. subst. auto. Qed.
Lemma memcmp_eq_r : forall x y z, memcmp y z = 0 -> memcmp x z = memcmp x y.
Proof. intros. apply memcmp_0 in H. subst. auto. Qed.
Lemma zcmp_eq_l : forall x y z, zcmp x y = 0 -> zcmp x z = zcmp y z.
Proof. intros x y z H. apply (proj1 (zcmp_0 _ _)) in H. subst. reflexivity. Qed.
Lemma zcmp_eq_r : forall x y z, zcmp y z = 0 -> zcmp x z = zcmp x y.
Proof. intros x y z H. apply (proj1 (zcmp_0 _ _)) in H. subst. reflexivity. Qed.

Lemma skey_compare_trans : forall a b c,
  skey_compare a b < 0 -> skey_compare b c < 0 -> skey_compare a c < 0.
Proof.
  unfold skey_compare.
  apply (andthen_trans (fun a b => memcmp (k_id a) (k_id b))
    (fun a b => andthen (zcmp (k_plen a) (k_plen b)) _));
    eauto using memcmp_trans_lt, memcmp_eq_l, memcmp_eq_r.
  apply (andthen_trans (fun a b => zcmp (k_plen a) (k_plen b))
    (fun a b => andthen (memcmp (k_prefix a) (k_prefix b)) _));
    eauto using zcmp_trans, zcmp_eq_l, zcmp_eq_r.
  apply (andthen_trans (fun a b => memcmp (k_prefix a) (k_prefix b))
    (fun a b => andthen (zcmp (k_splen a) (k_splen b)) _));
    eauto using memcmp_trans_lt, memcmp_eq_l, memcmp_eq_r.
  apply (andthen_trans (fun a b => zcmp (k_splen a) (k_splen b))
    (fun a b => memcmp (k_src a) (k_src b)));
    eauto using zcmp_trans, zcmp_eq_l, zcmp_eq_r.
  intros. eapply memcmp_trans_lt; eauto.
Qed.

Lemma skey_eqb_true : forall a b, skey_eqb a b = true <-> a = b.
Proof.
  intros. unfold skey_eqb. rewrite Z.eqb_eq. split; intros.
  - apply skey_compare_0; auto.
  - subst. apply skey_compare_refl.
Qed.
Lemma skey_eqb_refl : forall a, skey_eqb a a = true.
Proof. intros. apply skey_eqb_true. auto. Qed.
Lemma skey_eqb_false : forall a b, skey_eqb a b = false <-> a <> b.
Proof.
  intros. split; intros H.
  - intro E. apply skey_eqb_true in E. congruence.
  - destruct (skey_eqb a b) eqn:E; auto. apply skey_eqb_true in E. contradiction.
Qed.

Definition ssorted (t : list source) : Prop := ksorted skey_compare s_key t.

Lemma ssorted_mono : forall k t, ssorted t -> mono (fun s => skey_compare k (s_key s)) t.
Proof.
  intros. exact (sorted_mono skey_compare skey_compare_0 skey_compare_refl skey_compare_anti skey_compare_trans s_key k t H).
Qed.

Lemma ssorted_inj : forall t x y, ssorted t -> In x t -> In y t -> s_key x = s_key y -> x = y.
Proof. intros. eapply (sorted_key_inj skey_compare); eauto using skey_compare_refl. Qed.

(** Lookup by pointer and by search agree *)
Lemma get_src_In : forall t k s, get_src k t = Some s -> In s t /\ s_key s = k.
Proof.
  unfold get_src. intros t k s H. apply find_some in H. destruct H as (H1 & H2).
  apply skey_eqb_true in H2. auto.
Qed.
Lemma get_src_None : forall t k, get_src k t = None -> forall s, In s t -> s_key s <> k.
Proof.
  unfold get_src. intros t k H s Hs E. apply find_none with (x:=s) in H; auto.
  apply skey_eqb_false in H. congruence.
Qed.
Lemma get_src_iff : forall t k s, ssorted t -> (get_src k t = Some s <-> In s t /\ s_key s = k).
Proof.
  intros t k s S. split; [apply get_src_In|]. intros (H1 & H2).
  destruct (get_src k t) as [s'|] eqn:E.
  - apply get_src_In in E. destruct E as (E1 & E2). f_equal. eapply ssorted_inj; eauto. congruence.
  - exfalso. eapply get_src_None; eauto.
Qed.

Lemma find_source_spec : forall now k c q t, ssorted t ->
  match get_src k t with
  | Some s => find_source now k c q t = (Some s, t)
  | None => if c then
      exists t1 t2, t = t1 ++ t2 /\
      find_source now k c q t = (Some (mkSrc k q INFINITY 0 now), t1 ++ mkSrc k q INFINITY 0 now :: t2) /\
      ssorted (t1 ++ mkSrc k q INFINITY 0 now :: t2)
      else find_source now k c q t = (None, t)
  end.
Proof.
  intros now k c q t S. unfold find_source, find_source_slot.
  destruct (find_slot (fun s => skey_compare k (s_key s)) src0 t) as [i|n] eqn:E.
  - destruct (find_key_found skey_compare skey_compare_0 skey_compare_refl skey_compare_anti skey_compare_trans s_key _ k t i S E)
      as (t1 & x & t2 & -> & -> & Ek).
    assert (G : get_src k (t1 ++ x :: t2) = Some x).
    { apply get_src_iff; auto. split; auto. apply in_or_app; simpl; auto. }
    rewrite G. rewrite Nat2Z.id, nth_error_app2, Nat.sub_diag by lia. reflexivity.
  - destruct (find_key_notfound skey_compare skey_compare_0 skey_compare_refl
                skey_compare_anti skey_compare_trans s_key _ k t n S E)
      as (B & N & Si).
    destruct (get_src k t) as [s|] eqn:G.
    + apply get_src_In in G. exfalso. apply (N s); tauto.
    + destruct c; auto.
      destruct (split_at _ n t B) as (t1 & t2 & -> & ->).
      exists t1, t2. pose proof (Si (mkSrc k q INFINITY 0 now) eq_refl) as Sx.
      rewrite insert_at_split in *. auto.
Qed.

Lemma map_src_sorted : forall k f t, (forall s, s_key (f s) = s_key s) -> ssorted t ->
  ssorted (map_src k f t).
Proof.
  intros. unfold ssorted, map_src. apply sorted_map; auto.
  intros s _. destruct (skey_eqb k (s_key s)); auto.
Qed.

Lemma get_map_src : forall k f t k', (forall s, s_key (f s) = s_key s) ->
  get_src k' (map_src k f t) =
  match get_src k' t with
  | Some s => Some (if skey_eqb k k' then f s else s)
  | None => None
  end.
Proof.
  intros k f t k' Hf. unfold get_src, map_src. induction t; simpl; auto.
  destruct (skey_eqb k (s_key a)) eqn:E.
  - rewrite Hf. destruct (skey_eqb k' (s_key a)) eqn:E2; auto.
    apply skey_eqb_true in E2, E. subst. rewrite skey_eqb_refl. auto.
  - destruct (skey_eqb k' (s_key a)) eqn:E2; auto.
    apply skey_eqb_true in E2. subst. rewrite E. auto.
Qed.

Definition expire1 now (s : source) := mkSrc (s_key s) (s_seqno s) (s_metric s) (s_count s)
                      (if s_time s >? now then now else s_time s).
Definition expired_src now (s : source) : bool :=
  (s_count s =? 0) && ((if s_time s >? now then now else s_time s) <? now - SOURCE_GC_TIME).

Lemma expire_sources_alt : forall now t,
  expire_sources now t = map (expire1 now) (filter (fun s => negb (expired_src now s)) t).
Proof.
  induction t; simpl; auto. unfold expired_src at 1. cbn [s_count s_time].
  destruct ((s_count a =? 0) && ((if s_time a >? now then now else s_time a) <? now - SOURCE_GC_TIME));
    simpl; auto. f_equal. auto.
Qed.

Lemma expire_sources_sorted : forall now t, ssorted t -> ssorted (expire_sources now t).
Proof.
  intros. rewrite expire_sources_alt. unfold ssorted. apply sorted_map; auto.
  apply sorted_filter. auto.
Qed.

Lemma get_expire : forall now t k, ssorted t ->
  get_src k (expire_sources now t) =
  match get_src k t with
  | Some s => if expired_src now s then None else Some (expire1 now s)
  | None => None
  end.
Proof.
  intros now t k S. pose proof (expire_sources_sorted now t S) as S'.
  destruct (get_src k t) as [s|] eqn:G.
  - apply get_src_In in G. destruct G as (G1 & G2).
    destruct (expired_src now s) eqn:E.
    + destruct (get_src k (expire_sources now t)) as [s'|] eqn:G'; auto.
      apply get_src_In in G'. destruct G' as (G3 & G4).
      rewrite expire_sources_alt in G3. apply in_map_iff in G3. destruct G3 as (x & <- & Hx).
      apply filter_In in Hx. destruct Hx as (Hx & Ex).
      assert (x = s). { change (s_key x = k) in G4. apply (ssorted_inj t); auto. congruence. }
      subst x. rewrite E in Ex. discriminate.
    + apply get_src_iff; auto. split; auto. rewrite expire_sources_alt.
      apply in_map. apply filter_In. rewrite E. auto.
  - destruct (get_src k (expire_sources now t)) as [s'|] eqn:G'; auto.
    apply get_src_In in G'. destruct G' as (G3 & G4).
    rewrite expire_sources_alt in G3. apply in_map_iff in G3. destruct G3 as (x & <- & Hx).
    apply filter_In in Hx. exfalso. apply (get_src_None t k G x); tauto.
Qed.

Lemma sstep_sorted : forall t o, ssorted t -> ssorted (sstep t o).
Proof.
  intros t o S. destruct o; simpl.
  - pose proof (find_source_spec now k create seqno t S) as F.
    destruct (get_src k t); [rewrite F; auto|]. destruct create; [|rewrite F; auto].
    destruct F as (t1 & t2 & -> & F & S'). rewrite F. auto.
  - apply map_src_sorted; auto. intros. destruct (retain_ok s); auto.
  - apply map_src_sorted; auto. intros. destruct (release_ok s); auto.
  - apply map_src_sorted; auto. intros. unfold update_source1.
    destruct (metric >=? INFINITY); auto.
  - apply expire_sources_sorted; auto.
Qed.

Definition tview (t : list source) : smap := fun k => option_map info (get_src k t).

Definition seqs_ok (t : list source) : Prop := Forall (fun s => seqno_ok (s_seqno s)) t.

Lemma seqs_ok_In : forall t s, seqs_ok t -> In s t -> seqno_ok (s_seqno s).
Proof. intros. unfold seqs_ok in H. rewrite Forall_forall in H. auto. Qed.

Lemma map_src_seqs : forall k f t, (forall s, seqno_ok (s_seqno s) -> seqno_ok (s_seqno (f s))) ->
  seqs_ok t -> seqs_ok (map_src k f t).
Proof.
  unfold seqs_ok, map_src. intros. rewrite Forall_forall in *. intros x Hx.
  apply in_map_iff in Hx. destruct Hx as (y & <- & Hy). destruct (skey_eqb k (s_key y)); auto.
Qed.

Lemma sstep_seqs : forall t o, ssorted t -> sop_ok o -> seqs_ok t -> seqs_ok (sstep t o).
Proof.
  intros t o S O H. destruct o; simpl in *.
  - pose proof (find_source_spec now k create seqno t S) as F.
    destruct (get_src k t); [rewrite F; auto|]. destruct create; [|rewrite F; auto].
    destruct F as (t1 & t2 & -> & F & S'). rewrite F. simpl. unfold seqs_ok in *.
    apply Forall_app in H. apply Forall_app. destruct H. split; auto.
  - apply map_src_seqs; auto. intros. destruct (retain_ok s); auto.
  - apply map_src_seqs; auto. intros. destruct (release_ok s); auto.
  - apply map_src_seqs; auto. intros. unfold update_source1.
    destruct (metric >=? INFINITY); auto. cbn [s_seqno].
    match goal with |- seqno_ok (if ?b then _ else _) => destruct b; auto end.
  - rewrite expire_sources_alt. unfold seqs_ok in *. rewrite Forall_forall in *.
    intros x Hx. apply in_map_iff in Hx. destruct Hx as (y & <- & Hy). apply filter_In in Hy.
    simpl. apply H. tauto.
Qed.

Lemma set_view : forall m k v k', set m k v k' = if skey_eqb k k' then v else m k'.
Proof.
  intros. unfold set. destruct (skey_dec k k').
  - subst. rewrite skey_eqb_refl. auto.
  - apply skey_eqb_false in n. rewrite n. auto.
Qed.

Lemma update_info : forall now q m s, seqno_ok (s_seqno s) -> seqno_ok q ->
  info (update_source1 now q m s) =
  if m >=? 65535 then info s
  else if (s_time s <? now - 200) || (let d := (q - s_seqno s) mod 65536 in (1 <=? d) && (d <=? 32767))
          || ((s_seqno s =? q) && (m <? s_metric s))
       then mkInfo q m (s_count s) now else mkInfo (s_seqno s) (s_metric s) (s_count s) now.
Proof.
  intros now seqno metric s Hs O. unfold update_source1. change INFINITY with 65535.
  destruct (metric >=? 65535) eqn:Em; auto.
  assert (Eq : (seqno_compare (s_seqno s) seqno <? 0) =
          ((1 <=? (seqno - s_seqno s) mod 65536) && ((seqno - s_seqno s) mod 65536 <=? 32767))).
  { destruct (seqno_compare_circle (s_seqno s) seqno Hs O) as (A1 & A2 & A3).
    unfold ahead in *.
    destruct (seqno_compare (s_seqno s) seqno <? 0) eqn:Ec.
    - assert (H : seqno_compare (s_seqno s) seqno = -1).
      { unfold seqno_compare in *. destruct (s_seqno s =? seqno); [lia|].
        destruct (negb _); lia. }
      apply A3 in H. symmetry. apply andb_true_iff. split; apply Z.leb_le; apply H.
    - symmetry. apply andb_false_iff.
      destruct (1 <=? (seqno - s_seqno s) mod 65536) eqn:E1; auto.
      destruct ((seqno - s_seqno s) mod 65536 <=? 32767) eqn:E2; auto.
      apply Z.leb_le in E1, E2. pose proof (proj2 A3 (conj E1 E2)). lia. }
  rewrite Eq. rewrite Z.gtb_ltb. change SOURCE_GC_TIME with 200. cbv zeta.
  unfold info. cbn [s_seqno s_metric s_count s_time].
  match goal with |- context [if ?b then seqno else _] => destruct b end; auto.
Qed.

Lemma sstep_refines : forall t o k, ssorted t -> sop_ok o -> seqs_ok t ->
  tview (sstep t o) k = spec_step (tview t) o k.
Proof.
  intros t o k S O Q. unfold tview. destruct o; simpl in *.
  - pose proof (find_source_spec now k0 create seqno t S) as F.
    destruct (get_src k0 t) as [s|] eqn:G; simpl; [rewrite F; auto|].
    destruct create; [|rewrite F; auto].
    destruct F as (t1 & t2 & -> & F & S'). rewrite F, set_view. simpl.
    destruct (skey_eqb k0 k) eqn:E.
    + apply skey_eqb_true in E. subst k0.
      match goal with |- option_map _ (get_src _ (_ ++ ?x :: _)) = _ =>
        assert (G' : get_src k (t1 ++ x :: t2) = Some x) end.
      { apply get_src_iff; auto. split; auto. apply in_or_app; simpl; auto. }
      rewrite G'. reflexivity.
    + f_equal. apply skey_eqb_false in E.
      destruct (get_src k (t1 ++ t2)) as [s|] eqn:G2.
      * apply get_src_In in G2. apply get_src_iff; auto. destruct G2 as (G2 & G3). split; auto.
        apply in_or_app. apply in_app_or in G2. simpl. tauto.
      * match goal with |- ?x = None => destruct x as [s|] eqn:G3; auto end.
        apply get_src_In in G3. destruct G3 as (G3 & G4).
        apply in_app_or in G3. simpl in G3. destruct G3 as [G3|[G3|G3]].
        -- exfalso; eapply get_src_None; eauto. apply in_or_app; auto.
        -- subst s. simpl in G4. contradiction.
        -- exfalso; eapply get_src_None; eauto. apply in_or_app; auto.
  - rewrite get_map_src by (intros s; destruct (retain_ok s); auto).
    destruct (get_src k0 t) as [s|] eqn:G; cbn [option_map i_count info].
    + unfold retain_ok. destruct (s_count s <? 65535) eqn:E.
      * rewrite set_view. destruct (skey_eqb k0 k) eqn:E2.
        -- apply skey_eqb_true in E2. subst. rewrite G. simpl. rewrite E. reflexivity.
        -- destruct (get_src k t); auto.
      * destruct (get_src k t) as [s'|] eqn:G2; auto. simpl.
        destruct (skey_eqb k0 k) eqn:E2; auto. apply skey_eqb_true in E2. subst.
        rewrite G in G2. inversion G2; subst. rewrite E. auto.
    + destruct (get_src k t) as [s'|] eqn:G2; auto. simpl.
      destruct (skey_eqb k0 k) eqn:E2; auto. apply skey_eqb_true in E2. subst. congruence.
  - rewrite get_map_src by (intros s; destruct (release_ok s); auto).
    destruct (get_src k0 t) as [s|] eqn:G; cbn [option_map i_count info].
    + destruct (0 <? s_count s) eqn:E.
      * rewrite set_view. destruct (skey_eqb k0 k) eqn:E2.
        -- apply skey_eqb_true in E2. subst. rewrite G. simpl. unfold release_ok. rewrite Z.gtb_ltb, E. reflexivity.
        -- destruct (get_src k t); auto.
      * destruct (get_src k t) as [s'|] eqn:G2; auto. simpl.
        destruct (skey_eqb k0 k) eqn:E2; auto. apply skey_eqb_true in E2. subst.
        rewrite G in G2. inversion G2; subst. unfold release_ok. rewrite Z.gtb_ltb, E. auto.
    + destruct (get_src k t) as [s'|] eqn:G2; auto. simpl.
      destruct (skey_eqb k0 k) eqn:E2; auto. apply skey_eqb_true in E2. subst. congruence.
  - unfold update_source.
    assert (Kf : forall s, s_key (update_source1 now seqno metric s) = s_key s).
    { intros. unfold update_source1. destruct (metric >=? INFINITY); auto. }
    rewrite get_map_src by auto.
    destruct (get_src k0 t) as [s|] eqn:G; cbn [option_map i_count i_seqno i_metric i_time info].
    + assert (Hs : seqno_ok (s_seqno s)) by (apply (seqs_ok_In t); auto; apply get_src_In in G; tauto).
      pose proof (update_info now seqno metric s Hs O) as U.
      destruct (metric >=? 65535) eqn:Em; rewrite ?Em in U.
      * destruct (get_src k t) as [s'|] eqn:G2; auto. cbn [option_map].
        destruct (skey_eqb k0 k) eqn:E2; auto. apply skey_eqb_true in E2. subst.
        rewrite G in G2. inversion G2; subst. rewrite U. auto.
      * cbv zeta in U |- *. match goal with |- context [if ?b then set _ _ _ else set _ _ _] => destruct b eqn:Eb end;
        rewrite set_view; destruct (skey_eqb k0 k) eqn:E2;
        try (apply skey_eqb_true in E2; subst; rewrite G; cbn [option_map]; rewrite U; auto);
        destruct (get_src k t); auto.
    + destruct (get_src k t) as [s'|] eqn:G2; auto. simpl.
      destruct (skey_eqb k0 k) eqn:E2; auto. apply skey_eqb_true in E2. subst. congruence.
  - rewrite get_expire by auto. destruct (get_src k t) as [s|]; simpl; auto.
    unfold expired_src, expire1, info. cbn [s_seqno s_metric s_count s_time i_time i_count i_seqno i_metric].
    replace (if s_time s >? now then now else s_time s) with (Z.min (s_time s) now)
      by (destruct (s_time s >? now) eqn:E; lia).
    change SOURCE_GC_TIME with 200.
    destruct ((s_count s =? 0) && (Z.min (s_time s) now <? now - 200)); auto.
Qed.

(** ** Histories *)
Definition srun (ops : list sop) : list source := fold_left sstep ops [].
Definition spec_run (ops : list sop) : smap := fold_left spec_step ops (fun _ => None).

Lemma spec_step_ext : forall o m m', (forall k, m k = m' k) ->
  forall k, spec_step m o k = spec_step m' o k.
Proof.
  intros o m m' H k. destruct o; simpl; rewrite ?H; auto.
  - destruct (m' k0); auto. destruct create; auto. rewrite !set_view.
    destruct (skey_eqb k0 k); auto.
  - destruct (m' k0); auto. destruct (i_count s <? 65535); auto. rewrite !set_view.
    destruct (skey_eqb k0 k); auto.
  - destruct (m' k0); auto. destruct (0 <? i_count s); auto. rewrite !set_view.
    destruct (skey_eqb k0 k); auto.
  - destruct (m' k0); auto. destruct (metric >=? 65535); auto.
    match goal with |- (if ?b then _ else _) _ = _ => destruct b end;
    rewrite !set_view; destruct (skey_eqb k0 k); auto.
Qed.

Lemma srun_inv : forall ops t m, Forall sop_ok ops -> ssorted t -> seqs_ok t ->
  (forall k, tview t k = m k) ->
  ssorted (fold_left sstep ops t) /\ seqs_ok (fold_left sstep ops t) /\
  (forall k, tview (fold_left sstep ops t) k = fold_left spec_step ops m k).
Proof.
  induction ops; simpl; intros t m F S Q V; auto.
  inversion F; subst. apply IHops; auto using sstep_sorted, sstep_seqs.
  intros k. rewrite sstep_refines by auto. apply spec_step_ext. auto.
Qed.

Lemma holds_tview : forall t k i, ssorted t -> (holds t k i <-> tview t k = Some i).
Proof.
  intros t k i S. unfold holds, tview. split.
  - intros (s & H1 & H2 & H3). assert (G : get_src k t = Some s) by (apply get_src_iff; auto).
    rewrite G. simpl. congruence.
  - destruct (get_src k t) as [s|] eqn:G; simpl; intros E; inversion E; subst.
    apply get_src_In in G. exists s. tauto.
Qed.

Theorem source_table_is_map : forall ops, Forall sop_ok ops ->
  StronglySorted (fun a b => skey_compare (s_key a) (s_key b) < 0) (srun ops) /\
  NoDup (map s_key (srun ops)) /\
  (forall k i, holds (srun ops) k i <-> spec_run ops k = Some i) /\
  (forall now k q, match fst (find_source now k false q (srun ops)) with
                   | Some s => s_key s = k /\ spec_run ops k = Some (info s)
                   | None => spec_run ops k = None
                   end).
Proof.
  intros ops F.
  destruct (srun_inv ops [] (fun _ => None) F) as (S & Q & V); try (constructor; fail); auto.
  change (fold_left sstep ops []) with (srun ops) in *.
  change (fold_left spec_step ops (fun _ => None)) with (spec_run ops) in *.
  split; [exact S|]. split; [|split].
  - apply (sorted_NoDup_key skey_compare skey_compare_refl s_key). auto.
  - intros. rewrite <- V. apply holds_tview. auto.
  - intros now k q. pose proof (find_source_spec now k false q (srun ops) S) as H.
    specialize (V k). unfold tview in V.
    destruct (get_src k (srun ops)) as [s|] eqn:G; rewrite H; cbn [fst].
    + split; [apply get_src_In in G; tauto|]. simpl in V. auto.
    + simpl in V. auto.
Qed.

(** find_source with [create] returns the entry for the key, adding a fresh one
    at infinite metric iff there was none. *)
Theorem find_source_create : forall ops now k q, Forall sop_ok ops ->
  exists s, fst (find_source now k true q (srun ops)) = Some s /\ s_key s = k /\
    In s (snd (find_source now k true q (srun ops))) /\
    (spec_run ops k = Some (info s) \/
     (spec_run ops k = None /\ info s = mkInfo q 65535 0 now)).
Proof.
  intros ops now k q F.
  destruct (srun_inv ops [] (fun _ => None) F) as (S & Q & V); try (constructor; fail); auto.
  change (fold_left sstep ops []) with (srun ops) in *.
  change (fold_left spec_step ops (fun _ => None)) with (spec_run ops) in *.
  pose proof (find_source_spec now k true q (srun ops) S) as H.
  specialize (V k). unfold tview in V.
  destruct (get_src k (srun ops)) as [s|] eqn:G.
  - rewrite H. apply get_src_In in G. exists s. simpl in *. intuition.
  - destruct H as (t1 & t2 & E & H & S'). rewrite H. simpl in *.
    eexists. split; [reflexivity|]. split; [reflexivity|]. split.
    + apply in_or_app. simpl. auto.
    + right. auto.
Qed.

(** ** Feasibility distance *)
Lemma announce_step : forall s p now q m B, is_fd s p ->
  B <= fst p <= B + 32767 -> B <= q <= B + 32767 -> now - 200 <= s_time s ->
  exists p', is_fd (announce s (now, q, m)) p' /\ better_eq p' p /\
    (p' = p \/ (p' = (q, m) /\ m < 65535)) /\ (m < 65535 -> better_eq p' (q, m)) /\
    s_time (announce s (now, q, m)) = (if m <? 65535 then now else s_time s).
Proof.
  intros s [ps pm] now q m B (F1 & F2) B1 B2 T. unfold announce. simpl in F1, F2.
  cbn [fst snd] in B1.
  assert (Hs : seqno_ok (s_seqno s)) by (unfold seqno_ok; lia).
  assert (Hq : seqno_ok (q mod 65536)) by (unfold seqno_ok; lia).
  pose proof (update_info now (q mod 65536) m s Hs Hq) as U.
  unfold info in U. unfold is_fd, better_eq.
  destruct (m >=? 65535) eqn:Em.
  - injection U; intros U4 U3 U2 U1. exists (ps, pm). cbn [fst snd].
    rewrite U1, U2, U4. replace (m <? 65535) with false by lia.
    repeat split; auto; try lia.
  - replace (s_time s <? now - 200) with false in U by lia. cbn [orb] in U.
    cbv zeta in U. replace (m <? 65535) with true by lia.
    match type of U with _ = (if ?b then _ else _) => destruct b eqn:Eb end;
      injection U; intros U4 U3 U2 U1; rewrite U1, U2, U4; clear U U1 U2 U3 U4.
    + exists (q, m). cbn [fst snd].
      split; [lia|]. split; [|split; [right; split; auto; lia|split; [intros; lia|auto]]].
      apply orb_prop in Eb. destruct Eb as [Eb|Eb]; apply andb_prop in Eb; destruct Eb; lia.
    + exists (ps, pm). cbn [fst snd].
      split; [lia|]. split; [lia|split; [left; auto|split; [|auto]]]. intros _.
      apply orb_false_elim in Eb. destruct Eb as [E1 E2].
      apply andb_false_iff in E1, E2. lia.
Qed.

Theorem fd_history : forall l s p B, is_fd s p -> B <= fst p <= B + 32767 ->
  (forall now q m, In (now, q, m) l -> B <= q <= B + 32767) ->
  fresh (s_time s) l ->
  exists p', is_fd (fold_left announce l s) p' /\ B <= fst p' <= B + 32767 /\
    (p' = p \/ exists now q m, In (now, q, m) l /\ m < 65535 /\ p' = (q, m)) /\
    better_eq p' p /\
    (forall now q m, In (now, q, m) l -> m < 65535 -> better_eq p' (q, m)).
Proof.
  induction l as [|[[now q] m] l IH]; intros s p B F R L H.
  - exists p. simpl. repeat split; auto; try (apply F); try apply R; unfold better_eq; try lia.
  - simpl in H. destruct H as (T & H).
    destruct (announce_step s p now q m B F R (L _ _ _ (or_introl eq_refl)) T)
      as (p1 & F1 & G1 & C1 & D1 & T1).
    assert (R1 : B <= fst p1 <= B + 32767).
    { destruct C1 as [->|[-> _]]; auto. simpl. apply (L now q m). simpl; auto. }
    destruct (IH (announce s (now, q, m)) p1 B F1 R1) as (p2 & F2 & R2 & C2 & G2 & D2).
    + intros. eapply L. simpl. eauto.
    + rewrite T1. destruct (m <? 65535); auto.
    + exists p2. cbn [fold_left]. split; [auto|]. split; [auto|]. split.
      * destruct C2 as [->|(n' & q' & m' & I & M & E)].
        -- destruct C1 as [->|[-> M]]; auto. right. exists now, q, m. simpl; auto.
        -- right. exists n', q', m'. simpl; auto.
      * unfold better_eq in *. split; [lia|].
        intros n' q' m' [E|I] M; [inversion E; subst; specialize (D1 M); simpl in *; lia|].
        eapply D2; eauto.
Qed.

(** A pair that is not feasible with respect to an entry stays infeasible when
    the entry improves. *)
Lemma feasible_iff : forall now s seqno refmetric, seqno_ok (s_seqno s) -> seqno_ok seqno ->
  (update_feasible now (Some s) seqno refmetric = true <->
   s_time s < now - 200 \/ refmetric >= 65535 \/ 1 <= ahead seqno (s_seqno s) <= 32768 \/
   (seqno = s_seqno s /\ refmetric < s_metric s)).
Proof.
  intros now s q m Hs Hq. unfold update_feasible. change SOURCE_GC_TIME with 200.
  change INFINITY with 65535.
  destruct (s_time s <? now - 200) eqn:E1; [split; auto; intros; left; lia|].
  destruct (m >=? 65535) eqn:E2; [split; auto; intros; right; left; lia|].
  destruct (seqno_compare_circle q (s_seqno s) Hq Hs) as (A1 & A2 & A3).
  assert (C : (seqno_compare q (s_seqno s) >? 0) = true <-> seqno_compare q (s_seqno s) = 1).
  { unfold seqno_compare. destruct (q =? s_seqno s); [lia|]. destruct (negb _); lia. }
  rewrite orb_true_iff, C, A2, andb_true_iff. lia.
Qed.

Lemma feasible_antitone : forall now now' s s' p p' q m B,
  is_fd s p -> is_fd s' p' -> better_eq p' p ->
  B <= fst p <= B + 32767 -> B <= fst p' <= B + 32767 -> B <= q <= B + 32767 ->
  now - 200 <= s_time s -> now' - 200 <= s_time s' ->
  update_feasible now (Some s) (q mod 65536) m = false ->
  update_feasible now' (Some s') (q mod 65536) m = false.
Proof.
  intros now now' s s' [a b] [a' b'] q m B (F1 & F2) (G1 & G2) BE R R' Q T T' U.
  cbn [fst snd] in *. unfold better_eq in BE; cbn [fst snd] in BE.
  assert (Hs : seqno_ok (s_seqno s)) by (unfold seqno_ok; lia).
  assert (Hs' : seqno_ok (s_seqno s')) by (unfold seqno_ok; lia).
  assert (Hq : seqno_ok (q mod 65536)) by (unfold seqno_ok; lia).
  destruct (update_feasible now' (Some s') (q mod 65536) m) eqn:E; auto.
  apply feasible_iff in E; auto.
  assert (~ (s_time s < now - 200 \/ m >= 65535 \/ 1 <= ahead (q mod 65536) (s_seqno s) <= 32768 \/
   (q mod 65536 = s_seqno s /\ m < s_metric s))).
  { intro H. apply (feasible_iff now s (q mod 65536) m Hs Hq) in H. congruence. }
  exfalso. unfold ahead in *. rewrite F1, F2 in *. rewrite G1, G2 in *. lia.
Qed.

Lemma expire_exact : forall now t s, In s t ->
  (s_count s = 0 /\ s_time s < now - 200) \/
  exists s', In s' (expire_sources now t) /\ s_key s' = s_key s /\ s_seqno s' = s_seqno s /\
     s_metric s' = s_metric s /\ s_count s' = s_count s /\ s_time s' = Z.min (s_time s) now.
Proof.
  intros now t s H. rewrite expire_sources_alt. destruct (expired_src now s) eqn:E.
  - left. unfold expired_src in E. change SOURCE_GC_TIME with 200 in E.
    destruct (s_time s >? now) eqn:E2; lia.
  - right. exists (expire1 now s). split; [apply in_map, filter_In; rewrite E; auto|].
    unfold expire1; cbn [s_key s_seqno s_metric s_count s_time]. repeat split; auto.
    destruct (s_time s >? now) eqn:E2; lia.
Qed.

Lemma expire_only : forall now t s', In s' (expire_sources now t) ->
  exists s, In s t /\ s_key s' = s_key s /\ s_seqno s' = s_seqno s /\ s_metric s' = s_metric s /\
    s_count s' = s_count s /\ s_time s' = Z.min (s_time s) now /\
    ~ (s_count s = 0 /\ s_time s < now - 200).
Proof.
  intros now t s' H. rewrite expire_sources_alt in H. apply in_map_iff in H.
  destruct H as (s & <- & H). apply filter_In in H. destruct H as (H & E).
  exists s. unfold expire1; cbn [s_key s_seqno s_metric s_count s_time]. repeat split; auto.
  - destruct (s_time s >? now) eqn:E2; lia.
  - unfold expired_src in E. change SOURCE_GC_TIME with 200 in E.
    destruct (s_time s >? now) eqn:E2; lia.
Qed.

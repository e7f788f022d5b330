(** L_Link2.v: the Hellos and IHUs that are sent. *)
From Verif Require Import Base M_Util S_Util M_Filter M_Source M_Types M_Neigh S_Neigh L_Util L_Neigh M_Link S_Link.

(** Everything but whether a Hello is in the packet being built. *)
Definition same (k k' : link) : Prop :=
  k_ts k' = k_ts k /\ k_rfc k' = k_rfc k /\ k_unicast k' = k_unicast k /\ k_H k' = k_H k /\
  k_seq k' = k_seq k /\ k_timeout k' = k_timeout k.
Definition quiet (k : link) : Prop := k_ts k = false \/ k_rfc k = true \/ k_unicast k = true.

Lemma same_refl : forall k, same k k.
Proof. intros. repeat split. Qed.
Lemma same_trans : forall a b c, same a b -> same b c -> same a c.
Proof. unfold same. intuition congruence. Qed.
Lemma same_quiet : forall a b, same a b -> quiet a -> quiet b.
Proof. unfold same, quiet. intuition congruence. Qed.

Lemma ihu_quiet : forall t r f p k, quiet k ->
  same k (fst (ihu t r f p k)) /\ snd (ihu t r f p k) = [OIhu (p_nb p) (p_rxcost p) (ihu_announced (k_H k))].
Proof.
  intros t r f p k Q. unfold ihu.
  destruct (k_ts k && p_rtt p && negb (k_unicast k || p_data p && negb (k_rfc k))) eqn:E.
  - assert (R : k_rfc k = true).
    { destruct Q as [Q|[Q|Q]]; auto; rewrite Q in E; cbn in E; try discriminate.
      rewrite andb_false_r in E. discriminate. }
    unfold multicast_hello. destruct f; cbn [k_rfc]; rewrite R; cbn; split; auto; repeat split; auto.
  - cbn. split; auto. apply same_refl.
Qed.

Lemma ihus_quiet : forall ps t r f k, quiet k ->
  same k (fst (ihus t r f ps k)) /\
  snd (ihus t r f ps k) = map (fun p => OIhu (p_nb p) (p_rxcost p) (ihu_announced (k_H k))) ps.
Proof.
  induction ps as [|p ps IH]; intros t r f k Q; cbn [ihus].
  - split; [apply same_refl|reflexivity].
  - destruct (ihu_quiet t r (hd false f) p k Q) as [A1 A2].
    rewrite (surjective_pairing (ihu t r (hd false f) p k)).
    destruct (IH t r (tl f) _ (same_quiet _ _ A1 Q)) as [B1 B2].
    rewrite (surjective_pairing (ihus t r (tl f) ps _)). cbn [fst snd].
    split; [eapply same_trans; eauto|]. rewrite A2, B2. destruct A1 as (_ & _ & _ & E & _). rewrite E. reflexivity.
Qed.

Lemma hello_quiet : forall t r f ps k, quiet k -> 0 < k_H k ->
  let s := (k_seq k + 1) mod 65536 in
  let k' := fst (hello t r f ps k) in
  quiet k' /\ k_H k' = k_H k /\ k_seq k' = s /\ k_timeout k' = timeval_add_msec t (roughly (k_H k) r) /\
  snd (hello t r f ps k) = OHello s (Z.min 65535 ((k_H k + 9) / 10)) ::
    map (fun p => OIhu (p_nb p) (p_rxcost p) (ihu_announced (k_H k)))
        (if s mod 3 =? 0 then ps else filter p_marginal ps).
Proof.
  intros t r f ps k Q HH. cbv zeta.
  assert (I1 : 0 < (k_H k + 9) / 10) by (apply Z.div_str_pos; lia).
  unfold hello, multicast_hello. replace ((k_H k + 9) / 10 =? 0) with false by lia. cbn [andb negb].
  rewrite andb_false_r. replace ((k_H k + 9) / 10 >? 0) with true by lia.
  unfold seqno_plus. rewrite land_65535. cbn [k_seq].
  set (k1 := mkLink _ _ _ _ _ _ _).
  assert (Q1 : quiet k1) by exact Q.
  destruct (((k_seq k + 1) mod 65536) mod 3 =? 0).
  - destruct (ihus_quiet ps t r f k1 Q1) as [A B].
    rewrite (surjective_pairing (ihus t r f ps k1)). cbn [fst snd]. rewrite B.
    pose proof (same_quiet _ _ A Q1). destruct A as (_ & _ & _ & A1 & A2 & A3).
    rewrite A1, A2, A3. repeat split; auto.
  - destruct (ihus_quiet (filter p_marginal ps) t r f k1 Q1) as [A B].
    rewrite (surjective_pairing (ihus t r f (filter p_marginal ps) k1)). cbn [fst snd]. rewrite B.
    pose proof (same_quiet _ _ A Q1). destruct A as (_ & _ & _ & A1 & A2 & A3).
    rewrite A1, A2, A3. repeat split; auto.
Qed.

(** ** Reading the output *)
Fixpoint cnt (nb c : Z) (o : list lout) : Z :=
  match o with
  | [] => c
  | OHello _ _ :: o => cnt nb (c + 1) o
  | OIhu n _ _ :: o => cnt nb (if n =? nb then 0 else c) o
  end.
Lemma waits_app : forall nb o1 o2 c, waits nb c o1 -> waits nb (cnt nb c o1) o2 -> waits nb c (o1 ++ o2).
Proof. induction o1 as [|[s v|n x v] o1 IH]; intros o2 c; cbn; auto. intros [A B] C. auto. Qed.

Lemma waits_ihus : forall (g : peer -> lout) nb v ps c, (forall p, g p = OIhu (p_nb p) (p_rxcost p) v) ->
  waits nb c (map g ps) /\ (0 <= c -> 0 <= cnt nb c (map g ps) <= c) /\
  (In nb (map p_nb ps) -> cnt nb c (map g ps) = 0).
Proof.
  intros g nb v ps c Hg. revert c. induction ps as [|p ps IH]; intros c; cbn [map].
  - split; [exact Logic.I|]. cbn. split; [lia|tauto].
  - rewrite Hg. cbn [waits cnt In]. destruct (p_nb p =? nb) eqn:E.
    + destruct (IH 0) as (A & B & C). split; auto. specialize (B (Z.le_refl 0)). split; lia.
    + destruct (IH c) as (A & B & C). split; auto. split; auto. intros [F|F]; [lia|auto].
Qed.

Lemma every_third : forall es nb k c, quiet k -> 0 < k_H k -> seqno_ok (k_seq k) -> 0 <= c <= k_seq k mod 3 ->
  Forall (there nb) es -> waits nb c (snd (krun es k)).
Proof.
  induction es as [|e es IH]; intros nb k c Q HH Hs Hc F; cbn [krun snd]; [exact Logic.I|].
  inversion F as [|x l F1 F2]; subst.
  rewrite (surjective_pairing (kstep e k)).
  rewrite (surjective_pairing (krun es _)). cbn [snd].
  destruct e as [t r f ps|t r f p|]; cbn [kstep].
  - destruct (timeval_compare t (k_timeout k) >=? 0).
    2:{ cbn [fst snd app]. apply IH; auto. }
    destruct (hello_quiet t r f ps k Q HH) as (A1 & A2 & A3 & A4 & A5).
    set (k1 := fst (hello t r f ps k)) in *.
    set (s := (k_seq k + 1) mod 65536) in *.
    assert (Hs1 : seqno_ok s) by (unfold s; apply Z.mod_pos_bound; lia).
    rewrite A5.
    set (l := if s mod 3 =? 0 then ps else filter p_marginal ps).
    destruct (waits_ihus (fun p => OIhu (p_nb p) (p_rxcost p) (ihu_announced (k_H k))) nb (ihu_announced (k_H k)) l (c + 1)
       (fun p => eq_refl)) as (B1 & B2 & B3).
    cbn [app waits]. split; [lia|].
    apply waits_app; auto. apply IH; auto; [lia| |].
    { rewrite A3. auto. }
    rewrite A3. specialize (B2 ltac:(lia)). split; [lia|].
    assert (Hm : 0 <= s mod 3 < 3) by (apply Z.mod_pos_bound; lia).
    destruct (s mod 3 =? 0) eqn:E.
    + unfold l in *. rewrite B3 by exact F1. lia.
    + assert (s = k_seq k + 1).
      { unfold s, seqno_ok in *. destruct (Z.eq_dec (k_seq k) 65535) as [E2|E2].
        - rewrite E2 in E. discriminate E.
        - apply Z.mod_small. lia. }
      assert (s mod 3 = k_seq k mod 3 + 1); [|lia].
      subst l. rewrite H in *. clear - E Hm. lia.
  - destruct (ihu_quiet t r f p k Q) as [A B]. rewrite B. cbn [app waits].
    assert (A' := A). destruct A' as (_ & _ & _ & A1 & A2 & A3).
    apply IH; auto; [eapply same_quiet; eauto|lia| |]; rewrite A2; auto.
    destruct (p_nb p =? nb); auto. split; [lia|]. apply Z.mod_pos_bound; lia.
  - cbn [fst snd app]. apply IH; auto.
Qed.

Lemma numbered_app : forall o1 o2 s v, numbered s v o1 ->
  numbered ((s + Z.of_nat (length (filter is_hello o1))) mod 65536) v o2 -> seqno_ok s -> numbered s v (o1 ++ o2).
Proof.
  induction o1 as [|[s' v'|n x v'] o1 IH]; intros o2 s v A B Hs; cbn [app numbered filter is_hello] in *.
  - cbn in B. rewrite Z.add_0_r, Z.mod_small in B by exact Hs. exact B.
  - destruct A as (A1 & A2 & A3). split; auto. split; auto. apply IH; auto.
    + cbn [length] in B. rewrite Zplus_mod_idemp_l. replace (s + 1 + Z.of_nat (length (filter is_hello o1))) with
        (s + Z.of_nat (S (length (filter is_hello o1)))) by lia. exact B.
    + apply Z.mod_pos_bound. lia.
  - apply IH; auto.
Qed.
Lemma numbered_ihus : forall (g : peer -> lout) v ps s i, (forall p, g p = OIhu (p_nb p) (p_rxcost p) v) ->
  numbered s i (map g ps) /\ filter is_hello (map g ps) = [].
Proof. intros g v ps s i Hg. induction ps; cbn [map]; [split; [exact Logic.I|reflexivity]|]. rewrite Hg. cbn. auto. Qed.

Lemma in_order : forall es k, quiet k -> 0 < k_H k -> seqno_ok (k_seq k) ->
  numbered ((k_seq k + 1) mod 65536) (Z.min 65535 ((k_H k + 9) / 10)) (snd (krun es k)).
Proof.
  induction es as [|e es IH]; intros k Q HH Hs; cbn [krun snd]; [exact Logic.I|].
  rewrite (surjective_pairing (kstep e k)).
  rewrite (surjective_pairing (krun es _)). cbn [snd].
  destruct e as [t r f ps|t r f p|]; cbn [kstep].
  - destruct (timeval_compare t (k_timeout k) >=? 0); [|cbn [fst snd app]; apply IH; auto].
    destruct (hello_quiet t r f ps k Q HH) as (A1 & A2 & A3 & A4 & A5).
    set (k1 := fst (hello t r f ps k)) in *. rewrite A5.
    set (s := (k_seq k + 1) mod 65536) in *.
    assert (Hs1 : seqno_ok s) by (unfold s; apply Z.mod_pos_bound; lia).
    set (l := if s mod 3 =? 0 then ps else filter p_marginal ps).
    cbn [app numbered]. split; auto. split; auto.
    destruct (numbered_ihus (fun p => OIhu (p_nb p) (p_rxcost p) (ihu_announced (k_H k))) (ihu_announced (k_H k)) l
      ((s + 1) mod 65536) (Z.min 65535 ((k_H k + 9) / 10)) (fun p => eq_refl)) as [B1 B2].
    apply numbered_app; auto; [|apply Z.mod_pos_bound; lia].
    rewrite B2. cbn [length Z.of_nat]. rewrite Z.add_0_r, Zmod_mod.
    specialize (IH k1 A1 ltac:(lia) ltac:(rewrite A3; auto)). rewrite A2, A3 in IH. exact IH.
  - destruct (ihu_quiet t r f p k Q) as [A B]. rewrite B. cbn [app numbered].
    assert (A' := A). destruct A' as (_ & _ & _ & A1 & A2 & A3).
    specialize (IH _ (same_quiet _ _ A Q) ltac:(lia) ltac:(rewrite A2; auto)). rewrite A1, A2 in IH. exact IH.
  - cbn [fst snd app]. exact (IH (mkLink (k_ts k) (k_rfc k) (k_unicast k) (k_H k) (k_seq k) (k_timeout k) false) Q HH Hs).
Qed.

(** ** The clock, for all interfaces *)
Lemma multicast_0 : forall t r k, k_timeout (fst (multicast_hello t r 0 false k)) = k_timeout k /\
  k_H (fst (multicast_hello t r 0 false k)) = k_H k.
Proof.
  intros. unfold multicast_hello. destruct (_ && _); [split; reflexivity|]. destruct (_ && _); split; reflexivity.
Qed.
Lemma ihu_clock : forall t r f p k, k_timeout (fst (ihu t r f p k)) = k_timeout k /\ k_H (fst (ihu t r f p k)) = k_H k.
Proof.
  intros. unfold ihu. destruct (_ && _); [|split; reflexivity].
  destruct f; rewrite (surjective_pairing (multicast_hello _ _ _ _ _)); cbn [fst];
  match goal with |- context [multicast_hello ?a ?b 0 false ?c] => destruct (multicast_0 a b c) as [-> ->] end;
  split; reflexivity.
Qed.
Lemma ihus_clock : forall ps t r f k, k_timeout (fst (ihus t r f ps k)) = k_timeout k /\ k_H (fst (ihus t r f ps k)) = k_H k.
Proof.
  induction ps as [|p ps IH]; intros; cbn [ihus]; [split; reflexivity|].
  rewrite (surjective_pairing (ihu t r (hd false f) p k)).
  rewrite (surjective_pairing (ihus t r (tl f) ps _)). cbn [fst].
  destruct (IH t r (tl f) (fst (ihu t r (hd false f) p k))) as [-> ->]. apply ihu_clock.
Qed.
Lemma hello_clock : forall t r f ps k, 0 < k_H k ->
  k_timeout (fst (hello t r f ps k)) = timeval_add_msec t (roughly (k_H k) r) /\ k_H (fst (hello t r f ps k)) = k_H k /\
  exists o, snd (hello t r f ps k) = OHello ((k_seq k + 1) mod 65536) (Z.min 65535 ((k_H k + 9) / 10)) :: o.
Proof.
  intros t r f ps k HH.
  assert (I1 : 0 < (k_H k + 9) / 10) by (apply Z.div_str_pos; lia).
  unfold hello, multicast_hello. replace ((k_H k + 9) / 10 =? 0) with false by lia. cbn [andb negb].
  rewrite andb_false_r. replace ((k_H k + 9) / 10 >? 0) with true by lia.
  unfold seqno_plus. rewrite land_65535. cbn [k_seq].
  set (k1 := mkLink _ _ _ _ _ _ _).
  destruct (_ =? 0);
  match goal with |- context [ihus ?a ?b ?c ?d k1] => destruct (ihus_clock d a b c k1) as [A B];
    rewrite (surjective_pairing (ihus a b c d k1)) end; cbn [fst snd]; rewrite A, B;
  (split; [reflexivity|split; [reflexivity|eexists; reflexivity]]).
Qed.

Lemma compare_us : forall a b, tv_ok a -> tv_ok b -> (timeval_compare a b >=? 0) = (us b <=? us a).
Proof.
  intros [a1 a2] [b1 b2]. unfold tv_ok, us, timeval_compare. cbn. intros.
  destruct (a1 <? b1) eqn:E1. { lia. } destruct (a1 >? b1) eqn:E2. { lia. }
  destruct (a2 <? b2) eqn:E3. { lia. } destruct (a2 >? b2) eqn:E4; lia.
Qed.

(** ** Starvation *)
Definition p1 : peer := mkPeer 1 96 false true false.
Definition p2 : peer := mkPeer 2 96 false true false.
Definition kst (s : Z) (t : Z) (b : bool) : link := mkLink true false false 4000 s (mkTv t 0) b.
Definition round (t : Z) : list kev :=
  [KLoop (mkTv t 0) 0 [] [p1; p2]; KSent; KAsk (mkTv t 0) 0 false p1; KSent; KAsk (mkTv t 0) 0 false p1; KSent].
Fixpoint rounds (n : nat) (t : Z) : list kev :=
  match n with O => [] | S n => round t ++ rounds n (t + 5) end.

Lemma krun_app : forall a b k, krun (a ++ b) k =
  (fst (krun b (fst (krun a k))), snd (krun a k) ++ snd (krun b (fst (krun a k)))).
Proof.
  induction a as [|e a IH]; intros b k; cbn [app krun].
  - cbn [fst snd app]. apply surjective_pairing.
  - rewrite (surjective_pairing (kstep e k)). rewrite IH. cbn [fst snd].
    rewrite (surjective_pairing (krun a (fst (kstep e k)))). cbn [fst snd]. rewrite app_assoc. reflexivity.
Qed.

Lemma ihu_p1 : forall t s u, 0 <= s < 65535 ->
  ihu (mkTv t 0) 0 false p1 (kst s u false) = (kst (s + 1) u true, [OHello (s + 1) 0; OIhu 1 96 1200]).
Proof.
  intros. unfold ihu, multicast_hello, p1, kst.
  cbn [k_ts k_rfc k_unicast k_hello k_seq k_H k_timeout p_rtt p_data p_nb p_rxcost andb orb negb Z.eqb].
  change (0 >? 0) with false. cbv iota. unfold seqno_plus. rewrite land_65535. rewrite Z.mod_small by lia. reflexivity.
Qed.

Lemma round_run : forall m t u, 0 <= m < 21845 -> u <= t ->
  krun (round t) (kst (3 * m) u false) =
  (kst (3 * (m + 1)) (t + 3) false,
   [OHello (3 * m + 1) 400; OHello (3 * m + 2) 0; OIhu 1 96 1200; OHello (3 * m + 3) 0; OIhu 1 96 1200]).
Proof.
  intros m t u Hm Hu. unfold round. cbn [krun].
  assert (E1 : kstep (KLoop (mkTv t 0) 0 [] [p1; p2]) (kst (3 * m) u false) =
               (kst (3 * m + 1) (t + 3) true, [OHello (3 * m + 1) 400])).
  { unfold kstep. rewrite compare_us by (unfold tv_ok; cbn; lia). unfold us. cbn [tv_sec tv_usec k_timeout kst].
    replace (u * 1000000 + 0 <=? t * 1000000 + 0) with true by lia.
    unfold hello, multicast_hello, kst. cbn [k_ts k_rfc k_unicast k_hello k_seq k_H k_timeout andb negb].
    unfold seqno_plus. rewrite land_65535. rewrite Z.mod_small by lia.
    change (((4000 + 9) / 10 =? 0) && false) with false. cbv iota.
    change ((4000 + 9) / 10) with 400. change (400 >? 0) with true. cbn [k_seq].
    replace ((3 * m + 1) mod 3 =? 0) with false by lia.
    cbn [filter p1 p2 p_marginal ihus app].
    replace (timeval_add_msec (mkTv t 0) (roughly 4000 0)) with (mkTv (t + 3) 0); [reflexivity|].
    change (roughly 4000 0) with 3000. unfold timeval_add_msec. cbn [tv_sec tv_usec].
    change (0 + Z.rem 3000 1000 * 1000) with 0. change (Z.quot 3000 1000) with 3.
    cbn. f_equal; lia. }
  rewrite E1. unfold kstep at 1. change (mkLink _ _ _ _ _ _ false) with (kst (3 * m + 1) (t + 3) false).
  unfold kstep at 1. rewrite ihu_p1 by lia.
  unfold kstep at 1. change (mkLink _ _ _ _ _ _ false) with (kst (3 * m + 1 + 1) (t + 3) false).
  unfold kstep at 1. rewrite ihu_p1 by lia.
  unfold kstep at 1. change (mkLink _ _ _ _ _ _ false) with (kst (3 * m + 1 + 1 + 1) (t + 3) false).
  cbn [app]. replace (3 * m + 1 + 1 + 1) with (3 * (m + 1)) by lia.
  replace (3 * m + 1 + 1) with (3 * m + 2) by lia. replace (3 * m + 3) with (3 * (m + 1)) by lia. reflexivity.
Qed.

Definition for_nb (nb : Z) (x : lout) : bool := match x with OIhu n _ _ => n =? nb | _ => false end.
Definition scheduled (x : lout) : bool := match x with OHello _ v => v >? 0 | _ => false end.

Lemma starved : forall n m t u, 0 <= m -> m + Z.of_nat n <= 21845 -> u <= t ->
  let o := snd (krun (rounds n t) (kst (3 * m) u false)) in
  length (filter scheduled o) = n /\ existsb (for_nb 2) o = false.
Proof.
  induction n as [|n IH]; intros m t u Hm Hn Hu; cbn [rounds]; [split; reflexivity|].
  cbv zeta. rewrite krun_app. rewrite round_run by lia. cbn [fst snd].
  destruct (IH (m + 1) (t + 5) (t + 3) ltac:(lia) ltac:(lia) ltac:(lia)) as [A B].
  rewrite filter_app, app_length, existsb_app, A, B. split; reflexivity.
Qed.
Lemma rounds_there : forall n t, Forall (there 2) (rounds n t) /\ Forall kev_ok (rounds n t).
Proof.
  induction n as [|n IH]; intros t; cbn [rounds]; [split; constructor|].
  destruct (IH (t + 5)) as [A B]. split; apply Forall_app; split; auto; unfold round.
  - repeat (apply Forall_cons; [cbn; auto|]). apply Forall_nil.
  - repeat (apply Forall_cons; [first [exact Logic.I|unfold kev_ok, tv_ok; cbn; lia]|]). apply Forall_nil.
Qed.

(** L_Table.v: look-ups in and changes of a well-formed route table. *)
From Verif Require Import Base M_Util S_Util L_Util M_Slot L_Slot M_Source S_Source L_Source
  M_Filter M_Types M_Neigh M_State M_Table M_Msg S_World.
From Coq Require Import Sorting.Sorted Permutation.

(** ** The order of the slots *)
Definition ckey_t : Type := (bool * list Z * Z * list Z * Z)%type.
Definition ckey (d : dest) : ckey_t :=
  let ss := negb (is_default (d_src d) (d_splen d)) in
  (ss, d_prefix d, d_plen d, if ss then d_src d else [], if ss then d_splen d else 0).
Definition ccmp (a b : ckey_t) : Z :=
  let '(sa, pa, la, qa, ma) := a in
  let '(sb, pb, lb, qb, mb) := b in
  andthen (zcmp (b2z sb) (b2z sa))
  (andthen (memcmp pa pb) (andthen (zcmp la lb) (andthen (memcmp qa qb) (zcmp ma mb)))).

Lemma b2z_inj : forall a b, b2z a = b2z b -> a = b.
Proof. intros [] []; cbv; congruence. Qed.
Lemma ccmp_eq : forall a b, ccmp a b = 0 -> a = b.
Proof.
  intros [[[[sa pa] la] qa] ma] [[[[sb pb] lb] qb] mb]. unfold ccmp.
  rewrite !andthen_0, !memcmp_0, !zcmp_0. intros (E & E1 & E2 & E3 & E4).
  apply b2z_inj in E. congruence.
Qed.
Lemma ccmp_refl : forall a, ccmp a a = 0.
Proof.
  intros [[[[sa pa] la] qa] ma]. unfold ccmp. rewrite !andthen_0, !memcmp_0, !zcmp_0. auto.
Qed.
Lemma ccmp_neg : forall a b, ccmp b a = - ccmp a b.
Proof.
  intros [[[[sa pa] la] qa] ma] [[[[sb pb] lb] qb] mb]. unfold ccmp.
  repeat apply andthen_anti; auto using memcmp_antisym, zcmp_anti.
Qed.
Lemma ccmp_anti : forall a b, ccmp a b < 0 <-> ccmp b a > 0.
Proof. intros. rewrite (ccmp_neg a b). lia. Qed.
Definition c_ss (a : ckey_t) := let '(s, _, _, _, _) := a in b2z s.
Definition c_p (a : ckey_t) := let '(_, p, _, _, _) := a in p.
Definition c_l (a : ckey_t) := let '(_, _, l, _, _) := a in l.
Definition c_q (a : ckey_t) := let '(_, _, _, q, _) := a in q.
Definition c_m (a : ckey_t) := let '(_, _, _, _, m) := a in m.
Lemma ccmp_alt : forall a b, ccmp a b =
  andthen (zcmp (c_ss b) (c_ss a)) (andthen (memcmp (c_p a) (c_p b))
   (andthen (zcmp (c_l a) (c_l b)) (andthen (memcmp (c_q a) (c_q b)) (zcmp (c_m a) (c_m b))))).
Proof. intros [[[[sa pa] la] qa] ma] [[[[sb pb] lb] qb] mb]. reflexivity. Qed.
Lemma ccmp_trans : forall a b c, ccmp a b < 0 -> ccmp b c < 0 -> ccmp a c < 0.
Proof.
  intros a b c. rewrite !ccmp_alt. revert a b c.
  apply (andthen_trans (fun a b => zcmp (c_ss b) (c_ss a))
    (fun a b => andthen (memcmp (c_p a) (c_p b)) _)).
  - intros. eapply zcmp_trans; eauto.
  - intros. cbv beta in *. apply (proj1 (zcmp_0 _ _)) in H. rewrite H. auto.
  - intros. cbv beta in *. apply (proj1 (zcmp_0 _ _)) in H. rewrite H. auto.
  - apply (andthen_trans (fun a b => memcmp (c_p a) (c_p b))
      (fun a b => andthen (zcmp (c_l a) (c_l b)) _));
      eauto using memcmp_trans_lt, memcmp_eq_l, memcmp_eq_r.
    apply (andthen_trans (fun a b => zcmp (c_l a) (c_l b))
      (fun a b => andthen (memcmp (c_q a) (c_q b)) _));
      eauto using zcmp_trans, zcmp_eq_l, zcmp_eq_r.
    apply (andthen_trans (fun a b => memcmp (c_q a) (c_q b))
      (fun a b => zcmp (c_m a) (c_m b)));
      eauto using memcmp_trans_lt, memcmp_eq_l, memcmp_eq_r.
    intros. eapply zcmp_trans; eauto.
Qed.

Lemma rdest_dest_of : forall r, rdest r = dest_of r.
Proof. reflexivity. Qed.

Lemma route_compare_ckey : forall d r, route_compare d r = ccmp (ckey d) (ckey (dest_of r)).
Proof.
  intros. unfold route_compare, ckey, ccmp, dest_of, dest_of_key. cbn [d_src d_splen d_prefix d_plen].
  destruct (is_default (d_src d) (d_splen d)), (is_default (k_src (r_src r)) (k_splen (r_src r)));
    cbn [negb andb b2z]; auto.
Qed.

Lemma ckey_inj : forall d d', dvalid d -> dvalid d' -> ckey d = ckey d' -> d = d'.
Proof.
  intros [p l q m] [p' l' q' m'] V V'. unfold ckey, dvalid in *. cbn [d_src d_splen d_prefix d_plen] in *.
  destruct (is_default q m) eqn:D, (is_default q' m') eqn:D'; cbn [negb]; intros E; inversion E; subst; auto.
  specialize (V eq_refl). specialize (V' eq_refl). rewrite <- V' in V. congruence.
Qed.

Definition hd_key (l : list route) : ckey_t := ckey (dest_of (hd r0 l)).
Definition rsorted (rt : list (list route)) : Prop := ksorted ccmp hd_key rt.

Record rt_wf (rt : list (list route)) : Prop := mkRtWf {
  wf_slots : Forall slot_wf rt;
  wf_sorted : rsorted rt;
  wf_ptrs : NoDup (map r_ptr (concat rt)) }.

Lemma slot_compare_key : forall d l, slot_compare d l = ccmp (ckey d) (hd_key l).
Proof. intros. unfold slot_compare, hd_key. apply route_compare_ckey. Qed.

Lemma find_slot_ext : forall A (c c' : A -> Z) d l, (forall x, c x = c' x) ->
  find_slot c d l = find_slot c' d l.
Proof.
  intros A c c' d l E. unfold find_slot. destruct (Z.of_nat (length l) <? 1); auto.
  assert (G : forall f p g, bs_loop f (fun m => c (nth (Z.to_nat m) l d)) p g =
                            bs_loop f (fun m => c' (nth (Z.to_nat m) l d)) p g).
  { induction f; intros; cbn [bs_loop]; auto. rewrite E. destruct (_ =? 0); auto.
    destruct (_ <=? _); auto. }
  apply G.
Qed.

Lemma find_route_slot_key : forall d w,
  find_route_slot d w = find_slot (fun l => ccmp (ckey d) (hd_key l)) [] (w_rt w).
Proof. intros. apply find_slot_ext. intros. apply slot_compare_key. Qed.

Lemma find_route_slot_found : forall d w i, rt_wf (w_rt w) -> find_route_slot d w = Found i ->
  exists A l B, w_rt w = A ++ l :: B /\ i = Z.of_nat (length A) /\ hd_key l = ckey d.
Proof.
  intros d w i Wf E. rewrite find_route_slot_key in E.
  eapply find_key_found in E; eauto using ccmp_eq, ccmp_refl, ccmp_anti, ccmp_trans.
  apply (wf_sorted _ Wf).
Qed.

Lemma find_route_slot_in : forall d w A l B, rsorted (w_rt w) -> w_rt w = A ++ l :: B ->
  hd_key l = ckey d -> find_route_slot d w = Found (Z.of_nat (length A)).
Proof.
  intros d w A l B Wf E K. rewrite find_route_slot_key, E, <- K.
  apply find_key_in; eauto using ccmp_eq, ccmp_refl, ccmp_anti, ccmp_trans.
  rewrite <- E. auto.
Qed.

Lemma find_route_slot_notfound : forall d w n, rt_wf (w_rt w) -> find_route_slot d w = NotFound n ->
  (0 <= n <= Z.of_nat (length (w_rt w))) /\
  (forall l, In l (w_rt w) -> hd_key l <> ckey d) /\
  (forall l, hd_key l = ckey d -> rsorted (insert_at n l (w_rt w))).
Proof.
  intros d w n Wf E. rewrite find_route_slot_key in E.
  eapply find_key_notfound in E; eauto using ccmp_eq, ccmp_refl, ccmp_anti, ccmp_trans.
  apply (wf_sorted _ Wf).
Qed.

(** ** Slots *)
Lemma slot_hd : forall l, slot_wf l -> exists h t, l = h :: t.
Proof. intros [|h t] (N & _); eauto. contradiction. Qed.

Lemma slot_key : forall l r, slot_wf l -> In r l -> hd_key l = ckey (dest_of r).
Proof.
  intros l r S Hr. destruct (slot_hd l S) as (h & t & ->). destruct S as (_ & D & _).
  unfold hd_key. cbn [hd]. rewrite (D h r); simpl; auto.
Qed.

Lemma wf_slot : forall rt l, rt_wf rt -> In l rt -> slot_wf l.
Proof. intros rt l Wf. pose proof (wf_slots _ Wf) as F. rewrite Forall_forall in F. auto. Qed.

Lemma route_split : forall rt (r : route), In r (concat rt) ->
  exists A l1 l2 B, rt = A ++ (l1 ++ r :: l2) :: B.
Proof.
  intros rt r H. apply in_concat in H. destruct H as (l & Hl & Hr).
  apply in_split in Hl. destruct Hl as (A & B & ->). apply in_split in Hr.
  destruct Hr as (l1 & l2 & ->). eauto.
Qed.

Lemma nth_middle' : forall A (a b : list A) x d, nth (length a) (a ++ x :: b) d = x.
Proof. intros. rewrite app_nth2, Nat.sub_diag by lia. reflexivity. Qed.
Lemma upd_middle : forall A (a b : list A) x y, upd (length a) y (a ++ x :: b) = a ++ y :: b.
Proof. induction a; simpl; intros; auto. rewrite IHa. auto. Qed.

(** The slot of a route that is in the table *)
Lemma slot_of_split : forall w A l B r, rt_wf (w_rt w) -> w_rt w = A ++ l :: B -> In r l ->
  slot_of (rdest r) w = l /\ find_route_slot (rdest r) w = Found (Z.of_nat (length A)).
Proof.
  intros w A l B r Wf E Hr.
  assert (S : slot_wf l) by (eapply wf_slot; eauto; rewrite E; apply in_or_app; simpl; auto).
  assert (F : find_route_slot (rdest r) w = Found (Z.of_nat (length A))).
  { eapply find_route_slot_in; eauto using (wf_sorted _ Wf). apply slot_key; auto. }
  split; auto. unfold slot_of. rewrite F, Nat2Z.id, E. apply nth_middle'.
Qed.

Lemma slot_of_In : forall w l r, rt_wf (w_rt w) -> In l (w_rt w) -> In r l -> slot_of (rdest r) w = l.
Proof.
  intros w l r Wf Hl Hr. apply in_split in Hl. destruct Hl as (A & B & E).
  eapply slot_of_split; eauto.
Qed.

Lemma slot_of_cases : forall d w, rt_wf (w_rt w) ->
  (slot_of d w = [] /\ forall r, In r (all_routes w) -> ckey (dest_of r) <> ckey d) \/
  (In (slot_of d w) (w_rt w) /\ forall r, In r (slot_of d w) -> ckey (dest_of r) = ckey d).
Proof.
  intros d w Wf. unfold slot_of. destruct (find_route_slot d w) as [i|n] eqn:E.
  - right. destruct (find_route_slot_found d w i Wf E) as (A & l & B & E1 & E2 & K).
    subst i. rewrite Nat2Z.id, E1, nth_middle'. split; [apply in_or_app; simpl; auto|].
    intros r Hr. rewrite <- K. symmetry. apply slot_key; auto.
    eapply wf_slot; eauto. rewrite E1. apply in_or_app; simpl; auto.
  - left. split; auto. intros r Hr Ek. destruct (find_route_slot_notfound d w n Wf E) as (_ & N & _).
    unfold all_routes in Hr. apply in_concat in Hr. destruct Hr as (l & Hl & Hr).
    apply (N l Hl). rewrite (slot_key l r); auto. eapply wf_slot; eauto.
Qed.

Lemma slot_of_iff : forall d w r, rt_wf (w_rt w) -> dvalid d ->
  (In r (slot_of d w) <-> In r (all_routes w) /\ dest_of r = d).
Proof.
  intros d w r Wf V. split.
  - intros Hr. destruct (slot_of_cases d w Wf) as [(E & _)|(H & K)]; [rewrite E in Hr; contradiction|].
    split; [apply in_concat; eauto|]. apply ckey_inj; auto.
    destruct (wf_slot _ _ Wf H) as (_ & _ & D & _). auto.
  - intros (Hr & E). unfold all_routes in Hr. apply in_concat in Hr. destruct Hr as (l & Hl & Hr).
    subst d. rewrite <- rdest_dest_of, (slot_of_In w l r); auto.
Qed.

Lemma route_dvalid : forall w r, rt_wf (w_rt w) -> In r (all_routes w) -> dvalid (dest_of r).
Proof.
  intros w r Wf Hr. apply in_concat in Hr. destruct Hr as (l & Hl & Hr).
  destruct (wf_slot _ _ Wf Hl) as (_ & _ & D & _). auto.
Qed.

Lemma find_installed_iff : forall d w r, rt_wf (w_rt w) -> dvalid d ->
  (find_installed d w = Some r <-> In r (all_routes w) /\ r_installed r = true /\ dest_of r = d).
Proof.
  intros d w r Wf V. unfold find_installed. split.
  - destruct (slot_of d w) as [|h t] eqn:E; [discriminate|].
    destruct (r_installed h) eqn:I; [|discriminate]. intros G. inversion G; subst r.
    assert (H : In h (slot_of d w)) by (rewrite E; simpl; auto).
    apply slot_of_iff in H; tauto.
  - intros (Hr & I & D). assert (H : In r (slot_of d w)) by (apply slot_of_iff; auto).
    destruct (slot_of_cases d w Wf) as [(E & _)|(Hs & _)]; [rewrite E in H; contradiction|].
    destruct (wf_slot _ _ Wf Hs) as (_ & _ & _ & _ & T).
    destruct (slot_of d w) as [|h t]; [contradiction|]. destruct H as [->|H].
    + rewrite I. auto.
    + rewrite (T r) in I by auto. discriminate.
Qed.

(** ** Pointers *)
Lemma NoDup_map_inj : forall A B (f : A -> B) l x y, NoDup (map f l) -> In x l -> In y l ->
  f x = f y -> x = y.
Proof.
  induction l; simpl; intros x y N Hx Hy E; [contradiction|]. inversion N; subst.
  destruct Hx as [->|Hx], Hy as [->|Hy]; auto.
  - exfalso. apply H1. rewrite E. apply in_map. auto.
  - exfalso. apply H1. rewrite <- E. apply in_map. auto.
Qed.

Lemma find_ptr_In : forall p w r, find_ptr p w = Some r -> In r (all_routes w) /\ r_ptr r = p.
Proof.
  unfold find_ptr, all_routes, is_ptr. intros p w r H. apply find_some in H. destruct H. split; auto. lia.
Qed.
Lemma find_ptr_iff : forall p w r, rt_wf (w_rt w) ->
  (find_ptr p w = Some r <-> In r (all_routes w) /\ r_ptr r = p).
Proof.
  intros p w r Wf. split; [apply find_ptr_In|]. intros (H & E).
  destruct (find_ptr p w) as [r'|] eqn:F.
  - apply find_ptr_In in F. destruct F as (F1 & F2). f_equal.
    eapply NoDup_map_inj; eauto using (wf_ptrs _ Wf). congruence.
  - unfold find_ptr in F. eapply find_none in F; eauto. unfold is_ptr in F. lia.
Qed.
Lemma find_ptr_None : forall p w, find_ptr p w = None <-> ~ In p (map r_ptr (all_routes w)).
Proof.
  intros. unfold find_ptr, all_routes. split.
  - intros F H. apply in_map_iff in H. destruct H as (r & E & Hr).
    eapply find_none in F; eauto. unfold is_ptr in F. lia.
  - intros H. destruct (find (is_ptr p) (concat (w_rt w))) as [r|] eqn:F; auto.
    exfalso. apply H. apply find_some in F. destruct F as (F1 & F2). unfold is_ptr in F2.
    apply in_map_iff. exists r. split; auto. lia.
Qed.

(** ** Changing one route in place *)
Definition upd_route (p : Z) (f : route -> route) (r : route) : route :=
  if is_ptr p r then f r else r.
Lemma all_map_ptr : forall p f w, all_routes (map_ptr p f w) = map (upd_route p f) (all_routes w).
Proof. intros. unfold all_routes, map_ptr, upd_route. cbn [w_rt set_w_rt]. rewrite concat_map. auto. Qed.

Lemma hd_map : forall (f : route -> route) l, l <> [] -> hd r0 (map f l) = f (hd r0 l).
Proof. destruct l; simpl; intros; auto. contradiction. Qed.
Lemma tl_map : forall (f : route -> route) l, tl (map f l) = map f (tl l).
Proof. destruct l; auto. Qed.

(** A change that keeps pointer, destination and neighbour, and does not select. *)
Definition keeps (f : route -> route) : Prop :=
  forall r, r_ptr (f r) = r_ptr r /\ dest_of (f r) = dest_of r /\ r_neigh (f r) = r_neigh r.

Lemma map_rt_wf : forall (g : route -> route) rt, keeps g ->
  (forall l r, In l rt -> In r (tl l) -> r_installed (g r) = false) ->
  rt_wf rt -> rt_wf (map (map g) rt).
Proof.
  intros g rt Hk Hi Wf. split.
  - apply Forall_forall. intros l Hl. apply in_map_iff in Hl. destruct Hl as (l0 & <- & H0).
    destruct (wf_slot _ _ Wf H0) as (N & D & V & M & T). repeat split.
    + destruct l0; [contradiction|discriminate].
    + intros r r' Hr Hr'. apply in_map_iff in Hr. apply in_map_iff in Hr'.
      destruct Hr as (a & <- & Ha), Hr' as (b & <- & Hb).
      destruct (Hk a) as (_ & -> & _), (Hk b) as (_ & -> & _). auto.
    + intros r Hr. apply in_map_iff in Hr. destruct Hr as (a & <- & Ha).
      destruct (Hk a) as (_ & -> & _). auto.
    + rewrite map_map. erewrite map_ext; [exact M|]. intros a. destruct (Hk a) as (_ & _ & ->). auto.
    + intros r Hr. rewrite tl_map in Hr. apply in_map_iff in Hr. destruct Hr as (a & <- & Ha).
      eapply Hi; eauto.
  - unfold rsorted. apply sorted_map; [|apply (wf_sorted _ Wf)].
    intros l Hl. unfold hd_key. destruct (wf_slot _ _ Wf Hl) as (N & _).
    rewrite hd_map by auto. destruct (Hk (hd r0 l)) as (_ & -> & _). auto.
  - rewrite <- concat_map, map_map. erewrite map_ext; [exact (wf_ptrs _ Wf)|].
    intros a. destruct (Hk a) as (-> & _). auto.
Qed.

Lemma keeps_upd : forall p f, keeps f -> keeps (upd_route p f).
Proof. intros p f K r. unfold upd_route. destruct (is_ptr p r); auto. Qed.

(** [p] is not behind the head of a slot, or the change does not select it *)
Lemma map_ptr_wf : forall p f w, keeps f -> (forall r, r_installed (f r) = r_installed r) ->
  rt_wf (w_rt w) -> rt_wf (w_rt (map_ptr p f w)).
Proof.
  intros p f w K I Wf. unfold map_ptr. cbn [w_rt set_w_rt].
  apply (map_rt_wf (upd_route p f)); auto using keeps_upd.
  intros l r Hl Hr. destruct (wf_slot _ _ Wf Hl) as (_ & _ & _ & _ & T).
  unfold upd_route. destruct (is_ptr p r); [rewrite I|]; auto.
Qed.

Lemma map_ptr_uninst_wf : forall p w,
  rt_wf (w_rt w) -> rt_wf (w_rt (map_ptr p (set_r_installed false) w)).
Proof.
  intros p w Wf. unfold map_ptr. cbn [w_rt set_w_rt].
  apply (map_rt_wf (upd_route p (set_r_installed false))); auto.
  - apply keeps_upd. intros r. auto.
  - intros l r Hl Hr. destruct (wf_slot _ _ Wf Hl) as (_ & _ & _ & _ & T).
    unfold upd_route. destruct (is_ptr p r); auto.
Qed.

(** ** Replacing one slot *)
Lemma concat_mid : forall A (a b : list (list A)) l, concat (a ++ l :: b) = concat a ++ l ++ concat b.
Proof. intros. rewrite concat_app. reflexivity. Qed.

Lemma ksorted_replace : forall A B l l', hd_key l' = hd_key l ->
  rsorted (A ++ l :: B) -> rsorted (A ++ l' :: B).
Proof.
  intros A B l l' K S. unfold rsorted in *.
  apply sorted_app_iff in S. destruct S as (S1 & S2 & C). apply sorted_cons_iff in S2.
  destruct S2 as (S2 & C2). apply sorted_app_iff. split; [auto|]. split.
  - apply sorted_cons_iff. split; auto. intros y Hy. unfold klt in *. rewrite K. auto.
  - intros x y Hx [<-|Hy].
    + unfold klt in *. rewrite K. apply C; simpl; auto.
    + apply C; simpl; auto.
Qed.

Lemma replace_wf : forall A B l l', rt_wf (A ++ l :: B) -> slot_wf l' -> hd_key l' = hd_key l ->
  NoDup (map r_ptr (concat (A ++ l' :: B))) -> rt_wf (A ++ l' :: B).
Proof.
  intros A B l l' Wf S K N. split; auto.
  - pose proof (wf_slots _ Wf) as F. apply Forall_app in F. destruct F as (F1 & F2).
    inversion F2; subst. apply Forall_app. split; auto.
  - eapply ksorted_replace; eauto. apply (wf_sorted _ Wf).
Qed.

(** Moving a route to the front *)
Lemma filter_none : forall A (f : A -> bool) l, (forall x, In x l -> f x = false) -> filter f l = [].
Proof. induction l; simpl; intros H; auto. rewrite (H a) by auto. auto. Qed.
Lemma filter_all : forall A (f : A -> bool) l, (forall x, In x l -> f x = true) -> filter f l = l.
Proof. induction l; simpl; intros H; auto. rewrite (H a) by auto. f_equal. auto. Qed.

Lemma ptr_split_unique : forall l1 r l2, NoDup (map r_ptr (l1 ++ r :: l2)) ->
  (forall x, In x l1 -> is_ptr (r_ptr r) x = false) /\ (forall x, In x l2 -> is_ptr (r_ptr r) x = false).
Proof.
  intros l1 r l2 N. rewrite map_app in N. simpl in N. apply NoDup_remove_2 in N.
  unfold is_ptr. split; intros x Hx; apply Z.eqb_neq; intro E; apply N; rewrite <- E;
    apply in_or_app; [left|right]; apply in_map; auto.
Qed.

Lemma map_upd_none : forall p f l, (forall x, In x l -> is_ptr p x = false) ->
  map (upd_route p f) l = l.
Proof.
  induction l; simpl; intros H; auto. unfold upd_route at 1. rewrite (H a) by auto. f_equal. auto.
Qed.
Lemma map_map_upd_none : forall p f rt, (forall x, In x (concat rt) -> is_ptr p x = false) ->
  map (map (upd_route p f)) rt = rt.
Proof.
  induction rt; simpl; intros H; auto. rewrite map_upd_none by (intros; apply H, in_or_app; auto).
  f_equal. apply IHrt. intros; apply H, in_or_app; auto.
Qed.

Lemma ptr_unique_in : forall A l1 r l2 B, NoDup (map r_ptr (concat (A ++ (l1 ++ r :: l2) :: B))) ->
  (forall x, In x (concat A) \/ In x l1 \/ In x l2 \/ In x (concat B) -> is_ptr (r_ptr r) x = false).
Proof.
  intros A l1 r l2 B N x H. rewrite concat_mid in N.
  replace (concat A ++ (l1 ++ r :: l2) ++ concat B)
    with ((concat A ++ l1) ++ r :: (l2 ++ concat B)) in N by (rewrite <- !app_assoc; reflexivity).
  apply ptr_split_unique in N. destruct N as (N1 & N2).
  destruct H as [H|[H|[H|H]]]; [apply N1|apply N1|apply N2|apply N2]; apply in_or_app; auto.
Qed.

Lemma map_ptr_split : forall f w A l1 r l2 B, NoDup (map r_ptr (all_routes w)) ->
  w_rt w = A ++ (l1 ++ r :: l2) :: B ->
  w_rt (map_ptr (r_ptr r) f w) = A ++ (l1 ++ f r :: l2) :: B.
Proof.
  intros f w A l1 r l2 B N E. unfold all_routes in N. rewrite E in N. pose proof (ptr_unique_in _ _ _ _ _ N) as U.
  unfold map_ptr. cbn [w_rt set_w_rt]. fold (upd_route (r_ptr r) f).
  change (map (map (fun r1 => if is_ptr (r_ptr r) r1 then f r1 else r1)) (w_rt w)) with
    (map (map (upd_route (r_ptr r) f)) (w_rt w)).
  rewrite E, map_app. cbn [map]. rewrite map_app. cbn [map].
  rewrite !map_map_upd_none, !map_upd_none by (intros; apply U; tauto).
  unfold upd_route, is_ptr. rewrite Z.eqb_refl. auto.
Qed.

Lemma move_front_split : forall l1 r l2, NoDup (map r_ptr (l1 ++ r :: l2)) ->
  filter (is_ptr (r_ptr r)) (l1 ++ r :: l2) ++ filter (fun x => negb (is_ptr (r_ptr r) x)) (l1 ++ r :: l2)
  = r :: l1 ++ l2.
Proof.
  intros l1 r l2 N. destruct (ptr_split_unique _ _ _ N) as (U1 & U2).
  assert (E : is_ptr (r_ptr r) r = true) by (unfold is_ptr; apply Z.eqb_refl).
  rewrite !filter_app. cbn [filter]. rewrite E. cbn [negb].
  rewrite (filter_none _ (is_ptr (r_ptr r)) l1), (filter_none _ (is_ptr (r_ptr r)) l2) by auto.
  rewrite (filter_all _ _ l1) by (intros x Hx; rewrite (U1 x Hx); auto).
  rewrite (filter_all _ _ l2) by (intros x Hx; rewrite (U2 x Hx); auto). reflexivity.
Qed.

Lemma NoDup_app_r : forall A (a b : list A), NoDup (a ++ b) -> NoDup b.
Proof. induction a; simpl; intros; auto. inversion H; auto. Qed.
Lemma NoDup_app_l : forall A (a b : list A), NoDup (a ++ b) -> NoDup a.
Proof.
  induction a; simpl; intros; constructor; inversion H; subst; eauto.
  intro; apply H2; apply in_or_app; auto.
Qed.
Lemma NoDup_concat_slot : forall (A : list (list route)) l B,
  NoDup (map r_ptr (concat (A ++ l :: B))) -> NoDup (map r_ptr l).
Proof.
  intros A l B N. rewrite concat_mid, !map_app in N.
  apply NoDup_app_r in N. apply NoDup_app_l in N. auto.
Qed.

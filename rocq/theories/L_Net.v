(** L_Net.v: feasibility distances, announcements and selected routes of one
    destination and router-id in one router, for every function of the model. *)
From Verif Require Import Base M_Util M_Slot M_Source M_Filter M_Types M_Neigh M_State M_Table M_Msg M_Route M_Xroute M_Daemon.
From Verif Require Import S_Util S_Source S_Neigh S_World S_Net L_Util L_Slot L_Source L_Neigh L_Table L_Step L_Chain2 L_Msg L_Daemon L_Seqno L_Seqno2.
From Coq Require Import Sorting.Sorted Permutation.

Lemma closer_trans q a b c : closer q a b -> closer q b c -> closer q a c.
Proof. unfold closer. destruct a, b, c; cbn. intros [H|(-> & H)] [K|(-> & K)]; lia. Qed.
Lemma closer_irrefl q a : ~ closer q a a.
Proof. unfold closer. lia. Qed.
Lemma closer_eq_trans q a b c : closer_eq q a b -> closer_eq q b c -> closer_eq q a c.
Proof. unfold closer_eq. intros [->|H] [->|K]; auto. right. eapply closer_trans; eauto. Qed.
Lemma closer_eq_l q a b c : closer_eq q a b -> closer q b c -> closer q a c.
Proof. intros [->|H] K; auto. eapply closer_trans; eauto. Qed.
Lemma closer_eq_r q a b c : closer q a b -> closer_eq q b c -> closer q a c.
Proof. intros H [->|K]; auto. eapply closer_trans; eauto. Qed.
Lemma closer_eq_refl q a : closer_eq q a a. Proof. left. auto. Qed.

Lemma half_compare q a b : in_half q a -> in_half q b ->
  (seqno_compare a b >? 0) = (ahead b q <? ahead a q) /\ (seqno_compare a b <? 0) = (ahead a q <? ahead b q) /\
  (ahead a q = ahead b q -> a = b).
Proof.
  unfold in_half, ahead. intros (A & A') (B & B'). rewrite seqno_compare_alt.
  pose proof (Z.mod_pos_bound (a - q) 65536 ltac:(lia)). pose proof (Z.mod_pos_bound (b - q) 65536 ltac:(lia)).
  pose proof (Z.div_mod (a - q) 65536 ltac:(lia)). pose proof (Z.div_mod (b - q) 65536 ltac:(lia)).
  assert (E : (b - a) mod 65536 = ((b - q) mod 65536 - (a - q) mod 65536) mod 65536).
  { rewrite <- Zminus_mod. f_equal. lia. }
  set (x := (a - q) mod 65536) in *. set (y := (b - q) mod 65536) in *.
  assert (N : x = y -> a = b) by (intros; lia).
  split; [|split; [|exact N]].
  all: destruct (a =? b) eqn:D; [assert (x = y) by (apply Z.eqb_eq in D; subst; reflexivity); lia|].
  all: assert (x <> y) by (intros X; apply N in X; lia).
  all: assert (F : (b - a) mod 65536 = if y <? x then y - x + 65536 else y - x).
  1,3: rewrite E; destruct (y <? x) eqn:L; [symmetry; apply (Z.mod_unique _ _ (-1)); lia|apply Z.mod_small; lia].
  all: match goal with |- context [if ?c then _ else _] => destruct c eqn:G end; destruct (y <? x) eqn:L; lia.
Qed.

(** The route table *)
Lemma unlink_wf : forall w p r, rt_wf (w_rt w) -> find_ptr p w = Some r ->
  rt_wf (w_rt (unlink_route (rdest r) p w)).
Proof.
  intros w p r Wf F.
  destruct (unlink_spec w p r Wf F) as (A & l1 & l2 & B & E & ->). cbn [w_rt set_w_rt].
  assert (S : slot_wf (l1 ++ r :: l2)) by (eapply wf_slot; eauto; rewrite E; apply in_or_app; simpl; auto).
  destruct (l1 ++ l2) as [|h t] eqn:El.
  - cbn [app]. rewrite E in Wf. split.
    + pose proof (wf_slots _ Wf) as Fs. apply Forall_app in Fs. destruct Fs as (F1 & F2).
      inversion F2; subst. apply Forall_app. auto.
    + eapply sorted_remove. apply (wf_sorted _ Wf).
    + pose proof (wf_ptrs _ Wf) as N. rewrite concat_mid, !map_app in N. rewrite concat_app, map_app.
      apply app_eq_nil in El. destruct El as (-> & ->). cbn [app map] in N.
      apply NoDup_remove_1 in N. auto.
  - change ([h :: t] ++ B) with ((h :: t) :: B). rewrite <- El in *. rewrite E in Wf.
    assert (K : hd_key (l1 ++ l2) = hd_key (l1 ++ r :: l2)).
    { rewrite (slot_key _ r S) by (apply in_or_app; simpl; auto). unfold hd_key. f_equal.
      destruct (slot_rest _ _ _ S) as (_ & D & _). apply D. rewrite El. simpl. auto. }
    eapply replace_wf; [exact Wf| |exact K|].
    + destruct (slot_rest _ _ _ S) as (N & D & V). destruct S as (S1 & S2 & S3 & S4 & S5). repeat split.
      * rewrite El. discriminate.
      * intros x y Hx Hy. rewrite (D x), (D y); auto.
      * intros x Hx. rewrite (D x); auto.
      * simpl in N. inversion N; auto.
      * intros x Hx. destruct l1 as [|a l1']; cbn [app tl] in *.
        -- apply S5. destruct l2; [contradiction|]. simpl in *. auto.
        -- apply S5. apply in_app_or in Hx. apply in_or_app. simpl. tauto.
    + pose proof (wf_ptrs _ Wf) as N. rewrite concat_mid in *. rewrite !map_app in *. cbn [map] in N.
      rewrite <- !app_assoc in *. cbn [app] in N. rewrite app_assoc in N. apply NoDup_remove_1 in N.
      rewrite <- app_assoc in N. auto.
Qed.
Lemma insert_wf : forall w r, rt_wf (w_rt w) -> (forall x, In x (all_routes w) -> r_ptr x < r_ptr r) ->
  r_installed r = false -> dvalid (dest_of r) ->
  (forall r', In r' (all_routes w) -> dest_of r' = dest_of r -> r_neigh r' <> r_neigh r) ->
  rt_wf (w_rt (insert_route r w)).
Proof.
  intros w r Wf P I V U.
  assert (Np : ~ In (r_ptr r) (map r_ptr (all_routes w))).
  { intro H. apply in_map_iff in H. destruct H as (x & E & Hx). apply P in Hx. lia. }
  unfold insert_route.
  destruct (find_route_slot (rdest r) w) as [i|n] eqn:F; cbn [w_rt set_w_rt].
  - destruct (find_route_slot_found _ w i Wf F) as (A & l & B & E & -> & K).
    rewrite Nat2Z.id, E, nth_middle', upd_middle.
    assert (S : slot_wf l) by (eapply wf_slot; eauto; rewrite E; apply in_or_app; simpl; auto).
    assert (D : forall x, In x l -> dest_of x = dest_of r).
    { intros x Hx. apply ckey_inj; auto; [apply S; auto|]. rewrite <- (slot_key l x); auto. }
    assert (Perm : Permutation (concat (A ++ (l ++ [r]) :: B)) (r :: all_routes w)).
    { unfold all_routes. rewrite E, !concat_mid.
      replace (concat A ++ (l ++ [r]) ++ concat B) with ((concat A ++ l) ++ r :: concat B)
        by (rewrite <- !app_assoc; reflexivity).
      rewrite app_assoc. symmetry. apply Permutation_middle. }
    apply replace_wf with (l := l); [rewrite <- E; auto| | |].
    + destruct S as (S1 & S2 & S3 & S4 & S5). repeat split.
      * intro H. apply app_eq_nil in H. destruct H; discriminate.
      * assert (G : forall z, In z (l ++ [r]) -> dest_of z = dest_of r).
        { intros z Hz. apply in_app_or in Hz. simpl in Hz. destruct Hz as [Hz|[<-|[]]]; auto. }
        intros x y Hx Hy. rewrite (G x), (G y); auto.
      * intros x Hx. apply in_app_or in Hx. simpl in Hx. destruct Hx as [Hx|[<-|[]]]; auto.
      * rewrite map_app. simpl. eapply Permutation_NoDup; [apply Permutation_cons_append|].
        constructor; auto. intro H. apply in_map_iff in H. destruct H as (x & Ex & Hx).
        apply (U x); auto. unfold all_routes. rewrite E, concat_mid. rewrite !in_app_iff. auto.
      * intros x Hx. destruct l as [|h t]; [contradiction|]. simpl in *.
        apply in_app_or in Hx. simpl in Hx. destruct Hx as [Hx|[<-|[]]]; auto.
    + destruct (slot_hd l S) as (h & t & ->). reflexivity.
    + eapply Permutation_NoDup; [apply Permutation_map; symmetry; exact Perm|].
      simpl. constructor; auto. apply (wf_ptrs _ Wf).
  - destruct (find_route_slot_notfound _ w n Wf F) as (Bn & N & S).
    destruct (split_at _ n (w_rt w) Bn) as (A & B & E & En).
    assert (Ei : insert_at n [r] (w_rt w) = A ++ [r] :: B) by (rewrite E, En; apply insert_at_split).
    assert (Perm : Permutation (concat (insert_at n [r] (w_rt w))) (r :: all_routes w)).
    { unfold all_routes. rewrite Ei, E, concat_mid, concat_app. simpl. symmetry. apply Permutation_middle. }
    split.
    + rewrite Ei. pose proof (wf_slots _ Wf) as Fs. rewrite E in Fs. apply Forall_app in Fs.
      destruct Fs as (F1 & F2). apply Forall_app. split; auto. constructor; auto.
      repeat split; simpl.
      * discriminate.
      * intros x y [<-|[]] [<-|[]]. auto.
      * intros x [<-|[]]. auto.
      * constructor; auto. constructor.
      * contradiction.
    + apply S. reflexivity.
    + eapply Permutation_NoDup; [apply Permutation_map; symmetry; exact Perm|].
      simpl. constructor; auto. apply (wf_ptrs _ Wf).
Qed.

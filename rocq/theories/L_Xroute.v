(** L_Xroute.v: redistributed routes. *)
From Verif Require Import Base M_Util S_Util L_Util M_Slot L_Slot M_Source S_Source L_Source
  M_Filter M_Types M_Neigh M_State M_Table M_Msg M_Route M_Xroute S_World L_Table L_Step L_Msg L_Smooth L_Quiet
  L_Select L_Select2 L_Chain L_Chain2 L_Chain3 L_Flush L_Update L_Update2.
From Coq Require Import Permutation Sorting.Sorted.

(** ** The order on destinations *)
Lemma dest_compare_0 : forall a b, dest_compare a b = 0 -> a = b.
Proof.
  intros [p l s m] [p' l' s' m']. unfold dest_compare. cbn [d_prefix d_plen d_src d_splen].
  rewrite !andthen_0, !memcmp_0, !zcmp_0. intuition congruence.
Qed.
Lemma dest_compare_refl : forall a, dest_compare a a = 0.
Proof. intros. unfold dest_compare. rewrite !andthen_0, !memcmp_0, !zcmp_0. auto. Qed.
Lemma dest_compare_neg : forall a b, dest_compare b a = - dest_compare a b.
Proof. intros. unfold dest_compare. repeat apply andthen_anti; auto using memcmp_antisym, zcmp_anti. Qed.
Lemma dest_compare_anti : forall a b, dest_compare a b < 0 <-> dest_compare b a > 0.
Proof. intros. rewrite (dest_compare_neg a b). lia. Qed.
Lemma dest_compare_trans : forall a b c,
  dest_compare a b < 0 -> dest_compare b c < 0 -> dest_compare a c < 0.
Proof.
  unfold dest_compare.
  apply (andthen_trans (fun a b => zcmp (d_plen a) (d_plen b))
    (fun a b => andthen (memcmp (d_prefix a) (d_prefix b)) _));
    eauto using zcmp_trans, zcmp_eq_l, zcmp_eq_r.
  apply (andthen_trans (fun a b => memcmp (d_prefix a) (d_prefix b))
    (fun a b => andthen (zcmp (d_splen a) (d_splen b)) _));
    eauto using memcmp_trans_lt, memcmp_eq_l, memcmp_eq_r.
  apply (andthen_trans (fun a b => zcmp (d_splen a) (d_splen b))
    (fun a b => memcmp (d_src a) (d_src b)));
    eauto using zcmp_trans, zcmp_eq_l, zcmp_eq_r.
  intros. eapply memcmp_trans_lt; eauto.
Qed.

Lemma xslot_found : forall d w i, xsorted (w_xr w) -> find_xroute_slot d w = Found i ->
  exists A x B, w_xr w = A ++ x :: B /\ i = Z.of_nat (length A) /\ x_dest x = d.
Proof.
  intros d w i S F. unfold find_xroute_slot in F.
  eapply (find_key_found dest_compare) in F;
    eauto using dest_compare_0, dest_compare_refl, dest_compare_anti, dest_compare_trans.
Qed.
Lemma xslot_notfound : forall d w n, xsorted (w_xr w) -> find_xroute_slot d w = NotFound n ->
  (0 <= n <= Z.of_nat (length (w_xr w))) /\ (forall x, In x (w_xr w) -> x_dest x <> d) /\
  (forall x, x_dest x = d -> xsorted (insert_at n x (w_xr w))).
Proof.
  intros d w i S F. unfold find_xroute_slot in F.
  eapply (find_key_notfound dest_compare) in F;
    eauto using dest_compare_0, dest_compare_refl, dest_compare_anti, dest_compare_trans.
Qed.
Lemma xsorted_remove : forall A x B, xsorted (A ++ x :: B) -> xsorted (A ++ B).
Proof.
  intros A x B S. apply sorted_app_iff in S. destruct S as (S1 & S2 & C). apply sorted_cons_iff in S2.
  destruct S2 as (S2 & _). apply sorted_app_iff. repeat split; auto. intros; apply C; simpl; auto.
Qed.
Lemma xsorted_keys : forall l l', map x_dest l' = map x_dest l -> xsorted l -> xsorted l'.
Proof. intros. eapply ksorted_keys; eauto. Qed.
Lemma xsorted_inj : forall l x y, xsorted l -> In x l -> In y l -> x_dest x = x_dest y -> x = y.
Proof. intros. eapply (sorted_key_inj dest_compare); eauto using dest_compare_refl. Qed.

(** ** Chains *)
Lemma install_any : forall e w p r, W e w -> find_ptr p w = Some r -> feasible r w = true ->
  quiet e w (install_route p w).
Proof.
  intros e w p r Hw F Fe. destruct (r_installed r) eqn:I.
  - unfold install_route. rewrite F, I. apply quiet_refl.
  - destruct (find_installed (rdest r) w) as [h|] eqn:Fi; [|eapply install_chain; eauto].
    unfold install_route. rewrite F, I. unfold find_installed in Fi.
    destruct (slot_of (rdest r) w) as [|h' t] eqn:E; [discriminate|].
    destruct (r_installed h') eqn:Ih; [|discriminate].
    assert (r_ptr h' =? p = false) as ->; [|cbn; apply quiet_refl].
    destruct (r_ptr h' =? p) eqn:Ep; auto. exfalso.
    assert (find_ptr p w = Some h').
    { apply find_ptr_iff; [apply (W_rt _ _ Hw)|]. split; [|lia]. apply (slot_In w (rdest r)); [apply (W_rt _ _ Hw)|].
      rewrite E. simpl. auto. }
    congruence.
Qed.

Lemma flush_xroute_chain : forall e w i b, W e w -> (i < length (w_xr w))%nat -> chain e w (flush_xroute i b w).
Proof.
  intros e w i b Hw L. unfold flush_xroute. destruct (nth_error (w_xr w) i) as [x|] eqn:N.
  2:{ apply nth_error_None in N. lia. }
  destruct (w_xr w) as [|x0 xs] eqn:Ex; [cbn in L; lia|]. rewrite <- Ex in *. clear Ex.
  set (d := mkDest _ _ _ _). set (w1 := set_w_xr _ w).
  assert (C1 : chain e w w1).
  { eapply chain_step. apply nth_error_split in N. destruct N as (A & B & E & <-). apply S_xr.
    - rewrite E, remove_at_split. apply (xsorted_remove A x B). rewrite <- E. apply (W_xr _ _ Hw).
    - intros y Hy. left. apply in_map. rewrite E, remove_at_split in Hy. rewrite E. apply in_app_or in Hy.
      apply in_or_app. simpl. tauto. }
  pose proof (chain_W _ _ _ C1 Hw) as Hw1.
  destruct (find_best_route d true None w1) as [q w2] eqn:Fb.
  destruct (find_best_chain true None e w1 d q w2 Hw1 Fb) as (Q2 & _ & Hq).
  pose proof (quiet_W _ _ _ Q2 Hw1) as Hw2.
  assert (R2 : refs w2) by (eapply W_refs; eauto).
  eapply chain_trans; [exact C1|]. apply quiet_chain. eapply quiet_trans; [exact Q2|].
  assert (X : quiet e w2 (if b then send_update_resend d w2 else w2)).
  { destruct b; [|apply quiet_refl]. apply quiet_frame. apply send_update_resend_frame. auto. }
  destruct q as [q|]; [|exact X]. destruct Hq as (r & Fq & _). rewrite Fq.
  destruct (_ && feasible r w2) eqn:Fe; [|exact X]. apply andb_prop in Fe. destruct Fe as (_ & Fe).
  pose proof (install_any e w2 q r Hw2 Fq Fe) as Q3. destruct b; [|exact Q3].
  eapply quiet_trans; [exact Q3|]. apply quiet_frame. apply send_update_all_frame.
  eapply W_refs. eapply quiet_W; eauto.
Qed.

Lemma modify_xroute_chain : forall e w i k b, W e w -> (i < length (w_xr w))%nat -> chain e w (modify_xroute i k b w).
Proof.
  intros e w i k b Hw L. unfold modify_xroute. destruct (nth_error (w_xr w) i) as [x|] eqn:N.
  2:{ apply nth_error_None in N. lia. }
  destruct (_ || _); [|apply chain_refl]. set (x' := set_x_metric _ _).
  assert (C1 : chain e w (set_w_xr (upd i x' (w_xr w)) w)).
  { eapply chain_step. apply nth_error_split in N. destruct N as (A & B & E & <-).
    assert (Em : map x_dest (upd (length A) x' (w_xr w)) = map x_dest (w_xr w)).
    { rewrite E, upd_middle, !map_app. reflexivity. }
    apply S_xr.
    - apply xsorted_keys with (l := w_xr w); auto. apply (W_xr _ _ Hw).
    - intros y Hy. left. rewrite <- Em. apply in_map. auto. }
  destruct b; [|exact C1]. eapply chain_trans; [exact C1|]. apply quiet_chain, quiet_frame.
  apply send_update_all_frame. eapply W_refs. eapply chain_W; eauto.
Qed.

Lemma add_xroute_chain : forall e w d m i p ok w1, W e w ->
  martian_prefix (d_prefix d) (d_plen d) = false -> add_xroute d m i p w = (ok, w1) -> chain e w w1.
Proof.
  intros e w d m i p ok w1 Hw Hm H. unfold add_xroute in H. destruct (find_xroute_slot d w) as [j|n] eqn:F.
  - injection H as _ <-. apply chain_refl.
  - injection H as _ <-. eapply chain_step. destruct (xslot_notfound _ _ _ (W_xr _ _ Hw) F) as (_ & _ & S).
    apply S_xr; [apply S; reflexivity|]. intros x Hx. unfold insert_at in Hx. apply in_app_or in Hx.
    destruct Hx as [Hx|[<-|Hx]]; [left|right; exact Hm|left]; apply in_map;
      rewrite <- (firstn_skipn (Z.to_nat n) (w_xr w)); apply in_or_app; auto.
Qed.

Lemma flush_dup_chain : forall e w k, W e w -> quiet e w (flush_duplicate_route k w).
Proof.
  intros e w k Hw. unfold flush_duplicate_route. destruct (find_installed (kr_dest k) w) as [r|] eqn:F; [|apply quiet_refl].
  destruct (_ || _); [|apply quiet_refl]. apply find_installed_In in F. eapply uninstall_chain; eauto.
  apply find_ptr_iff; [apply (W_rt _ _ Hw)|]. split; [apply F|reflexivity].
Qed.

Lemma notify_chain : forall e w b k, W e w -> chain e w (kernel_route_notify b k w).
Proof.
  intros e w b k0 Hw. unfold kernel_route_notify. cbv zeta. set (k := filter_kroute w k0).
  destruct (_ >=? _); [apply chain_refl|]. destruct (find_xroute_slot (kr_dest k) w) as [i|n] eqn:F.
  - destruct (xslot_found _ _ _ (W_xr _ _ Hw) F) as (A & x & B & E & -> & _). rewrite Nat2Z.id.
    assert (length A < length (w_xr w))%nat by (rewrite E, app_length; cbn; lia).
    destruct b; [apply modify_xroute_chain|apply flush_xroute_chain]; auto.
  - destruct (negb b); [apply chain_refl|]. destruct (martian_prefix _ _) eqn:Hm; [apply chain_refl|].
    destruct (add_xroute _ _ _ _ _) as [ok w1] eqn:A. pose proof (add_xroute_chain _ _ _ _ _ _ _ _ Hw Hm A) as C.
    pose proof (chain_W _ _ _ C Hw) as Hw1. destruct ok; [|exact C].
    eapply chain_trans; [exact C|]. pose proof (flush_dup_chain e w1 k Hw1) as Q. apply quiet_chain.
    eapply quiet_trans; [exact Q|]. apply quiet_frame, send_update_all_frame. eapply W_refs. eapply quiet_W; eauto.
Qed.

Lemma merge_chain : forall fuel e rs j b w, W e w -> chain e w (merge fuel rs j b w).
Proof.
  induction fuel as [|f IH]; intros e rs j b w Hw; cbn [merge].
  - eapply chain_step. apply S_nofuel.
  - destruct rs as [|k rs].
    + destruct (j <? length (w_xr w))%nat eqn:L; [|apply chain_refl].
      apply Nat.ltb_lt in L. pose proof (flush_xroute_chain e w j b Hw L) as C.
      eapply chain_trans; [exact C|]. apply IH. eapply chain_W; eauto.
    + destruct (_ >=? _); [apply IH; auto|].
      assert (Add : chain e w
        (if negb (martian_prefix (d_prefix (kr_dest k)) (d_plen (kr_dest k))) then
                let '(ok, w1) := add_xroute (kr_dest k) (kr_metric k) (kr_ifindex k) (kr_proto k) w in
                if ok then
                  let w2 := flush_duplicate_route k w1 in
                  let w3 := if b then send_update_all false (kr_dest k) w2 else w2 in
                  merge f rs (S j) b w3
                else merge f rs j b w1
              else merge f rs j b w)).
      { destruct (martian_prefix _ _) eqn:Hm; cbn [negb]; [apply IH; auto|].
        destruct (add_xroute _ _ _ _ _) as [ok w1] eqn:A. pose proof (add_xroute_chain _ _ _ _ _ _ _ _ Hw Hm A) as C.
        pose proof (chain_W _ _ _ C Hw) as Hw1. eapply chain_trans; [exact C|]. destruct ok; [|apply IH; auto].
        cbv zeta. pose proof (flush_dup_chain e w1 k Hw1) as Q. pose proof (quiet_W _ _ _ Q Hw1) as Hw2.
        eapply chain_trans; [apply quiet_chain; exact Q|].
        set (w3 := if b then _ else _).
        assert (Q3 : quiet e (flush_duplicate_route k w1) w3).
        { unfold w3. destruct b; [|apply quiet_refl]. apply quiet_frame, send_update_all_frame. eapply W_refs; eauto. }
        eapply chain_trans; [apply quiet_chain; exact Q3|]. apply IH. eapply quiet_W; eauto. }
      destruct (nth_error (w_xr w) j) as [x|] eqn:N; [|exact Add].
      assert (L : (j < length (w_xr w))%nat) by (apply nth_error_Some; congruence).
      cbv zeta. destruct (_ <? 0); [exact Add|]. destruct (_ >? 0).
      * pose proof (flush_xroute_chain e w j b Hw L) as C.
        eapply chain_trans; [exact C|]. apply IH. eapply chain_W; eauto.
      * pose proof (modify_xroute_chain e w j k b Hw L) as C.
        eapply chain_trans; [exact C|]. apply IH. eapply chain_W; eauto.
Qed.
Lemma check_xroutes_chain : forall e w a r b, W e w -> chain e w (check_xroutes a r b w).
Proof. intros. apply merge_chain. auto. Qed.

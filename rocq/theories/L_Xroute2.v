(** L_Xroute2.v: the table of redistributed routes after a dump or a notification. *)
From Verif Require Import Base M_Util S_Util L_Util M_Slot L_Slot M_Source S_Source L_Source
  M_Filter M_Types M_Neigh M_State M_Table M_Msg M_Route M_Xroute S_World S_Xroute L_Table L_Step L_Msg L_Smooth L_Quiet
  L_Select L_Select2 L_Chain L_Chain2 L_Chain3 L_Flush L_Update L_Update2 L_Xroute L_Daemon L_Inv L_World S_Send L_Send.
From Coq Require Import Permutation Sorting.Sorted.

(** ** The order *)
Lemma dest_compare_before : forall a b, dest_compare a b < 0 -> xr_before a b.
Proof.
  intros a b H. unfold dest_compare in H. unfold xr_before.
  apply andthen_lt in H. destruct H as [H|[E H]]; [left; apply zcmp_lt; auto|right]. apply (proj1 (zcmp_0 _ _)) in E. split; auto.
  apply andthen_lt in H. destruct H as [H|[E1 H]]; [left; apply memcmp_lt; auto|right]. apply (proj1 (memcmp_0 _ _)) in E1. split; auto.
  apply andthen_lt in H. destruct H as [H|[E2 H]]; [left; apply zcmp_lt; auto|right]. apply (proj1 (zcmp_0 _ _)) in E2. split; auto.
  apply memcmp_lt; auto.
Qed.
Lemma dest_compare_le_trans : forall a b c, dest_compare a b <= 0 -> dest_compare b c <= 0 -> dest_compare a c <= 0.
Proof.
  intros a b c H1 H2. destruct (Z.eq_dec (dest_compare a b) 0) as [E|E]; [apply dest_compare_0 in E; subst; auto|].
  destruct (Z.eq_dec (dest_compare b c) 0) as [E2|E2]; [apply dest_compare_0 in E2; subst; auto|].
  pose proof (dest_compare_trans a b c). lia.
Qed.

(** ** Effects on the table *)
Lemma flush_xroute_xr : forall e w i b x, W e w -> nth_error (w_xr w) i = Some x ->
  w_xr (flush_xroute i b w) = remove_at (Z.of_nat i) (w_xr w) /\ w_fuel (flush_xroute i b w) = w_fuel w.
Proof.
  intros e w i b x Hw N. unfold flush_xroute. rewrite N.
  destruct (w_xr w) as [|x0 xs] eqn:Ex; [destruct i; discriminate N|]. rewrite <- Ex in *. clear Ex.
  set (d := mkDest _ _ _ _). set (w1 := set_w_xr _ w).
  assert (C1 : chain e w w1).
  { eapply chain_step. apply nth_error_split in N. destruct N as (A & B & E & <-). apply S_xr.
    - rewrite E, remove_at_split. apply (xsorted_remove A x B). rewrite <- E. apply (W_xr _ _ Hw).
    - intros y Hy. left. apply in_map. rewrite E, remove_at_split in Hy. rewrite E. apply in_app_or in Hy.
      apply in_or_app. simpl. tauto. }
  pose proof (chain_W _ _ _ C1 Hw) as Hw1.
  destruct (find_best_route d true None w1) as [q w2] eqn:Fb.
  destruct (find_best_chain true None e w1 d q w2 Hw1 Fb) as (Q2 & _ & Hq).
  pose proof (quiet_W _ _ _ Q2 Hw1) as Hw2.
  assert (R2 : refs w2) by (eapply W_refs; eauto).
  assert (G : forall w3, quiet e w2 w3 -> w_xr w3 = remove_at (Z.of_nat i) (w_xr w) /\ w_fuel w3 = w_fuel w).
  { intros w3 Q3. pose proof (quiet_same _ _ _ Q2) as S2. pose proof (quiet_same _ _ _ Q3) as S3.
    rewrite (q_xr _ _ S3), (q_xr _ _ S2), (q_fuel _ _ S3), (q_fuel _ _ S2). auto. }
  assert (X : quiet e w2 (if b then send_update_resend d w2 else w2)).
  { destruct b; [|apply quiet_refl]. apply quiet_frame. apply send_update_resend_frame. auto. }
  destruct q as [q|]; [|apply G; exact X]. destruct Hq as (r & Fq & _). rewrite Fq.
  destruct (_ && feasible r w2) eqn:Fe; [|apply G; exact X]. apply andb_prop in Fe. destruct Fe as (_ & Fe).
  pose proof (install_any e w2 q r Hw2 Fq Fe) as Q3. destruct b; [|apply G; exact Q3].
  apply G. eapply quiet_trans; [exact Q3|]. apply quiet_frame. apply send_update_all_frame.
  eapply W_refs. eapply quiet_W; eauto.
Qed.

Definition matches (k : kroute) (x : xroute) : Prop :=
  x_dest x = kr_dest k /\ x_metric x = kr_metric k /\ x_proto x = kr_proto k.

Lemma modify_xroute_xr : forall e w A x B k b, W e w -> w_xr w = A ++ x :: B -> x_dest x = kr_dest k -> u16_ok (kr_metric k) ->
  exists x', w_xr (modify_xroute (length A) k b w) = A ++ x' :: B /\ matches k x' /\ x_ifindex x' = x_ifindex x /\
    w_fuel (modify_xroute (length A) k b w) = w_fuel w.
Proof.
  intros e w A x B k b Hw E D U. unfold modify_xroute.
  assert (N : nth_error (w_xr w) (length A) = Some x) by (rewrite E, nth_error_app2, Nat.sub_diag by lia; reflexivity).
  rewrite N. destruct (negb (x_metric x =? kr_metric k) || negb (x_proto x =? kr_proto k)) eqn:C.
  2:{ exists x. apply orb_false_iff in C. destruct C as (C1 & C2). rewrite negb_false_iff in C1, C2.
      split; auto. split; [split; auto; split; lia|auto]. }
  set (x' := set_x_metric _ _). exists x'.
  assert (Em : w_xr (set_w_xr (upd (length A) x' (w_xr w)) w) = A ++ x' :: B) by (cbn [w_xr set_w_xr]; rewrite E, upd_middle; auto).
  assert (Mx : matches k x').
  { split; [exact D|]. split; [|reflexivity]. cbn [x' x_metric set_x_metric]. apply Z.mod_small. unfold u16_ok in U. lia. }
  destruct b; [|auto].
  assert (Fr : frame (set_w_xr (upd (length A) x' (w_xr w)) w)
                 (send_update_all false (x_dest x) (set_w_xr (upd (length A) x' (w_xr w)) w))).
  { apply send_update_all_frame. eapply W_refs with (e := e). eapply chain_W; [|exact Hw].
    eapply chain_step. apply S_xr.
    - rewrite E, upd_middle. apply xsorted_keys with (l := w_xr w); [rewrite E, !map_app; reflexivity|apply (W_xr _ _ Hw)].
    - intros y Hy. left. rewrite E, upd_middle in Hy. apply (in_map x_dest) in Hy. rewrite map_app in Hy. rewrite E, map_app. exact Hy. }
  rewrite (f_xr _ _ Fr), (f_fuel _ _ Fr). auto.
Qed.

Lemma add_xroute_xr : forall w d m i p, xsorted (w_xr w) ->
  (exists x, In x (w_xr w) /\ x_dest x = d /\ add_xroute d m i p w = (false, w)) \/
  (exists A B, w_xr w = A ++ B /\ (forall x, In x A -> dest_compare (x_dest x) d < 0) /\
     (forall x, In x B -> dest_compare d (x_dest x) < 0) /\
     add_xroute d m i p w = (true, set_w_xr (A ++ mkXr d (u16 m) i p :: B) w)).
Proof.
  intros w d m i p So. unfold add_xroute. destruct (find_xroute_slot d w) as [j|n] eqn:F.
  - left. destruct (xslot_found _ _ _ So F) as (A & x & B & E & _ & D). exists x. split; [rewrite E; apply in_or_app; simpl; auto|auto].
  - right. destruct (xslot_notfound _ _ _ So F) as (R & _ & S'). destruct (split_at _ n (w_xr w) R) as (A & B & E & ->).
    exists A, B. specialize (S' (mkXr d (u16 m) i p) eq_refl). rewrite E, insert_at_split in S' |- *.
    apply sorted_app_iff in S'. destruct S' as (_ & S2 & S3). apply sorted_cons_iff in S2. destruct S2 as (_ & S2).
    split; auto. split; [|split; auto].
    + intros x Hx. apply (S3 x (mkXr d (u16 m) i p) Hx). left. auto.
Qed.

Lemma app_split_eq : forall (A B A' B' : list xroute), A ++ B = A' ++ B' -> length A = length A' -> A = A' /\ B = B'.
Proof.
  induction A as [|a A IH]; intros B [|a' A'] B' E L; cbn in *; try lia; auto.
  injection E as -> E. destruct (IH B A' B' E) as (-> & ->); auto.
Qed.

(** ** The merge *)
Definition krsorted (rs : list kroute) : Prop :=
  StronglySorted (fun a b => dest_compare (kr_dest a) (kr_dest b) <= 0) rs.

Lemma merge_spec : forall fuel rs P Q b w, W [] w -> w_xr w = P ++ Q ->
  (length rs + length Q < fuel)%nat -> krsorted rs ->
  (forall k, In k rs -> 0 <= kr_metric k) ->
  (forall x k, In x P -> In k rs -> dest_compare (x_dest x) (kr_dest k) <= 0) ->
  let w' := merge fuel rs (length P) b w in
  w_fuel w' = w_fuel w /\
  (forall x, In x P -> In x (w_xr w')) /\
  (forall x, In x (w_xr w') -> In x P \/ exists k, In k rs /\ kr_metric k < 65535 /\ matches k x) /\
  (forall k, In k rs -> kr_metric k < 65535 -> ~ martian (kr_dest k) -> In (kr_dest k) (map x_dest (w_xr w'))).
Proof.
  induction fuel as [|f IH]; intros rs P Q b w Hw E L So Nn Le; [lia|]. cbv zeta. cbn [merge].
  assert (Flush : forall x Q', Q = x :: Q' -> let w1 := flush_xroute (length P) b w in
    W [] w1 /\ w_xr w1 = P ++ Q' /\ w_fuel w1 = w_fuel w).
  { intros x Q' ->. cbv zeta. assert (N : nth_error (w_xr w) (length P) = Some x)
      by (rewrite E, nth_error_app2, Nat.sub_diag by lia; reflexivity).
    destruct (flush_xroute_xr [] w (length P) b x Hw N) as (E1 & E2). rewrite E1, E, remove_at_split.
    split; [|auto]. eapply chain_W; [|exact Hw]. apply flush_xroute_chain; auto. apply nth_error_Some. congruence. }
  destruct rs as [|k rs].
  - destruct Q as [|x Q].
    + assert ((length P <? length (w_xr w))%nat = false) as -> by (rewrite E, app_nil_r; apply Nat.ltb_irrefl).
      rewrite E, app_nil_r. split; auto. split; auto. split; [auto|]. intros k [].
    + assert ((length P <? length (w_xr w))%nat = true) as -> by (rewrite E, app_length; apply Nat.ltb_lt; cbn [length]; lia).
      destruct (Flush x Q eq_refl) as (H1 & H2 & H3). rewrite <- H3.
      apply (IH [] P Q b _ H1 H2); auto. cbn [length] in *. lia.
  - inversion So as [|? ? So' Hd]; subst. rewrite Forall_forall in Hd.
    assert (Nn' : forall k0, In k0 rs -> 0 <= kr_metric k0) by (intros; apply Nn; simpl; auto).
    assert (Le' : forall x k0, In x P -> In k0 rs -> dest_compare (x_dest x) (kr_dest k0) <= 0) by (intros; apply Le; simpl; auto).
    destruct (kr_metric k >=? INFINITY) eqn:Inf.
    { destruct (IH rs P Q b w Hw E ltac:(cbn [length] in L; lia) So' Nn' Le') as (I1 & I2 & I3 & I4).
      split; auto. split; auto. split.
      - intros x Hx. destruct (I3 x Hx) as [Hp|(k0 & Hk & R)]; [auto|right; exists k0; simpl; auto].
      - intros k0 [<-|Hk]; [unfold INFINITY in Inf; lia|auto]. }
    assert (Km : 0 <= kr_metric k < 65535) by (pose proof (Nn k (or_introl eq_refl)); unfold INFINITY in Inf; lia).
    assert (Add : (forall x, In x Q -> dest_compare (kr_dest k) (x_dest x) < 0) ->
      let w' := if negb (martian_prefix (d_prefix (kr_dest k)) (d_plen (kr_dest k))) then
                let '(ok, w1) := add_xroute (kr_dest k) (kr_metric k) (kr_ifindex k) (kr_proto k) w in
                if ok then
                  let w2 := flush_duplicate_route k w1 in
                  let w3 := if b then send_update_all false (kr_dest k) w2 else w2 in
                  merge f rs (S (length P)) b w3
                else merge f rs (length P) b w1
              else merge f rs (length P) b w in
      w_fuel w' = w_fuel w /\
      (forall x, In x P -> In x (w_xr w')) /\
      (forall x, In x (w_xr w') -> In x P \/ exists k0, In k0 (k :: rs) /\ kr_metric k0 < 65535 /\ matches k0 x) /\
      (forall k0, In k0 (k :: rs) -> kr_metric k0 < 65535 -> ~ martian (kr_dest k0) -> In (kr_dest k0) (map x_dest (w_xr w')))).
    { intros Lt. cbv zeta.
      assert (Keep : ((exists x, In x P /\ x_dest x = kr_dest k) \/ martian (kr_dest k)) ->
        w_fuel (merge f rs (length P) b w) = w_fuel w /\
        (forall x, In x P -> In x (w_xr (merge f rs (length P) b w))) /\
        (forall x, In x (w_xr (merge f rs (length P) b w)) -> In x P \/ exists k0, In k0 (k :: rs) /\ kr_metric k0 < 65535 /\ matches k0 x) /\
        (forall k0, In k0 (k :: rs) -> kr_metric k0 < 65535 -> ~ martian (kr_dest k0) -> In (kr_dest k0) (map x_dest (w_xr (merge f rs (length P) b w))))).
      { intros Hk. destruct (IH rs P Q b w Hw E ltac:(cbn [length] in L; lia) So' Nn' Le') as (I1 & I2 & I3 & I4).
        split; auto. split; auto. split.
        - intros x Hx. destruct (I3 x Hx) as [Hp|(k0 & Hk0 & R)]; [auto|right; exists k0; simpl; auto].
        - intros k0 [<-|Hk0] Lm Nm; [|auto]. destruct Hk as [(x & Hx & Dx)|Hk]; [|tauto].
          rewrite <- Dx. apply in_map. auto. }
      destruct (martian_prefix (d_prefix (kr_dest k)) (d_plen (kr_dest k))) eqn:Hm; cbn [negb]; [apply Keep; right; exact Hm|].
      destruct (add_xroute_xr w (kr_dest k) (kr_metric k) (kr_ifindex k) (kr_proto k) (W_xr _ _ Hw))
        as [(x & Hx & Dx & Ea)|(A & B & Eab & LA & LB & Ea)].
      - rewrite Ea. apply Keep. left. exists x. split; auto. rewrite E in Hx. apply in_app_or in Hx. destruct Hx as [Hx|Hx]; auto.
        specialize (Lt x Hx). rewrite Dx, dest_compare_refl in Lt. lia.
      - pose proof (add_xroute_chain [] w _ _ _ _ _ _ Hw Hm Ea) as C1. pose proof (chain_W _ _ _ C1 Hw) as Hw1.
        rewrite Ea. set (nx := mkXr _ _ _ _) in *. set (w1 := set_w_xr _ w) in *.
        assert (A = P /\ B = Q) as (-> & ->).
        { apply app_split_eq; [congruence|].
          assert (EE : A ++ B = P ++ Q) by congruence.
          destruct (Nat.lt_trichotomy (length A) (length P)) as [Hl|[Hl|Hl]]; auto; exfalso.
          - destruct (nth_error P (length A)) as [x|] eqn:Nx; [|apply nth_error_None in Nx; lia].
            assert (Nb : nth_error (A ++ B) (length A) = Some x) by (rewrite EE, nth_error_app1; auto).
            rewrite nth_error_app2, Nat.sub_diag in Nb by lia. apply nth_error_In in Nb, Nx.
            specialize (LB x Nb). specialize (Le x k Nx (or_introl eq_refl)). rewrite dest_compare_neg in Le. lia.
          - destruct (nth_error A (length P)) as [x|] eqn:Nx; [|apply nth_error_None in Nx; lia].
            assert (Nb : nth_error (P ++ Q) (length P) = Some x) by (rewrite <- EE, nth_error_app1; auto).
            rewrite nth_error_app2, Nat.sub_diag in Nb by lia. apply nth_error_In in Nb, Nx.
            specialize (LA x Nx). specialize (Lt x Nb). rewrite dest_compare_neg in LA. lia. }
        pose proof (flush_dup_chain [] w1 k Hw1) as Q1. pose proof (quiet_W _ _ _ Q1 Hw1) as Hw2.
        cbv zeta. set (w2 := flush_duplicate_route k w1) in *. set (w3 := if b then _ else _).
        assert (Q3 : quiet [] w2 w3).
        { unfold w3. destruct b; [|apply quiet_refl]. apply quiet_frame, send_update_all_frame. eapply W_refs; eauto. }
        pose proof (quiet_W _ _ _ Q3 Hw2) as Hw3. pose proof (quiet_same _ _ _ Q1) as S1. pose proof (quiet_same _ _ _ Q3) as S3.
        assert (E3 : w_xr w3 = (P ++ [nx]) ++ Q) by (rewrite (q_xr _ _ S3), (q_xr _ _ S1); rewrite <- app_assoc; reflexivity).
        assert (F3 : w_fuel w3 = w_fuel w) by (rewrite (q_fuel _ _ S3), (q_fuel _ _ S1); reflexivity).
        assert (Mx : matches k nx).
        { split; [reflexivity|]. split; [|reflexivity]. cbn [nx x_metric]. apply Z.mod_small. lia. }
        replace (S (length P)) with (length (P ++ [nx])) by (rewrite app_length; cbn; lia).
        destruct (IH rs (P ++ [nx]) Q b w3 Hw3 E3 ltac:(cbn [length] in L; lia) So' Nn') as (I1 & I2 & I3 & I4).
        { intros x k0 Hx Hk0. apply in_app_or in Hx. destruct Hx as [Hx|[<-|[]]]; [auto|apply Hd; auto]. }
        split; [congruence|]. split; [intros; apply I2; apply in_or_app; auto|]. split.
        + intros x Hx. destruct (I3 x Hx) as [Hp|(k0 & Hk0 & R)]; [|right; exists k0; simpl; auto].
          apply in_app_or in Hp. destruct Hp as [Hp|[<-|[]]]; auto. right. exists k. simpl. split; auto. split; auto. lia.
        + intros k0 [<-|Hk0] Lm Nm; [|auto]. change (kr_dest k) with (x_dest nx). apply in_map. apply I2. apply in_or_app. simpl. auto. }
    destruct Q as [|x Q].
    + assert (nth_error (w_xr w) (length P) = None) as -> by (apply nth_error_None; rewrite E, app_nil_r; lia).
      apply Add. intros x [].
    + assert (nth_error (w_xr w) (length P) = Some x) as -> by (rewrite E, nth_error_app2, Nat.sub_diag by lia; reflexivity).
      pose proof (W_xr _ _ Hw) as Sx. rewrite E in Sx. apply sorted_app_iff in Sx. destruct Sx as (_ & Sx & _).
      apply sorted_cons_iff in Sx. destruct Sx as (_ & Sx).
      cbv zeta. destruct (dest_compare (kr_dest k) (x_dest x) <? 0) eqn:C1.
      * apply Add. intros y [<-|Hy]; [lia|]. eapply dest_compare_trans; [|apply Sx; exact Hy]. lia.
      * destruct (dest_compare (kr_dest k) (x_dest x) >? 0) eqn:C2.
        -- destruct (Flush x Q eq_refl) as (H1 & H2 & H3). rewrite <- H3.
           apply (IH (k :: rs) P Q b _ H1 H2); auto. cbn [length] in *. lia.
        -- assert (D : x_dest x = kr_dest k) by (symmetry; apply dest_compare_0; lia).
           destruct (modify_xroute_xr [] w P x Q k b Hw E D ltac:(unfold u16_ok; lia)) as (x' & E1 & M1 & _ & F1).
           assert (Hw1 : W [] (modify_xroute (length P) k b w)).
           { eapply chain_W; [|exact Hw]. apply modify_xroute_chain; auto. rewrite E, app_length. cbn [length]. lia. }
           set (w1 := modify_xroute (length P) k b w) in *.
           replace (S (length P)) with (length (P ++ [x'])) by (rewrite app_length; cbn; lia).
           destruct (IH rs (P ++ [x']) Q b w1 Hw1 ltac:(rewrite E1, <- app_assoc; reflexivity) ltac:(cbn [length] in L; lia) So' Nn') as (I1 & I2 & I3 & I4).
           { intros y k0 Hy Hk0. apply in_app_or in Hy. destruct Hy as [Hy|[<-|[]]]; auto. rewrite (proj1 M1). apply Hd; auto. }
           split; [congruence|]. split; [intros; apply I2; apply in_or_app; auto|]. split.
           ++ intros y Hy. destruct (I3 y Hy) as [Hp|(k0 & Hk0 & R)]; [|right; exists k0; simpl; auto].
              apply in_app_or in Hp. destruct Hp as [Hp|[<-|[]]]; auto. right. exists k. simpl. split; auto. split; auto. lia.
           ++ intros k0 [<-|Hk0] Lm Nm; [|auto]. rewrite <- (proj1 M1). apply in_map. apply I2. apply in_or_app. simpl. auto.
Qed.

Lemma sorted_by_strong : forall l, sorted_by (fun a b => dest_compare (kr_dest a) (kr_dest b)) l -> krsorted l.
Proof. induction 1; constructor; auto. apply Forall_forall. auto. Qed.

Lemma filter_kroute_spec : forall w k,
  (kr_metric (filter_kroute w k) < 65535 -> accepted (w_cfg w) k (kr_dest (filter_kroute w k)) (kr_metric (filter_kroute w k))) /\
  (forall d m, accepted (w_cfg w) k d m -> d = kr_dest (filter_kroute w k) /\ m = kr_metric (filter_kroute w k)) /\
  0 <= kr_metric (filter_kroute w k) /\ kr_proto (filter_kroute w k) = kr_proto k /\ kr_ifindex (filter_kroute w k) = kr_ifindex k.
Proof.
  intros w k. unfold filter_kroute, accepted.
  destruct (redistribute_filter (c_redistfs (w_cfg w)) (kr_dest k) (kr_ifindex k) (kr_proto k)) as [m res] eqn:E.
  assert (M : 0 <= m).
  { unfold redistribute_filter in E. destruct (do_filter _ _ _ _ _ _) as [x y]. inversion E. destruct (x <? 0) eqn:X; unfold INFINITY; lia. }
  split; [|split; [|auto]].
  - cbn [kr_metric]. intros H. exists res. split; auto. split; auto. cbn [kr_dest].
    destruct (fr_src res) as [[p l]|]; cbn [d_prefix d_plen d_src d_splen]; auto.
  - intros d m' (res' & E' & _ & D1 & D2 & D3). inversion E'; subst m' res'. cbn [kr_dest kr_metric]. split; auto.
    destruct d as [p l s sl]. destruct (kr_dest k) as [p' l' s' sl']. cbn [d_prefix d_plen d_src d_splen] in *.
    destruct (fr_src res) as [[q ql]|]; destruct D3; cbn [d_prefix d_plen d_src d_splen]; congruence.
Qed.

Lemma linklocal_iff : forall a, in6_linklocal a = true <-> link_local a.
Proof.
  intros a. unfold in6_linklocal, link_local. rewrite andb_true_iff, !Z.eqb_eq.
  assert (H : Z.land (at_ a 1) 192 = 128 <-> Z.testbit (at_ a 1) 7 = true /\ Z.testbit (at_ a 1) 6 = false); [|tauto].
  set (x := at_ a 1). split.
  - intros E. pose proof (f_equal (fun z => Z.testbit z 7) E) as E7. pose proof (f_equal (fun z => Z.testbit z 6) E) as E6. cbv beta in E7, E6.
    rewrite Z.land_spec in E7, E6. change (Z.testbit 192 7) with true in E7. change (Z.testbit 128 7) with true in E7.
    change (Z.testbit 192 6) with true in E6. change (Z.testbit 128 6) with false in E6. rewrite andb_true_r in E7, E6. auto.
  - intros (E7 & E6). apply Z.bits_inj'. intros n Hn. rewrite Z.land_spec. change 192 with (Z.lor (2 ^ 7) (2 ^ 6)). change 128 with (2 ^ 7).
    rewrite Z.lor_spec, !Z.pow2_bits_eqb by lia. destruct (7 =? n) eqn:N7; destruct (6 =? n) eqn:N6; cbn [orb]; try (exfalso; lia); try apply andb_false_r.
    + replace n with 7 by lia. rewrite E7. auto.
    + replace n with 6 by lia. rewrite E6. auto.
Qed.

Lemma offered_iff : forall addrs routes k,
  In k (map addr_route (filter (fun a => negb (in6_linklocal (fst a))) addrs) ++ filter keep_route routes) <-> offered addrs routes k.
Proof.
  intros addrs routes k. rewrite in_app_iff, in_map_iff, filter_In. split.
  - intros [((a, ifx) & <- & Ha)|(H1 & H2)].
    + apply filter_In in Ha. destruct Ha as (Ha & L). cbn [fst] in L. rewrite negb_true_iff in L.
      assert (~ link_local a) by (rewrite <- linklocal_iff; congruence).
      unfold addr_route. cbn [fst snd]. destruct (v4mapped a) eqn:V; [eapply off_addr4|eapply off_addr6]; eauto.
    + unfold keep_route in H2. apply andb_prop in H2. rewrite !negb_true_iff in H2. destruct H2.
      apply off_route; auto. unfold martian. congruence.
  - intros [a ifx Ha L V|a ifx Ha L V|k' H1 H2 H3].
    + left. exists (a, ifx). unfold addr_route. cbn [fst snd]. rewrite V. split; auto. apply filter_In. split; auto. cbn [fst].
      rewrite <- linklocal_iff in L. destruct (in6_linklocal a); auto.
    + left. exists (a, ifx). unfold addr_route. cbn [fst snd]. rewrite V. split; auto. apply filter_In. split; auto. cbn [fst].
      rewrite <- linklocal_iff in L. destruct (in6_linklocal a); auto.
    + right. split; auto. unfold keep_route. unfold martian in H2. rewrite H3.
      destruct (martian_prefix (d_prefix (kr_dest k')) (d_plen (kr_dest k'))); auto.
Qed.

Lemma check_xroutes_spec : forall addrs routes b w, W [] w ->
  let w' := check_xroutes addrs routes b w in
  w_fuel w' = w_fuel w /\
  (forall x, In x (w_xr w') -> exists k, offered addrs routes k /\ accepted (w_cfg w) k (x_dest x) (x_metric x) /\ x_proto x = kr_proto k) /\
  (forall k d m, offered addrs routes k -> accepted (w_cfg w) k d m -> ~ martian d -> exists x, In x (w_xr w') /\ x_dest x = d).
Proof.
  intros addrs routes b w Hw. cbv zeta. unfold check_xroutes. cbv zeta.
  set (rs0 := map addr_route _ ++ filter keep_route routes). set (rs1 := map (filter_kroute w) rs0).
  set (rs := M_Msg.sort _ rs1).
  assert (P : Permutation rs rs1) by apply sort_perm.
  assert (So : krsorted rs).
  { apply sorted_by_strong. apply (sort_sorted _ (fun a b => dest_compare (kr_dest a) (kr_dest b))).
    - intros. apply dest_compare_neg.
    - intros a b' c. apply dest_compare_le_trans. }
  assert (In_rs : forall k, In k rs <-> exists k0, offered addrs routes k0 /\ k = filter_kroute w k0).
  { intros k. split.
    - intros H. apply (Permutation_in _ P) in H. unfold rs1 in H. apply in_map_iff in H. destruct H as (k0 & <- & H).
      exists k0. split; auto. apply offered_iff. exact H.
    - intros (k0 & H & ->). apply (Permutation_in _ (Permutation_sym P)). apply in_map. apply offered_iff. exact H. }
  destruct (merge_spec (S (length rs + length (w_xr w)) * 2) rs [] (w_xr w) b w Hw eq_refl ltac:(lia) So) as (I1 & _ & I3 & I4).
  { intros k Hk. apply In_rs in Hk. destruct Hk as (k0 & _ & ->). apply filter_kroute_spec. }
  { intros x k []. }
  split; [exact I1|]. split.
  - intros x Hx. destruct (I3 x Hx) as [[]|(k & Hk & Lt & (D & M & Pr))]. apply In_rs in Hk. destruct Hk as (k0 & O & ->).
    exists k0. split; auto. destruct (filter_kroute_spec w k0) as (F1 & _ & _ & F4 & _). rewrite D, M, Pr. split; auto.
  - intros k d m O Ac Nm. destruct (filter_kroute_spec w k) as (_ & F2 & _). destruct (F2 d m Ac) as (-> & ->).
    assert (Lt : kr_metric (filter_kroute w k) < 65535) by (destruct Ac as (? & ? & ? & _); auto).
    specialize (I4 (filter_kroute w k) (proj2 (In_rs _) (ex_intro _ k (conj O eq_refl))) Lt Nm).
    apply in_map_iff in I4. destruct I4 as (x & Dx & Hx). exists x. auto.
Qed.

Lemma notify_spec : forall b k w, W [] w -> xr_good w ->
  let w' := kernel_route_notify b k w in
  w_fuel w' = w_fuel w /\
  ((forall d m, ~ accepted (w_cfg w) k d m) -> w' = w) /\
  (forall d m, accepted (w_cfg w) k d m ->
     (forall x, x_dest x <> d -> (In x (w_xr w') <-> In x (w_xr w))) /\
     (b = true -> ~ martian d -> exists x, In x (w_xr w') /\ x_dest x = d /\ x_metric x = m /\ x_proto x = kr_proto k) /\
     (b = true -> martian d -> w' = w) /\
     (b = false -> forall x, In x (w_xr w') -> x_dest x <> d)).
Proof.
  intros b k0 w Hw G. cbv zeta. unfold kernel_route_notify. cbv zeta.
  destruct (filter_kroute_spec w k0) as (F1 & F2 & F3 & F4 & F5). set (k := filter_kroute w k0) in *.
  pose proof (W_xr _ _ Hw) as So.
  destruct (kr_metric k >=? INFINITY) eqn:Inf.
  { split; auto. split; auto. intros d m Ac. exfalso. destruct (F2 d m Ac) as (_ & ->). destruct Ac as (? & ? & ? & _). unfold INFINITY in Inf. lia. }
  assert (Lt : kr_metric k < 65535) by (unfold INFINITY in Inf; lia).
  destruct (find_xroute_slot (kr_dest k) w) as [i|n] eqn:F.
  - destruct (xslot_found _ _ _ So F) as (A & x & B & E & -> & D). rewrite Nat2Z.id.
    assert (N : nth_error (w_xr w) (length A) = Some x) by (rewrite E, nth_error_app2, Nat.sub_diag by lia; reflexivity).
    assert (Nx : forall y, In y A \/ In y B -> x_dest y <> kr_dest k).
    { rewrite E in So. apply sorted_app_iff in So. destruct So as (_ & S2 & S3). apply sorted_cons_iff in S2. destruct S2 as (_ & S2).
      intros y [Hy|Hy] Ey; [specialize (S3 y x Hy (or_introl eq_refl))|specialize (S2 y Hy)]; unfold klt in *;
        [rewrite Ey, D, dest_compare_refl in S3; lia|rewrite Ey, D, dest_compare_refl in S2; lia]. }
    destruct b.
    + destruct (modify_xroute_xr [] w A x B k true Hw E D ltac:(unfold u16_ok; lia)) as (x' & E1 & (M1 & M2 & M3) & _ & Fu).
      split; auto. split; [intros Na; exfalso; eapply Na; apply F1; auto|].
      intros d m Ac. destruct (F2 d m Ac) as (-> & ->). rewrite E1. split; [|split; [|split; [|discriminate]]].
      * intros y Dy. rewrite E, !in_app_iff. cbn [In]. split; intros [?|[->|?]]; auto; congruence.
      * intros _ _. exists x'. split; [apply in_or_app; simpl; auto|]. repeat split; auto. congruence.
      * intros _ Mm. exfalso. unfold martian in Mm. rewrite <- D in Mm.
        assert (Hx : In x (w_xr w)) by (rewrite E; apply in_or_app; simpl; auto). rewrite (G x Hx) in Mm. discriminate Mm.
    + destruct (flush_xroute_xr [] w (length A) true x Hw N) as (E1 & E2).
      split; auto. split; [intros Na; exfalso; eapply Na; apply F1; auto|].
      intros d m Ac. destruct (F2 d m Ac) as (-> & ->). rewrite E1, E, remove_at_split.
      split; [|split; [discriminate|split; [discriminate|]]].
      * intros y Dy. rewrite !in_app_iff. cbn [In]. split; [tauto|]. intros [?|[->|?]]; auto. congruence.
      * intros _ y Hy. apply Nx. apply in_app_or. auto.
  - destruct (xslot_notfound _ _ _ So F) as (_ & Nf & _). destruct b; cbn [negb].
    + destruct (martian_prefix (d_prefix (kr_dest k)) (d_plen (kr_dest k))) eqn:Hm.
      { split; auto. split; auto. intros d m Ac. destruct (F2 d m Ac) as (-> & ->). split; [tauto|]. split; [intros _ Nm; exfalso; apply Nm; exact Hm|].
        split; [auto|discriminate]. }
      destruct (add_xroute_xr w (kr_dest k) (kr_metric k) (kr_ifindex k) (kr_proto k) So)
        as [(x & Hx & Dx & Ea)|(A & B & Eab & LA & LB & Ea)]; [exfalso; eapply Nf; eauto|].
      pose proof (add_xroute_chain [] w _ _ _ _ _ _ Hw Hm Ea) as C1. pose proof (chain_W _ _ _ C1 Hw) as Hw1.
      rewrite Ea. set (nx := mkXr _ _ _ _) in *. set (w1 := set_w_xr _ w) in *.
      pose proof (flush_dup_chain [] w1 k Hw1) as Q1. pose proof (quiet_W _ _ _ Q1 Hw1) as Hw2.
      set (w2 := flush_duplicate_route k w1) in *. set (w3 := send_update_all _ _ w2).
      assert (Q3 : quiet [] w2 w3) by (apply quiet_frame, send_update_all_frame; eapply W_refs; eauto).
      pose proof (quiet_same _ _ _ Q1) as S1. pose proof (quiet_same _ _ _ Q3) as S3.
      assert (E3 : w_xr w3 = A ++ nx :: B) by (rewrite (q_xr _ _ S3), (q_xr _ _ S1); reflexivity).
      split; [rewrite (q_fuel _ _ S3), (q_fuel _ _ S1); reflexivity|]. split; [intros Na; exfalso; eapply Na; apply F1; auto|].
      intros d m Ac. destruct (F2 d m Ac) as (-> & ->). rewrite E3, Eab. split; [|split; [|split; [|discriminate]]].
      * intros y Dy. rewrite !in_app_iff. cbn [In]. split; [intros [?|[<-|?]]; auto; exfalso; apply Dy; reflexivity|tauto].
      * intros _ _. exists nx. split; [apply in_or_app; simpl; auto|]. split; [reflexivity|]. split; [|exact F4].
        cbn [nx x_metric]. apply Z.mod_small. lia.
      * intros _ Mm. unfold martian in Mm. congruence.
    + split; auto. split; auto. intros d m Ac. destruct (F2 d m Ac) as (-> & ->). split; [tauto|]. split; [discriminate|].
      split; [discriminate|]. auto.
Qed.

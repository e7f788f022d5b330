(** L_Walk.v: walks over all the routes of a neighbour (retraction, change of the link cost). *)
From Verif Require Import Base M_Util S_Util L_Util M_Slot L_Slot M_Source S_Source L_Source
  M_Filter M_Types M_Neigh S_Neigh L_Neigh M_State M_Table M_Msg M_Route S_World M_Xroute M_Daemon L_Table L_Step L_Msg L_Smooth L_Quiet L_Trace
  L_Select L_Select2 L_Chain L_Chain2 L_Chain3 L_Flush L_Update L_Update2 L_Daemon L_Inv L_World L_World2 L_World3 L_World4.
From Coq Require Import Permutation.

Lemma next_in_split : forall l1 r l2, (forall x, In x l1 -> is_ptr (r_ptr r) x = false) ->
  next_in (r_ptr r) (l1 ++ r :: l2) = match l2 with [] => None | x :: _ => Some (r_ptr x) end.
Proof.
  induction l1 as [|a l1 IH]; intros r l2 H; cbn [app next_in].
  - unfold is_ptr. rewrite Z.eqb_refl. auto.
  - rewrite (H a) by (left; auto). apply IH. intros x Hx. apply H. right; auto.
Qed.
Lemma next_ptr_split : forall w A l1 r l2 B, rt_wf (w_rt w) -> w_rt w = A ++ (l1 ++ r :: l2) :: B ->
  next_ptr (r_ptr r) w = match l2 with [] => None | x :: _ => Some (r_ptr x) end.
Proof.
  intros w A l1 r l2 B Wf E. pose proof (wf_ptrs _ Wf) as N. rewrite E in N.
  pose proof (ptr_unique_in _ _ _ _ _ N) as U. unfold next_ptr. rewrite E. clear E.
  induction A as [|a A IH]; cbn [app next_rt].
  - assert (X : existsb (is_ptr (r_ptr r)) (l1 ++ r :: l2) = true).
    { apply existsb_exists. exists r. split; [apply in_or_app; simpl; auto|unfold is_ptr; apply Z.eqb_refl]. }
    rewrite X. apply next_in_split. intros x Hx. apply U. auto.
  - assert (X : existsb (is_ptr (r_ptr r)) a = false).
    { destruct (existsb (is_ptr (r_ptr r)) a) eqn:X; auto. apply existsb_exists in X. destruct X as (x & Hx & X).
      rewrite U in X; [discriminate|]. left. cbn. apply in_or_app. auto. }
    rewrite X. apply IH.
    + cbn in N. rewrite map_app in N. apply NoDup_app_r in N. auto.
    + intros x Hx. apply U. destruct Hx as [Hx|Hx]; auto. left. cbn. apply in_or_app. auto.
Qed.

Lemma find_split : forall w A l1 r l2 B, rt_wf (w_rt w) -> w_rt w = A ++ (l1 ++ r :: l2) :: B ->
  find_ptr (r_ptr r) w = Some r.
Proof.
  intros w A l1 r l2 B Wf E. apply find_ptr_iff; auto. split; auto. unfold all_routes. rewrite E, concat_mid.
  apply in_or_app. right. apply in_or_app. left. apply in_or_app. simpl. auto.
Qed.
Lemma Forall2_mid : forall A (R : A -> A -> Prop) a x b l', Forall2 R (a ++ x :: b) l' ->
  exists a' x' b', l' = a' ++ x' :: b' /\ R x x' /\ length a' = length a.
Proof.
  induction a as [|y a IH]; intros x b l' H; inversion H; subst.
  - exists [], y, l'0. auto.
  - destruct (IH _ _ _ H4) as (a' & x' & b' & -> & Hx & L). exists (y0 :: a'), x', b'. cbn. auto.
Qed.

Section NbWalk.
  Variable e : list skey.
  Variable n : Z.
  Variable f : Z -> world -> world.
  Hypothesis Hf : forall w p r, W e w -> find_ptr p w = Some r -> only p e w (f p w).
  Let nb (r : route) : bool := r_neigh r =? n.
  Let sel (_ : world) (r : route) : bool := nb r.
  Let nbp (l : list route) : list Z := map r_ptr (filter nb l).

  Lemma walk_none : forall w A B, rt_wf (w_rt w) -> forall l2 l1 r fuel, w_rt w = A ++ (l1 ++ r :: l2) :: B ->
    (forall x, In x (r :: l2) -> nb x = false) -> (length l2 < fuel)%nat -> walk_slot fuel sel f (r_ptr r) w = w.
  Proof.
    intros w A B Wf. induction l2 as [|x l2 IH]; intros l1 r fuel E H L; (destruct fuel as [|k]; [lia|]); cbn [walk_slot].
    - rewrite (find_split _ _ _ _ _ _ Wf E). change (sel w r) with (nb r). rewrite (H r) by (left; auto). cbv zeta.
      rewrite (next_ptr_split _ _ _ _ _ _ Wf E). auto.
    - rewrite (find_split _ _ _ _ _ _ Wf E). change (sel w r) with (nb r). rewrite (H r) by (left; auto). cbv zeta.
      rewrite (next_ptr_split _ _ _ _ _ _ Wf E). apply (IH (l1 ++ [r])).
      + rewrite <- app_assoc. exact E.
      + intros y Hy. apply H. right; auto.
      + cbn in L. lia.
  Qed.
  Lemma walk_one : forall w A B, W e w -> forall l2 l1 r fuel x, w_rt w = A ++ (l1 ++ r :: l2) :: B ->
    In x (r :: l2) -> nb x = true -> (length l2 + length (l1 ++ r :: l2) < fuel)%nat ->
    walk_slot fuel sel f (r_ptr r) w = f (r_ptr x) w.
  Proof.
    intros w A B Hw. pose proof (W_rt _ _ Hw) as Wf.
    induction l2 as [|y l2 IH]; intros l1 r fuel x E Hx Nx L.
    all: destruct fuel as [|k]; [lia|]; cbn [walk_slot]; rewrite (find_split _ _ _ _ _ _ Wf E).
    all: destruct (nb r) eqn:Nr; change (sel w r) with (nb r); rewrite Nr; cbv zeta.
    2:{ destruct Hx as [<-|[]]. congruence. }
    3:{ destruct Hx as [<-|Hx]; [congruence|]. rewrite (next_ptr_split _ _ _ _ _ _ Wf E).
        apply (IH (l1 ++ [r])); auto.
        - rewrite <- app_assoc. exact E.
        - rewrite app_length in *. cbn in *. rewrite app_length. cbn. lia. }
    all: match type of E with _ = _ ++ (_ ++ _ :: ?l) :: _ => set (l2' := l) in * end.
    all: assert (x = r) as -> by
      (pose proof (wf_slot _ (l1 ++ r :: l2') Wf ltac:(rewrite E; apply in_or_app; simpl; auto)) as (_ & _ & _ & Nd & _);
       eapply NoDup_map_inj; [exact Nd|apply in_or_app; simpl; auto|apply in_or_app; simpl; auto|unfold nb in *; lia]).
    all: pose proof (Hf w _ r Hw (find_split _ _ _ _ _ _ Wf E)) as O; set (w1 := f (r_ptr r) w) in *;
      pose proof (only_W _ _ _ _ O Hw) as Hw1; pose proof (W_rt _ _ Hw1) as Wf1;
      pose proof (kp_rt _ _ (on_keeps _ _ _ _ O)) as K; rewrite E in K; apply Forall2_mid in K;
      destruct K as (A' & l' & B' & E' & P & _); unfold slot_kept in P;
      assert (Hr : exists r', In r' l' /\ stay r' = stay r) by
       (assert (X : In (stay r) (map stay l')) by
          (eapply Permutation_in; [symmetry; exact P|]; apply in_map; apply in_or_app; simpl; auto);
        apply in_map_iff in X; destruct X as (r' & X1 & X2); eauto);
      destruct Hr as (r' & Hr' & St); apply in_split in Hr'; destruct Hr' as (m1 & m2 & ->);
      assert (Ep : r_ptr r = r_ptr r') by (apply (f_equal r_ptr) in St; cbn in St; auto);
      assert (En : r_neigh r = r_neigh r') by (apply (f_equal r_neigh) in St; cbn in St; auto);
      rewrite Ep; rewrite (next_ptr_split _ _ _ _ _ _ Wf1 E');
      destruct m2 as [|z m2]; [auto|];
      apply (walk_none w1 A' B' Wf1 m2 (m1 ++ [r'])).
    all: try (rewrite <- app_assoc; exact E').
    1,3: intros y0 Hy; destruct (nb y0) eqn:Ny; auto; exfalso;
       pose proof (wf_slot _ (m1 ++ r' :: z :: m2) Wf1 ltac:(rewrite E'; apply in_or_app; simpl; auto)) as (_ & _ & _ & Nd & _);
       rewrite map_app in Nd; cbn [map] in Nd; apply NoDup_app_r in Nd; inversion Nd as [|? ? Nn _]; subst;
       apply Nn; assert (X : r_neigh y0 = r_neigh r') by (unfold nb in *; lia); rewrite <- X;
       exact (in_map r_neigh _ _ Hy).
    all: apply Permutation_length in P; rewrite !map_length, !app_length in P; rewrite app_length in L; subst l2'; cbn [length] in *; lia.
  Qed.

  Lemma perm_one : forall (a b : list Z), Permutation a b -> (length b <= 1)%nat -> a = b.
  Proof.
    intros a b P L. pose proof (Permutation_length P) as Q. destruct b as [|x [|y b]]; cbn in *; try lia.
    - destruct a; [auto|discriminate].
    - destruct a as [|z [|? ?]]; cbn in Q; try lia. apply Permutation_length_1 in P. congruence.
  Qed.
  Lemma nbp_small : forall l, slot_wf l -> (length (nbp l) <= 1)%nat.
  Proof.
    intros l (_ & _ & _ & Nd & _). unfold nbp. rewrite map_length.
    assert (X : NoDup (map r_neigh (filter nb l))).
    { clear - Nd. induction l as [|a l IH]; cbn [filter]; [constructor|]. inversion Nd; subst.
      destruct (nb a); auto. cbn. constructor; auto. intros H. apply H1. apply in_map_iff in H. destruct H as (y & Hy & H).
      apply filter_In in H. rewrite <- Hy. apply in_map. tauto. }
    assert (Y : forall x, In x (filter nb l) -> r_neigh x = n) by (intros x Hx; apply filter_In in Hx; unfold nb in Hx; lia).
    destruct (filter nb l) as [|a [|b k]]; cbn; try lia. exfalso. cbn in X. inversion X; subst. apply H1.
    left. rewrite (Y a), (Y b); simpl; auto.
  Qed.
  Lemma nbp_kept : forall l l', slot_wf l -> slot_kept l l' -> nbp l' = nbp l.
  Proof.
    intros l l' S P. apply perm_one; [|apply nbp_small; auto]. unfold slot_kept in P. unfold nbp.
    assert (X : forall k, map r_ptr (filter nb k) = map r_ptr (filter nb (map stay k))).
    { induction k as [|a k IH]; auto. cbn [map filter]. change (nb (stay a)) with (nb a). destruct (nb a); cbn [map]; rewrite IH; auto. }
    rewrite (X l), (X l'). apply Permutation_map. clear - P. induction P; cbn [filter]; auto.
    - destruct (nb x); auto.
    - destruct (nb x), (nb y); auto. constructor.
    - etransitivity; eauto.
  Qed.

  Lemma walk_slot_fold : forall w A l B fuel r, W e w -> w_rt w = A ++ l :: B -> hd_error l = Some r -> (2 * length l <= fuel)%nat ->
    walk_slot fuel sel f (r_ptr r) w = fold_left (fun w p => f p w) (nbp l) w.
  Proof.
    intros w A l B fuel r Hw E H L. destruct l as [|a l]; [discriminate|]. cbn in H. injection H as ->.
    pose proof (wf_slot _ (r :: l) (W_rt _ _ Hw) ltac:(rewrite E; apply in_or_app; simpl; auto)) as S.
    pose proof (nbp_small _ S) as Sm. unfold nbp in *. rewrite map_length in Sm.
    destruct (filter nb (r :: l)) as [|x [|y k]] eqn:F.
    - cbn. apply (walk_none w A B (W_rt _ _ Hw) l []); auto; [|cbn in L; lia].
      intros x Hx. destruct (nb x) eqn:N; auto. assert (X : In x (filter nb (r :: l))) by (apply filter_In; auto).
      rewrite F in X. contradiction.
    - cbn. assert (X : In x (filter nb (r :: l))) by (rewrite F; simpl; auto). apply filter_In in X. destruct X.
      apply (walk_one w A B Hw l []); auto. cbn in *. lia.
    - cbn in Sm. lia.
  Qed.

  Lemma fold_only : forall ps w, W e w -> (forall p, In p ps -> find_ptr p w <> None) ->
    let w' := fold_left (fun w p => f p w) ps w in
    W e w' /\ chain e w w' /\ keeps w w' /\
    (forall q r, ~ In q ps -> find_ptr q w = Some r -> exists r', find_ptr q w' = Some r' /\ core r' = core r).
  Proof.
    induction ps as [|p ps IH]; intros w Hw H; cbn [fold_left].
    - split; auto. split; [apply chain_refl|]. split; [apply keeps_refl|]. eauto.
    - destruct (find_ptr p w) as [r|] eqn:F; [|exfalso; apply (H p); simpl; auto].
      pose proof (Hf w p r Hw F) as O. pose proof (only_W _ _ _ _ O Hw) as Hw1.
      destruct (IH (f p w) Hw1) as (A & B & C & D).
      { intros q Hq. destruct (find_ptr q w) as [x|] eqn:G; [|exfalso; apply (H q); simpl; auto].
        destruct (only_find _ _ _ _ _ _ Hw O G) as (x' & X & _). congruence. }
      split; auto. split; [eapply chain_trans; [apply O|auto]|]. split; [eapply keeps_trans; [apply O|auto]|].
      intros q x Nq G. destruct (on_others _ _ _ _ O q x) as (x1 & G1 & E1); [intros ->; apply Nq; simpl; auto|auto|].
      destruct (D q x1) as (x2 & G2 & E2); [intros X; apply Nq; simpl; auto|auto|]. exists x2. split; auto. congruence.
  Qed.

  Lemma walk_slots_fold : forall k w A B fuel, W e w -> w_rt w = A ++ B -> length B = k ->
    (forall l, In l (w_rt w) -> (2 * length l <= fuel)%nat) ->
    walk_slots k fuel sel f (length A) w = fold_left (fun w p => f p w) (concat (map nbp B)) w.
  Proof.
    induction k as [|k IH]; intros w A B fuel Hw E Lk Fu; cbn [walk_slots].
    - destruct B; [reflexivity|discriminate].
    - destruct B as [|l B]; [discriminate|]. rewrite E, nth_error_app2 by lia. rewrite Nat.sub_diag. cbn [nth_error].
      assert (Hl : In l (w_rt w)) by (rewrite E; apply in_or_app; simpl; auto).
      pose proof (wf_slot _ l (W_rt _ _ Hw) Hl) as Sl. destruct (slot_hd _ Sl) as (h & t & ->).
      rewrite (walk_slot_fold w A (h :: t) B fuel h Hw E eq_refl (Fu _ Hl)).
      cbn [map concat]. rewrite fold_left_app. set (w1 := fold_left (fun w p => f p w) (nbp (h :: t)) w).
      destruct (fold_only (nbp (h :: t)) w Hw) as (Hw1 & _ & K & _).
      { intros p Hp. apply in_map_iff in Hp. destruct Hp as (x & <- & Hx). apply filter_In in Hx. destruct Hx as (Hx & _).
        assert (X : find_ptr (r_ptr x) w = Some x); [|congruence]. apply find_ptr_iff; [apply (W_rt _ _ Hw)|]. split; auto.
        apply in_concat. eauto. }
      fold w1 in Hw1, K. pose proof (kp_rt _ _ K) as K2.
      assert (Fu1 : forall l, In l (w_rt w1) -> (2 * length l <= fuel)%nat).
      { intros l Hl1. assert (X : exists l0, In l0 (w_rt w) /\ slot_kept l0 l).
        { clear - K2 Hl1. induction K2; [contradiction|]. destruct Hl1 as [->|Hl1]; [exists x; simpl; auto|].
          destruct (IHK2 Hl1) as (lz & ? & ?). exists lz. simpl; auto. }
        destruct X as (l0 & Hl0 & P). apply Permutation_length in P. rewrite !map_length in P. rewrite P. auto. }
      rewrite E in K2. apply Forall2_app_inv_l in K2. destruct K2 as (A1 & B1 & KA & KB & E1).
      inversion KB as [|? l1 ? B2 K3 K4]; subst.
      assert (LA : S (length A) = length (A1 ++ [l1])) by (rewrite app_length; cbn; apply Forall2_length in KA; lia).
      rewrite LA. rewrite (IH w1 (A1 ++ [l1]) B2 fuel Hw1).
      + f_equal. f_equal. assert (X : forall l, In l B -> slot_wf l).
        { intros l Hl'. apply (wf_slot (w_rt w)); [apply (W_rt _ _ Hw)|]. rewrite E. apply in_or_app. simpl. auto. }
        clear - K4 X Hf sel. revert X. induction K4 as [|x y l l' Hxy K4 IHK]; intros X; auto. cbn [map]. rewrite (nbp_kept x y), IHK; auto; [intros z Hz|]; apply X; simpl; auto.
      + rewrite E1, <- app_assoc. reflexivity.
      + apply Forall2_length in K4. cbn in Lk. lia.
      + exact Fu1.
  Qed.

  Lemma walk_spec : forall w, W e w ->
    walk_slots (length (w_rt w)) (walk_fuel w) sel f 0 w =
    fold_left (fun w p => f p w) (map r_ptr (filter nb (all_routes w))) w.
  Proof.
    intros w Hw. etransitivity; [apply (walk_slots_fold (length (w_rt w)) w [] (w_rt w) (walk_fuel w) Hw eq_refl eq_refl)|].
    - intros l Hl. unfold walk_fuel. cbv zeta.
      assert (X : (length l <= length (concat (w_rt w)))%nat).
      { clear - Hl. induction (w_rt w); [contradiction|]. cbn. rewrite app_length. destruct Hl as [->|Hl]; [lia|]. specialize (IHl0 Hl). lia. }
      set (N := length (concat (w_rt w))) in *. destruct N; nia.
    - f_equal. unfold all_routes. generalize (w_rt w). induction l as [|a l IH]; auto. cbn [map concat].
      rewrite filter_app, map_app, IH. auto.
  Qed.

  (** What happens to the routes of the neighbour. *)
  Variable w0 : world.
  Variable Post : route -> route -> Prop.
  Hypothesis Pcore : forall r r1 r2 r', core r1 = core r -> core r' = core r2 -> Post r1 r2 -> Post r r'.
  Hypothesis Hpost : forall w p r, W e w -> keeps w0 w -> find_ptr p w = Some r -> r_neigh r = n ->
    exists r', find_ptr p (f p w) = Some r' /\ (Post r r' \/ krefused w (f p w)).

  Lemma fold_post : forall ps w, W e w -> keeps w0 w -> NoDup ps ->
    (forall p, In p ps -> exists r, find_ptr p w = Some r /\ r_neigh r = n) ->
    let w' := fold_left (fun w p => f p w) ps w in
    forall p r, In p ps -> find_ptr p w = Some r -> exists r', find_ptr p w' = Some r' /\ (Post r r' \/ krefused w w').
  Proof.
    induction ps as [|p ps IH]; intros w Hw K0 Nd H w' q r Hq F; [contradiction|]. inversion Nd as [|? ? Np Nd']; subst.
    destruct (H p) as (rp & Fp & Nr); [simpl; auto|]. pose proof (Hf w p rp Hw Fp) as O. pose proof (only_W _ _ _ _ O Hw) as Hw1.
    assert (H1 : forall p0, In p0 ps -> exists r, find_ptr p0 (f p w) = Some r /\ r_neigh r = n).
    { intros x Hx. destruct (H x) as (rx & Fx & Nx); [simpl; auto|]. destruct (only_find _ _ _ _ _ _ Hw O Fx) as (x' & X & St).
      exists x'. split; auto. apply (f_equal r_neigh) in St. cbn in St. congruence. }
    assert (K1 : keeps w0 (f p w)) by (eapply keeps_trans; [exact K0|apply O]).
    destruct (fold_only ps (f p w) Hw1) as (_ & C2 & _ & D2).
    { intros x Hx. destruct (H1 x Hx) as (y & Y & _). congruence. }
    unfold w'. cbn [fold_left]. destruct Hq as [->|Hq].
    - rewrite Fp in F. injection F as <-. destruct (Hpost w q rp Hw K0 Fp Nr) as (r1 & F1 & P1).
      destruct (D2 q r1 Np F1) as (r2 & F2 & E2). exists r2. split; auto. destruct P1 as [P1|P1].
      + left. eapply Pcore; [| |exact P1]; auto.
      + right. eapply refused_r; [exact P1|apply (star_log _ _ _ C2)].
    - destruct (on_others _ _ _ _ O q r) as (r1 & F1 & E1); [intros ->; contradiction|auto|].
      destruct (IH (f p w) Hw1 K1 Nd' H1 q r1 Hq F1) as (r2 & F2 & [P2|P2]).
      + exists r2. split; auto. left. eapply Pcore; [exact E1| |exact P2]; auto.
      + exists r2. split; auto. right. eapply refused_l; [apply (star_log _ _ _ (on_chain _ _ _ _ O))|exact P2].
  Qed.
  Lemma walk_post : W e w0 ->
    let w' := walk_slots (length (w_rt w0)) (walk_fuel w0) sel f 0 w0 in
    W e w' /\ keeps w0 w' /\
    (forall r, In r (all_routes w0) -> r_neigh r <> n -> exists r', In r' (all_routes w') /\ core r' = core r) /\
    (forall r, In r (all_routes w0) -> r_neigh r = n ->
       exists r', In r' (all_routes w') /\ r_ptr r' = r_ptr r /\ (Post r r' \/ krefused w0 w')).
  Proof.
    intros Hw. cbv zeta. rewrite walk_spec by auto. set (ps := map r_ptr (filter nb (all_routes w0))).
    assert (H : forall p, In p ps -> exists r, find_ptr p w0 = Some r /\ r_neigh r = n).
    { intros p Hp. apply in_map_iff in Hp. destruct Hp as (x & <- & Hx). apply filter_In in Hx. destruct Hx as (Hx & Nx).
      exists x. split; [apply find_ptr_iff; [apply (W_rt _ _ Hw)|auto]|unfold nb in Nx; lia]. }
    assert (Nd : NoDup ps).
    { pose proof (wf_ptrs _ (W_rt _ _ Hw)) as N. fold (all_routes w0) in N. unfold ps. clear - N.
      induction (all_routes w0) as [|a l IH]; cbn [filter]; [constructor|]. cbn in N. inversion N; subst.
      destruct (nb a); auto. cbn. constructor; auto. intros X. apply H1. apply in_map_iff in X. destruct X as (y & Y & X).
      apply filter_In in X. rewrite <- Y. apply in_map. tauto. }
    destruct (fold_only ps w0 Hw) as (Hw' & C & K & D).
    { intros p Hp. destruct (H p Hp) as (r & -> & _). discriminate. }
    pose proof (fold_post ps w0 Hw (keeps_refl _) Nd H) as Q. cbv zeta in Q.
    set (w' := fold_left (fun w p => f p w) ps w0) in *.
    split; auto. split; auto. split.
    - intros r Hr Nr. destruct (D (r_ptr r) r) as (r' & F & E).
      + intros X. apply in_map_iff in X. destruct X as (y & Ey & Hy). apply filter_In in Hy. destruct Hy as (Hy & Ny).
        assert (y = r) by (eapply NoDup_map_inj; [apply (wf_ptrs _ (W_rt _ _ Hw))| | |]; auto). subst. unfold nb in Ny. lia.
      + apply find_ptr_iff; [apply (W_rt _ _ Hw)|auto].
      + exists r'. split; auto. eapply find_In; eauto.
    - intros r Hr Nr. destruct (Q (r_ptr r) r) as (r' & F & P).
      + apply in_map. apply filter_In. unfold nb. split; auto. lia.
      + apply find_ptr_iff; [apply (W_rt _ _ Hw)|auto].
      + exists r'. split; [eapply find_In; eauto|]. split; auto. eapply find_ptr_ptr; eauto.
  Qed.
End NbWalk.

Lemma ident_core : forall r r1 r2 r', core r1 = core r -> core r' = core r2 -> ident_kept r1 r2 -> ident_kept r r'.
Proof.
  intros r r1 r2 r' C1 C2 (A & B & C & D & E & F). destruct (core_same_entry _ _ C1) as ((A1 & B1 & D1 & E1 & _) & _ & _ & F1 & G1).
  destruct (core_same_entry _ _ C2) as ((A2 & B2 & D2 & E2 & _) & _ & _ & F2 & G2). unfold ident_kept. repeat split; congruence.
Qed.
Lemma stay_ident : forall r r', stay r' = stay r -> ident_kept r r'.
Proof. intros r r' E. destruct r, r'. cbn in E. inversion E; subst. repeat split. Qed.
Lemma ptr_stay : forall w w' r r', W [] w -> W [] w' -> keeps w w' -> In r (all_routes w) -> In r' (all_routes w') -> r_ptr r' = r_ptr r ->
  stay r' = stay r.
Proof.
  intros w w' r r' Hw Hw' K Hr Hr' E. destruct (keeps_In _ _ _ K Hr) as (x & Hx & Ex).
  assert (x = r'); [|subst; auto]. eapply NoDup_map_inj; [apply (wf_ptrs _ (W_rt _ _ Hw'))| | |]; auto.
  apply (f_equal r_ptr) in Ex. cbn in Ex. congruence.
Qed.

Theorem withdrawn : forall c w n, c_half_life c <> 2 -> reach c w ->
  let w' := run1 (EvWithdraw n) w in
  length (all_routes w') = length (all_routes w) /\
  (forall r, In r (all_routes w) -> r_neigh r <> n -> exists r', In r' (all_routes w') /\ same_entry r r') /\
  (forall r, In r (all_routes w) -> r_neigh r = n ->
     exists r', In r' (all_routes w') /\ ident_kept r r' /\
       ((r_seqno r' = r_seqno r /\ r_refmetric r' = 65535 /\ metric_of r' = 65535) \/ krefused w w')).
Proof.
  intros c w n H R. destruct (reach_W c w H R) as (Hw & _). cbv zeta. cbn [run1]. unfold retract_neighbour_routes.
  pose (Post := fun r r' : route => r_refmetric r' = 65535 /\ r_seqno r' = r_seqno r).
  assert (Pc : forall r r1 r2 r', core r1 = core r -> core r' = core r2 -> Post r1 r2 -> Post r r').
  { intros r r1 r2 r' A B (P1 & P2). apply (f_equal r_seqno) in A. pose proof (f_equal r_seqno B) as B1. apply (f_equal r_refmetric) in B.
    cbn in A, B, B1. split; congruence. }
  assert (Hp : forall w1 p r, W [] w1 -> keeps w w1 -> find_ptr p w1 = Some r -> r_neigh r = n ->
    exists r', find_ptr p (retract1 p w1) = Some r' /\ (Post r r' \/ krefused w1 (retract1 p w1))).
  { intros w1 p r Hw1 _ F _. destruct (retract1_spec [] w1 p r Hw1 F) as (_ & r' & F' & [(C & [Rf|(_ & Kr)])|(E & _)]); exists r'; split; auto; left.
    - pose proof (f_equal r_seqno C) as C1. apply (f_equal r_refmetric) in C. cbn in C, C1. split; [unfold INFINITY in Rf; congruence|auto].
    - pose proof (f_equal r_seqno E) as C1. apply (f_equal r_refmetric) in E. cbn in E, C1. split; [rewrite E; reflexivity|auto]. }
  destruct (walk_post [] n retract1 (fun w p r Hw F => proj1 (retract1_spec [] w p r Hw F)) w Post Pc Hp Hw) as (Hw' & K & A & B).
  set (w' := walk_slots _ _ _ _ _ _) in *. split; [|split].
  - pose proof (Permutation_length (keeps_perm _ _ K)) as L. rewrite !map_length in L. auto.
  - intros r Hr Nr. destruct (A r Hr Nr) as (r' & Hr' & C). exists r'. split; auto. apply core_same_entry; auto.
  - intros r Hr Nr. destruct (B r Hr Nr) as (r' & Hr' & E & P). exists r'. split; auto. split; [apply stay_ident; exact (ptr_stay w w' r r' Hw Hw' K Hr Hr' E)|].
    destruct P as [(P1 & P2)|P]; [left|right; exact P]. split; auto. split; auto.
    pose proof (W_rng _ _ Hw' r' Hr') as (_ & G1 & G2 & _). unfold metric_of, u16_ok in *. lia.
Qed.

(** ** The link cost *)
Lemma keeps_nb_if : forall w w' n nb i, keeps w w' -> nb_if n w' = Some (nb, i) ->
  exists i0, nb_if n w = Some (nb, i0) /\ ifstat i0 = ifstat i.
Proof.
  intros w w' n nb i K H. unfold nb_if, get_nb, get_if in *. rewrite (kp_nbs _ _ K) in H.
  destruct (find (fun x => n_id x =? n) (w_nbs w)) as [x|]; [|discriminate].
  pose proof (kp_ifs _ _ K) as E. revert E H. generalize (w_ifs w), (w_ifs w').
  induction l as [|a l IH]; intros l' E H; destruct l' as [|b l']; try discriminate. cbn [map] in E.
  assert (E1 : ifstat b = ifstat a) by (apply (f_equal (hd_error (A:=_))) in E; cbn in E; congruence).
  assert (E2 : map ifstat l' = map ifstat l) by (apply (f_equal (tl (A:=_))) in E; exact E). clear E.
  assert (Ei : if_id a = if_id b) by (apply (f_equal if_id) in E1; cbn in E1; auto). cbn [find] in *. rewrite <- Ei in H.
  destruct (if_id a =? n_if x); [|apply (IH l' E2 H)]. inversion H; subst. exists a. auto.
Qed.
Lemma cost_stat : forall now i j n, ifstat i = ifstat j -> neighbour_cost now i n = neighbour_cost now j n /\ if_ifindex i = if_ifindex j.
Proof.
  intros now i j n E. assert (X : forall i, neighbour_cost now (ifstat i) n = neighbour_cost now i n) by reflexivity.
  split; [rewrite <- (X i), <- (X j), E; auto|]. apply (f_equal if_ifindex) in E. exact E.
Qed.

Lemma cost_applied : forall w n, W [] w ->
  let w' := update_neighbour_metric n true w in
  W [] w' /\ keeps w w' /\
  (forall r, In r (all_routes w) -> r_neigh r <> n -> exists r', In r' (all_routes w') /\ same_entry r r') /\
  (forall r nb i, In r (all_routes w) -> r_neigh r = n -> nb_if n w = Some (nb, i) ->
     exists r', In r' (all_routes w') /\ ident_kept r r' /\
       ((if r_time r <? sec w - r_hold_time r then r_refmetric r' = 65535
         else r_seqno r' = r_seqno r /\ r_refmetric r' = r_refmetric r /\
          r_cost r' = u16 (neighbour_cost (w_now w) i nb) /\
          r_add_metric r' = u16 (input_filter (c_infs (w_cfg w)) (Some (k_id (r_src r))) (dest_of r) (Some (n_addr nb)) (if_ifindex i)))
        \/ krefused w w')).
Proof.
  intros w n Hw. cbv zeta. unfold update_neighbour_metric.
  pose (Post := fun r r' : route => if r_time r <? sec w - r_hold_time r then r_refmetric r' = 65535
         else r_seqno r' = r_seqno r /\ r_refmetric r' = r_refmetric r /\
          forall nb i, nb_if (r_neigh r) w = Some (nb, i) ->
          r_cost r' = u16 (neighbour_cost (w_now w) i nb) /\
          r_add_metric r' = u16 (input_filter (c_infs (w_cfg w)) (Some (k_id (r_src r))) (dest_of r) (Some (n_addr nb)) (if_ifindex i))).
  assert (Pc : forall r r1 r2 r', core r1 = core r -> core r' = core r2 -> Post r1 r2 -> Post r r').
  { intros r r1 r2 r' A B P. unfold Post in *. apply core_same_entry in A. apply core_same_entry in B.
    destruct A as ((A1 & A2 & A3 & A4 & A5 & A6) & A7 & A8 & A9 & A10). destruct B as ((B1 & B2 & B3 & B4 & B5 & B6) & B7 & B8 & B9 & B10).
    unfold dest_of in *. rewrite A2, A3, A5, A6, A9, A10, <- B5, <- B6, <- B7, <- B8 in *. exact P. }
  assert (Hp : forall w1 p r, W [] w1 -> keeps w w1 -> find_ptr p w1 = Some r -> r_neigh r = n ->
    exists r', find_ptr p (update_route_metric p w1) = Some r' /\ (Post r r' \/ krefused w1 (update_route_metric p w1))).
  { intros w1 p r Hw1 K F _. destruct (urm_spec [] w1 p r Hw1 F) as (_ & r' & F' & [Rf|(_ & Kr)]); exists r'; split; auto. left.
    unfold refreshed, route_expired in Rf. unfold Post. unfold sec in *. rewrite (kp_now _ _ K) in Rf.
    destruct (r_time r <? _).
    - destruct (r_refmetric r <? INFINITY) eqn:X.
      + destruct Rf as (s & _ & (E & _)). apply (f_equal r_refmetric) in E. cbn in E. rewrite E. reflexivity.
      + apply (f_equal r_refmetric) in Rf. cbn in Rf. pose proof (W_rng _ _ Hw1 r (find_In _ _ _ F)) as (G & _).
        unfold INFINITY, u16_ok in *. lia.
    - destruct Rf as (nb1 & i1 & Nb & E & _). pose proof (f_equal r_seqno E) as E1. pose proof (f_equal r_refmetric E) as E2.
      pose proof (f_equal r_cost E) as E3. pose proof (f_equal r_add_metric E) as E4. cbn in E1, E2, E3, E4.
      split; auto. split.
      + rewrite E2. pose proof (W_rng _ _ Hw1 r (find_In _ _ _ F)) as (G & _). apply u16_same; auto.
      + intros nb i N. destruct (keeps_nb_if _ _ _ _ _ K Nb) as (i0 & N0 & St). rewrite N in N0. inversion N0; subst nb1 i0.
        destruct (cost_stat (w_now w) i i1 nb St) as (C1 & C2). rewrite E3, E4, C1, C2, (kp_cfg _ _ K). auto. }
  destruct (walk_post [] n update_route_metric (urm_only []) w Post Pc Hp Hw) as (Hw' & K & A & B).
  set (w' := walk_slots _ _ _ _ _ _) in *. split; auto. split; auto. split.
  - intros r Hr Nr. destruct (A r Hr Nr) as (r' & Hr' & C). exists r'. split; auto. apply core_same_entry; auto.
  - intros r nb i Hr Nr N. destruct (B r Hr Nr) as (r' & Hr' & E & P). exists r'. split; auto. split; [apply stay_ident; exact (ptr_stay w w' r r' Hw Hw' K Hr Hr' E)|].
    destruct P as [P|P]; auto. left. unfold Post in P. destruct (r_time r <? _); auto. destruct P as (P1 & P2 & P3). split; auto. split; auto.
    apply P3. rewrite Nr. auto.
Qed.

(** An IHU with a new cost reaches all the routes of the neighbour. *)
Theorem ihu_applied : forall c w n cost iv nb nb' i, c_half_life c <> 2 -> reach c w -> allowed (EvIhu n cost iv) w ->
  In nb (w_nbs w) -> n_id nb = n -> n_txcost nb <> cost ->
  let w' := run1 (EvIhu n cost iv) w in
  In nb' (w_nbs w') -> n_id nb' = n -> In i (w_ifs w') -> if_id i = n_if nb' ->
  n_txcost nb' = cost /\
  forall r, In r (all_routes w') -> r_neigh r = n -> now_s w' <= r_time r + r_hold_time r ->
    r_cost r = neighbour_cost (w_now w') i nb' \/ krefused w w'.
Proof.
  intros c w n cost iv nb nb' i H R A Hnb Nid Tx. pose proof (reach_run c w (EvIhu n cost iv) R A) as R'.
  destruct (reach_W c w H R) as (Hw & _). destruct A as (A1 & A2 & A3). cbn [run1] in *. unfold recv_ihu, on_nb in *.
  destruct (known_has _ _ _ Hw A1) as (x & ix & N). destruct (nb_if_get _ _ _ _ N) as (G & _). rewrite G in *.
  assert (x = nb).
  { unfold get_nb in G. apply find_some in G. destruct G as (Gi & Ge). eapply NoDup_map_inj; [apply (W_nbs _ _ Hw)| | |]; auto. lia. }
  subst x. assert (Tn : negb (cost =? n_txcost nb) = true) by (apply negb_true_iff; lia). rewrite Tn in *.
  set (nb1 := set_n_txcost cost _) in *. set (w1 := map_nb n (fun _ => nb1) w) in *.
  assert (C1 : chain [] w w1).
  { eapply set_nb_chain; eauto. intros T No. unfold neigh_ok in *. cbn. unfold u16_ok, tv_ok in *. intuition. }
  pose proof (chain_W _ _ _ C1 Hw) as Hw1. destruct (cost_applied w1 n Hw1) as (Hw' & K & _ & B).
  set (w' := update_neighbour_metric n true w1) in *. cbv zeta. intros Hn' Ni' Hi Ii.
  assert (X : nb_if n w' = Some (nb', i)).
  { apply (nb_if_iff _ _ _ _ _ Hw'). auto. }
  destruct (keeps_nb_if _ _ _ _ _ K X) as (i0 & X0 & St).
  assert (nb' = nb1) as ->.
  { rewrite (kp_nbs _ _ K) in Hn'. unfold w1, map_nb in Hn'. cbn [w_nbs set_w_nbs] in Hn'. apply in_map_iff in Hn'.
    destruct Hn' as (y & Ey & Hy). destruct (n_id y =? n) eqn:Yn; [auto|]. subst y. lia. }
  split; [reflexivity|]. intros r' Hr' Nr' Ti.
  destruct (keeps_In' _ _ _ K Hr') as (r & Hr & E). destruct (stay_ident r' r (eq_sym (eq_sym E))) as (I1 & I2 & I3 & I4 & I5 & I6).
  destruct (B r nb1 i0 Hr) as (r2 & Hr2 & (J1 & _) & P); [congruence|auto|].
  assert (r2 = r') by (eapply NoDup_map_inj; [apply (wf_ptrs _ (W_rt _ _ Hw'))| | |]; auto; congruence). subst r2.
  destruct P as [P|P]; [left|right; eapply refused_l; [apply (star_log _ _ _ C1)|exact P]].
  unfold now_s in Ti. rewrite (kp_now _ _ K) in Ti. unfold sec in P. rewrite I5, I6 in P.
  destruct (r_time r' <? _) eqn:Y; [lia|]. destruct P as (_ & _ & P & _). rewrite P.
  destruct (cost_stat (w_now w1) i0 i nb1 St) as (E1 & _). rewrite E1, (kp_now _ _ K).
  pose proof (reach_rng c w' H R') as Rg. pose proof (cost_in (w_now w') i nb1 (rg_ifs _ Rg i Hi) (rg_nbs _ Rg nb1 Hn')) as (Cr & _).
  rewrite (kp_now _ _ K) in Cr. apply u16_same. unfold u16_ok, INFINITY in *. lia.
Qed.

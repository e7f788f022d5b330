(** L_Kern.v: the kernel table mirrors the selected routes. *)
From Coq Require Import Sorting.Permutation.
From Verif Require Import Base M_Util M_Slot M_Source M_Filter M_Types M_Neigh M_State M_Table M_Msg
  M_Route S_Util S_Source S_Filter S_Neigh S_World S_Kern M_Xroute M_Daemon L_Util L_Source L_Slot L_Filter L_Table L_Step L_Neigh L_Quiet
  L_Select L_Select2 L_Flush L_Update2 L_Daemon L_Inv L_World L_World3 L_World4.

(** ** Tables *)
Definition mirrors (F : list kreq) (P : kreq -> Prop) : Prop := forall q, In q F <-> P q.
Lemma mir_ext : forall F P Q, mirrors F P -> (forall q, P q <-> Q q) -> mirrors F Q.
Proof. intros F P Q M E q. rewrite (M q). apply E. Qed.
Lemma fibs_app : forall F a b, fibs F (a ++ b) = fibs (fibs F a) b.
Proof. intros. unfold fibs. apply fold_left_app. Qed.
Lemma mir_del : forall F P q, mirrors F P -> P q ->
  exists F', fibs (Some F) [KDel q 0] = Some F' /\ mirrors F' (fun q' => P q' /\ q' <> q).
Proof.
  intros F P q M H. exists (remove kreq_dec q F). split.
  - cbn [fibs fold_left fib1]. destruct (in_dec kreq_dec q F) as [i|n]; [reflexivity|]. exfalso. apply n, M, H.
  - intros q'. rewrite <- (M q'). split.
    + intros I. apply in_remove in I. auto.
    + intros (I & N). apply in_in_remove; auto.
Qed.
Lemma mir_add : forall F P q, mirrors F P -> (forall q', P q' -> kkey q' <> kkey q) ->
  exists F', fibs (Some F) [KAdd q 0] = Some F' /\ mirrors F' (fun q' => P q' \/ Some q = Some q').
Proof.
  intros F P q M H. exists (q :: F). split.
  - cbn [fibs fold_left fib1]. destruct (existsb _ F) eqn:E; [|reflexivity]. exfalso.
    apply existsb_exists in E. destruct E as (q' & I & K). destruct (kkey_dec (kkey q') (kkey q)); [|discriminate].
    apply (H q'); auto. apply M. auto.
  - intros q'. cbn [In]. rewrite <- (M q'). split; [intros [->|I]; auto|intros [I|E]; auto]. inversion E. auto.
Qed.

(** ** Entries of routes *)
Definition kent_of (w : world) (r : route) : option kreq :=
  match nb_if (r_neigh r) w with Some (_, i) => kent (w_cfg w) (if_ifindex i) r | None => None end.
Definition Sel (w : world) (q : kreq) : Prop :=
  exists r, In r (all_routes w) /\ r_installed r = true /\ kent_of w r = Some q.
Definition Others (w : world) (d : dest) (q : kreq) : Prop :=
  exists r, In r (all_routes w) /\ r_installed r = true /\ dest_of r <> d /\ kent_of w r = Some q.

Lemma prio_metric : forall c r, metric_to_kernel c (route_metric r) = prio_of c (metric_of r).
Proof.
  intros. unfold metric_to_kernel, prio_of. change (metric_of r) with (route_metric r). unfold INFINITY, KERNEL_INFINITY.
  destruct (route_metric r >=? 65535); auto. destruct (c_reflect c); auto.
  destruct (c_kernel_metric c + route_metric r >=? 65535) eqn:E; lia.
Qed.

Lemma kent_dest : forall c i r q, kent c i r = Some q ->
  q_prefix q = d_prefix (dest_of r) /\ q_plen q = d_plen (dest_of r) /\
  q_src q = if is_default (d_src (dest_of r)) (d_splen (dest_of r)) then None else Some (d_src (dest_of r), d_splen (dest_of r)).
Proof.
  intros c i r q. unfold kent. cbv zeta. destruct (_ <? 65535); [intros H; inversion H; subst; auto|].
  destruct (_ || _); [discriminate|]. intros H; inversion H; subst; auto.
Qed.
Lemma kent_inj : forall c i i' r r' q q', dvalid (dest_of r) -> dvalid (dest_of r') ->
  kent c i r = Some q -> kent c i' r' = Some q' -> kkey q = kkey q' -> dest_of r = dest_of r'.
Proof.
  intros c i i' r r' q q' V V' E E' K. apply kent_dest in E. apply kent_dest in E'.
  destruct E as (A & B & C), E' as (A' & B' & C'). unfold kkey in K.
  assert (K1 : q_prefix q = q_prefix q') by congruence. assert (K2 : q_plen q = q_plen q') by congruence.
  assert (K3 : q_src q = q_src q') by congruence.
  rewrite A, A' in K1. rewrite B, B' in K2. rewrite C, C' in K3. clear -K1 K2 K3 V V'.
  destruct (dest_of r) as [p l s sl], (dest_of r') as [p' l' s' sl']. unfold dvalid in *. cbn [d_prefix d_plen d_src d_splen] in *.
  subst p' l'. destruct (is_default s sl), (is_default s' sl'); try discriminate.
  - pose proof (V eq_refl) as X. pose proof (V' eq_refl) as X'. rewrite <- X' in X. inversion X. reflexivity.
  - inversion K3. reflexivity.
Qed.
Lemma kent_of_inj : forall e w r r' q q', W e w -> In r (all_routes w) -> dvalid (dest_of r') ->
  kent_of w r = Some q -> kent_of w r' = Some q' -> kkey q = kkey q' -> dest_of r = dest_of r'.
Proof.
  intros e w r r' q q' Hw Hr V. unfold kent_of. destruct (nb_if (r_neigh r) w) as [[n i]|]; [|discriminate].
  destruct (nb_if (r_neigh r') w) as [[n' i']|]; [|discriminate]. apply kent_inj; auto.
  apply (route_dvalid w r (W_rt _ _ Hw) Hr).
Qed.

(** ** The invariant *)
Definition can_install (c : conf) (d : dest) : Prop :=
  is_default (d_src d) (d_splen d) = true \/ (v4mapped (d_prefix d) = false /\ c_subtrees c = true).
Record K (w : world) : Prop := mkK {
  K_tab : exists F, kernel_table (w_ktr w) = Some F /\ mirrors F (Sel w);
  K_fam : forall r, In r (all_routes w) -> family_ok (dest_of r) (r_nexthop r) = true;
  K_ins : forall r, In r (all_routes w) -> r_installed r = true -> can_install (w_cfg w) (dest_of r);
  K_stat : static_install (w_cfg w);
  K_filt : filters_ok (w_cfg w);
  K_resp : Forall (fun x => x = 0) (w_kresp w) }.

Lemma do_filter_static : forall fs id id' d i i' pr, (forall f, In f fs -> f_id f = None /\ f_if f = None) ->
  do_filter fs id d None i pr = do_filter fs id' d None i' pr.
Proof.
  induction fs as [|f fs IH]; intros id id' d i i' pr H; [reflexivity|]. cbn [do_filter].
  destruct (H f) as (A & B); [left; auto|].
  assert (E : filter_match f id d None i pr = filter_match f id' d None i' pr).
  { unfold filter_match. rewrite A, B. reflexivity. }
  rewrite E. destruct (filter_match f id' d None i' pr); auto. apply IH. intros; apply H; right; auto.
Qed.
Lemma install_static : forall c id id' d i i', static_install c ->
  install_filter (c_instfs c) id d i = install_filter (c_instfs c) id' d i'.
Proof. intros. unfold install_filter. rewrite (do_filter_static _ id id' d i i'); auto. Qed.
Lemma inst_filter_static : forall w r r' i i', static_install (w_cfg w) -> dest_of r = dest_of r' ->
  inst_filter r i w = inst_filter r' i' w.
Proof.
  intros w r r' i i' S D. unfold inst_filter. change (rdest r) with (dest_of r). rewrite D. change (rdest r') with (dest_of r').
  rewrite (install_static _ _ (Some (k_id (r_src r'))) _ _ (if_ifindex i') S). reflexivity.
Qed.
Lemma kent_static : forall c i r r', static_install c -> dest_of r = dest_of r' ->
  prio_of c (metric_of r) = prio_of c (metric_of r') ->
  r_nexthop r = r_nexthop r' -> kent c i r = kent c i r'.
Proof.
  intros c i r r' S D M N. unfold kent. rewrite D, M, N.
  rewrite (install_static _ _ (Some (k_id (r_src r'))) _ _ i S). reflexivity.
Qed.

(** ** Kernel requests *)
Definition kevs (add : bool) (o : option kreq) : list kev :=
  match o with None => [] | Some q => [if add then KAdd q 0 else KDel q 0] end.
Lemma kernel_route1_ok : forall add table pref r i w, static_install (w_cfg w) ->
  family_ok (dest_of r) (r_nexthop r) = true -> can_install (w_cfg w) (dest_of r) -> Forall (fun x => x = 0) (w_kresp w) ->
  (exists deny, inst_filter r i w = (deny, table, pref)) ->
  exists w1, kernel_route1 add table (rdest r) pref (r_nexthop r) (if_ifindex i)
               (metric_to_kernel (w_cfg w) (route_metric r)) w = (0, w1) /\
    kframe w w1 /\ Forall (fun x => x = 0) (w_kresp w1) /\ w_ktr w1 = w_ktr w ++ kevs add (kent (w_cfg w) (if_ifindex i) r).
Proof.
  intros add table pref r i w S Fa Ci Kr (deny & I).
  destruct (kernel_route1 add table (rdest r) pref (r_nexthop r) (if_ifindex i)
               (metric_to_kernel (w_cfg w) (route_metric r)) w) as [rc w1] eqn:E.
  pose proof (kernel_route1_frame _ _ _ _ _ _ _ _ _ _ E) as Kf. exists w1.
  unfold kernel_route1 in E. change (rdest r) with (dest_of r) in E. rewrite Fa in E. cbn [negb] in E.
  assert (Z0 : negb (is_default (d_src (dest_of r)) (d_splen (dest_of r))) &&
     (v4mapped (d_prefix (dest_of r)) || negb (c_subtrees (w_cfg w))) = false).
  { destruct Ci as [->|(-> & ->)]; [reflexivity|]. cbn. apply andb_false_r. }
  rewrite Z0 in E. clear Z0. unfold kent. cbv zeta.
  unfold inst_filter in I. change (rdest r) with (dest_of r) in I.
  destruct (install_filter (c_instfs (w_cfg w)) (Some (k_id (r_src r))) (dest_of r) (if_ifindex i)) as [m act] eqn:A.
  cbn [snd]. inversion I; subst. clear I. rewrite prio_metric in E. unfold KERNEL_INFINITY in E.
  set (p := prio_of (w_cfg w) (metric_of r)) in *.
  destruct (p >=? 65535) eqn:P.
  - replace (p <? 65535) with false by lia. cbn [andb] in E.
    destruct ((d_plen (dest_of r) =? 0) || v4mapped (d_prefix (dest_of r)) && (d_plen (dest_of r) =? 96)) eqn:D.
    + inversion E; subst. split; auto. split; auto. split; auto. cbn [kevs]. rewrite app_nil_r. auto.
    + destruct (kresp1 w) as [x w2] eqn:R. unfold kresp1 in R.
      assert (X : x = 0 /\ Forall (fun x => x = 0) (w_kresp w2) /\ w_ktr w2 = w_ktr w).
      { destruct (w_kresp w) eqn:Q; inversion R; subst; [rewrite Q; auto|]. inversion Kr; subst. auto. }
      destruct X as (-> & X1 & X2). inversion E; subst. split; [reflexivity|]. split; auto. split; [exact X1|].
      cbn [ktrace w_ktr set_w_ktr]. rewrite X2. f_equal. cbn [kevs]. unfold kreq_of, KERNEL_INFINITY.
      replace (p <? 65535) with false by lia. unfold u8. destruct add; reflexivity.
  - replace (p <? 65535) with true by lia. cbn [andb] in E.
    destruct (kresp1 w) as [x w2] eqn:R. unfold kresp1 in R.
    assert (X : x = 0 /\ Forall (fun x => x = 0) (w_kresp w2) /\ w_ktr w2 = w_ktr w).
    { destruct (w_kresp w) eqn:Q; inversion R; subst; [rewrite Q; auto|]. inversion Kr; subst. auto. }
    destruct X as (-> & X1 & X2). inversion E; subst. split; [reflexivity|]. split; auto. split; [exact X1|].
    cbn [ktrace w_ktr set_w_ktr]. rewrite X2. f_equal. cbn [kevs]. unfold kreq_of, KERNEL_INFINITY.
    replace (p <? 65535) with true by lia. unfold u8. destruct add; reflexivity.
Qed.

(** The kernel table after removing the entry of the selected route of [d], and
    after adding an entry for a destination that has none. *)
Lemma table_del : forall e w r F, W e w -> mirrors F (Sel w) -> is_selected w (dest_of r) r ->
  exists F', fibs (Some F) (kevs false (kent_of w r)) = Some F' /\ mirrors F' (Others w (dest_of r)).
Proof.
  intros e w r F Hw M (Hr & Ir & _).
  assert (U : forall x, In x (all_routes w) -> r_installed x = true -> dest_of x = dest_of r -> x = r).
  { intros x Hx Ix Dx. pose proof (route_dvalid w r (W_rt _ _ Hw) Hr) as V.
    assert (A : find_installed (dest_of r) w = Some x) by (apply find_installed_iff; auto; apply (W_rt _ _ Hw)).
    assert (B : find_installed (dest_of r) w = Some r) by (apply find_installed_iff; auto; apply (W_rt _ _ Hw)). congruence. }
  destruct (kent_of w r) as [q|] eqn:E; cbn [kevs].
  - destruct (mir_del F (Sel w) q M) as (F' & E' & M'); [exists r; auto|]. exists F'. split; auto.
    apply (mir_ext _ _ _ M'). intros q'. split.
    + intros ((x & Hx & Ix & Ex) & N). exists x. split; auto. split; auto. split; auto. intros D. apply U in D; auto. congruence.
    + intros (x & Hx & Ix & Dx & Ex). split; [exists x; auto|]. intros ->. apply Dx.
      eapply (kent_of_inj e w x r); eauto. apply (route_dvalid w r (W_rt _ _ Hw) Hr).
  - exists F. split; auto. apply (mir_ext _ _ _ M). intros q'. split.
    + intros (x & Hx & Ix & Ex). exists x. split; auto. split; auto. split; auto. intros D. apply U in D; auto. congruence.
    + intros (x & Hx & Ix & Dx & Ex). exists x; auto.
Qed.
Lemma table_add : forall e w d r ifx F, W e w -> mirrors F (Others w d) -> dest_of r = d -> dvalid d ->
  exists F', fibs (Some F) (kevs true (kent (w_cfg w) ifx r)) = Some F' /\
             mirrors F' (fun q => Others w d q \/ kent (w_cfg w) ifx r = Some q).
Proof.
  intros e w d r ifx F Hw M D V. destruct (kent (w_cfg w) ifx r) as [q|] eqn:E; cbn [kevs].
  - destruct (mir_add F _ q M) as (F' & E' & M').
    + intros q' (x & Hx & Ix & Dx & Ex) Kk. apply Dx. rewrite <- D. unfold kent_of in Ex.
      destruct (nb_if (r_neigh x) w) as [[n i]|]; [|discriminate].
      apply (kent_inj _ _ _ _ _ _ _ (route_dvalid w x (W_rt _ _ Hw) Hx) ltac:(rewrite D; exact V) Ex E Kk).
    + exists F'. split; auto.
  - exists F. split; auto. apply (mir_ext _ _ _ M). intros q. split; auto. intros [H|H]; auto. discriminate.
Qed.


(** States that differ only in the routes to [d]. *)
Definition offd (d : dest) (w w' : world) : Prop :=
  forall r, dest_of r <> d -> (In r (all_routes w') <-> In r (all_routes w)).
Definition links (w w' : world) : Prop :=
  w_cfg w' = w_cfg w /\
  forall n, option_map (fun x => if_ifindex (snd x)) (nb_if n w') = option_map (fun x => if_ifindex (snd x)) (nb_if n w).
Lemma links_kent : forall w w' r, links w w' -> kent_of w' r = kent_of w r.
Proof.
  intros w w' r (C & L). unfold kent_of. rewrite C. specialize (L (r_neigh r)).
  destruct (nb_if (r_neigh r) w') as [[n i]|], (nb_if (r_neigh r) w) as [[n' i']|]; cbn in L; try discriminate; auto.
  injection L as ->. reflexivity.
Qed.
Lemma links_refl : forall w, links w w. Proof. split; auto. Qed.
Lemma links_trans : forall a b c, links a b -> links b c -> links a c.
Proof. intros a b c (A & B) (C & D). split; [congruence|]. intros. rewrite D. apply B. Qed.
Lemma links_same : forall w w', w_cfg w' = w_cfg w -> w_nbs w' = w_nbs w -> w_ifs w' = w_ifs w -> links w w'.
Proof. intros w w' A B C. split; auto. intros n. unfold nb_if, get_nb, get_if. rewrite B, C. reflexivity. Qed.
Lemma links_kframe : forall w w', kframe w w' -> links w w'.
Proof. intros w w' (a & b & ->). apply links_same; reflexivity. Qed.
Lemma links_map : forall p f w, links w (map_ptr p f w).
Proof. intros. apply links_same; reflexivity. Qed.
Lemma links_move : forall d p w, links w (move_installed d p w).
Proof. intros. unfold move_installed. destruct (find_route_slot d w); apply links_same; reflexivity. Qed.

Lemma offd_trans : forall d a b c, offd d a b -> offd d b c -> offd d a c.
Proof. intros d a b c A B r D. rewrite (B r D). apply A; auto. Qed.
Lemma offd_rt : forall d w w', w_rt w' = w_rt w -> offd d w w'.
Proof. intros d w w' E r D. unfold all_routes. rewrite E. tauto. Qed.
Lemma offd_kframe : forall d w w', kframe w w' -> offd d w w'.
Proof. intros d w w' (a & b & ->). apply offd_rt. reflexivity. Qed.
Lemma offd_map : forall d p f w, (forall r, In r (all_routes w) -> r_ptr r = p -> dest_of r = d) ->
  (forall r, dest_of r = d -> dest_of (f r) = d) -> offd d w (map_ptr p f w).
Proof.
  intros d p f w H G r D. rewrite all_map_ptr. rewrite in_map_iff. unfold upd_route. split.
  - intros (x & E & Hx). destruct (is_ptr p x) eqn:P; [|subst; auto]. exfalso. apply D. rewrite <- E. apply G, H; auto.
    unfold is_ptr in P. lia.
  - intros Hr. exists r. split; auto. destruct (is_ptr p r) eqn:P; auto. exfalso. apply D, H; auto. unfold is_ptr in P. lia.
Qed.
Lemma offd_move : forall d d' p w, offd d w (move_installed d' p w).
Proof.
  intros d d' p w r D. split; [apply In_move|]. unfold move_installed. destruct (find_route_slot d' w); auto.
  unfold all_routes. cbn [w_rt set_w_rt]. intros H. eapply Permutation_in; [|exact H]. symmetry.
  clear. revert i. assert (P : forall (i : nat) (rt : list (list route)), Permutation (concat (upd i (move_front p (nth i rt [])) rt)) (concat rt)).
  { induction i; destruct rt as [|a rt]; cbn [upd nth concat]; auto; apply Permutation_app; auto. apply move_front_perm. }
  intros. apply P.
Qed.
Lemma In_move_iff : forall d p w r, In r (all_routes (move_installed d p w)) <-> In r (all_routes w).
Proof.
  intros d p w r. split; [apply In_move|]. intros H.
  assert (exists d', dest_of r <> d') as (d' & D).
  { exists (mkDest (0 :: d_prefix (dest_of r)) 0 [] 0). intros E. apply (f_equal (fun d => length (d_prefix d))) in E. cbn in E. lia. }
  apply (offd_move d' d p w r D). auto.
Qed.

Lemma Sel_split : forall w w' d, links w w' -> offd d w w' ->
  forall q, Sel w' q <-> (Others w d q \/ exists r, is_selected w' d r /\ kent_of w' r = Some q).
Proof.
  intros w w' d L O q. split.
  - intros (r & Hr & Ir & E). destruct (dest_dec (dest_of r) d) as [D|D].
    + right. exists r. split; auto. split; auto.
    + left. exists r. rewrite <- (O r D). rewrite <- (links_kent w w' r L). auto.
  - intros [(r & Hr & Ir & D & E)|(r & (Hr & Ir & D) & E)].
    + exists r. rewrite (O r D). rewrite (links_kent w w' r L). auto.
    + exists r. auto.
Qed.

(** Same set of selected entries. *)
Lemma K_keep : forall w w', K w -> w_ktr w' = w_ktr w -> Forall (fun x => x = 0) (w_kresp w') -> w_cfg w' = w_cfg w ->
  (forall r, In r (all_routes w') -> family_ok (dest_of r) (r_nexthop r) = true) ->
  (forall r, In r (all_routes w') -> r_installed r = true -> can_install (w_cfg w) (dest_of r)) ->
  (forall q, Sel w' q <-> Sel w q) -> K w'.
Proof.
  intros w w' [] E R C F I S. destruct K_tab0 as (T & A & M). constructor; auto; try (rewrite C; auto).
  exists T. split; [rewrite E; auto|]. apply (mir_ext _ _ _ M). intros q. symmetry. apply S.
Qed.
Lemma K_rt : forall w w', K w -> w_ktr w' = w_ktr w -> Forall (fun x => x = 0) (w_kresp w') -> links w w' ->
  w_rt w' = w_rt w -> K w'.
Proof.
  intros w w' Kw E R L Rt. pose proof L as (C & _). apply (K_keep w w'); auto; unfold all_routes; rewrite ?Rt.
  - apply (K_fam _ Kw).
  - apply (K_ins _ Kw).
  - intros q. unfold Sel, all_routes. rewrite Rt. split; intros (r & Hr & Ir & X); exists r; split; auto; split; auto.
    + rewrite (links_kent w w' r L) in X. auto.
    + rewrite (links_kent w w' r L). auto.
Qed.
Lemma K_map : forall w p f, K w ->
  (forall r, In r (all_routes w) -> r_ptr r = p -> r_installed (f r) = r_installed r /\ dest_of (f r) = dest_of r /\
     r_nexthop (f r) = r_nexthop r /\ r_neigh (f r) = r_neigh r /\
     (r_installed r = true -> prio_of (w_cfg w) (metric_of (f r)) = prio_of (w_cfg w) (metric_of r))) -> K (map_ptr p f w).
Proof.
  intros w p f Kw H.
  assert (D : forall r, In r (all_routes w) -> r_installed (upd_route p f r) = r_installed r /\ dest_of (upd_route p f r) = dest_of r /\
     r_nexthop (upd_route p f r) = r_nexthop r /\ (r_installed r = true -> kent_of w (upd_route p f r) = kent_of w r)).
  { intros r Hr. unfold upd_route. destruct (is_ptr p r) eqn:P; auto. destruct (H r Hr) as (A & B & C & E & M); [unfold is_ptr in P; lia|].
    split; auto. split; auto. split; auto. intros I. unfold kent_of. rewrite E. destruct (nb_if (r_neigh r) w) as [[n i]|]; auto.
    apply kent_static; auto. apply (K_stat _ Kw). }
  apply (K_keep w); auto; try apply (K_resp _ Kw).
  - intros r Hr. rewrite all_map_ptr in Hr. apply in_map_iff in Hr. destruct Hr as (x & <- & Hx).
    destruct (D x Hx) as (_ & B & C & _). rewrite B, C. apply (K_fam _ Kw). auto.
  - intros r Hr Ir. rewrite all_map_ptr in Hr. apply in_map_iff in Hr. destruct Hr as (x & <- & Hx).
    destruct (D x Hx) as (A & B & _). rewrite B. apply (K_ins _ Kw); auto. congruence.
  - intros q. split.
    + intros (r & Hr & Ir & E). rewrite all_map_ptr in Hr. apply in_map_iff in Hr. destruct Hr as (x & <- & Hx).
      destruct (D x Hx) as (A & _ & _ & G). exists x. split; auto. split; [congruence|]. rewrite <- G by congruence.
      rewrite <- E. symmetry. apply links_kent. apply links_map.
    + intros (x & Hx & Ix & E). destruct (D x Hx) as (A & _ & _ & G). exists (upd_route p f x).
      split; [rewrite all_map_ptr; apply in_map; auto|]. split; [congruence|]. rewrite (links_kent w); [|apply links_map].
      rewrite G; auto.
Qed.

(** The selected route of one destination changes. *)
Lemma K_finish : forall w w' d F' o, K w -> links w w' -> offd d w w' ->
  (forall r, In r (all_routes w') -> family_ok (dest_of r) (r_nexthop r) = true) ->
  (forall r, is_selected w' d r -> can_install (w_cfg w) d) ->
  Forall (fun x => x = 0) (w_kresp w') ->
  kernel_table (w_ktr w') = Some F' -> mirrors F' (fun q => Others w d q \/ o = Some q) ->
  (forall q, (exists r, is_selected w' d r /\ kent_of w' r = Some q) <-> o = Some q) -> K w'.
Proof.
  intros w w' d F' o Kw L O Fa Ci Kr T M S. pose proof L as (C & _). destruct Kw. constructor; auto; try (rewrite C; auto).
  - exists F'. split; auto. apply (mir_ext _ _ _ M). intros q. rewrite (Sel_split w w' d L O q). rewrite (S q). tauto.
  - intros r Hr Ir. destruct (dest_dec (dest_of r) d) as [D|D].
    + rewrite D. apply (Ci r). split; auto.
    + apply K_ins0; auto. apply (O r D). auto.
Qed.

Lemma descends_fam : forall w w', descends w w' -> (forall r, In r (all_routes w) -> family_ok (dest_of r) (r_nexthop r) = true) ->
  forall r, In r (all_routes w') -> family_ok (dest_of r) (r_nexthop r) = true.
Proof.
  intros w w' D H r Hr. destruct (D r Hr) as (x & Hx & E). apply ident_eq in E. destruct E as (_ & -> & _ & ->). auto.
Qed.

Lemma selected_unique : forall e w r x, W e w -> In r (all_routes w) -> r_installed r = true ->
  In x (all_routes w) -> r_installed x = true -> dest_of x = dest_of r -> x = r.
Proof.
  intros e w r x Hw Hr Ir Hx Ix Dx. pose proof (route_dvalid w r (W_rt _ _ Hw) Hr) as V.
  assert (A : find_installed (dest_of r) w = Some x) by (apply find_installed_iff; auto; apply (W_rt _ _ Hw)).
  assert (B : find_installed (dest_of r) w = Some r) by (apply find_installed_iff; auto; apply (W_rt _ _ Hw)). congruence.
Qed.
Lemma ptr_unique : forall e w p r x, W e w -> find_ptr p w = Some r -> In x (all_routes w) -> r_ptr x = p -> x = r.
Proof.
  intros e w p r x Hw F Hx P. assert (find_ptr p w = Some x) by (apply find_ptr_iff; auto; apply (W_rt _ _ Hw)). congruence.
Qed.

Lemma K_inst : forall e w p r n i rc w1, W e w -> K w -> find_ptr p w = Some r -> r_installed r = false ->
  find_installed (rdest r) w = None -> nb_if (r_neigh r) w = Some (n, i) ->
  change_route_add r i (metric_to_kernel (w_cfg w) (route_metric r)) w = (rc, w1) ->
  (rc <? 0) && negb (rc =? - EEXIST) = false ->
  K (move_installed (rdest r) p (map_ptr p (set_r_installed true) (selected r w None w1))).
Proof.
  intros e w p r n i rc w1 Hw Kw F Ir No Nb E Rc. pose proof (find_In _ _ _ F) as Hr. pose proof (find_ptr_ptr _ _ _ F) as Pr.
  set (w' := move_installed _ _ _). pose proof (change_route_add_frame _ _ _ _ _ _ E) as Kf.
  assert (Rt1 : w_rt w1 = w_rt w) by (destruct Kf as (a & b & ->); reflexivity).
  unfold change_route_add in E. destruct (inst_filter r i w) as [[deny table] pref] eqn:I.
  destruct deny; [inversion E; subst; discriminate|].
  assert (Ci : can_install (w_cfg w) (dest_of r)).
  { unfold kernel_route1 in E. change (rdest r) with (dest_of r) in E. rewrite (K_fam _ Kw r Hr) in E. cbn [negb] in E.
    destruct (negb (is_default (d_src (dest_of r)) (d_splen (dest_of r))) && (v4mapped (d_prefix (dest_of r)) || negb (c_subtrees (w_cfg w)))) eqn:X.
    - inversion E; subst. discriminate.
    - unfold can_install. destruct (is_default _ _); auto. right. cbn in X. destruct (v4mapped _), (c_subtrees _); auto; discriminate. }
  destruct (kernel_route1_ok true table pref r i w (K_stat _ Kw) (K_fam _ Kw r Hr) Ci (K_resp _ Kw)) as (w2 & E2 & _ & Kr & Kt); [eauto|].
  rewrite E2 in E. inversion E; subst rc w2. clear E E2.
  destruct (K_tab _ Kw) as (F0 & T0 & M0).
  assert (M1 : mirrors F0 (Others w (dest_of r))).
  { apply (mir_ext _ _ _ M0). intros q. split; intros (x & Hx & Ix & X).
    - exists x. split; auto. split; auto. split; auto. intros D. assert (find_installed (dest_of r) w = Some x).
      { apply find_installed_iff; auto; [apply (W_rt _ _ Hw)|]. apply (route_dvalid w r (W_rt _ _ Hw) Hr). }
      change (rdest r) with (dest_of r) in No. congruence.
    - exists x. tauto. }
  destruct (table_add e w (dest_of r) r (if_ifindex i) F0 Hw M1 eq_refl (route_dvalid w r (W_rt _ _ Hw) Hr)) as (F1 & T1 & M2).
  assert (L : links w w').
  { eapply links_trans; [|apply links_move]. eapply links_trans; [|apply links_map]. apply links_kframe in Kf.
    eapply links_trans; [exact Kf|]. apply links_same; reflexivity. }
  assert (De : descends w w').
  { eapply descends_trans; [|apply descends_move]. eapply descends_trans; [|apply descends_map; reflexivity].
    apply descends_kframe in Kf. exact Kf. }
  assert (In' : forall x, In x (all_routes w') <-> exists y, In y (all_routes w) /\ x = upd_route p (set_r_installed true) y).
  { intros x. unfold w'. rewrite In_move_iff, all_map_ptr, in_map_iff. unfold all_routes. cbn [selected w_rt set_w_sel]. rewrite Rt1.
    split; intros (y & A & B); exists y; auto. }
  assert (Is : forall x, is_selected w' (dest_of r) x <-> x = set_r_installed true r).
  { intros x. split.
    - intros (Hx & Ix & Dx). apply In' in Hx. destruct Hx as (y & Hy & ->). unfold upd_route in *. destruct (is_ptr p y) eqn:P.
      + f_equal. eapply ptr_unique; eauto. unfold is_ptr in P. lia.
      + exfalso. assert (find_installed (dest_of r) w = Some y).
        { apply find_installed_iff; auto; [apply (W_rt _ _ Hw)|]. apply (route_dvalid w r (W_rt _ _ Hw) Hr). }
        change (rdest r) with (dest_of r) in No. congruence.
    - intros ->. split; [|split; reflexivity]. apply In'. exists r. split; auto. unfold upd_route.
      replace (is_ptr p r) with true by (unfold is_ptr; lia). reflexivity. }
  apply (K_finish w w' (dest_of r) F1 (kent (w_cfg w) (if_ifindex i) r)); auto.
  - intros x Dx. rewrite (In' x). split.
    + intros (y & Hy & ->). unfold upd_route in *. destruct (is_ptr p y) eqn:P; auto. exfalso. apply Dx.
      assert (y = r) by (eapply ptr_unique; eauto; unfold is_ptr in P; lia). subst. reflexivity.
    + intros Hx. exists x. split; auto. unfold upd_route. destruct (is_ptr p x) eqn:P; auto. exfalso. apply Dx.
      assert (x = r) by (eapply ptr_unique; eauto; unfold is_ptr in P; lia). subst. reflexivity.
  - apply (descends_fam _ _ De (K_fam _ Kw)).
  - unfold w', move_installed. destruct (find_route_slot _ _); exact Kr.
  - assert (Ek : w_ktr w' = w_ktr w1) by (unfold w', move_installed; destruct (find_route_slot _ _); reflexivity).
    rewrite Ek, Kt. unfold kernel_table in *. rewrite fibs_app, T0. exact T1.
  - assert (Ke : kent_of w' (set_r_installed true r) = kent (w_cfg w) (if_ifindex i) r).
    { rewrite (links_kent w w' _ L). unfold kent_of. cbn [r_neigh set_r_installed]. rewrite Nb. reflexivity. }
    intros q. split.
    + intros (x & Sx & Ex). apply Is in Sx. subst. congruence.
    + intros Eq. exists (set_r_installed true r). split; [apply Is; auto|]. congruence.
Qed.

Lemma modify_ok : forall e w r i x i' rc w1 n, W e w -> K w -> In r (all_routes w) -> r_installed r = true ->
  nb_if (r_neigh r) w = Some (n, i) -> dest_of x = dest_of r -> family_ok (dest_of x) (r_nexthop x) = true ->
  change_route_modify r i (metric_to_kernel (w_cfg w) (route_metric r)) (r_nexthop x) (if_ifindex i')
    (metric_to_kernel (w_cfg w) (route_metric x)) w = (rc, w1) ->
  rc = 0 /\ Forall (fun y => y = 0) (w_kresp w1) /\
  exists F1, kernel_table (w_ktr w1) = Some F1 /\
    mirrors F1 (fun q => Others w (dest_of r) q \/ kent (w_cfg w) (if_ifindex i') x = Some q).
Proof.
  intros e w r i x i' rc w1 n Hw Kw Hr Ir Nb D Fx E. unfold change_route_modify in E.
  destruct (inst_filter r i w) as [[deny table] pref] eqn:I.
  assert (Ix : inst_filter x i' w = (deny, table, pref)) by (rewrite <- I; apply inst_filter_static; auto; apply (K_stat _ Kw)).
  unfold kernel_route_modify in E. change (rdest r) with (dest_of r) in E. rewrite (K_fam _ Kw r Hr) in E. cbn [negb] in E.
  destruct (K_tab _ Kw) as (F0 & T0 & M0). pose proof (K_ins _ Kw r Hr Ir) as Ci.
  assert (Ko : kent_of w r = kent (w_cfg w) (if_ifindex i) r) by (unfold kent_of; rewrite Nb; auto).
  destruct ((metric_to_kernel (w_cfg w) (route_metric x) =? metric_to_kernel (w_cfg w) (route_metric r)) &&
    beq (r_nexthop x) (r_nexthop r) && (if_ifindex i' =? if_ifindex i)) eqn:Same.
  - inversion E; subst. split; auto. split; [apply (K_resp _ Kw)|]. exists F0. split; auto.
    apply andb_prop in Same. destruct Same as (S1 & S3). apply andb_prop in S1. destruct S1 as (S1 & S2).
    apply beq_true in S2. rewrite !prio_metric in S1. apply Z.eqb_eq in S1. apply Z.eqb_eq in S3.
    assert (Ek : kent (w_cfg w1) (if_ifindex i') x = kent (w_cfg w1) (if_ifindex i) r).
    { rewrite S3. apply kent_static; auto. apply (K_stat _ Kw). }
    apply (mir_ext _ _ _ M0). intros q. split.
    + intros (y & Hy & Iy & Ey). destruct (dest_dec (dest_of y) (dest_of r)) as [Dy|Dy].
      * right. assert (y = r) by (eapply selected_unique with (w := w1); eauto). subst. congruence.
      * left. exists y. auto.
    + intros [(y & Hy & Iy & Dy & Ey)|Ey]; [exists y; auto|]. exists r. split; auto. split; auto. congruence.
  - destruct (kernel_route1_ok false table pref r i w (K_stat _ Kw) (K_fam _ Kw r Hr) Ci (K_resp _ Kw)) as (w2 & E2 & Kf2 & Kr2 & Kt2); [eauto|].
    change (rdest r) with (dest_of r) in E2. rewrite E2 in E.
    assert (C2 : w_cfg w2 = w_cfg w) by (destruct Kf2 as (a & b & ->); reflexivity).
    destruct (kernel_route1_ok true table pref x i' w2) as (w3 & E3 & Kf3 & Kr3 & Kt3); rewrite ?C2; auto.
    { apply (K_stat _ Kw). }
    { rewrite D. auto. }
    { exists deny. rewrite <- Ix. unfold inst_filter. rewrite C2. reflexivity. }
    change (rdest x) with (dest_of x) in E3. rewrite C2, D in E3. rewrite E3 in E. cbn in E. inversion E; subst.
    split; auto. split; auto.
    destruct (table_del e w r F0 Hw M0) as (F1 & T1 & M1); [split; auto|]. rewrite Ko in T1.
    destruct (table_add e w (dest_of r) x (if_ifindex i') F1 Hw M1 D (route_dvalid w r (W_rt _ _ Hw) Hr)) as (F2 & T2 & M2).
    exists F2. split; auto. rewrite Kt3, Kt2. unfold kernel_table in *. rewrite !fibs_app, T0, T1, C2. exact T2.
Qed.

Lemma upd_self : forall p f r, r_ptr r = p -> upd_route p f r = f r.
Proof. intros p f r E. unfold upd_route, is_ptr. rewrite E, Z.eqb_refl. reflexivity. Qed.
Lemma upd_other : forall p f r, r_ptr r <> p -> upd_route p f r = r.
Proof. intros p f r E. unfold upd_route, is_ptr. destruct (r_ptr r =? p) eqn:X; auto. lia. Qed.

Lemma K_uninst : forall e w p r n i, W e w -> K w -> find_ptr p w = Some r -> r_installed r = true ->
  nb_if (r_neigh r) w = Some (n, i) ->
  K (snd (change_route_flush r i (metric_to_kernel (w_cfg w) (route_metric r)) (map_ptr p (set_r_installed false) w))).
Proof.
  intros e w p r n i Hw Kw F Ir Nb. pose proof (find_In _ _ _ F) as Hr. pose proof (find_ptr_ptr _ _ _ F) as Pr.
  set (w0 := map_ptr p (set_r_installed false) w). unfold change_route_flush.
  destruct (inst_filter r i w0) as [[deny table] pref] eqn:I.
  pose proof (K_ins _ Kw r Hr Ir) as Ci.
  destruct (kernel_route1_ok false table pref r i w0 (K_stat _ Kw) (K_fam _ Kw r Hr) Ci (K_resp _ Kw)) as (w1 & E1 & Kf & Kr & Kt); [eauto|].
  change (w_cfg w) with (w_cfg w0). rewrite E1. cbn [snd].
  destruct (K_tab _ Kw) as (F0 & T0 & M0).
  destruct (table_del e w r F0 Hw M0) as (F1 & T1 & M1); [split; auto|].
  assert (L : links w w1) by (eapply links_trans; [apply links_map|apply links_kframe; exact Kf]).
  assert (Ptr : forall x, In x (all_routes w) -> r_ptr x = p -> x = r) by (intros; eapply ptr_unique; eauto).
  assert (In' : forall x, In x (all_routes w1) <-> exists y, In y (all_routes w) /\ x = upd_route p (set_r_installed false) y).
  { intros x. destruct Kf as (a & b & ->). change (all_routes (set_w_kresp a (set_w_ktr b w0))) with (all_routes w0).
    unfold w0. rewrite all_map_ptr, in_map_iff. split; intros (y & A & B); exists y; auto. }
  assert (Is : forall x, ~ is_selected w1 (dest_of r) x).
  { intros x (Hx & Ix & Dx). apply In' in Hx. destruct Hx as (y & Hy & ->). destruct (Z.eq_dec (r_ptr y) p) as [P|P].
    - rewrite upd_self in Ix by auto. discriminate.
    - rewrite upd_other in * by auto. assert (y = r) by (eapply selected_unique; eauto). subst. auto. }
  apply (K_finish w w1 (dest_of r) F1 None); auto.
  - apply (offd_trans _ _ w0); [|apply offd_kframe; auto]. apply offd_map; [|auto].
    intros x Hx P. rewrite (Ptr x Hx P). reflexivity.
  - eapply descends_fam; [|apply (K_fam _ Kw)]. eapply descends_trans; [|apply descends_kframe; exact Kf].
    apply descends_map. reflexivity.
  - rewrite Kt. change (w_ktr w0) with (w_ktr w). unfold kernel_table in *. rewrite fibs_app, T0. rewrite <- T1.
    unfold kent_of. rewrite Nb. reflexivity.
  - apply (mir_ext _ _ _ M1). intros q. split; auto. intros [X|X]; auto. discriminate.
  - intros q. split; [|discriminate]. intros (x & Sx & _). destruct (Is x Sx).
Qed.

Lemma K_switch : forall e w o p ro rn no io nn inw rc w1, W e w -> K w ->
  find_ptr o w = Some ro -> find_ptr p w = Some rn -> r_installed ro = true -> r_installed rn = false ->
  dest_of ro = dest_of rn -> nb_if (r_neigh ro) w = Some (no, io) -> nb_if (r_neigh rn) w = Some (nn, inw) ->
  change_route_modify ro io (metric_to_kernel (w_cfg w) (route_metric ro))
      (r_nexthop rn) (if_ifindex inw) (metric_to_kernel (w_cfg w) (route_metric rn)) w = (rc, w1) ->
  K (move_installed (rdest rn) p (map_ptr p (set_r_installed true)
       (map_ptr o (set_r_installed false) (selected rn w (Some ro) w1)))).
Proof.
  intros e w o p ro rn no io nn inw rc w1 Hw Kw Fo Fp Io Ip D No Nn E.
  pose proof (find_In _ _ _ Fo) as Ho. pose proof (find_In _ _ _ Fp) as Hp.
  pose proof (find_ptr_ptr _ _ _ Fo) as Po. pose proof (find_ptr_ptr _ _ _ Fp) as Pp.
  pose proof (change_route_modify_frame _ _ _ _ _ _ _ _ _ E) as Kf.
  destruct (modify_ok e w ro io rn inw rc w1 no Hw Kw Ho Io No (eq_sym D) (K_fam _ Kw rn Hp) E) as (_ & Kr & F1 & T1 & M1).
  set (w' := move_installed _ _ _).
  assert (Rt1 : w_rt w1 = w_rt w) by (destruct Kf as (a & b & ->); reflexivity).
  assert (L : links w w').
  { eapply links_trans; [|apply links_move]. eapply links_trans; [|apply links_map]. eapply links_trans; [|apply links_map].
    apply links_kframe in Kf. eapply links_trans; [exact Kf|]. apply links_same; reflexivity. }
  assert (De : descends w w').
  { eapply descends_trans; [|apply descends_move]. eapply descends_trans; [|apply descends_map; reflexivity].
    eapply descends_trans; [|apply descends_map; reflexivity]. apply descends_kframe in Kf. exact Kf. }
  assert (Npo : r_ptr rn <> o) by (intro X; assert (rn = ro) by (eapply ptr_unique; eauto); congruence).
  assert (PtrO : forall x, In x (all_routes w) -> r_ptr x = o -> x = ro) by (intros; eapply ptr_unique; eauto).
  assert (PtrP : forall x, In x (all_routes w) -> r_ptr x = p -> x = rn) by (intros; eapply ptr_unique; eauto).
  assert (In' : forall x, In x (all_routes w') <-> exists y, In y (all_routes w) /\
     x = upd_route p (set_r_installed true) (upd_route o (set_r_installed false) y)).
  { intros x. unfold w'. rewrite In_move_iff, !all_map_ptr, map_map, in_map_iff. unfold all_routes. cbn [selected w_rt set_w_sel]. rewrite Rt1.
    split; intros (y & A & B); exists y; auto. }
  assert (Keep : forall y, In y (all_routes w) -> dest_of y <> dest_of ro ->
     upd_route p (set_r_installed true) (upd_route o (set_r_installed false) y) = y).
  { intros y Hy Dy. assert (r_ptr y <> o) by (intro X; apply Dy; rewrite (PtrO y Hy X); auto).
    assert (r_ptr y <> p) by (intro X; apply Dy; rewrite (PtrP y Hy X); auto). rewrite (upd_other o), upd_other; auto. }
  assert (Dk : forall y, dest_of (upd_route p (set_r_installed true) (upd_route o (set_r_installed false) y)) = dest_of y).
  { intros y. unfold upd_route. destruct (is_ptr o y); destruct (is_ptr p _); reflexivity. }
  assert (Is : forall x, is_selected w' (dest_of ro) x <-> x = set_r_installed true rn).
  { intros x. split.
    - intros (Hx & Ix & Dx). apply In' in Hx. destruct Hx as (y & Hy & ->). rewrite Dk in Dx.
      destruct (Z.eq_dec (r_ptr y) o) as [Po'|Po'].
      + assert (y = ro) by auto. subst y. rewrite (upd_self o) in * by auto.
        rewrite upd_other in Ix; [discriminate|]. cbn. congruence.
      + rewrite (upd_other o) in * by auto. destruct (Z.eq_dec (r_ptr y) p) as [Pp'|Pp'].
        * assert (y = rn) by auto. subst y. rewrite upd_self by auto. reflexivity.
        * rewrite upd_other in Ix by auto. exfalso. apply Po'.
          assert (y = ro) by (eapply selected_unique; eauto). subst. reflexivity.
    - intros ->. split; [|split; [reflexivity|symmetry; exact D]]. apply In'. exists rn. split; auto.
      rewrite (upd_other o) by auto. rewrite upd_self by auto. reflexivity. }
  apply (K_finish w w' (dest_of ro) F1 (kent (w_cfg w) (if_ifindex inw) rn)); auto.
  - intros x Dx. rewrite (In' x). split.
    + intros (y & Hy & ->). rewrite Dk in Dx. rewrite Keep; auto.
    + intros Hx. exists x. split; auto. rewrite Keep; auto.
  - apply (descends_fam _ _ De (K_fam _ Kw)).
  - intros _ _. apply (K_ins _ Kw ro Ho Io).
  - unfold w', move_installed. destruct (find_route_slot _ _); exact Kr.
  - assert (Ek : w_ktr w' = w_ktr w1) by (unfold w', move_installed; destruct (find_route_slot _ _); reflexivity).
    rewrite Ek. exact T1.
  - assert (Ke : kent_of w' (set_r_installed true rn) = kent (w_cfg w) (if_ifindex inw) rn).
    { rewrite (links_kent w w' _ L). unfold kent_of. cbn [r_neigh set_r_installed]. rewrite Nn. reflexivity. }
    intros q. split.
    + intros (x & Sx & Ex). apply Is in Sx. subst. congruence.
    + intros Eq. exists (set_r_installed true rn). split; [apply Is; auto|]. congruence.
Qed.

(** ** Metrics *)
Lemma input_range : forall c id d addr ifx, filters_ok c -> 0 <= input_filter (c_infs c) id d addr ifx <= 65535.
Proof.
  intros c id d addr ifx H. unfold input_filter, filters_ok in *. induction (c_infs c) as [|f fs IH]; cbn [do_filter].
  - cbn. lia.
  - destruct (filter_match f id d addr ifx 0); [|apply IH; intros; apply H; right; auto].
    cbn [fst]. pose proof (H f (or_introl eq_refl)) as A.
    replace (s32 (fr_add_metric (f_action f))) with (fr_add_metric (f_action f)).
    + destruct (fr_add_metric (f_action f) <? 0) eqn:E; lia.
    + unfold s32. cbv zeta. rewrite Z.mod_small by lia. destruct (fr_add_metric (f_action f) <? 2147483648) eqn:E; lia.
Qed.
Lemma args_u16 : forall w ref cost add, rng w -> filters_ok (w_cfg w) -> metric_args w ref cost add ->
  u16_ok ref /\ u16_ok cost /\ u16_ok add.
Proof.
  intros w ref cost add G Fo (A & B & C). split; auto. split.
  - destruct B as [->|(n & i & Hn & Hi & ->)]; [unfold u16_ok, INFINITY; lia|].
    apply in_map_iff in Hi. destruct Hi as (j & E & Hj). pose proof (rg_ifs _ G j Hj) as Ok.
    assert (Oi : iface_in i).
    { unfold ifstat in E. destruct i, j. cbn in E. inversion E; subst. exact Ok. }
    pose proof (cost_in (w_now w) i n Oi (rg_nbs _ G n Hn)). unfold u16_ok, INFINITY in *. lia.
  - destruct C as [->|(id & d & addr & ifx & ->)]; [unfold u16_ok; lia|].
    pose proof (input_range (w_cfg w) id d addr ifx Fo). unfold u16_ok. lia.
Qed.
Lemma u16_id : forall x, u16_ok x -> u16 x = x.
Proof. intros x H. unfold u16, u16_ok in *. apply Z.mod_small. lia. Qed.
Lemma metric_upd_metric : forall c now a b d r, u16_ok a -> u16_ok b -> u16_ok d ->
  metric_of (metric_upd c now a b d r) = Z.min (a + b + d) 65535.
Proof.
  intros. unfold metric_upd. cbv zeta. destruct (_ =? 0); unfold metric_of; cbn; rewrite !u16_id; auto.
Qed.
Lemma metric_upd_keeps : forall c now a b d r, let r' := metric_upd c now a b d r in
  r_installed r' = r_installed r /\ dest_of r' = dest_of r /\ r_nexthop r' = r_nexthop r /\ r_neigh r' = r_neigh r /\ r_ptr r' = r_ptr r.
Proof. intros. unfold r', metric_upd. cbv zeta. destruct (_ =? 0); repeat split. Qed.

Lemma K_metric : forall e w p r n i ref cost add rc w1 sm t rnd, W e w -> rng w -> K w ->
    find_ptr p w = Some r -> nb_if (r_neigh r) w = Some (n, i) ->
    (if r_installed r && negb (metric_to_kernel (w_cfg w) (route_metric r) =?
                               metric_to_kernel (w_cfg w) (Z.min (ref + cost + add) INFINITY))
     then change_route_modify r i (metric_to_kernel (w_cfg w) (route_metric r)) (r_nexthop r)
            (if_ifindex i) (metric_to_kernel (w_cfg w) (Z.min (ref + cost + add) INFINITY)) w
     else (0, w)) = (rc, w1) -> metric_args w ref cost add ->
    K (map_ptr p (metric_upd (w_cfg w) (sec w) ref cost add) (map_ptr p (smooth_upd sm t) (set_w_rnd rnd w1))).
Proof.
  intros e w p r n i ref cost add rc w1 sm t rnd Hw G Kw F Nb E A.
  destruct (args_u16 w ref cost add G (K_filt _ Kw) A) as (U1 & U2 & U3).
  pose proof (find_In _ _ _ F) as Hr. pose proof (find_ptr_ptr _ _ _ F) as Pr.
  assert (Ptr : forall x, In x (all_routes w) -> r_ptr x = p -> x = r) by (intros; eapply ptr_unique; eauto).
  set (mu := metric_upd (w_cfg w) (sec w) ref cost add) in *.
  set (x := mu (smooth_upd sm t r)).
  assert (Mx : route_metric x = Z.min (ref + cost + add) INFINITY).
  { change (route_metric x) with (metric_of x). apply metric_upd_metric; auto. }
  destruct (metric_upd_keeps (w_cfg w) (sec w) ref cost add (smooth_upd sm t r)) as (X1 & X2 & X3 & X4 & X5).
  fold mu in X1, X2, X3, X4, X5. fold x in X1, X2, X3, X4, X5. cbn in X1, X3, X4, X5. change (dest_of (smooth_upd sm t r)) with (dest_of r) in X2.
  assert (Two : forall v, map_ptr p mu (map_ptr p (smooth_upd sm t) v) = map_ptr p (fun y => mu (smooth_upd sm t y)) v).
  { intros v. unfold map_ptr. cbn [w_rt set_w_rt]. rewrite map_map.
    assert (X : forall a b u, a = b -> set_w_rt a (set_w_rt u v) = set_w_rt b v) by (intros a b u ->; reflexivity). apply X. clear X.
    apply map_ext. intros l. rewrite map_map. apply map_ext.
    intros y. fold (upd_route p (smooth_upd sm t) y). fold (upd_route p (fun y => mu (smooth_upd sm t y)) y).
    fold (upd_route p mu (upd_route p (smooth_upd sm t) y)).
    destruct (Z.eq_dec (r_ptr y) p) as [Y|Y].
    - rewrite (upd_self p (smooth_upd sm t) y) by auto. rewrite (upd_self p (fun y => mu (smooth_upd sm t y)) y) by auto.
      apply upd_self. exact Y.
    - rewrite (upd_other p (smooth_upd sm t) y) by auto. rewrite (upd_other p (fun y => mu (smooth_upd sm t y)) y) by auto.
      apply upd_other. exact Y. }
  rewrite Two. rewrite <- Mx in E.
  destruct (r_installed r && negb (metric_to_kernel (w_cfg w) (route_metric r) =? metric_to_kernel (w_cfg w) (route_metric x))) eqn:B.
  - apply andb_prop in B. destruct B as (Ir & _).
    pose proof (change_route_modify_frame _ _ _ _ _ _ _ _ _ E) as Kf. rewrite <- X3 in E.
    destruct (modify_ok e w r i x i rc w1 n Hw Kw Hr Ir Nb X2) as (_ & Kr & F1 & T1 & M1); auto.
    { rewrite X2, X3. apply (K_fam _ Kw r Hr). }
    assert (Rt1 : w_rt w1 = w_rt w) by (destruct Kf as (a & b & ->); reflexivity).
    set (w' := map_ptr _ _ _).
    assert (L : links w w').
    { eapply links_trans; [|apply links_map]. apply links_kframe in Kf.
      eapply links_trans; [exact Kf|]. apply links_same; reflexivity. }
    assert (In' : forall z, In z (all_routes w') <-> exists y, In y (all_routes w) /\ z = upd_route p (fun y => mu (smooth_upd sm t y)) y).
    { intros z. unfold w'. rewrite all_map_ptr, in_map_iff. unfold all_routes. cbn [w_rt set_w_rnd]. rewrite Rt1.
      split; intros (y & Y1 & Y2); exists y; auto. }
    assert (De : descends w w').
    { intros z Hz. apply In' in Hz. destruct Hz as (y & Hy & ->). exists y. split; auto. unfold upd_route. destruct (is_ptr p y); auto.
      unfold mu. rewrite metric_upd_ident. reflexivity. }
    assert (Is : forall z, is_selected w' (dest_of r) z <-> z = x).
    { intros z. split.
      - intros (Hz & Iz & Dz). apply In' in Hz. destruct Hz as (y & Hy & ->). destruct (Z.eq_dec (r_ptr y) p) as [P|P].
        + rewrite upd_self by auto. rewrite (Ptr y Hy P). reflexivity.
        + rewrite upd_other in * by auto. exfalso. apply P. assert (y = r) by (eapply selected_unique; eauto). congruence.
      - intros ->. split; [|split; congruence]. apply In'. exists r. split; auto. rewrite upd_self; auto. }
    apply (K_finish w w' (dest_of r) F1 (kent (w_cfg w) (if_ifindex i) x)); auto.
    + intros z Dz. rewrite (In' z). split.
      * intros (y & Hy & ->). destruct (Z.eq_dec (r_ptr y) p) as [P|P].
        -- exfalso. apply Dz. rewrite upd_self by auto. rewrite (Ptr y Hy P). exact X2.
        -- rewrite upd_other; auto.
      * intros Hz. exists z. split; auto. rewrite upd_other; auto. intros P. apply Dz. rewrite (Ptr z Hz P). auto.
    + apply (descends_fam _ _ De (K_fam _ Kw)).
    + intros _ _. apply (K_ins _ Kw r Hr Ir).
    + assert (Ke : kent_of w' x = kent (w_cfg w) (if_ifindex i) x).
      { rewrite (links_kent w w' _ L). unfold kent_of. rewrite X4, Nb. reflexivity. }
      intros q. split.
      * intros (z & Sz & Ez). apply Is in Sz. subst. congruence.
      * intros Eq. exists x. split; [apply Is; auto|]. congruence.
  - inversion E; subst rc w1. clear E. apply K_map.
    + apply (K_rt w); auto; [apply (K_resp _ Kw)|apply links_same; reflexivity].
    + intros y Hy P. assert (y = r) by auto. subst y. fold x. split; auto. split; auto. split; auto. split; auto.
      intros Ir. rewrite Ir in B. cbn [andb] in B. apply negb_false_iff, Z.eqb_eq in B. rewrite !prio_metric in B. symmetry. exact B.
Qed.

(** ** Steps *)
Lemma modfail_absurd : forall e w p r n i newgate newifindex newmetric rc w1, W e w -> K w ->
  find_ptr p w = Some r -> r_installed r = true -> nb_if (r_neigh r) w = Some (n, i) ->
  change_route_modify r i (metric_to_kernel (w_cfg w) (route_metric r)) newgate newifindex newmetric w = (rc, w1) ->
  (exists r', In r' (all_routes w) /\ dest_of r' = dest_of r /\ r_nexthop r' = newgate) -> (rc <? 0) = false.
Proof.
  intros e w p r n i newgate newifindex newmetric rc w1 Hw Kw F Ir Nb E (r' & Hr' & D & <-).
  pose proof (find_In _ _ _ F) as Hr. pose proof (K_ins _ Kw r Hr Ir) as Ci.
  unfold change_route_modify in E. destruct (inst_filter r i w) as [[deny table] pref] eqn:I.
  unfold kernel_route_modify in E. change (rdest r) with (dest_of r) in E. rewrite (K_fam _ Kw r Hr) in E. cbn [negb] in E.
  destruct (_ && _); [inversion E; reflexivity|].
  destruct (kernel_route1_ok false table pref r i w (K_stat _ Kw) (K_fam _ Kw r Hr) Ci (K_resp _ Kw)) as (w2 & E2 & Kf2 & Kr2 & Kt2); [eauto|].
  change (rdest r) with (dest_of r) in E2. rewrite E2 in E.
  assert (C2 : w_cfg w2 = w_cfg w) by (destruct Kf2 as (a & b & ->); reflexivity).
  pose proof (K_fam _ Kw r' Hr') as Fa. rewrite D in Fa.
  unfold kernel_route1 in E. rewrite Fa in E. cbn [negb] in E.
  assert (Z0 : negb (is_default (d_src (dest_of r)) (d_splen (dest_of r))) &&
     (v4mapped (d_prefix (dest_of r)) || negb (c_subtrees (w_cfg w2))) = false).
  { rewrite C2. destruct Ci as [->|(-> & ->)]; [reflexivity|]. cbn. apply andb_false_r. }
  rewrite Z0 in E. destruct (_ && _); [inversion E; reflexivity|].
  destruct (kresp1 w2) as [x w3] eqn:R. unfold kresp1 in R.
  assert (X : x = 0) by (destruct (w_kresp w2) eqn:Q; inversion R; subst; auto; inversion Kr2; auto).
  subst x. inversion E. reflexivity.
Qed.

Lemma K_mstep : forall b s t, mstep b s t -> W (fst s) (snd s) -> rng (snd s) -> K (snd s) -> K (snd t).
Proof.
  intros b s t H. destruct H; cbn [fst snd]; intros Hw G Kw.
  - apply (K_rt w); auto; [apply H|rewrite (f_kresp _ _ H); apply (K_resp _ Kw)| |apply H].
    split; [apply H|]. intros n. unfold nb_if, get_nb. rewrite (f_nbs _ _ H). destruct (find _ (w_nbs w)) as [nb|]; auto.
    unfold get_if. pose proof (f_ifs _ _ H) as E. revert E. generalize (w_ifs w') (w_ifs w).
    induction l as [|x l IH]; intros [|y l'] E; cbn in E; try discriminate; auto.
    pose proof (f_equal (@hd_error iface) E) as E1. pose proof (f_equal (@tl iface) E) as E2. cbn [hd_error tl] in E1, E2.
    assert (E0 : ifstat x = ifstat y) by congruence. clear E E1. rename E0 into E1.
    assert (X1 : if_id x = if_id y) by (apply (f_equal if_id) in E1; exact E1).
    assert (X2 : if_ifindex x = if_ifindex y) by (apply (f_equal if_ifindex) in E1; exact E1).
    cbn [find]. rewrite X1. destruct (if_id y =? n_if nb); [cbn; congruence|apply IH; auto].
  - apply (K_map (set_w_rnd rnd w) p); [apply (K_rt w); auto; [apply (K_resp _ Kw)|apply links_same; reflexivity]|].
    intros x Hx P. repeat split.
  - eapply K_inst; eauto.
  - (* a refused installation leaves no trace *)
    unfold change_route_add in *. destruct (inst_filter r i w) as [[deny table] pref] eqn:I.
    destruct deny; [inversion H2; subst; auto|].
    pose proof (find_In _ _ _ H) as Hr.
    assert (Dc : can_install (w_cfg w) (dest_of r) \/ ~ can_install (w_cfg w) (dest_of r)).
    { unfold can_install. destruct (is_default _ _), (v4mapped _), (c_subtrees _); intuition congruence. }
    destruct Dc as [Ci|Ci].
    + destruct (kernel_route1_ok true table pref r i w (K_stat _ Kw) (K_fam _ Kw r Hr) Ci (K_resp _ Kw)) as (w2 & E2 & _); [eauto|].
      rewrite E2 in H2. inversion H2; subst. discriminate.
    + unfold kernel_route1 in H2. change (rdest r) with (dest_of r) in H2. rewrite (K_fam _ Kw r Hr) in H2. cbn [negb] in H2.
      destruct (negb (is_default (d_src (dest_of r)) (d_splen (dest_of r))) && (v4mapped (d_prefix (dest_of r)) || negb (c_subtrees (w_cfg w)))) eqn:X.
      * inversion H2; subst. destruct Kw. destruct K_tab0 as (F & T & M). constructor; auto.
        exists F. split; auto. cbn [ktrace w_ktr set_w_ktr]. unfold kernel_table in *. rewrite fibs_app, T. reflexivity.
      * exfalso. apply Ci. unfold can_install. destruct (is_default _ _); auto. right. cbn in X.
        destruct (v4mapped _), (c_subtrees _); auto.
  - eapply K_uninst; eauto.
  - eapply K_switch; eauto.
  - rewrite (modfail_absurd e w p r n i newgate newifindex newmetric rc w1 Hw Kw) in H3; auto. discriminate.
  - eapply K_metric; eauto.
  - apply K_map; auto; intros x Hx P; repeat split.
  - apply (K_rt w); auto; [apply (K_resp _ Kw)|apply links_same; reflexivity].
  - apply (K_rt w); auto; [apply (K_resp _ Kw)|apply links_same; reflexivity].
  - apply (K_rt w); auto; [apply (K_resp _ Kw)|apply links_same; reflexivity].
  - apply K_map; [exact Kw|]. intros x Hx P. assert (x = r) by (eapply ptr_unique; eauto). subst x.
    split; [reflexivity|]. split; [exact H0|]. repeat split.
  - pose proof (find_In _ _ _ H) as Hr. destruct (unlink_spec w p r (W_rt _ _ Hw) H) as (A & l1 & l2 & B & E & Eu).
    assert (Il : forall x, In x (all_routes (unlink_route (rdest r) p w)) -> In x (all_routes w)) by (intros; eapply In_unlink; eauto).
    assert (Is : forall x, In x (all_routes w) -> x = r \/ In x (all_routes (unlink_route (rdest r) p w))).
    { intros x Hx. rewrite Eu. unfold all_routes in *. rewrite E in Hx. cbn [w_rt set_w_rt].
      rewrite concat_app in *. cbn [concat] in Hx.
      assert (C : concat (match l1 ++ l2 with [] => [] | _ => [l1 ++ l2] end ++ B) = (l1 ++ l2) ++ concat B).
      { destruct (l1 ++ l2); reflexivity. }
      rewrite C. rewrite !in_app_iff in *. cbn [In] in Hx. intuition congruence. }
    assert (Lk : links w (unlink_route (rdest r) p w)) by (rewrite Eu; apply links_same; reflexivity).
    apply (K_keep w); auto; try (rewrite Eu; reflexivity).
    + rewrite Eu. apply (K_resp _ Kw).
    + intros x Hx. apply (K_fam _ Kw); auto.
    + intros x Hx. apply (K_ins _ Kw); auto.
    + intros q. split; intros (x & Hx & Ix & Ex); exists x.
      * split; auto. split; auto. rewrite <- Ex. symmetry. apply links_kent. auto.
      * destruct (Is x Hx) as [->|Hx']; [congruence|]. split; auto. split; auto. rewrite <- Ex. apply links_kent. auto.
  - apply (K_rt w); auto; [apply (K_resp _ Kw)|apply links_same; reflexivity].
  - apply (K_rt w); auto; [apply (K_resp _ Kw)|apply links_same; reflexivity].
  - apply (K_rt w); auto; [apply (K_resp _ Kw)|]. split; [reflexivity|]. intros m. unfold nb_if, get_nb, map_nb. cbn [w_nbs set_w_nbs].
    unfold get_if. cbn [w_ifs set_w_nbs].
    assert (X : match find (fun x => n_id x =? m) (map (fun x => if n_id x =? n then f x else x) (w_nbs w)),
                      find (fun x => n_id x =? m) (w_nbs w) with
                | Some a, Some b => n_if a = n_if b | None, None => True | _, _ => False end).
    { clear H0. induction (w_nbs w) as [|x l IH]; cbn [map find]; auto. destruct (H x) as (A1 & A2 & _).
      replace (n_id (if n_id x =? n then f x else x)) with (n_id x) by (destruct (n_id x =? n); auto).
      destruct (n_id x =? m); [|exact IH]. destruct (n_id x =? n); auto. }
    destruct (find _ (map _ _)) as [a|], (find _ (w_nbs w)) as [b|]; try contradiction; auto. rewrite X.
    destruct (find _ (w_ifs w)); reflexivity.
  - (* the routes do not use the removed neighbour *)
    assert (Nb : forall r, In r (all_routes w) -> nb_if (r_neigh r) (set_w_nbs (filter (fun x => negb (n_id x =? n)) (w_nbs w)) w) = nb_if (r_neigh r) w).
    { intros r Hr. pose proof (H r Hr) as N. unfold nb_if, get_nb. cbn [w_nbs set_w_nbs]. unfold get_if. cbn [w_ifs set_w_nbs].
      assert (X : find (fun x => n_id x =? r_neigh r) (filter (fun x => negb (n_id x =? n)) (w_nbs w)) = find (fun x => n_id x =? r_neigh r) (w_nbs w)).
      { induction (w_nbs w) as [|x l IH]; cbn [filter find]; auto. destruct (n_id x =? n) eqn:A; cbn [negb].
        - destruct (n_id x =? r_neigh r) eqn:B; [lia|]. auto.
        - cbn [find]. destruct (n_id x =? r_neigh r); auto. }
      rewrite X. reflexivity. }
    apply (K_keep w); auto; try apply (K_resp _ Kw); try apply (K_fam _ Kw); try apply (K_ins _ Kw).
    intros q. split; intros (x & Hx & Ix & Ex); exists x; split; auto; split; auto; unfold kent_of in *.
    + rewrite Nb in Ex by exact Hx. exact Ex.
    + rewrite Nb by exact Hx. exact Ex.
  - apply (K_rt w); auto; [apply (K_resp _ Kw)|apply links_same; reflexivity].
Qed.
Lemma K_star : forall q s t, star q s t -> W (fst s) (snd s) -> rng (snd s) -> K (snd s) -> K (snd t).
Proof.
  induction 1; auto. intros Hw G Kw. apply IHstar; [eapply W_mstep; eauto|eapply rng_mstep; eauto|eapply K_mstep; eauto].
Qed.

Lemma K_insert : forall w r, rt_wf (w_rt w) -> K w -> r_installed r = false ->
  family_ok (dest_of r) (r_nexthop r) = true -> K (insert_route r (set_w_next (w_next w + 1) w)).
Proof.
  intros w r Wf Kw Ir Fa. set (v := set_w_next (w_next w + 1) w).
  pose proof (insert_perm r v Wf) as P.
  assert (I : forall x, In x (all_routes (insert_route r v)) <-> x = r \/ In x (all_routes w)).
  { intros x. split; intros H.
    - apply (Permutation_in _ P) in H. destruct H; auto.
    - apply (Permutation_in _ (Permutation_sym P)). destruct H; [left|right]; auto. }
  assert (S : w_ktr (insert_route r v) = w_ktr w /\ w_kresp (insert_route r v) = w_kresp w /\ w_cfg (insert_route r v) = w_cfg w /\
    w_nbs (insert_route r v) = w_nbs w /\ w_ifs (insert_route r v) = w_ifs w).
  { unfold insert_route. destruct (find_route_slot _ _); repeat split. }
  destruct S as (S1 & S2 & S3 & S4 & S5).
  apply (K_keep w); auto.
  - rewrite S2. apply (K_resp _ Kw).
  - intros x Hx. apply I in Hx. destruct Hx as [->|Hx]; auto. apply (K_fam _ Kw); auto.
  - intros x Hx Ix. apply I in Hx. destruct Hx as [->|Hx]; [congruence|]. apply (K_ins _ Kw); auto.
  - assert (L : links w (insert_route r v)).
    { split; auto. intros n. unfold nb_if, get_nb, get_if. rewrite S4, S5. reflexivity. }
    intros q. split; intros (x & Hx & Ix & Ex); exists x.
    + apply I in Hx. destruct Hx as [->|Hx]; [congruence|]. rewrite (links_kent _ _ _ L) in Ex. auto.
    + split; [apply I; auto|]. split; auto. rewrite (links_kent _ _ _ L). auto.
Qed.

(** Only interfaces of selected routes matter. *)
Lemma K_ends : forall w w', K w -> w_ktr w' = w_ktr w -> w_kresp w' = w_kresp w -> w_cfg w' = w_cfg w -> w_rt w' = w_rt w ->
  (forall r, In r (all_routes w) -> r_installed r = true ->
    option_map (fun x => if_ifindex (snd x)) (nb_if (r_neigh r) w') = option_map (fun x => if_ifindex (snd x)) (nb_if (r_neigh r) w)) -> K w'.
Proof.
  intros w w' Kw E R C Rt L.
  assert (X : forall r, In r (all_routes w) -> r_installed r = true -> kent_of w' r = kent_of w r).
  { intros r Hr Ir. specialize (L r Hr Ir). unfold kent_of. rewrite C.
    destruct (nb_if (r_neigh r) w') as [[n i]|], (nb_if (r_neigh r) w) as [[n' i']|]; cbn in L; try discriminate; auto. congruence. }
  apply (K_keep w); auto; unfold all_routes; rewrite ?Rt.
  - rewrite R. apply (K_resp _ Kw).
  - apply (K_fam _ Kw).
  - apply (K_ins _ Kw).
  - intros q. unfold Sel, all_routes. rewrite Rt. split; intros (r & Hr & Ir & Er); exists r; split; auto; split; auto.
    + rewrite X in Er; auto.
    + rewrite X; auto.
Qed.

Lemma find_app_some : forall A (f : A -> bool) l m, (exists x, In x l /\ f x = true) -> find f (l ++ m) = find f l.
Proof.
  intros A f l m (x & Hx & Fx). induction l as [|a l IH]; [destruct Hx|]. cbn [app find]. destruct (f a) eqn:E; auto.
  apply IH. destruct Hx as [->|]; congruence.
Qed.
Lemma find_filter : forall A (f g : A -> bool) l, (forall x, f x = true -> g x = true) -> find f (filter g l) = find f l.
Proof.
  intros A f g l H. induction l as [|a l IH]; auto. cbn [filter find]. destruct (g a) eqn:G; cbn [find].
  - destruct (f a); auto.
  - destruct (f a) eqn:F; auto. rewrite H in G; [discriminate|auto].
Qed.
Lemma find_map_if : forall j i l, option_map if_ifindex (find (fun x => if_id x =? j) (map (fun x => if if_id x =? if_id i then i else x) l)) =
  option_map if_ifindex (find (fun x => if_id x =? j) l) \/
  (j = if_id i /\ exists y, find (fun x => if_id x =? j) l = Some y /\
    find (fun x => if_id x =? j) (map (fun x => if if_id x =? if_id i then i else x) l) = Some i).
Proof.
  intros j i l. induction l as [|a l IH]; auto. cbn [map find]. destruct (if_id a =? if_id i) eqn:E.
  - destruct (if_id i =? j) eqn:F; [|destruct (if_id a =? j) eqn:G; [lia|auto]].
    destruct (if_id a =? j) eqn:G; [|lia]. right. split; [lia|]. eauto.
  - destruct (if_id a =? j); auto.
Qed.

Lemma K_run1 : forall w ev, W [] w -> rng w -> K w -> allowed ev w -> kgood ev w -> K (run1 ev w).
Proof.
  intros w ev Hw G Kw A Gd. destruct (run1_cases_ev w ev Hw A) as [(O & _) | [C | (id & d & q & m & iv & n & nh & E & U)]].
  - destruct ev; try discriminate; cbn [run1 kgood allowed] in *.
    + apply (K_rt w); auto; [apply (K_resp _ Kw)|apply links_same; reflexivity].
    + apply (K_rt w); auto. apply links_same; reflexivity.
    + unfold find_neighbour. destruct (existsb _ _); auto. apply (K_ends w); auto. intros r Hr Ir.
      pose proof (W_nb _ _ Hw r Hr) as N. pose proof (fresh_nb_new w) as Fr.
      unfold nb_if, get_nb. cbn [w_nbs set_w_nbs find]. change (n_id (new_neigh (w_now w) (fresh_nb w) addr ifp)) with (fresh_nb w).
      destruct (fresh_nb w =? r_neigh r) eqn:X; [apply Z.eqb_eq in X; congruence|]. reflexivity.
    + apply (K_ends w); auto. intros r Hr Ir. unfold nb_if, get_nb, map_if. cbn [w_nbs set_w_ifs].
      destruct (find (fun x => n_id x =? r_neigh r) (w_nbs w)) as [nb|] eqn:Fn; auto. unfold get_if. cbn [w_ifs set_w_ifs].
      apply find_some in Fn. destruct Fn as (Fn & En). apply Z.eqb_eq in En.
      destruct (find_map_if (n_if nb) i (w_ifs w)) as [X | (X & y & Y & Z)].
      * destruct (find _ (map _ _)), (find _ (w_ifs w)); cbn in *; congruence.
      * rewrite Y, Z. cbn. f_equal. destruct Gd as [Gd|Gd].
        -- apply find_some in Y. destruct Y as (Y & Ey). apply Z.eqb_eq in Ey. symmetry. apply (Gd y); auto. congruence.
        -- exfalso. apply (Gd r Hr Ir). exists nb. auto.
    + apply (K_ends w); auto. intros r Hr Ir. unfold nb_if, get_nb, get_if. cbn [w_nbs w_ifs set_w_ifs].
      destruct (find _ (w_nbs w)) as [nb|] eqn:Fn; auto. rewrite find_app_some; auto.
      apply find_some in Fn. destruct Fn as (Fn & _). apply (W_nbif _ _ Hw) in Fn. apply in_map_iff in Fn.
      destruct Fn as (y & Ey & Hy). exists y. split; auto. lia.
    + apply (K_ends w); auto. intros r Hr Ir. unfold nb_if, get_nb, get_if. cbn [w_nbs w_ifs set_w_ifs].
      destruct (find _ (w_nbs w)) as [nb|] eqn:Fn; auto. rewrite find_filter; auto.
      apply find_some in Fn. destruct Fn as (Fn & _). destruct A as (A & _). pose proof (A nb Fn). intros x Hx. lia.
    + apply (K_rt w); auto; [apply (K_resp _ Kw)|apply links_same; reflexivity].
  - apply (K_star _ _ _ C); auto.
  - subst ev. destruct U as [C | w1 r w2 S I E C Ad D N Ir].
    + apply (K_star _ _ _ C); auto.
    + assert (W1 : W (r_src r :: []) w1) by (apply (W_star _ _ _ S); auto).
      assert (G1 : rng w1) by (apply (rng_star _ _ _ S); auto).
      assert (K1 : K w1) by (apply (K_star _ _ _ S); auto).
      apply (K_star _ _ _ C); cbn [fst snd].
      * apply (W_istep _ _ I). auto.
      * rewrite E. apply rng_insert. apply (rng_same w1); auto.
      * rewrite E. apply K_insert; auto; [apply (W_rt _ _ W1)|]. rewrite D. cbn [kgood] in Gd. subst nh. destruct Gd as (Gd1 & Gd2).
        destruct Ad as (_ & _ & Ad). unfold family_ok. rewrite <- Ad. destruct (v4mapped (d_prefix d)).
        -- specialize (Gd1 eq_refl). replace (d_plen d >=? 96) with true by lia. reflexivity.
        -- rewrite andb_false_r. destruct (v4mapped (r_nexthop r)); auto.
Qed.

Lemma kreach_reach : forall c w, kreach c w -> reach c w.
Proof. intros c w R. induction R; [apply reach_boot|apply reach_run]; auto. Qed.
Lemma kreach_K : forall c w, c_half_life c <> 2 -> static_install c -> filters_ok c -> kreach c w -> K w.
Proof.
  intros c w H S Fo R. induction R.
  - constructor; auto; try (intros r []); [|constructor]. exists []. split; [reflexivity|]. intros q. split; [intros []|].
    intros (r & [] & _).
  - apply K_run1; auto; [apply (reach_W c)|apply (reach_rng c)]; auto; apply kreach_reach; auto.
Qed.


Theorem kernel_mirror : forall c w, c_half_life c <> 2 -> static_install c -> filters_ok c -> kreach c w ->
  exists F, kernel_table (w_ktr w) = Some F /\
   forall q, In q F <-> exists r n i, In r (all_routes w) /\ r_installed r = true /\ In n (w_nbs w) /\ n_id n = r_neigh r /\
     In i (w_ifs w) /\ if_id i = n_if n /\ kent c (if_ifindex i) r = Some q.
Proof.
  intros c w H S Fo R. destruct (reach_W c w H (kreach_reach _ _ R)) as (Hw & Ec).
  destruct (K_tab _ (kreach_K c w H S Fo R)) as (F & T & M). exists F. split; auto. intros q. rewrite (M q).
  split.
  - intros (r & Hr & Ir & E). unfold kent_of in E. destruct (nb_if (r_neigh r) w) as [[n i]|] eqn:Nb; [|discriminate].
    apply (nb_if_iff _ _ _ _ _ Hw) in Nb. rewrite Ec in E. exists r, n, i. tauto.
  - intros (r & n & i & A1 & A2 & A3 & A4 & A5 & A6 & A7). exists r. split; auto. split; auto.
    assert (Nb : nb_if (r_neigh r) w = Some (n, i)) by (apply (nb_if_iff _ _ _ _ _ Hw); auto).
    unfold kent_of. rewrite Nb, Ec. auto.
Qed.

Theorem kernel_shutdown : forall c w, c_half_life c <> 2 -> static_install c -> filters_ok c -> kreach c w ->
  kernel_table (w_ktr (flush_all_routes w)) = Some [].
Proof.
  intros c w H S Fo R. assert (R' : kreach c (run1 EvFlushAll w)) by (apply kreach_run; auto; exact I).
  destruct (kernel_mirror c _ H S Fo R') as (F & T & M). cbn [run1] in *. rewrite T. f_equal.
  destruct F as [|q F]; auto. exfalso. destruct (proj1 (M q) (or_introl eq_refl)) as (r & _ & _ & Hr & _).
  rewrite (shutdown_empty c w H (kreach_reach _ _ R)) in Hr. destruct Hr.
Qed.

Theorem kernel_priority : forall c w r, c_half_life c <> 2 -> static_install c -> filters_ok c -> kreach c w ->
  c_reflect c = false -> c_kernel_metric c < 65535 -> In r (all_routes w) -> r_installed r = true ->
  0 <= metric_of r <= 65535 /\ metric_of r = Z.min (r_refmetric r + r_cost r + r_add_metric r) 65535 /\
  exists F, kernel_table (w_ktr w) = Some F /\
   (metric_of r < 65535 -> exists q i g, In q F /\ q_prefix q = d_prefix (dest_of r) /\ q_plen q = d_plen (dest_of r) /\
      q_prio q = c_kernel_metric c /\ q_via q = Some (i, r_nexthop r, g)) /\
   (metric_of r = 65535 -> forall q, In q F -> q_prefix q = d_prefix (dest_of r) -> q_plen q = d_plen (dest_of r) ->
      (q_src q = None <-> is_default (d_src (dest_of r)) (d_splen (dest_of r)) = true) ->
      (forall s, q_src q = Some s -> s = (d_src (dest_of r), d_splen (dest_of r))) -> q_via q = None /\ q_prio q = -1).
Proof.
  intros c w r H S Fo R Re Km Hr Ir. destruct (reach_W c w H (kreach_reach _ _ R)) as (Hw & Ec).
  pose proof (W_rng _ _ Hw r Hr) as (G1 & G2 & G3 & _).
  assert (Me : metric_of r = Z.min (r_refmetric r + r_cost r + r_add_metric r) 65535) by reflexivity.
  split; [rewrite Me; unfold u16_ok in *; lia|]. split; auto.
  destruct (kernel_mirror c w H S Fo R) as (F & T & M). exists F. split; auto.
  assert (Nb : exists n i, nb_if (r_neigh r) w = Some (n, i)).
  { destruct (known_has _ _ _ Hw (W_nb _ _ Hw r Hr)) as (n & i & X). eauto. }
  destruct Nb as (n & i & Nb). apply (nb_if_iff _ _ _ _ _ Hw) in Nb. destruct Nb as (N1 & N2 & N3 & N4).
  assert (P : prio_of c (metric_of r) = if metric_of r >=? 65535 then 65535 else c_kernel_metric c) by (unfold prio_of; rewrite Re; auto).
  split.
  - intros Fi. destruct (metric_of r >=? 65535) eqn:X; [lia|]. 
    assert (K : kent c (if_ifindex i) r = Some (mkKreq
       ((if fr_table (snd (install_filter (c_instfs c) (Some (k_id (r_src r))) (dest_of r) (if_ifindex i))) =? 0 then c_export_table c
         else fr_table (snd (install_filter (c_instfs c) (Some (k_id (r_src r))) (dest_of r) (if_ifindex i)))) mod 256)
       (d_prefix (dest_of r)) (d_plen (dest_of r))
       (if is_default (d_src (dest_of r)) (d_splen (dest_of r)) then None else Some (d_src (dest_of r), d_splen (dest_of r)))
       (c_kernel_metric c) (Some (if_ifindex i, r_nexthop r, fr_pref_src (snd (install_filter (c_instfs c) (Some (k_id (r_src r))) (dest_of r) (if_ifindex i))))))).
    { unfold kent. cbv zeta. rewrite P. destruct (c_kernel_metric c <? 65535) eqn:Y; [reflexivity|lia]. }
    eexists. exists (if_ifindex i). eexists. split; [apply M; exists r, n, i; repeat (split; [eassumption|]); exact K|].
    cbn. auto.
  - intros Fi q Hq E1 E2 E3 E4. apply M in Hq. destruct Hq as (r' & n' & i' & Hr' & Ir' & A1 & A2 & A3 & A4 & K).
    assert (D : dest_of r' = dest_of r).
    { destruct (kent_dest _ _ _ _ K) as (K1 & K2 & K3). rewrite K1 in E1. rewrite K2 in E2. rewrite K3 in E3, E4.
      pose proof (route_dvalid w r (W_rt _ _ Hw) Hr) as V. pose proof (route_dvalid w r' (W_rt _ _ Hw) Hr') as V'.
      destruct (dest_of r) as [p l s sl], (dest_of r') as [p' l' s' sl']. unfold dvalid in *. cbn [d_prefix d_plen d_src d_splen] in *.
      subst p' l'. destruct (is_default s' sl').
      - pose proof (V' eq_refl) as X'. pose proof (V (proj1 E3 eq_refl)) as X. rewrite <- X' in X. inversion X. reflexivity.
      - specialize (E4 _ eq_refl). inversion E4. reflexivity. }
    assert (r' = r) by (eapply selected_unique; eauto). subst r'.
    unfold kent in K. cbv zeta in K. rewrite P in K. destruct (metric_of r >=? 65535) eqn:X; [|lia].
    cbn in K. destruct (_ || _); [discriminate|]. inversion K; subst q. auto.
Qed.

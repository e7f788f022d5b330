(** L_Net3.v: the invariant of a network of routers. *)
From Verif Require Import Base M_Util M_Slot M_Source M_Filter M_Types M_Neigh M_State M_Table M_Msg M_Route M_Xroute M_Daemon M_Net.
From Verif Require Import S_Util S_Source S_Neigh S_World S_Net L_Util L_Slot L_Source L_Neigh L_Table L_Step L_Chain2 L_Msg L_Update2 L_Daemon L_Inv L_Seqno L_Seqno2 L_Mono L_Net L_Net2.
From Coq Require Import Sorting.Sorted Permutation Relations.

(** ** Neighbours keep their identity over a step *)
Definition nbsub (a b : world) : Prop := forall x', In x' (w_nbs b) ->
  exists x, In x (w_nbs a) /\ n_id x = n_id x' /\ n_addr x = n_addr x' /\ n_if x = n_if x'.
Lemma nbsub_refl a : nbsub a a. Proof. intros x H. exists x. auto. Qed.
Lemma nbsub_trans a b c : nbsub a b -> nbsub b c -> nbsub a c.
Proof.
  intros A B x H. destruct (B x H) as (y & Y & E1 & E2 & E3). destruct (A y Y) as (z & Z & F1 & F2 & F3).
  exists z. repeat split; congruence.
Qed.
Lemma nbsub_eq a b : w_nbs b = w_nbs a -> nbsub a b.
Proof. intros E x H. rewrite E in H. exists x. auto. Qed.
Lemma nbsub_kframe a b : kframe a b -> nbsub a b.
Proof. intros (x & y & ->). apply nbsub_eq. reflexivity. Qed.
Lemma nbsub_move d p w : nbsub w (move_installed d p w).
Proof. unfold move_installed. destruct (find_route_slot d w); apply nbsub_eq; reflexivity. Qed.
Lemma mstep_nbsub : forall b s t, mstep b s t -> nbsub (snd s) (snd t).
Proof.
  intros b s t H. destruct H; cbn [snd]; try (apply nbsub_eq; reflexivity).
  - destruct H. apply nbsub_eq. auto.
  - match goal with H : change_route_add _ _ _ _ = _ |- _ => apply change_route_add_frame, nbsub_kframe in H end.
    eapply nbsub_trans; [|apply nbsub_move]. auto.
  - match goal with H : change_route_add _ _ _ _ = _ |- _ => apply change_route_add_frame, nbsub_kframe in H end. auto.
  - destruct (change_route_flush _ _ _ _) as [rc w1] eqn:E. apply change_route_flush_frame, nbsub_kframe in E. auto.
  - match goal with H : change_route_modify _ _ _ _ _ _ _ = _ |- _ => apply change_route_modify_frame, nbsub_kframe in H end.
    eapply nbsub_trans; [|apply nbsub_move]. auto.
  - match goal with H : change_route_modify _ _ _ _ _ _ _ = _ |- _ => apply change_route_modify_frame, nbsub_kframe in H end. auto.
  - match goal with H : (if ?c then _ else _) = (rc, w1) |- _ => destruct c;
      [apply change_route_modify_frame, nbsub_kframe in H|injection H as _ <-] end; auto. apply nbsub_eq; reflexivity.
  - unfold unlink_route. destruct (find_route_slot _ _); apply nbsub_eq; reflexivity.
  - intros x Hx. apply in_map_iff in Hx. destruct Hx as (y & <- & Hy). exists y. destruct (H y) as (A & B & C).
    destruct (_ =? _); auto.
  - intros x Hx. apply filter_In in Hx. exists x. repeat split; auto. apply Hx.
Qed.
Lemma star_nbsub q s t : star q s t -> nbsub (snd s) (snd t).
Proof. induction 1; [apply nbsub_refl|]. eapply nbsub_trans; [eapply mstep_nbsub; eauto|eauto]. Qed.
Lemma run1_nbsub w ev : W [] w -> allowed ev w -> forall n x x', get_nb n w = Some x -> get_nb n (run1 ev w) = Some x' ->
  n_addr x' = n_addr x /\ n_if x' = n_if x.
Proof.
  intros Hw A n x x' G G'. apply find_some in G. apply find_some in G'. destruct G as (G & E), G' as (G' & E').
  apply Z.eqb_eq in E, E'.
  assert (U : forall y, In y (w_nbs w) -> n_id y = n_id x -> y = x).
  { intros y Hy Ey. pose proof (W_nbs _ _ Hw) as D. clear - D Hy G Ey. induction (w_nbs w) as [|z l IH]; [destruct G|].
    inversion D; subst. cbn in Hy, G. destruct Hy as [->|Hy], G as [->|G]; auto.
    - exfalso. apply H1. rewrite Ey. apply in_map, G.
    - exfalso. apply H1. rewrite <- Ey. apply in_map, Hy. }
  assert (D : nbsub w (run1 ev w) -> n_addr x' = n_addr x /\ n_if x' = n_if x).
  { intros S. destruct (S x' G') as (y & Y & E1 & E2 & E3). rewrite (U y Y) in * by congruence. auto. }
  destruct (run1_cases_ev w ev Hw A) as [(_ & O) | [C | (id & d & q & m & iv & n0 & nh & _ & Uc)]].
  - inversion O as [t Ht Et|r k0 Et|nb H1 H2 H3 H4 Et|i H1 H2 Et|i H1 H2 Et|i H1 H2 Et|Et]; try (apply D; apply nbsub_eq; rewrite <- Et; reflexivity).
    rewrite <- Et in G'. cbn in G'. destruct G' as [<-|G']; [|rewrite (U x' G') by congruence; auto].
    exfalso. apply H2. rewrite E', <- E. apply in_map, G.
  - apply D. apply (star_nbsub _ _ _ C).
  - apply D. destruct Uc as [C | w1 r w2 S I0 E0 C _ _ _ _]; [apply (star_nbsub _ _ _ C)|].
    apply star_nbsub in S. apply star_nbsub in C. cbn [snd] in S, C. eapply nbsub_trans; [exact S|]. eapply nbsub_trans; [|exact C].
    rewrite E0. apply nbsub_eq. unfold insert_route. destruct (find_route_slot _ _); reflexivity.
Qed.

(** ** The invariant *)
Section Netinv.
Variables (who : Z -> list Z -> Z -> Z) (k : skey) (q : Z) (Q : Prop).
Local Notation peer := (peer who).

Definition near (N : net) (j : Z) (D : Z * Z -> Prop) : Prop :=
  k_id k = c_myid (w_cfg (N j)) \/ exists y, fd k (N j) = Some y /\ D y.
Definition P_ (N : net) (i n s m : Z) : Prop :=
  in_half q s /\ exists j, peer N i n j /\ near N j (fun y => closer_eq q y (s, m)).
Definition T_ (N : net) (i n : Z) (y : Z * Z) : Prop :=
  exists j, peer N i n j /\ near N j (fun y' => closer q y' y).
Record NI (N : net) : Prop := mkNI {
  N_reach : forall i, exists c, c_half_life c <> 2 /\ reach c (N i);
  N_own : forall i, noown (N i);
  N_inv : forall i, Inv k q (P_ N i) (N i);
  N_out : forall i, Forall (cov k q (N i)) (w_out (N i));
  N_J : Q -> forall i, J k (T_ N i) (N i) }.

Lemma NI_boot N : nboot N -> NI N.
Proof.
  intros H.
  assert (B : forall i, exists c now ifs seqno, N i = boot c now ifs seqno /\ c_half_life c <> 2 /\
    NoDup (map if_id ifs) /\ Forall iface_in ifs /\ tv_ok now /\ u16_ok seqno) by exact H.
  constructor.
  - intros i. destruct (B i) as (c & now & ifs & sq & -> & B1 & B2 & B3 & B4 & B5). exists c. split; [exact B1|]. constructor; auto.
  - intros i. destruct (B i) as (c & now & ifs & sq & -> & _). intros r [].
  - intros i. destruct (B i) as (c & now & ifs & sq & -> & B1 & B2 & B3 & B4 & B5).
    pose proof (W_boot c now ifs sq B2 B1) as Hw. constructor; try (intros ? []; fail); auto; try apply Hw; try exact B4.
    + intros s Hs. discriminate Hs.
    + constructor.
  - intros i. destruct (B i) as (c & now & ifs & sq & -> & _). constructor.
  - intros _ i. destruct (B i) as (c & now & ifs & sq & -> & _). split; [intros r []|]. split; [constructor|intros r []].
Qed.

Lemma Inv_weak (P P' : Z -> Z -> Z -> Prop) w :
  (forall r, In r (all_routes w) -> P (r_neigh r) (r_seqno r) (r_refmetric r) -> P' (r_neigh r) (r_seqno r) (r_refmetric r)) ->
  Inv k q P w -> Inv k q P' w.
Proof. intros H []. constructor; auto. Qed.
Lemma J_weak (T T' : Z -> Z * Z -> Prop) w :
  (forall r y, In r (all_routes w) -> T (r_neigh r) y -> T' (r_neigh r) y) -> J k T w -> J k T' w.
Proof. intros H (A & B & C). split; [|split; auto]. intros r Hr Hi Hk. destruct (A r Hr Hi Hk) as (y & Y & Z). eauto. Qed.

Lemma put_same i w N : put i w N i = w. Proof. unfold put. rewrite Z.eqb_refl. reflexivity. Qed.
Lemma put_other i j w N : j <> i -> put i w N j = N j.
Proof. intros H. unfold put. destruct (j =? i) eqn:E; [lia|reflexivity]. Qed.

Lemma NI_step N i ev N' : NI N -> nstep i ev N N' -> c_all who k q N i ev N' -> (Q -> c_strict k N i ev N') -> NI N'.
Proof.
  intros [Re Ow In_ Ou Js] (Al & EN) (Cp & Cf & Ch & Ck) Cs.
  set (w := N i) in *. set (w' := run1 ev w) in *.
  assert (Ei : N' i = w') by (rewrite EN; apply put_same).
  assert (Eo : forall j, j <> i -> N' j = N j) by (intros; rewrite EN; apply put_other; auto).
  destruct (Re i) as (c & Hc & Rc). fold w in Rc.
  destruct (reach_W c w Hc Rc) as (Hw & _).
  pose proof (W_run1 w ev Hw Al) as Hw'. fold w' in Hw'.
  assert (Rr : R' k q (P_ N i) (T_ N i) Q w w').
  { refine (run1_R k q (P_ N i) (T_ N i) Q _ _ ev w Al _ _ (In_ i) _).
    - intros n s m H. apply H.
    - intros n s m y (_ & j & Pj & Nj) Cl. exists j. split; [exact Pj|]. destruct Nj as [Nj|(y' & Y & Y')]; [left; exact Nj|right].
      exists y'. split; [exact Y|]. eapply closer_eq_l; eauto.
    - destruct ev; cbn; auto.
      + destruct Al as (A1 & A2 & A3 & A4). split; [exact A2|]. split; [exact A4|]. intros id0 -> Ek.
        pose proof (Ch _ _ _ _ _ _ _ eq_refl Ek) as Hh. split; [exact Hh|]. split.
        * intros L. split; [exact Hh|]. destruct Cp as [Dl|Rt]; [|unfold INFINITY in *; cbn in Rt; unfold INFINITY in Rt; lia].
          destruct Dl as (j & b & iv & Pj & Hin). exists j. split; [exact Pj|]. pose proof (Ou j) as Cj. rewrite Forall_forall in Cj.
          specialize (Cj _ Hin Ek L). destruct Cj as [Cj|Cj]; [left; rewrite <- Ek; exact Cj|right; exact Cj].
        * intros Hq L r Fr Ir. destruct (find_route_In _ _ _ _ (W_rt _ _ Hw) A2 Fr) as (B1 & B2 & B3).
          destruct (Cs Hq) as (_ & _ & Cx). apply (Cx _ _ _ _ _ _ _ eq_refl Ek ltac:(lia) r B1 B2 B3 Ir).
      + intros Hq. destruct (Cs Hq) as (Cx & _ & _). apply (Cx _ _ _ eq_refl).
    - fold w'. split; [apply Hw'|]. unfold c_kernel in Ck. rewrite Ei in Ck. exact Ck.
    - intros s Hs. apply get_src_In in Hs. destruct Hs as (H1 & H2). specialize (Cf s). rewrite Ei in Cf. apply Cf; auto. }
  destruct Rr as (Iw & Fw & (l & Ow' & Cw) & Gw & Jw).
  assert (Fd : forall j, fdle k q (N' j) (N j)).
  { intros j. destruct (Z.eq_dec j i) as [->|E]; [rewrite Ei; exact Fw|rewrite Eo by auto; apply fdle_refl]. }
  assert (Gc : forall j, w_cfg (N' j) = w_cfg (N j)).
  { intros j. destruct (Z.eq_dec j i) as [->|E]; [rewrite Ei; exact Gw|rewrite Eo by auto; reflexivity]. }
  assert (Nr : forall j (D D' : Z * Z -> Prop), (forall y y', D y -> closer_eq q y' y -> D' y') -> near N j D -> near N' j D').
  { intros j D D' HD [H|(y & Y & Hy)]; [left; rewrite Gc; exact H|right]. destruct (Fd j y Y) as (y' & Y' & C'). eauto. }
  assert (Pr : forall i' r j, In r (all_routes (N' i')) -> peer N i' (r_neigh r) j -> peer N' i' (r_neigh r) j).
  { intros i' r j Hr (x & G & E). destruct (Z.eq_dec i' i) as [->|Ne].
    - rewrite Ei in Hr. pose proof (W_nb _ _ Hw' r Hr) as Hn.
      assert (X : exists x', get_nb (r_neigh r) w' = Some x').
      { unfold get_nb. destruct (find _ _) as [x'|] eqn:Fx; [eauto|]. exfalso. apply in_map_iff in Hn. destruct Hn as (z & Ez & Hz).
        pose proof (find_none _ _ Fx z Hz) as Y. cbn in Y. lia. }
      destruct X as (x' & G'). exists x'. rewrite Ei. split; [exact G'|].
      destruct (run1_nbsub w ev Hw Al _ _ _ G G') as (-> & ->). exact E.
    - exists x. rewrite Eo by auto. auto. }
  constructor.
  - intros j. destruct (Z.eq_dec j i) as [->|E]; [|rewrite Eo by auto; auto]. rewrite Ei. exists c. split; [exact Hc|]. apply reach_run; auto.
  - intros j. destruct (Z.eq_dec j i) as [->|E]; [|rewrite Eo by auto; auto]. rewrite Ei. apply (run1_own ev w (Ow i)).
  - intros j. assert (X : Inv k q (P_ N j) (N' j)).
    { destruct (Z.eq_dec j i) as [->|E]; [rewrite Ei; exact Iw|rewrite Eo by auto; auto]. }
    revert X. apply Inv_weak. intros r Hr (H1 & j' & Pj & Nj). split; [exact H1|]. exists j'. split; [apply Pr; auto|].
    revert Nj. apply Nr. intros y y' Y Y'. eapply closer_eq_trans; eauto.
  - intros j. destruct (Z.eq_dec j i) as [->|E]; [|rewrite Eo by auto; auto]. rewrite Ei. rewrite Ow'. apply Forall_app. split; [|exact Cw].
    eapply Forall_impl; [|exact (Ou i)]. intros e. apply cov_mono; auto.
  - intros Hq j. assert (X : J k (T_ N j) (N' j)).
    { destruct (Z.eq_dec j i) as [->|E]; [|rewrite Eo by auto; auto]. rewrite Ei. apply Jw; [|apply Js; auto]. split; [exact Hq|].
      destruct (Cs Hq) as (_ & Cx & _). unfold c_finite in Cx. rewrite Ei in Cx. exact Cx. }
    revert X. apply J_weak. intros r y Hr (j' & Pj & Nj). exists j'. split; [apply Pr; auto|].
    revert Nj. apply Nr. intros y1 y2 Y Y'. eapply closer_eq_l; eauto.
Qed.

Lemma NI_exec (C : net -> Z -> event -> net -> Prop) N : (forall N i ev N', C N i ev N' -> c_all who k q N i ev N' /\ (Q -> c_strict k N i ev N')) ->
  nexec C N -> NI N.
Proof.
  intros H E. induction E as [N B|N i ev N' E IH S Cc]; [apply NI_boot; auto|]. destruct (H _ _ _ _ Cc). eapply NI_step; eauto.
Qed.

(** ** No cycle *)
Lemma no_cycle (N : net) (edge : Z -> Z -> Prop) :
  (forall i j, edge i j -> k_id k <> c_myid (w_cfg (N i)) /\ exists y, fd k (N i) = Some y /\ near N j (fun y' => closer q y' y)) ->
  ~ cyclic edge.
Proof.
  intros H (i & Cy).
  assert (S : forall a b, clos_trans_1n Z edge a b -> exists j, edge a j).
  { intros a b X. destruct X; eauto. }
  assert (Q1 : forall a b, clos_trans_1n Z edge a b -> (exists j, edge b j) ->
    exists y y', fd k (N a) = Some y /\ fd k (N b) = Some y' /\ closer q y' y).
  { intros a b X. induction X as [a b E|a b c0 E X IH]; intros (j & Ej).
    - destruct (H a b E) as (_ & y & Y & Nb). destruct (H b j Ej) as (O & _). destruct Nb as [Nb|(y' & Y' & Cl)]; [congruence|eauto].
    - destruct IH as (y1 & y2 & Y1 & Y2 & Cl); [eauto|]. destruct (H a b E) as (_ & y & Y & Nb).
      destruct (S b c0 X) as (j' & Ej'). destruct (H b j' Ej') as (O & _). destruct Nb as [Nb|(y' & Y' & Cl')]; [congruence|].
      exists y, y2. split; [exact Y|]. split; [exact Y2|]. eapply closer_trans; [exact Cl|]. congruence. }
  destruct (Q1 i i Cy (S i i Cy)) as (y & y' & Y & Y' & Cl). rewrite Y in Y'. injection Y' as <-. exact (closer_irrefl q y Cl).
Qed.

Lemma peer_det N i n j j' : peer N i n j -> peer N i n j' -> j = j'.
Proof. intros (x & G & E) (x' & G' & E'). congruence. Qed.

Lemma acyclic_feasible N : NI N -> ~ cyclic (fsuccessor who k q N).
Proof.
  intros [Re Ow In_ Ou Js]. apply (no_cycle N). intros i j (r & Hr & Hi & Hk & Pr & Fin & Cl).
  split; [rewrite <- Hk; apply (Ow i r Hr)|]. pose proof (In_ i) as I0.
  pose proof (I_has _ _ _ _ I0 r Hr Hk) as Hs. destruct (get_src k (w_srcs (N i))) as [s|] eqn:G; [|congruence].
  exists (fdp s). split; [unfold fd; rewrite G; reflexivity|]. apply get_src_In in G. destruct G as (G1 & G2). specialize (Cl s G1 G2).
  destruct (I_fin _ _ _ _ I0 r Hr Hk Fin) as (_ & j' & Pj & Nj). rewrite (peer_det _ _ _ _ _ Pr Pj).
  destruct Nj as [Nj|(y & Y & Cy)]; [left; exact Nj|right]. exists y. split; [exact Y|]. eapply closer_eq_l; eauto.
Qed.
Lemma acyclic_all N : Q -> NI N -> ~ cyclic (successor who k N).
Proof.
  intros Hq [Re Ow In_ Ou Js]. apply (no_cycle N). intros i j (r & Hr & Hi & Hk & Pr).
  split; [rewrite <- Hk; apply (Ow i r Hr)|]. destruct (Js Hq i) as (J1 & _). destruct (J1 r Hr Hi Hk) as (y & Y & j' & Pj & Nj).
  exists y. split; [exact Y|]. rewrite (peer_det _ _ _ _ _ Pr Pj). exact Nj.
Qed.
End Netinv.

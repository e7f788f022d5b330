(** L_Packet3.v: after a wildcard retraction the routes of the neighbour stay retracted
    as long as its datagrams announce nothing. *)
From Verif Require Import Base M_Util M_Source M_Filter M_Types M_Neigh M_State M_Table M_Msg M_Route M_Xroute M_Daemon M_Wire M_Auth M_Packet.
From Verif Require Import S_Util S_Source S_Neigh S_World S_Wire S_Auth S_Packet L_Util L_Neigh L_Table L_Step L_Trace L_Chain2 L_Update2 L_Daemon L_Inv L_Walk L_Net3 L_Wire L_Wire2 L_Auth L_Auth2 L_Auth3 L_Codec L_Nbs L_Packet L_Ref L_Seqno2 L_Chain3.
From Coq Require Import Bool.
Import M_Daemon.

Lemma low_run1 n w ev : W [] w -> low n w ->
  (forall id d q m iv nh, ev = EvUpdate id d q m iv n nh -> m = 65535) -> low n (run1 ev w).
Proof.
  intros Hw L Hu.
  assert (G0 : forall x, (forall r, In r (all_routes w) -> r_ptr r = x -> r_neigh r <> n) -> gone n x w).
  { intros x Hx. constructor; auto.
    - intros r r' H H' E. assert (r = r') as -> by (eapply NoDup_map_inj; [apply (wf_ptrs _ (W_rt _ _ Hw))| | |]; auto). reflexivity.
    - intros r Hr. apply (W_next _ _ Hw r Hr). }
  assert (D : (forall x, (forall r, In r (all_routes w) -> r_ptr r = x -> r_neigh r <> n) -> gone n x (run1 ev w)) -> low n (run1 ev w)).
  { intros H r Hr En. refine (gn_low n (w_next w) _ (H (w_next w) _) r Hr En).
    intros y Hy Ey. pose proof (W_next _ _ Hw y Hy). lia. }
  destruct (is_upd ev) eqn:U.
  - destruct ev; try discriminate U. cbn [run1] in *.
    set (x := match find_route d n0 w with Some r => r_ptr r | None => w_next w end).
    assert (Hx : forall r, In r (all_routes w) -> r_ptr r = x -> n0 <> n -> r_neigh r <> n).
    { intros r Hr Ex Nn. unfold x in Ex. destruct (find_route d n0 w) as [y|] eqn:F.
      - pose proof (find_route_In0 _ _ _ _ F) as Hy. fold (all_routes w) in Hy. assert (Ny : r_neigh y = n0) by (unfold find_route in F; apply find_some in F; lia).
        assert (r = y) as -> by (eapply NoDup_map_inj; [apply (wf_ptrs _ (W_rt _ _ Hw))| | |]; auto). congruence.
      - pose proof (W_next _ _ Hw r Hr). lia. }
    destruct (Z.eq_dec n0 n) as [->|Nn].
    + apply D. intros y Hy. apply (m_update n y); [|apply G0, Hy]. intros _. right. exact (Hu _ _ _ _ _ _ eq_refl).
    + intros r Hr En. refine (gn_low n x _ _ r Hr En). apply (m_update n x); [|apply G0; intros; apply Hx; auto].
      intros _. left. split; [exact Nn|]. intros y Fy. unfold x. rewrite Fy. reflexivity.
  - apply D. intros x Hx. apply (m_run1 n x ev w U), G0, Hx.
Qed.

Lemma run1_kmono w ev : W [] w -> allowed ev w -> kmono w (run1 ev w).
Proof.
  intros Hw A. destruct (run1_cases_ev w ev Hw A) as [(_ & O) | [C | (id & d & q & m & iv & n0 & nh & _ & Uc)]].
  - destruct O; apply kmono_same; reflexivity.
  - apply (star_log _ _ _ C).
  - destruct Uc as [C | w1 r w2 S I0 E0 C _ _ _ _]; [apply (star_log _ _ _ C)|].
    apply star_log in S. apply star_log in C. cbn [snd] in S, C. eapply kmono_trans; [exact S|]. eapply kmono_trans; [|exact C].
    rewrite E0. apply kmono_same. unfold insert_route. destruct (find_route_slot _ _); reflexivity.
Qed.
Lemma run1_nbs w ev : W [] w -> allowed ev w -> forall x', In x' (w_nbs (run1 ev w)) ->
  (exists x, In x (w_nbs w) /\ n_id x' = n_id x /\ n_addr x' = n_addr x /\ n_if x' = n_if x) \/
  (exists a i, ev = EvNeighbour a i /\ nb_at a i w = None /\ n_addr x' = a /\ n_if x' = i /\ n_id x' = fresh_nb w /\
     all_routes (run1 ev w) = all_routes w).
Proof.
  intros Hw A x' Hx.
  assert (D : nbsub w (run1 ev w) -> exists x, In x (w_nbs w) /\ n_id x' = n_id x /\ n_addr x' = n_addr x /\ n_if x' = n_if x).
  { intros S. destruct (S x' Hx) as (y & Y & E1 & E2 & E3). exists y. auto. }
  destruct (run1_cases_ev w ev Hw A) as [(Io & O) | [C | (id & d & q & m & iv & n0 & nh & _ & Uc)]].
  - destruct ev; try discriminate Io; try (left; apply D; apply nbsub_eq; reflexivity).
    pose proof (nb_at_found addr ifp w) as N. destruct (nb_at addr ifp w) as [nb|] eqn:F.
    + left. apply D. destruct N as (N & _). rewrite N. apply nbsub_eq. reflexivity.
    + rewrite N in Hx. cbn in Hx. destruct Hx as [<-|Hx].
      * right. exists addr, ifp. rewrite N. cbn. auto 10.
      * left. exists x'. auto.
  - left. apply D. apply (star_nbsub _ _ _ C).
  - left. apply D. destruct Uc as [C | w1 r w2 S I0 E0 C _ _ _ _]; [apply (star_nbsub _ _ _ C)|].
    apply star_nbsub in S. apply star_nbsub in C. cbn [snd] in S, C. eapply nbsub_trans; [exact S|]. eapply nbsub_trans; [|exact C].
    rewrite E0. apply nbsub_eq. unfold insert_route. destruct (find_route_slot _ _); reflexivity.
Qed.

Lemma low_dec n l : (forall r : route, In r l -> r_neigh r = n -> r_refmetric r = 65535) \/
  exists r, In r l /\ r_neigh r = n /\ r_refmetric r <> 65535.
Proof.
  induction l as [|a l [IH|(r & H1 & H2 & H3)]]; [left; intros r []| |right; exists r; split; [right; exact H1|auto]].
  destruct (Z.eq_dec (r_neigh a) n) as [E|E]; [destruct (Z.eq_dec (r_refmetric a) 65535) as [F|F]|].
  - left. intros r [->|H] En; auto.
  - right. exists a. split; [left; reflexivity|auto].
  - left. intros r [->|H] En; [contradiction|auto].
Qed.

Section Reach.
Variable c : conf.
Hypothesis Hc : c_half_life c <> 2.

(** At most one neighbour per address and interface *)
Lemma nb_unique w : reach c w -> forall x y, In x (w_nbs w) -> In y (w_nbs w) -> n_addr x = n_addr y -> n_if x = n_if y -> x = y.
Proof.
  induction 1 as [|w ev R IH A]; [intros x y []|]. intros x' y' Hx Hy Ea Ei.
  destruct (reach_W c w Hc R) as (Hw & _).
  assert (Nd : NoDup (map n_id (w_nbs (run1 ev w)))) by (apply (reach_nodup c Hc), reach_run; auto).
  assert (Fr : forall x a i, nb_at a i w = None -> In x (w_nbs w) -> n_addr x = a -> n_if x = i -> False).
  { intros x a i N Hn E1 E2. pose proof (find_none _ _ N x Hn) as X. cbv beta in X. rewrite E1, E2, beq_refl, Z.eqb_refl in X. discriminate X. }
  apply (NoDup_map_inj _ _ _ _ _ _ Nd); auto.
  destruct (run1_nbs w ev Hw A x' Hx) as [(x & X1 & X2 & X3 & X4)|(a & i & E & N & X1 & X2 & X3 & _)];
  destruct (run1_nbs w ev Hw A y' Hy) as [(y & Y1 & Y2 & Y3 & Y4)|(b & j & F & M & Y5 & Y2 & Y3 & _)].
  - rewrite X2, Y2, (IH x y X1 Y1) by congruence. reflexivity.
  - exfalso. apply (Fr x b j M X1); congruence.
  - exfalso. apply (Fr y a i N Y1); congruence.
  - congruence.
Qed.

Lemma lowat_run1 from ifp w ev : reach c w -> allowed ev w -> lowat from ifp w ->
  (forall id d q m iv n nh nb, ev = EvUpdate id d q m iv n nh -> In nb (w_nbs w) -> n_id nb = n -> n_addr nb = from -> n_if nb = ifp -> m = 65535) ->
  lowat from ifp (run1 ev w).
Proof.
  intros R A L Hu nb' Hn Ea Ei. destruct (reach_W c w Hc R) as (Hw & _).
  destruct (run1_nbs w ev Hw A nb' Hn) as [(x & X1 & X2 & X3 & X4)|(a & i & E & N & X1 & X2 & X3 & X4)].
  - rewrite X2. apply low_run1; [exact Hw|apply L; congruence|]. intros id d q m iv nh E.
    eapply (Hu _ _ _ _ _ _ _ x E); congruence.
  - rewrite X3. intros r Hr En. rewrite X4 in Hr. exfalso. apply (fresh_nb_new w). rewrite <- En. apply (W_nb _ _ Hw r Hr).
Qed.

(** The messages of one neighbour *)
Definition announces (a : action) : bool := match a with AUpdate _ _ _ m _ _ => m <? 65535 | _ => false end.
Definition is_at (from : list Z) (ifp n : Z) (w : world) : Prop := In (n, from, ifp) (nbk w).
Lemma is_at_nb from ifp n w : is_at from ifp n w <-> exists nb, In nb (w_nbs w) /\ n_id nb = n /\ n_addr nb = from /\ n_if nb = ifp.
Proof.
  unfold is_at, nbk. rewrite in_map_iff. split.
  - intros (nb & E & H). injection E as <- <- <-. eauto.
  - intros (nb & H & <- & <- & <-). exists nb. auto.
Qed.
Lemma act_low from ifp n a w : reach c w -> known_nb n w -> act_ok a -> lowat from ifp w ->
  (is_at from ifp n w -> announces a = false) -> lowat from ifp (run (act_events n a) w).
Proof.
  intros R K A L An. destruct a; cbn [act_events run fold_left act_ok] in *.
  - exact L.
  - destruct A as (A1 & A2 & A3).
    assert (Ae : allowed (EvHello n unicast seqno interval) w) by (split; [exact K|split; assumption]).
    assert (L1 : lowat from ifp (run1 (EvHello n unicast seqno interval) w)) by (apply lowat_run1; auto; discriminate).
    destruct timestamp; cbn [fold_left]; [|exact L1]. apply lowat_run1; [apply reach_run; auto|exact Logic.I|exact L1|discriminate].
  - apply lowat_run1; auto; [|discriminate]. destruct A. split; [exact K|split; assumption].
  - apply lowat_run1; auto; discriminate.
  - destruct A as (_ & D & Q & M & _). destruct (dest_cases d D) as [V|V].
    + apply lowat_run1; auto; [split; [exact K|split; [exact V|split; assumption]]|].
      intros id0 d0 q0 m0 iv0 n0 nh0 nb E Hn E1 E2 E3. injection E as <- <- <- <- <- <- <-.
      assert (X : is_at from ifp n w) by (apply is_at_nb; eauto). apply An in X. cbn in X. unfold u16b in M. cbv [u16_ok] in M. lia.
    + cbn [run1]. rewrite upd_family by exact V. exact L.
  - apply lowat_run1; auto; discriminate.
  - apply lowat_run1; auto; discriminate.
  - apply lowat_run1; auto; discriminate.
Qed.
Lemma acts_low from ifp n acts : forall w, reach c w -> known_nb n w -> Forall act_ok acts -> lowat from ifp w ->
  (is_at from ifp n w -> existsb announces acts = false) -> lowat from ifp (run (flat_map (act_events n) acts) w).
Proof.
  induction acts as [|a acts IH]; intros w R K F L An; [exact L|]. inversion F as [|? ? Fa Fl]; subst.
  cbn [flat_map]. rewrite run_app. pose proof (act_nbk n a w (reach_nodup c Hc w R)) as E.
  apply IH; [apply act_reach; auto|eapply known_nbk; eauto|exact Fl| |].
  - apply act_low; auto. intros X. apply An in X. cbn in X. apply orb_false_iff in X. apply X.
  - unfold is_at. rewrite E. intros X. apply An in X. cbn in X. apply orb_false_iff in X. apply X.
Qed.
Lemma acts_kmono n acts : forall w, reach c w -> known_nb n w -> Forall act_ok acts -> kmono w (run (flat_map (act_events n) acts) w).
Proof.
  assert (One : forall ev w, reach c w -> allowed ev w -> kmono w (run1 ev w)).
  { intros ev w R A. apply run1_kmono; [apply (reach_W c w Hc R)|exact A]. }
  induction acts as [|a acts IH]; intros w R K F; [apply kmono_same; reflexivity|]. inversion F as [|? ? Fa Fl]; subst.
  cbn [flat_map]. rewrite run_app. pose proof (act_nbk n a w (reach_nodup c Hc w R)) as E.
  eapply kmono_trans; [|apply IH; [apply act_reach; auto|eapply known_nbk; eauto|exact Fl]].
  destruct a; cbn [act_events run fold_left act_ok] in *.
  - apply kmono_same. reflexivity.
  - destruct Fa as (A1 & A2 & A3).
    assert (Ae : allowed (EvHello n unicast seqno interval) w) by (split; [exact K|split; assumption]).
    destruct timestamp; cbn [fold_left]; [|apply One; auto]. eapply kmono_trans; [apply One; eauto|].
    apply One; [apply reach_run; auto|exact Logic.I].
  - apply One; auto. destruct Fa. split; [exact K|split; assumption].
  - apply One; [auto|exact Logic.I].
  - destruct Fa as (_ & D & Q & M & _). destruct (dest_cases d D) as [V|V].
    + apply One; auto. split; [exact K|split; [exact V|split; assumption]].
    + cbn [run1]. rewrite upd_family by exact V. apply kmono_same. reflexivity.
  - apply One; auto.
  - apply One; auto.
  - apply One; auto.
Qed.

(** The wildcard retraction *)
Lemma withdraw_keeps w n : W [] w -> W [] (run1 (EvWithdraw n) w) /\ keeps w (run1 (EvWithdraw n) w).
Proof.
  intros Hw. cbn [run1]. unfold retract_neighbour_routes.
  destruct (walk_post [] n retract1 (fun w p r Hw F => proj1 (retract1_spec [] w p r Hw F)) w (fun _ _ => True)) as (A & B & _); auto.
  intros w1 p r Hw1 _ F _. destruct (retract1_spec [] w1 p r Hw1 F) as (_ & r' & F' & _). eauto.
Qed.
Lemma withdraw_low w n : reach c w -> low n (run1 (EvWithdraw n) w) \/ krefused w (run1 (EvWithdraw n) w).
Proof.
  intros R. destruct (reach_W c w Hc R) as (Hw & _). destruct (withdrawn c w n Hc R) as (_ & _ & B).
  destruct (withdraw_keeps w n Hw) as (Hw' & K). set (w' := run1 (EvWithdraw n) w) in *.
  destruct (in_dec Z.eq_dec n (map r_neigh (all_routes w))) as [Hn|Hn].
  - destruct (low_dec n (all_routes w')) as [L|L]; [left; exact L|right].
    destruct L as (r' & Hr & En & Nr). destruct (keeps_In' _ _ _ K Hr) as (r & Hr0 & Es).
    pose proof (f_equal r_ptr Es) as E1. pose proof (f_equal r_neigh Es) as E2. cbn in E1, E2.
    destruct (B r Hr0 ltac:(congruence)) as (r2 & H2 & I2 & [(_ & X & _)|X]); [|exact X].
    exfalso. assert (r2 = r') as -> by (eapply NoDup_map_inj; [apply (wf_ptrs _ (W_rt _ _ Hw'))| | |]; auto; destruct I2 as (I2 & _); congruence).
    congruence.
  - left. intros r' Hr En. destruct (keeps_In' _ _ _ K Hr) as (r & Hr0 & Es). exfalso. apply Hn.
    pose proof (f_equal r_neigh Es) as E2. cbn in E2. rewrite <- En, <- E2. apply in_map, Hr0.
Qed.
End Reach.

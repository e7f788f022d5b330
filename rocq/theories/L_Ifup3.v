(** L_Ifup3.v: what check_interfaces makes of every interface. *)
From Verif Require Import Base M_Util S_Util L_Util M_Slot L_Slot M_Source S_Source L_Source
  M_Filter M_Types M_Neigh M_State M_Table M_Msg M_Route M_Xroute S_World L_Table L_Step L_Msg L_Smooth L_Quiet
  L_Select L_Select2 L_Chain L_Chain2 L_Chain3 L_Flush S_Neigh L_Neigh M_Daemon L_Inv L_Daemon L_World L_World3 L_Pend
  L_Resend4 L_Arm M_Config M_Ifup S_Ifup L_Ifup2.

(** ** The parameters *)
Lemma given_cv : forall ic n, cv ic n <> 0 -> given ic n (cv ic n).
Proof. intros [x|] n H; cbn in *; [exists x; auto|contradiction]. Qed.
Lemma open_cv : forall ic n, cv ic n = 0 -> open ic n.
Proof. intros [x|] n H; cbn in *; auto. Qed.
Lemma value_cv : forall ic n d, value ic n d (if cv ic n =? 0 then d else cv ic n).
Proof.
  intros ic n d. destruct (Z.eqb_spec (cv ic n) 0) as [E|E]; [right|left].
  - split; auto. now apply open_cv.
  - now apply given_cv.
Qed.
Lemma value_pos : forall ic n d, 0 <= cv ic n -> value ic n d (if cv ic n >? 0 then cv ic n else d).
Proof.
  intros ic n d H. pose proof (value_cv ic n d) as V. destruct (Z.eqb_spec (cv ic n) 0); destruct (Z.gtb_spec (cv ic n) 0); auto; lia.
Qed.
Lemma switch_tri : forall ic n d, 0 <= cv ic n <= 2 -> switch ic n d (tri (cv ic n) d).
Proof.
  intros ic n d H. unfold switch, tri. destruct (Z.eqb_spec (cv ic n) 2) as [E|E].
  - left. split; auto. rewrite <- E. apply given_cv. lia.
  - destruct (Z.eqb_spec (cv ic n) 1) as [E1|E1].
    + right. left. split; auto. rewrite <- E1. apply given_cv. lia.
    + right. right. split; auto. apply open_cv. lia.
Qed.
Lemma switch_is : forall ic n, 0 <= cv ic n <= 2 -> switch ic n false (cv ic n =? 2).
Proof.
  intros ic n H. pose proof (switch_tri ic n false H) as S. unfold tri in S. destruct (cv ic n =? 2); auto. destruct (cv ic n =? 1); auto.
Qed.
Lemma type_kind : forall ic df ka, kind ic df ka (if_type ic df ka).
Proof.
  intros ic df ka. unfold if_type. destruct (Z.eqb_spec (cv ic 3) 0) as [E|E]; [apply open_cv in E|apply kind_given; now apply given_cv].
  destruct (df_all_wireless df) eqn:A; [now apply kind_w|].
  destruct (Z.ltb_spec (ka_wireless ka) 0); [apply kind_other; auto; lia|].
  destruct (Z.eqb_spec (ka_wireless ka) 0); [apply kind_other; auto; lia|apply kind_kernel; auto; lia].
Qed.
Lemma hello_range : forall opt, opt <= 655350 -> 1 <= hello_default opt <= 655350.
Proof. intros opt H. unfold hello_default. destruct (opt <=? 0) eqn:?; lia. Qed.

Lemma params_started : forall ic df ka i, conf_valid ic -> opts_ok df ->
  started ic df ka i (if_params ic df ka (set_if_cap (if_bufcap ka) (p_on i))).
Proof.
  intros ic df ka i V (D1 & D2).
  assert (B : forall n, 0 <= cv ic n <= nth n val_bounds 0) by (intros n; now apply cv_range).
  assert (Fl : forall k, 0 < k -> flag (set_if_cap (if_bufcap ka) (p_on i)) (2 ^ k) = flag i (2 ^ k)) by (intros k K; apply (on_flag i k K)).
  assert (Ty := type_kind ic df ka).
  pose proof (par_flag ic df ka (set_if_cap (if_bufcap ka) (p_on i))) as PF. cbv zeta in PF.
  change IF_FARAWAY with (2 ^ 4) in PF. change IF_UNICAST with (2 ^ 5) in PF. change IF_PROBE_MTU with (2 ^ 11) in PF.
  set (t := if_type ic df ka) in *.
  assert (Hh : 1 <= hello_default (if t =? 2 then df_wireless df else df_wired df) <= 655350) by (destruct (t =? 2); now apply hello_range).
  assert (Eh : if_hello_interval (if_params ic df ka (set_if_cap (if_bufcap ka) (p_on i))) =
    if cv ic 0 >? 0 then cv ic 0 else hello_default (if t =? 2 then df_wireless df else df_wired df)).
  { unfold if_params. fold t. cbv zeta. cbn [if_hello_interval set_if_flags set_if_cost set_if_hello_interval]. destruct (cv ic 0 >? 0); auto. destruct (t =? 2); auto. }
  assert (Rh : 1 <= if_hello_interval (if_params ic df ka (set_if_cap (if_bufcap ka) (p_on i))) <= 655350).
  { rewrite Eh. specialize (B 0%nat). cbn [nth val_bounds] in B. destruct (Z.gtb_spec (cv ic 0) 0); lia. }
  constructor.
  - exists t. split; [exact Ty|]. split; [|split; [|split; [|split; [|split; [|split]]]]].
    + pose proof (value_cv ic 2 (if t =? 2 then 256 else 96)) as Q. specialize (B 2%nat). cbn [nth val_bounds] in B.
      unfold if_params. fold t. cbv zeta. cbn [if_cost set_if_flags set_if_cost].
      destruct (Z.eqb_spec (cv ic 2) 0); destruct (Z.leb_spec (cv ic 2) 0); auto; lia.
    + rewrite Eh. apply value_pos. apply B.
    + pose proof (value_cv ic 14 (if t =? 3 then 96 else 0)) as Q.
      unfold if_params. fold t. cbv zeta. cbn [if_max_rtt_penalty set_if_flags set_if_cost set_if_hello_interval set_if_update_interval set_if_rtt_decay set_if_rtt_min set_if_rtt_max set_if_max_rtt_penalty].
      destruct (Z.eqb_spec (cv ic 14) 0) as [E|E]; destruct (t =? 3); cbn [andb]; auto. rewrite E. auto.
    + change IF_WIRELESS with (2 ^ 1). rewrite PF by lia. reflexivity.
    + change IF_SPLIT_HORIZON with (2 ^ 2). rewrite PF by lia. apply switch_tri. apply (B 4%nat).
    + change IF_LQ with (2 ^ 3). rewrite PF by lia. apply switch_tri. apply (B 5%nat).
    + change IF_TIMESTAMPS with (2 ^ 6). rewrite PF by lia. apply switch_tri. apply (B 9%nat).
  - replace (4 * if_hello_interval (if_params ic df ka (set_if_cap (if_bufcap ka) (p_on i)))) with (u32 (if_hello_interval (if_params ic df ka (set_if_cap (if_bufcap ka) (p_on i))) * 4)).
    2:{ unfold u32. rewrite Z.mod_small by lia. lia. }
    rewrite Eh. unfold if_params. fold t. cbv zeta. cbn [if_update_interval set_if_flags set_if_cost set_if_hello_interval set_if_update_interval].
    destruct (t =? 2); apply value_pos; apply B.
  - apply value_pos. apply B.
  - apply value_pos. apply B.
  - exists (if cv ic 13 >? 0 then cv ic 13 else 120000). split; [apply value_pos; apply B|].
    pose proof (B 12%nat) as B12. cbn [nth val_bounds] in B12.
    unfold if_params. fold t. cbv zeta. cbn [if_rtt_min if_rtt_max set_if_flags set_if_cost set_if_hello_interval set_if_update_interval set_if_rtt_decay set_if_rtt_min set_if_rtt_max].
    unfold u32. rewrite Z.mod_small; [reflexivity|]. destruct (Z.gtb_spec (cv ic 12) 0); lia.
  - change IF_ACCEPT_BAD_SIGNATURES with (2 ^ 8). rewrite PF by lia. apply switch_is. apply (B 8%nat).
  - change IF_RFC6126 with (2 ^ 7). rewrite PF by lia. apply switch_is. apply (B 10%nat).
  - change IF_V4VIAV6 with (2 ^ 10). rewrite PF by lia. apply switch_tri. apply (B 15%nat).
  - change IF_FARAWAY with (2 ^ 4). rewrite PF by lia. rewrite !Fl by lia. reflexivity.
  - change IF_UNICAST with (2 ^ 5). rewrite PF by lia. rewrite !Fl by lia. reflexivity.
  - change IF_PROBE_MTU with (2 ^ 11). rewrite PF by lia. rewrite !Fl by lia. reflexivity.
  - change (if_bufcap ka = Z.max (if ka_mtu ka <? 0 then 1280 else ka_mtu ka) 512 - 52).
    unfold if_bufcap. cbv zeta. generalize (if ka_mtu ka <? 0 then 1280 else ka_mtu ka). intros m. destruct (Z.ltb_spec m 512); lia.
Qed.

(** [started] and [checked] look at the parameters only *)
Lemma started_to : forall ic df ka i a b, started ic df ka i a -> same_params a b -> started ic df ka i b.
Proof.
  intros ic df ka i a b [] (E1 & E2 & E3 & E4 & E5 & E6 & E7 & E8 & E9). unfold flag in *.
  constructor; unfold flag; rewrite ?E1, ?E2, ?E3, ?E4, ?E5, ?E6, ?E7, ?E8, ?E9; auto.
Qed.
Lemma same_refl : forall a, same_params a a. Proof. intros a. repeat split. Qed.
Lemma same_trans : forall a b d, same_params a b -> same_params b d -> same_params a d.
Proof.
  intros a b d (A1 & A2 & A3 & A4 & A5 & A6 & A7 & A8 & A9) (B1 & B2 & B3 & B4 & B5 & B6 & B7 & B8 & B9).
  repeat split; congruence.
Qed.
Lemma same_ll : forall l a, same_params a (snd (check_ll l a)).
Proof. intros [[|x l]|] a; repeat split. Qed.
Lemma same_ipv4 : forall x a, same_params a (set_if_ipv4 x a).
Proof. intros x a. repeat split. Qed.
Lemma started_from : forall ic df ka a b i, started ic df ka a i -> (forall k, 0 < k -> flag b (2 ^ k) = flag a (2 ^ k)) -> started ic df ka b i.
Proof.
  intros ic df ka a b i [] H. constructor; auto.
  - rewrite (H 4 ltac:(lia) : flag b IF_FARAWAY = flag a IF_FARAWAY). auto.
  - rewrite (H 5 ltac:(lia) : flag b IF_UNICAST = flag a IF_UNICAST). auto.
  - rewrite (H 11 ltac:(lia) : flag b IF_PROBE_MTU = flag a IF_PROBE_MTU). auto.
Qed.
Lemma start_spec : forall ic df ka i a x l, conf_valid ic -> opts_ok df ->
  started ic df ka i (set_if_ipv4 a (snd (check_ll l (set_if_ipv4 x (p_start ic df ka i))))).
Proof.
  intros ic df ka i a x l V D. eapply started_to; [apply (params_started ic df ka i V D)|].
  eapply same_trans; [|apply same_ipv4]. eapply same_trans; [|apply same_ll]. eapply same_trans; [|apply same_ipv4]. apply same_ll.
Qed.
Lemma down_flag : forall i k, 0 < k -> flag (p_down i) (2 ^ k) = flag i (2 ^ k).
Proof.
  intros i k K. rewrite !flag_bit by lia. unfold p_down, p_off. cbn [if_flags set_if_flags set_if_ll set_if_cap]. rewrite put_bit by lia.
  change IF_UP with (2 ^ 0). rewrite Z.pow2_bits_eqb by lia. destruct (Z.eqb_spec 0 k); [lia|reflexivity].
Qed.
Lemma down_static : forall x, if_id (p_down x) = if_id x /\ if_ifindex (p_down x) = if_ifindex x /\ if_up (p_down x) = false /\ if_cap (p_down x) = 0 /\ if_ll (p_down x) = [].
Proof. intros x. repeat split. apply off_down. Qed.
Lemma checked_par : forall ic df ka i i' j j', ifpar j = ifpar i -> ifpar j' = ifpar i' -> checked ic df ka i i' -> checked ic df ka j j'.
Proof.
  intros ic df ka i i' j j' E E' H.
  assert (H1 : checked ic df ka (ifpar i) (ifpar i')).
  { destruct H as [H1 H2 H3 H4 H5 H6 H7 H8]. constructor; auto. intros U S. specialize (H5 U S). destruct H5. constructor; auto. }
  rewrite <- E, <- E' in H1. clear H. destruct H1 as [H1 H2 H3 H4 H5 H6 H7 H8]. constructor; auto. intros U S. specialize (H5 U S). destruct H5. constructor; auto.
Qed.

Section Step.
Variable c : conf.
Hypothesis Hc : c_half_life c <> 2.

Lemma startable_can : forall ka i, startable ka i = true <-> 0 < if_ifindex i /\ can_start ka.
Proof.
  intros ka i. unfold startable, can_start. rewrite !andb_true_iff, negb_true_iff, ll_rc, Z.ltb_lt, !Z.leb_le. tauto.
Qed.
Lemma g_check : forall id ic df ka i w, reach c w -> get_if id w = Some i -> conf_valid ic -> opts_ok df ->
  exists i', good c id i' w (check_interface id ic df ka w) /\ checked ic df ka i i' /\
    (lost ka i i' -> gone id (check_interface id ic df ka w)).
Proof.
  intros id ic df ka i w R G V D. destruct (get_some _ _ _ G) as (Hi & Ii & K). unfold check_interface. rewrite G.
  (* the number *)
  set (w1 := if ka_index ka =? if_ifindex i then w else map_if id (set_if_ifindex (ka_index ka)) (take_down id w)).
  assert (S1 : exists i1, good c id i1 w w1 /\ if_id i1 = id /\ if_ifindex i1 = ka_index ka /\
    (if_up i1 = true -> stays ka i /\ i1 = i) /\ (stays ka i -> i1 = i) /\
    (if_up i1 = false -> (forall k, 0 < k -> flag i (2 ^ k) = flag i1 (2 ^ k)) /\ (if_up i = true -> gone id w1 /\ if_cap i1 = 0 /\ if_ll i1 = []))).
  { unfold w1, stays. destruct (Z.eqb_spec (ka_index ka) (if_ifindex i)) as [E|E].
    - exists i. split; [apply g_refl; auto; apply at_self; auto|]. split; auto. split; auto. split; [auto|]. split; auto.
      intros U. split; auto. intros U'. congruence.
    - destruct (if_up i) eqn:U.
      + destruct (g_down c Hc id i w R G U) as (G1 & Gn). destruct (down_static i) as (Di & Dx & Du & _ & _).
        rewrite Ii in Di. destruct (good_at c id _ _ _ K Di G1) as (j & Gj & Ej). destruct (get_some _ _ _ Gj) as (Hj & Ij & _).
        assert (Uj : if_up j = false) by (rewrite (ifpar_up _ _ Ej); exact Du).
        pose proof (g_set c Hc id (set_if_ifindex (ka_index ka)) _ j (good_reach _ _ _ _ _ G1) Gj Ij (down_in _ Uj)) as G2.
        exists (set_if_ifindex (ka_index ka) (p_down i)). split; [|split; [exact Di|]].
        * eapply good_trans; [exact Di|exact G1|]. eapply good_eq; [|exact G2].
          transitivity (set_if_ifindex (ka_index ka) (ifpar j)); [reflexivity|]. rewrite Ej. reflexivity.
        * split; [reflexivity|]. split; [intros Q; change (if_up (p_down i) = true) in Q; congruence|].
          split; [intros (_ & Q); congruence|]. intros _. split; [|intros _; split; [exact Gn|split; reflexivity]]. intros k Hk. symmetry. apply (down_flag i k Hk).
      + replace (take_down id w) with w by (unfold take_down; rewrite G, U; reflexivity).
        exists (set_if_ifindex (ka_index ka) i). split; [|split; [exact Ii|]].
        * apply (g_set c Hc id (set_if_ifindex (ka_index ka)) w i R G Ii). apply down_in. exact U.
        * split; [reflexivity|]. split; [intros Q; change (if_up i = true) in Q; congruence|].
          split; [intros (Q & _); congruence|]. intros _. split; [reflexivity|congruence]. }
  clearbody w1. destruct S1 as (i1 & G1 & I1 & X1 & U1 & St1 & D1).
  assert (G1d : if_up i = true -> ~ stays ka i -> gone id w1).
  { intros U N. destruct (if_up i1) eqn:Q; [destruct (U1 eq_refl); contradiction|]. apply (proj2 (D1 eq_refl) U). }
  destruct (good_at c id _ _ _ K I1 G1) as (j & Gj & Ej). destruct (get_some _ _ _ Gj) as (Hj & Ij & Kj). rewrite Gj.
  rewrite (ifpar_up _ _ Ej). pose proof (good_reach _ _ _ _ _ G1) as R1.
  assert (Xj : if_ifindex j = ka_index ka) by (rewrite (ifpar_index _ _ Ej); exact X1).
  set (rc := if ka_index ka >? 0 then ka_oper ka else 0).
  assert (Rc : (rc >? 0) = true <-> 0 < ka_index ka /\ 0 < ka_oper ka).
  { unfold rc. destruct (Z.gtb_spec (ka_index ka) 0); destruct (Z.gtb_spec (ka_oper ka) 0); lia. }
  set (w2 := if Bool.eqb (rc >? 0) (if_up i1) then w1 else if rc >? 0 then snd (bring_up id ic df ka w1) else take_down id w1).
  (* up or down *)
  assert (S2 : exists i2, good c id i2 w w2 /\ if_id i2 = id /\ if_ifindex i2 = ka_index ka /\ rsub w1 w2 /\
    (if_up i2 = true <-> 0 < ka_index ka /\ 0 < ka_oper ka /\ (stays ka i \/ can_start ka)) /\
    (if_up i2 = true -> stays ka i -> i2 = i) /\
    (if_up i2 = true -> ~ stays ka i -> exists x, started ic df ka i (set_if_ipv4 (ka_ipv42 ka) (snd (check_ll (ka_ll2 ka) i2))) /\ if_ipv4 i2 = x) /\
    (if_up i2 = true -> iface_in i2) /\
    (if_up i = true -> if_up i2 = false -> gone id w2 /\ if_cap i2 = 0 /\ if_ll i2 = [])).
  { unfold w2. destruct (if_up i1) eqn:E1.
    - destruct (U1 eq_refl) as (Hst & Ei1). subst i1. destruct (rc >? 0) eqn:Erc; cbn [Bool.eqb].
      + exists i. split; auto. split; auto. split; auto. split; [apply rsub_refl|]. apply proj1 in Rc. specialize (Rc eq_refl).
        split; [rewrite E1; tauto|]. split; auto. split; [intros _ N; contradiction|]. split; [intros _; exact (reach_in c Hc _ _ R Hi)|congruence].
      + assert (Uj : if_up j = true) by (rewrite (ifpar_up _ _ Ej); exact E1).
        destruct (g_down c Hc id j w1 R1 Gj Uj) as (G2 & Gn). destruct (down_static j) as (Di & Dx & Du & Dc & Dl).
        exists (p_down j). split; [eapply good_trans; [exact I1|exact G1|exact G2]|]. rewrite Di, Dx, Du, Dc, Dl.
        split; auto. split; auto. split; [apply G2|]. split; [|split; [discriminate|split; [discriminate|split; [discriminate|auto]]]].
        split; [discriminate|]. intros (A & B & _). exact (proj2 Rc (conj A B)).
    - assert (Uj : if_up j = false) by (rewrite (ifpar_up _ _ Ej); exact E1). destruct (D1 eq_refl) as (Fl & Gn).
      assert (Nst : ~ stays ka i). { intros Q. pose proof (St1 Q) as Q1. destruct Q as (Q & _). subst i1. congruence. }
      assert (Nn : if_up i = true -> forall w', rsub w1 w' -> gone id w'). { intros U w' S. unfold gone. eapply rsub_via; [exact S|]. apply (Gn U). }
      destruct (rc >? 0) eqn:Erc; cbn [Bool.eqb].
      + apply proj1 in Rc. specialize (Rc eq_refl). pose proof (g_up c Hc id ic df ka j w1 R1 Gj Uj V) as G2. cbv zeta in G2.
        destruct (startable ka j) eqn:Es.
        * apply startable_can in Es. destruct (start_static ic df ka j) as (Si & Sx & Su).
          exists (set_if_ipv4 (ka_ipv4 ka) (p_start ic df ka j)).
          split; [eapply good_trans; [exact I1|exact G1|exact G2]|].
          split; [exact (eq_trans Si Ij)|]. split; [exact (eq_trans Sx Xj)|]. split; [apply G2|].
          assert (Su' : if_up (set_if_ipv4 (ka_ipv4 ka) (p_start ic df ka j)) = true) by exact Su.
          rewrite Su'. split; [tauto|]. split; [intros _ Q; contradiction|]. split; [|split; [intros _; exact (start_in ic df ka j V)|discriminate]].
          intros _ _. eexists. split; [|reflexivity]. eapply started_from; [apply (start_spec ic df ka j _ (ka_ipv4 ka) _ V D)|].
          intros k Hk. rewrite (Fl k Hk). unfold flag. f_equal. f_equal. f_equal. apply (f_equal if_flags) in Ej. symmetry. exact Ej.
        * destruct G2 as (x & Ix & Xx & Ux & G2). destruct (down_static x) as (Di & Dx & Du & Dc & Dl). exists (p_down x).
          split; [eapply good_trans; [exact I1|exact G1|exact G2]|]. rewrite Di, Dx, Du, Dc, Dl. split; auto. split; [congruence|]. split; [apply G2|].
          split; [|split; [discriminate|split; [discriminate|split; [discriminate|]]]].
          -- split; [discriminate|]. intros (A & B & [Q|Q]); [contradiction|]. rewrite (proj2 (startable_can ka j)) in Es; [discriminate|]. split; auto. lia.
          -- intros U _. split; auto. apply Nn; auto. apply G2.
      + exists i1. split; auto. split; auto. split; auto. split; [apply rsub_refl|]. rewrite E1.
        split; [|split; [discriminate|split; [discriminate|split; [discriminate|]]]].
        * split; [discriminate|]. intros (A & B & _). exact (proj2 Rc (conj A B)).
        * intros U _. split; [apply Nn; auto; apply rsub_refl|]. apply Gn. exact U. }
  assert (Gd : if_up i = true -> ~ stays ka i -> gone id w2).
  { intros U N. unfold gone. eapply rsub_via; [|exact (G1d U N)]. destruct S2 as (? & _ & _ & _ & S & _). exact S. }
  clearbody w2. clear j Gj Ej Hj Ij Kj Xj D1 U1 St1 Rc.
  destruct S2 as (i2 & G2 & I2 & X2 & _ & U2 & Ke & Sta & In2 & Dn). pose proof (good_reach _ _ _ _ _ G2) as R2.
  destruct (good_at c id _ _ _ K I2 G2) as (j & Gj & Ej). destruct (get_some _ _ _ Gj) as (Hj & Ij & Kj). rewrite Gj.
  rewrite (ifpar_up _ _ Ej). destruct (if_up i2) eqn:E2.
  - pose proof (proj1 U2 eq_refl) as (Xp & Op & Why).
    pose proof (g_tail c Hc id ka i2 w2 R2 (ex_intro _ j (conj Gj Ej)) I2 E2 ltac:(lia) (In2 eq_refl)) as T. cbv zeta in T.
    destruct (check_ipv4 id (ka_ipv42 ka) (map_if id (fun x => snd (check_ll (ka_ll2 ka) x)) w2)) as (ch, w4).
    destruct T as (G3 & Gn). set (w' := if ch then _ else _) in *.
    set (i3 := set_if_ipv4 (ka_ipv42 ka) (snd (check_ll (ka_ll2 ka) i2))) in *.
    destruct (ll_static (ka_ll2 ka) i2) as (L1 & L2 & L3).
    assert (U3 : if_up i3 = true) by exact (eq_trans L1 E2).
    exists i3. split; [eapply good_trans; [exact I2|exact G2|exact G3]|]. split.
    + constructor.
      * change (if_id (snd (check_ll (ka_ll2 ka) i2)) = if_id i). congruence.
      * exact (eq_trans L3 X2).
      * rewrite U3. tauto.
      * intros _ S. unfold i3. rewrite (Ke eq_refl S). eapply same_trans; [apply same_ll|apply same_ipv4].
      * intros _ S. destruct (Sta eq_refl S) as (x & Hx & _). exact Hx.
      * intros _. unfold i3, check_ll. destruct (ka_ll2 ka) as [[|a l]|]; reflexivity.
      * reflexivity.
      * congruence.
    + intros (U & [Q|[Q|Q]]); [congruence| |].
      * (* restarted *) unfold gone. eapply rsub_via; [apply G3|]. apply Gd; auto.
      * destruct (Z.eqb_spec (if_ifindex i) (ka_index ka)) as [Ex|Ex].
        -- apply Gn. rewrite (Ke eq_refl (conj U Ex)). exact Q.
        -- unfold gone. eapply rsub_via; [apply G3|]. apply Gd; auto. intros (_ & Z0). contradiction.
  - exists i2. split; [exact G2|]. split.
    + constructor.
      * congruence.
      * exact X2.
      * rewrite E2. exact U2.
      * congruence.
      * congruence.
      * congruence.
      * congruence.
      * intros U _. apply (Dn U eq_refl).
    + intros (U & _). apply (Dn U eq_refl).
Qed.
(** ** All interfaces *)
Lemma gone_rsub : forall id w w', rsub w w' -> gone id w -> gone id w'.
Proof. intros id w w' S G. unfold gone. eapply rsub_via; [exact S|exact G]. Qed.
Lemma get_at : forall id w i, get_if id w = Some i -> at_if id i w. Proof. intros id w i G. exists i. auto. Qed.

Lemma checks_loop : forall cf df ans ids w, reach c w -> NoDup ids -> (forall id, conf_valid (cf id)) -> opts_ok df ->
  (forall id, In id ids -> known_if id w) ->
  let w' := fold_left (fun w id => check_interface id (cf id) df (ans id) w) ids w in
  reach c w' /\ map if_id (w_ifs w') = map if_id (w_ifs w) /\ rsub w w' /\
  (forall id i, ~ In id ids -> get_if id w = Some i -> at_if id i w') /\
  (forall id i, In id ids -> get_if id w = Some i -> exists i', get_if id w' = Some i' /\
     checked (cf id) df (ans id) i i' /\ (lost (ans id) i i' -> gone id w')).
Proof.
  intros cf df ans. induction ids as [|a ids IH]; intros w R N V D K; cbn [fold_left].
  - cbv zeta. split; auto. split; auto. split; [apply rsub_refl|]. split; [intros; now apply get_at|intros id i []].
  - inversion N as [|? ? Na N']; subst. destruct (get_known _ _ (K a (or_introl eq_refl))) as (ia & Ga & _ & Ea).
    destruct (g_check a (cf a) df (ans a) ia w R Ga (V a) D) as (ia' & G1 & C1 & L1).
    assert (Ia' : if_id ia' = a) by (rewrite (ck_id _ _ _ _ _ C1); exact Ea).
    pose proof (good_ids c _ _ _ _ Ia' G1) as Ids. pose proof (good_reach _ _ _ _ _ G1) as R1.
    assert (K1 : forall id, In id ids -> known_if id (check_interface a (cf a) df (ans a) w)).
    { intros id H. eapply known_ids; [exact Ids|]. apply K. now right. }
    specialize (IH _ R1 N' V D K1). cbv zeta in IH. set (w1 := check_interface a (cf a) df (ans a) w) in *.
    destruct IH as (A & B & S & O & Q). cbv zeta. split; auto. split; [congruence|]. split; [eapply rsub_trans; [apply G1|exact S]|]. split.
    + intros id i Hn G. assert (Na' : id <> a) by (intros ->; apply Hn; now left).
      destruct (good_other c a id ia' _ _ i Ia' Na' G1 G) as (j & Gj & Ej).
      destruct (O id j (fun H => Hn (or_intror H)) Gj) as (j' & Gj' & Ej'). exists j'. split; auto. congruence.
    + intros id i [<-|Hin] G.
      * rewrite Ga in G. injection G as <-. destruct (good_at c a _ _ _ (K a (or_introl eq_refl)) Ia' G1) as (j & Gj & Ej).
        destruct (O a j Na Gj) as (j' & Gj' & Ej'). exists j'. split; auto.
        assert (Ej2 : ifpar j' = ifpar ia') by congruence. split; [eapply checked_par; [reflexivity|exact Ej2|exact C1]|].
        intros (U & L). eapply gone_rsub; [exact S|]. apply L1. split; auto. rewrite <- (ifpar_up _ _ Ej2). exact L.
      * assert (Na' : id <> a) by (intros ->; contradiction).
        destruct (good_other c a id ia' _ _ i Ia' Na' G1 G) as (j & Gj & Ej).
        destruct (Q id j Hin Gj) as (i' & Gi' & Ci & Li). exists i'. split; auto.
        split; [eapply checked_par; [symmetry; exact Ej|reflexivity|exact Ci]|].
        intros (U & L). apply Li. unfold lost, stays. rewrite (ifpar_up _ _ Ej), (ifpar_index _ _ Ej). split; auto.
        destruct L as [L|[L|L]]; auto. right. right. intros E4. apply L. rewrite <- E4. apply (f_equal if_ipv4) in Ej. symmetry. exact Ej.
Qed.

Lemma checks : forall cf df ans w, reach c w -> (forall id, conf_valid (cf id)) -> opts_ok df ->
  let w' := check_interfaces cf df ans w in
  reach c w' /\ map if_id (w_ifs w') = map if_id (w_ifs w) /\ rsub w w' /\
  (forall id i, get_if id w = Some i -> exists i', get_if id w' = Some i' /\
     checked (cf id) df (ans id) i i' /\ (lost (ans id) i i' -> gone id w')).
Proof.
  intros cf df ans w R V D. pose proof (checks_loop cf df ans (map if_id (w_ifs w)) w R (reach_ids c Hc w R) V D (fun id H => H)) as L.
  cbv zeta in *. destruct L as (A & B & S & _ & Q). unfold check_interfaces. split; auto. split; auto. split; auto.
  intros id i G. apply Q; auto. apply (get_some _ _ _ G).
Qed.
End Step.

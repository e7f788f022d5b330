(** L_Wifs.v: the last line about an interface says what it is. *)
From Verif Require Import Base M_Util S_Util L_Util M_Slot L_Slot M_Source S_Source L_Source
  M_Filter M_Types M_Neigh M_State M_Table M_Msg M_Route M_Xroute S_World L_Table L_Step L_Msg L_Smooth L_Quiet
  L_Select L_Select2 L_Chain L_Chain2 L_Chain3 L_Flush S_Neigh L_Neigh M_Daemon L_Inv L_Daemon L_World L_World3 L_Pend
  L_Resend4 L_Arm M_Config M_Ifup S_Ifup L_Ifup2 L_Ifup3 M_Wifs S_Wifs.

(** ** Reading *)
Definition about (id : Z) (l : list inote) : Prop := Forall (fun e => fst e = id) l.
Notation lastof l d := (last (map snd l) d).
Lemma last_cons : forall (A : Type) (l : list A) a d, last (a :: l) d = last l a.
Proof.
  intros A l. induction l as [|x l IH]; intros a d; [reflexivity|]. change (last (a :: x :: l) d) with (last (x :: l) d).
  rewrite (IH x d), (IH x a). reflexivity.
Qed.
Lemma last_app : forall (A : Type) (l m : list A) d, last (l ++ m) d = last m (last l d).
Proof. intros A l m. induction l as [|a l IH]; intros d; [reflexivity|]. cbn [app]. rewrite !last_cons. apply IH. Qed.
Lemma lastof_app : forall (l m : list inote) d, lastof (l ++ m) d = lastof m (lastof l d).
Proof. intros. rewrite map_app. apply last_app. Qed.
Lemma iread_about : forall id l P d, about id l -> P id = Some d ->
  exists P', iread l P = Some P' /\ (forall n, n <> id -> P' n = P n) /\ P' id = Some (lastof l d).
Proof.
  intros id l. induction l as [|(n, x) l IH]; intros P d A H.
  - exists P. cbn. auto.
  - inversion A as [|? ? E A']; subst. cbn [fst] in *. cbn [iread]. rewrite H.
    destruct (IH (iput n x P) x A') as (P' & R & O & L); [unfold iput; now rewrite Z.eqb_refl|].
    exists P'. split; auto. split.
    + intros m N. rewrite O by auto. unfold iput. destruct (Z.eqb_spec m n); congruence.
    + rewrite L. f_equal. symmetry. apply last_cons.
Qed.
Lemma iread_app : forall l m P, iread (l ++ m) P = match iread l P with Some P' => iread m P' | None => None end.
Proof. induction l as [|(n, x) l IH]; intros m P; cbn [app iread]; auto. destruct (P n); auto. Qed.

(** ** Every line of a check is about the interface that is checked *)
Lemma say_about : forall id w, about id (say id w).
Proof. intros id w. unfold say. destruct (get_if id w); repeat constructor. Qed.
Lemma ll_about : forall id a i, about id (ll_lines id a i).
Proof. intros id [[|x l]|] i; cbn [ll_lines]; try destruct (ll_new _ _); repeat constructor. Qed.
Lemma down_about : forall id w, about id (down_lines id w).
Proof. intros id w. unfold down_lines. destruct (get_if id w) as [i|]; [|constructor]. destruct (if_up i); [apply say_about|constructor]. Qed.
Lemma about_app : forall id l m, about id l -> about id m -> about id (l ++ m).
Proof. intros. apply Forall_app. auto. Qed.
Lemma up_about : forall id ic df ka w, about id (up_lines id ic df ka w).
Proof.
  intros id ic df ka w. unfold up_lines. destruct (get_if id w) as [i|]; [|constructor]. cbv zeta.
  pose proof (say_about id (snd (bring_up id ic df ka w))) as S. set (s := say id (snd (bring_up id ic df ka w))) in *. clearbody s.
  destruct (if_up i); [constructor|]. destruct (if_ifindex i <=? 0); [now apply about_app|]. destruct (ka_setup ka <? 0); [now apply about_app|].
  set (x := if_params _ _ _ _). pose proof (ll_about id (ka_ll ka) x) as L. destruct (check_ll (ka_ll ka) x) as (rc, i3).
  destruct (rc <? 0); [auto using about_app|]. destruct (ka_join ka <? 0); [auto using about_app|].
  destruct (check_ipv4 _ _ _) as (ch, w2). apply about_app; auto. apply about_app; auto. destruct ch; [apply say_about|constructor].
Qed.
Lemma check_about : forall id ic df ka w, about id (check_lines id ic df ka w).
Proof.
  intros id ic df ka w. unfold check_lines. destruct (get_if id w) as [i|]; [|constructor]. cbv zeta.
  apply about_app; [destruct (_ =? _); [constructor|apply down_about]|]. apply about_app.
  - destruct (Bool.eqb _ _); [constructor|]. match goal with |- about _ (if ?b then _ else _) => destruct b end; [apply up_about|apply down_about].
  - match goal with |- about _ (if ?b then _ else _) => destruct b end; [|constructor].
    destruct (check_ipv4 _ _ _) as (ch, w4). apply about_app.
    + match goal with |- about _ (match ?g with Some _ => _ | None => _ end) => destruct g end; [apply ll_about|constructor].
    + destruct ch; [apply say_about|constructor].
Qed.

(** ** What the last one says *)
Definition cur (id : Z) (w : world) s : Prop := exists j, get_if id w = Some j /\ s = ishow j.
Lemma cur_say : forall id w d, (exists j, get_if id w = Some j) -> cur id w (lastof (say id w) d).
Proof. intros id w d (j & G). exists j. split; auto. unfold say. rewrite G. reflexivity. Qed.
Lemma ishow_par : forall a b, ifpar a = ifpar b -> ishow a = ishow b.
Proof. intros a b E. apply (f_equal ishow) in E. exact E. Qed.
Lemma cur_at : forall id w i s, at_if id i w -> s = ishow i -> cur id w s.
Proof. intros id w i s (j & G & E) ->. exists j. split; auto. symmetry. now apply ishow_par. Qed.
Lemma cur_ll : forall id a i, lastof (ll_lines id a i) (ishow i) = ishow (snd (check_ll a i)).
Proof.
  intros id [[|x l]|] i; try reflexivity. cbn [ll_lines]. unfold ll_new.
  destruct (list_eq_dec (list_eq_dec Z.eq_dec) (firstn 32 (x :: l)) (if_ll i)) as [E|E]; [|reflexivity].
  cbn [negb map last]. cbn [check_ll snd]. unfold ishow. cbn [if_ll set_if_ll if_ipv4]. rewrite E. reflexivity.
Qed.

Section Lines.
Variable c : conf.
Hypothesis Hc : c_half_life c <> 2.

Lemma down_cur : forall id w i, reach c w -> get_if id w = Some i -> cur id (take_down id w) (lastof (down_lines id w) (ishow i)).
Proof.
  intros id w i R G. unfold down_lines. rewrite G. destruct (if_up i) eqn:U.
  - apply cur_say. destruct (get_some _ _ _ G) as (_ & Ii & K).
    destruct (good_at c id (p_down i) w _ K Ii (proj1 (g_down c Hc id i w R G U))) as (j & Gj & _). eauto.
  - exists i. split; [|reflexivity]. unfold take_down. rewrite G, U. exact G.
Qed.
Lemma up_good : forall id ic df ka i w, reach c w -> get_if id w = Some i -> if_up i = false -> conf_valid ic ->
  exists x, if_id x = id /\ if_ifindex x = if_ifindex i /\ good c id x w (snd (bring_up id ic df ka w)) /\ iface_in x.
Proof.
  intros id ic df ka i w R G U V. pose proof (g_up c Hc id ic df ka i w R G U V) as H. cbv zeta in H.
  destruct (get_some _ _ _ G) as (_ & Ii & K). destruct (startable ka i).
  - destruct (start_static ic df ka i) as (A & B & _). eexists. split; [|split; [|split; [exact H|]]].
    + exact (eq_trans A Ii).
    + exact B.
    + exact (start_in ic df ka i V).
  - destruct H as (x & A & B & _ & H). exists (p_down x). split; [exact A|]. split; [exact B|]. split; [exact H|].
    apply down_in. exact (off_down x).
Qed.
Lemma up_cur : forall id ic df ka i w, reach c w -> get_if id w = Some i -> if_up i = false -> conf_valid ic ->
  cur id (snd (bring_up id ic df ka w)) (lastof (up_lines id ic df ka w) (ishow i)).
Proof.
  intros id ic df ka i w R G U V. destruct (get_some _ _ _ G) as (_ & Ii & K).
  destruct (up_good id ic df ka i w R G U V) as (x & A & _ & H & _).
  assert (E : exists j, get_if id (snd (bring_up id ic df ka w)) = Some j) by (destruct (good_at c id x w _ K A H) as (j & Gj & _); eauto).
  unfold up_lines. rewrite G, U. cbv zeta. set (w' := snd (bring_up id ic df ka w)) in *. clearbody w'.
  destruct (if_ifindex i <=? 0); [rewrite lastof_app; now apply cur_say|]. destruct (ka_setup ka <? 0); [rewrite lastof_app; now apply cur_say|].
  destruct (check_ll (ka_ll ka) _) as (rc, i3).
  destruct (rc <? 0); [rewrite !lastof_app; now apply cur_say|]. destruct (ka_join ka <? 0); [rewrite !lastof_app; now apply cur_say|].
  destruct (check_ipv4 _ _ _) as (ch, w2). rewrite !lastof_app. now apply cur_say.
Qed.
(** The number, interface.c:552-561 *)
Lemma index_cur : forall id ka i w, reach c w -> get_if id w = Some i ->
  let w1 := if ka_index ka =? if_ifindex i then w else map_if id (set_if_ifindex (ka_index ka)) (take_down id w) in
  exists j, reach c w1 /\ get_if id w1 = Some j /\ if_ifindex j = ka_index ka /\
    lastof (if ka_index ka =? if_ifindex i then [] else down_lines id w) (ishow i) = ishow j.
Proof.
  intros id ka i w R G. cbv zeta. destruct (Z.eqb_spec (ka_index ka) (if_ifindex i)) as [E|E]; [exists i; auto|].
  destruct (down_cur id w i R G) as (j & Gj & Ej). rewrite Ej. destruct (get_some _ _ _ G) as (_ & Ii & K).
  assert (R1 : reach c (take_down id w) /\ if_up j = false).
  { destruct (if_up i) eqn:U.
    - destruct (g_down c Hc id i w R G U) as (G1 & _). split; [apply G1|].
      destruct (good_at c id (p_down i) w _ K Ii G1) as (j' & Gj' & E'). rewrite Gj in Gj'. injection Gj' as <-.
      rewrite (ifpar_up _ _ E'). exact (off_down i).
    - assert (Q : take_down id w = w) by (unfold take_down; rewrite G, U; reflexivity). rewrite Q in *. split; auto.
      rewrite G in Gj. injection Gj as <-. exact U. }
  destruct R1 as (R1 & Uj). destruct (get_some _ _ _ Gj) as (_ & Ij & Kj).
  pose proof (g_set c Hc id (set_if_ifindex (ka_index ka)) _ j R1 Gj Ij (down_in _ Uj)) as G2.
  destruct (good_at c id (set_if_ifindex (ka_index ka) j) _ _ Kj Ij G2) as (k & Gk & Ek). exists k. split; [apply G2|]. split; [exact Gk|].
  split; [rewrite (ifpar_index _ _ Ek); reflexivity|]. rewrite (ishow_par _ _ Ek). reflexivity.
Qed.
(** Up or down, interface.c:563-568 *)
Lemma updown_cur : forall id ic df ka i w, reach c w -> get_if id w = Some i -> conf_valid ic -> if_ifindex i = ka_index ka ->
  let rc := if ka_index ka >? 0 then ka_oper ka else 0 in
  let w2 := if Bool.eqb (rc >? 0) (if_up i) then w else if rc >? 0 then snd (bring_up id ic df ka w) else take_down id w in
  let l2 := if Bool.eqb (rc >? 0) (if_up i) then [] else if rc >? 0 then up_lines id ic df ka w else down_lines id w in
  exists j, reach c w2 /\ get_if id w2 = Some j /\ (if_up j = true -> 0 < if_ifindex j) /\ lastof l2 (ishow i) = ishow j.
Proof.
  intros id ic df ka i w R G V X. cbv zeta. set (rc := if ka_index ka >? 0 then ka_oper ka else 0).
  assert (Rc : (rc >? 0) = true -> 0 < ka_index ka) by (unfold rc; destruct (Z.gtb_spec (ka_index ka) 0); lia).
  destruct (get_some _ _ _ G) as (_ & Ii & K).
  destruct (rc >? 0) eqn:Erc, (if_up i) eqn:U; cbn [Bool.eqb].
  - exists i. split; auto. split; auto. split; [|reflexivity]. intros _. rewrite X. auto.
  - destruct (up_cur id ic df ka i w R G U V) as (j & Gj & Ej). exists j.
    destruct (up_good id ic df ka i w R G U V) as (x & A & B & H & _). split; [apply H|]. split; auto. split; auto.
    intros _. destruct (good_at c id x w _ K A H) as (j' & Gj' & E'). rewrite Gj in Gj'. injection Gj' as <-.
    rewrite (ifpar_index _ _ E'), B, X. auto.
  - destruct (down_cur id w i R G) as (j & Gj & Ej). exists j. destruct (g_down c Hc id i w R G U) as (G1 & _).
    split; [apply G1|]. split; auto. split; auto.
    destruct (good_at c id (p_down i) w _ K Ii G1) as (j' & Gj' & E'). rewrite Gj in Gj'. injection Gj' as <-.
    rewrite (ifpar_up _ _ E'). intros Q. pose proof (off_down i) as Q'. change (if_up (p_down i)) with (if_up (p_off i)) in Q. congruence.
  - exists i. split; auto. split; auto. split; [|reflexivity]. congruence.
Qed.
(** The addresses, interface.c:570-577 *)
Lemma tail_cur : forall id ka i w, reach c w -> get_if id w = Some i -> 0 < if_ifindex i ->
  let w3 := map_if id (fun x => snd (check_ll (ka_ll2 ka) x)) w in
  let '(ch, w4) := check_ipv4 id (ka_ipv42 ka) w3 in
  cur id (if ch then send_update_full id false (send_multicast_request_if None id w4) else w4)
    (lastof (ll_lines id (ka_ll2 ka) i ++ (if ch then say id w4 else [])) (ishow i)).
Proof.
  intros id ka i w R G X. cbv zeta. destruct (get_some _ _ _ G) as (Hi & Ii & K).
  set (f := fun x => snd (check_ll (ka_ll2 ka) x)). destruct (ll_static (ka_ll2 ka) i) as (_ & L2 & L3). fold (f i) in L2, L3.
  assert (If : iface_in (f i)) by exact (ll_in _ _ (reach_in c Hc _ _ R Hi)).
  pose proof (g_set c Hc id f w i R G (eq_trans L2 Ii) If) as G1.
  pose proof (good_at c id (f i) _ _ K (eq_trans L2 Ii) G1) as A1. pose proof (good_reach _ _ _ _ _ G1) as R1.
  pose proof (g_ipv4 c Hc id (f i) (ka_ipv42 ka) _ R1 A1 (eq_trans L2 Ii) ltac:(lia) If) as G2.
  destruct (check_ipv4 id (ka_ipv42 ka) (map_if id f w)) as (ch, w4) eqn:E4. destruct G2 as (G2 & _).
  rewrite lastof_app, cur_ll. change (snd (check_ll (ka_ll2 ka) i)) with (f i).
  destruct ch.
  - pose proof (good_at c id (set_if_ipv4 (ka_ipv42 ka) (f i)) _ _ (at_known _ _ _ A1) (eq_trans L2 Ii) G2) as A2.
    pose proof (good_reach _ _ _ _ _ G2) as R2. destruct A2 as (j & Gj & Ej). destruct (get_some _ _ _ Gj) as (_ & Ij & Kj).
    pose proof (g_request c Hc id j w4 R2 (at_self _ _ _ Gj)) as G3. pose proof (good_at c id j _ _ Kj Ij G3) as A3.
    pose proof (g_full c Hc id j false _ (good_reach _ _ _ _ _ G3) A3) as G4.
    pose proof (good_at c id j _ _ (at_known _ _ _ A3) Ij G4) as A4.
    apply (cur_at _ _ j); [exact A4|]. unfold say. rewrite Gj. reflexivity.
  - cbn [map last]. replace w4 with (map_if id f w); [apply (cur_at _ _ (f i)); auto|].
    unfold check_ipv4 in E4. destruct (get_if id (map_if id f w)) as [j|] eqn:Q; [|destruct A1 as (j & Gj & _); congruence].
    destruct (if if_ifindex j >? 0 then ka_ipv42 ka else None) as [x|], (if_ipv4 j) as [y|].
    + destruct (beq x y); apply pair_equal_spec in E4; destruct E4 as (E4 & E5); [exact E5|discriminate E4].
    + apply pair_equal_spec in E4; destruct E4 as (E4 & E5). discriminate E4.
    + apply pair_equal_spec in E4; destruct E4 as (E4 & E5). discriminate E4.
    + apply pair_equal_spec in E4; destruct E4 as (E4 & E5). exact E5.
Qed.
Lemma check_cur : forall id ic df ka i w, reach c w -> get_if id w = Some i -> conf_valid ic ->
  cur id (check_interface id ic df ka w) (lastof (check_lines id ic df ka w) (ishow i)).
Proof.
  intros id ic df ka i w R G V. unfold check_interface, check_lines. rewrite G. cbv zeta.
  destruct (index_cur id ka i w R G) as (i1 & R1 & G1 & X1 & S1).
  set (w1 := if ka_index ka =? if_ifindex i then w else map_if id (set_if_ifindex (ka_index ka)) (take_down id w)) in *. clearbody w1.
  rewrite !lastof_app, G1. unfold inote in *. rewrite S1.
  destruct (updown_cur id ic df ka i1 w1 R1 G1 V X1) as (i2 & R2 & G2 & X2 & S2). cbv zeta in R2, G2, S2. unfold inote in S2. rewrite S2.
  match type of G2 with get_if id ?x = _ => set (w2 := x) in * end. clearbody w2. rewrite G2.
  destruct (if_up i2) eqn:U; [|exists i2; auto].
  pose proof (tail_cur id ka i2 w2 R2 G2 (X2 eq_refl)) as T. cbv zeta in T.
  destruct (check_ipv4 id (ka_ipv42 ka) (map_if id (fun x => snd (check_ll (ka_ll2 ka) x)) w2)) as (ch, w4). exact T.
Qed.

(** ** The client's table *)
Lemma get_none : forall id w w', map if_id (w_ifs w') = map if_id (w_ifs w) -> get_if id w = None -> get_if id w' = None.
Proof.
  intros id w w' E G. destruct (get_if id w') as [j|] eqn:Q; auto. destruct (get_some _ _ _ Q) as (_ & _ & K).
  unfold known_if in K. rewrite E in K. destruct (get_known _ _ K) as (i & Gi & _). congruence.
Qed.
Lemma check_right : forall id ic df ka P w, reach c w -> known_if id w -> conf_valid ic -> opts_ok df -> iright P w ->
  exists P', iread (check_lines id ic df ka w) P = Some P' /\ iright P' (check_interface id ic df ka w).
Proof.
  intros id ic df ka P w R K V D H. destruct (get_known _ _ K) as (i & G & _ & Ii).
  pose proof (H id) as Hid. rewrite G in Hid.
  destruct (iread_about id _ P _ (check_about id ic df ka w) Hid) as (P' & Rd & O & L). exists P'. split; auto.
  destruct (g_check c Hc id ic df ka i w R G V D) as (i' & Gd & (Ck & _)).
  destruct (check_cur id ic df ka i w R G V) as (j & Gj & Ej). rewrite Ej in L.
  assert (Ids : map if_id (w_ifs (check_interface id ic df ka w)) = map if_id (w_ifs w) /\
    forall n, n <> id -> forall x, get_if n w = Some x -> at_if n x (check_interface id ic df ka w)).
  { assert (E : if_id i' = id) by (rewrite (ck_id _ _ _ _ _ Ck); exact Ii).
    split; [exact (good_ids c id i' _ _ E Gd)|]. intros n N x Gx. exact (good_other c id n i' _ _ x E N Gd Gx). }
  destruct Ids as (Ids & Oth). intros n. destruct (Z.eq_dec n id) as [->|N]; [rewrite Gj; exact L|].
  rewrite O by auto. rewrite H. destruct (get_if n w) as [x|] eqn:Q.
  - destruct (Oth n N x Q) as (y & Gy & Ey). rewrite Gy. f_equal. symmetry. now apply ishow_par.
  - rewrite (get_none n w _ Ids Q). reflexivity.
Qed.
Lemma checks_right : forall cf df ans ids P w, reach c w -> (forall id, conf_valid (cf id)) -> opts_ok df ->
  (forall id, In id ids -> known_if id w) -> iright P w ->
  exists P', iread (checks_lines cf df ans ids w) P = Some P' /\
    iright P' (fold_left (fun w id => check_interface id (cf id) df (ans id) w) ids w).
Proof.
  intros cf df ans. induction ids as [|a ids IH]; intros P w R V D K H; cbn [fold_left checks_lines]; [exists P; split; auto|].
  pose proof (K a (or_introl eq_refl)) as Ka. destruct (check_right a (cf a) df (ans a) P w R Ka (V a) D H) as (P1 & Rd & H1).
  destruct (get_known _ _ Ka) as (ia & Ga & _ & Ea).
  destruct (g_check c Hc a (cf a) df (ans a) ia w R Ga (V a) D) as (ia' & G1 & C1 & _).
  assert (Ia' : if_id ia' = a) by (rewrite (ck_id _ _ _ _ _ C1); exact Ea).
  destruct (IH P1 (check_interface a (cf a) df (ans a) w) (good_reach _ _ _ _ _ G1) V D) as (P2 & Rd2 & H2); auto.
  - intros id Hid. eapply known_ids; [exact (good_ids c _ _ _ _ Ia' G1)|]. apply K. now right.
  - exists P2. split; auto. rewrite iread_app, Rd. exact Rd2.
Qed.
End Lines.

(** P_Start.v: C80, the identity of a router: its router-id and its process id file. *)
From Coq Require Import String.
From Verif Require Import Base M_Util S_Util L_Util M_Filter S_Filter M_Config S_Config S_Dump S_Rule L_Rule P_Rule S_Line L_Line M_Ifup S_Ifup L_Line2 P_Line M_Start S_Start.
Close Scope string_scope.
Open Scope Z_scope.

(** ** Bytes *)
Lemma byte_sweep : forall a, byte_ok a ->
  (if negb (Z.land a 1 =? 0) || negb (Z.land a 2 =? 0) then negb (a mod 4 =? 0) else (a mod 4 =? 0) && (Z.lxor a 2 =? a + 2)) = true /\
  Z.land a (Z.lnot 3) = a - a mod 4.
Proof.
  assert (S : forallb (fun n => let a := Z.of_nat n in
    (if negb (Z.land a 1 =? 0) || negb (Z.land a 2 =? 0) then negb (a mod 4 =? 0) else (a mod 4 =? 0) && (Z.lxor a 2 =? a + 2)) &&
    (Z.land a (Z.lnot 3) =? a - a mod 4)) (seq 0 256) = true) by (vm_compute; reflexivity).
  rewrite forallb_forall in S. intros a (A1 & A2). specialize (S (Z.to_nat a)). rewrite Z2Nat.id in S by lia.
  assert (I : In (Z.to_nat a) (seq 0 256)) by (apply in_seq; lia). specialize (S I). apply andb_true_iff in S. destruct S as (S1 & S2).
  split; [exact S1|lia].
Qed.
Lemma mac14 : forall mac : list Z, length mac = 14%nat -> exists a b c d e f g i rest, mac = a :: b :: c :: d :: e :: f :: g :: i :: rest.
Proof. intros mac H. do 8 (destruct mac as [|? mac]; [discriminate|]). repeat eexists. Qed.
Lemma eui_hw : forall h n fam mac, hw_ok h -> h_addr h n = Some (fam, mac) -> forall id, if_eui64 h n = Some id <-> hw_id fam mac id.
Proof.
  intros h n fam mac Hw E id. destruct (Hw _ _ _ E) as (L & B). destruct (mac14 _ L) as (a & b & c & d & e & f & g & i & rest & ->).
  assert (Ba : byte_ok a) by (inversion B; auto). destruct (byte_sweep a Ba) as (Sw & _).
  unfold if_eui64. rewrite E. cbn [nth firstn skipn app repeat].
  split.
  - intros H. destruct ((fam =? 1) || (fam =? 774) || (fam =? 800) || (fam =? 6)) eqn:F1.
    + rewrite <- orb_assoc in H. destruct (beq [a; b; c; d; e; f] [0; 0; 0; 0; 0; 0]) eqn:Z0; [discriminate|]. cbn [orb] in H.
      destruct (negb (Z.land a 1 =? 0) || negb (Z.land a 2 =? 0)); [discriminate|]. injection H as <-.
      apply andb_true_iff in Sw. destruct Sw as (S1 & S2). replace (Z.lxor a 2) with (a + 2) by lia.
      constructor; [cbn; lia|unfold assigned; lia|]. intros Q. rewrite Q, beq_refl in Z0. discriminate.
    + destruct ((fam =? 27) || (fam =? 24) || (fam =? 32)) eqn:F2; [|discriminate].
      rewrite <- orb_assoc in H. destruct (beq [a; b; c; d; e; f; g; i] [0; 0; 0; 0; 0; 0; 0; 0]) eqn:Z0; [discriminate|]. cbn [orb] in H.
      destruct (negb (Z.land a 1 =? 0) || negb (Z.land a 2 =? 0)); [discriminate|]. injection H as <-.
      apply andb_true_iff in Sw. destruct Sw as (S1 & S2). replace (Z.lxor a 2) with (a + 2) by lia.
      constructor; [cbn; lia|unfold assigned; lia|]. intros Q. rewrite Q, beq_refl in Z0. discriminate.
  - intros H. inversion H as [? ? ? ? ? ? ? ? If As Ne|? ? ? ? ? ? ? ? ? ? If As Ne]; subst; unfold assigned in As.
    + replace ((fam =? 1) || (fam =? 774) || (fam =? 800) || (fam =? 6)) with true by (cbn in If; lia).
      rewrite (beq_no _ _ Ne). destruct (negb (Z.land a 1 =? 0)); cbn [orb] in *; [lia|]. destruct (negb (Z.land a 2 =? 0)); [lia|].
      apply andb_true_iff in Sw. destruct Sw as (S1 & S2). replace (Z.lxor a 2) with (a + 2) by lia. reflexivity.
    + replace ((fam =? 1) || (fam =? 774) || (fam =? 800) || (fam =? 6)) with false by (cbn in If; lia).
      replace ((fam =? 27) || (fam =? 24) || (fam =? 32)) with true by (cbn in If; lia).
      rewrite (beq_no _ _ Ne). destruct (negb (Z.land a 1 =? 0)); cbn [orb] in *; [lia|]. destruct (negb (Z.land a 2 =? 0)); [lia|].
      apply andb_true_iff in Sw. destruct Sw as (S1 & S2). replace (Z.lxor a 2) with (a + 2) by lia. reflexivity.
Qed.
Lemma provides_step : forall h i, hw_ok h ->
  match h_name h i with Some n => if_eui64 h n | None => None end = None <-> forall x, ~ provides h i x.
Proof.
  intros h i Hw. destruct (h_name h i) as [n|] eqn:N.
  - destruct (h_addr h n) as [(fam, mac)|] eqn:A.
    + pose proof (eui_hw h n fam mac Hw A) as Q. split.
      * intros E x (n' & fam' & mac' & E1 & E2 & E3). assert (n' = n) by congruence. subst n'.
        assert (fam' = fam /\ mac' = mac) as (-> & ->) by (split; congruence). apply Q in E3. congruence.
      * intros H. destruct (if_eui64 h n) as [id|] eqn:E; auto. exfalso. apply (H id). exists n, fam, mac. split; auto. split; auto. now apply Q.
    + split; [|unfold if_eui64; now rewrite A]. intros _ x (n' & fam' & mac' & E1 & E2 & E3). congruence.
  - split; auto. intros _ x (n' & fam' & mac' & E1 & E2 & E3). congruence.
Qed.
Lemma provides_some : forall h i id, hw_ok h ->
  match h_name h i with Some n => if_eui64 h n | None => None end = Some id <-> provides h i id.
Proof.
  intros h i id Hw. destruct (h_name h i) as [n|] eqn:N.
  - destruct (h_addr h n) as [(fam, mac)|] eqn:A.
    + rewrite (eui_hw h n fam mac Hw A). split.
      * intros H. exists n, fam, mac. auto.
      * intros (n' & fam' & mac' & E1 & E2 & E3). assert (n' = n) by congruence. subst n'.
        assert (fam' = fam /\ mac' = mac) as (-> & ->) by (split; congruence). exact E3.
    + split; [unfold if_eui64; now rewrite A|]. intros (n' & fam' & mac' & E1 & E2 & E3). congruence.
  - split; [discriminate|]. intros (n' & fam' & mac' & E1 & E2 & E3). congruence.
Qed.
Lemma loop_some : forall h id, hw_ok h -> forall n i, 1 <= i ->
  (id_loop h n i = Some id <-> exists j, i <= j < i + Z.of_nat n /\ provides h j id /\ forall k x, i <= k < j -> ~ provides h k x).
Proof.
  intros h id Hw. induction n as [|n IH]; intros i Hi.
  - cbn [id_loop]. split; [discriminate|]. intros (j & H & _). lia.
  - assert (St : id_loop h (S n) i = match match h_name h i with Some m => if_eui64 h m | None => None end with
      | Some eui => Some eui | None => id_loop h n (i + 1) end).
    { cbn [id_loop]. destruct (h_name h i) as [m|]; auto; try (destruct (if_eui64 h m); auto). }
    rewrite St. destruct (match h_name h i with Some m => if_eui64 h m | None => None end) as [eui|] eqn:E.
    + pose proof (proj1 (provides_some h i eui Hw) E) as P. split.
      * intros Q. injection Q as <-. exists i. split; [lia|]. split; auto. intros; lia.
      * intros (j & Hj & Pj & Mn). assert (j = i \/ i < j) as [->|Lt] by lia; [|exfalso; exact (Mn i eui ltac:(lia) P)].
        apply (provides_some h i id Hw) in Pj. congruence.
    + pose proof (proj1 (provides_step h i Hw) E) as P. rewrite (IH (i + 1)) by lia. split.
      * intros (j & Hj & Pj & Mn). exists j. split; [lia|]. split; auto. intros k x Hk. assert (k = i \/ i + 1 <= k) as [->|L] by lia; auto. apply Mn. lia.
      * intros (j & Hj & Pj & Mn). assert (j = i \/ i < j) as [->|Lt] by lia; [exfalso; exact (P _ Pj)|].
        exists j. split; [lia|]. split; auto. intros k x Hk. apply Mn. lia.
Qed.
Lemma hardware_loop : forall h id, hw_ok h -> (id_loop h 255 1 = Some id <-> hardware_id h id).
Proof.
  intros h id Hw. rewrite (loop_some h id Hw 255 1) by lia. unfold hardware_id. split; intros (j & H1 & H2 & H3); exists j; (split; [lia|auto]).
Qed.
Lemma hw_id_fun : forall h a b, hardware_id h a -> hardware_id h b -> hw_ok h -> a = b.
Proof. intros h a b A B Hw. apply (hardware_loop h _ Hw) in A. apply (hardware_loop h _ Hw) in B. congruence. Qed.
Lemma hw_id_shape : forall fam mac id, hw_id fam mac id -> exists a l, id = a :: l /\ a mod 4 = 2 /\ length l = 7%nat.
Proof.
  intros fam mac id H. destruct H as [fam a b c d e f rest If As Ne|fam a b c d e f g i rest If As Ne]; unfold assigned in As; eexists; eexists;
    (split; [reflexivity|]; split; [|reflexivity]); rewrite Z.add_mod, As by lia; reflexivity.
Qed.

(** ** C80: which router-id *)
(** The id of the configuration is used if there is one.  Otherwise, unless a random one is
    asked for, the id is the modified EUI-64 of the first interface (of numbers 1 to 255)
    with a hardware address assigned by a manufacturer.  Only if there is none the id is
    random, with the group and the local bit cleared. *)
Theorem C80_choice : forall conf rnd h u id, hw_ok h -> (forall r, u = Some r -> bytes_ok r) ->
  (start_id conf rnd h u = Some id <->
   conf = Some id \/
   (conf = None /\ rnd = false /\ hardware_id h id) \/
   (conf = None /\ (rnd = true \/ forall x, ~ hardware_id h x) /\
    exists r, u = Some r /\ id = (nth 0 r 0 - nth 0 r 0 mod 4) :: skipn 1 r)).
Proof.
  intros conf rnd h u id Hw D.
  assert (Rn : forall r, u = Some r -> Z.land (nth 0 r 0) (Z.lnot 3) = nth 0 r 0 - nth 0 r 0 mod 4).
  { intros r E. apply byte_sweep. pose proof (D r E) as B. destruct r as [|x r]; [cbn; unfold byte_ok; lia|]. inversion B. auto. }
  unfold start_id. destruct conf as [c|].
  - split.
    + intros E. injection E as <-. now left.
    + intros [E|[(E & _)|(E & _)]]; congruence.
  - destruct rnd.
    + split.
      * intros E. right. right. split; auto. split; auto. destruct u as [r|]; [|discriminate]. injection E as <-. exists r. split; auto. now rewrite (Rn r eq_refl).
      * intros [E|[(_ & E & _)|(_ & _ & r & -> & ->)]]; try discriminate. now rewrite (Rn r eq_refl).
    + destruct (id_loop h 255 1) as [x|] eqn:L.
      * pose proof (proj1 (hardware_loop h x Hw) L) as Hx. split.
        { intros E. injection E as <-. right. left. auto. }
        { intros [E|[(_ & _ & E)|(_ & [E|E] & _)]]; try discriminate; [|exfalso; exact (E _ Hx)]. f_equal. eapply hw_id_fun; eauto. }
      * assert (No : forall x, ~ hardware_id h x) by (intros x Hx; apply (hardware_loop h x Hw) in Hx; congruence). split.
        { intros E. right. right. split; auto. split; auto. destruct u as [r|]; [|discriminate]. injection E as <-. exists r. split; auto. now rewrite (Rn r eq_refl). }
        { intros [E|[(_ & _ & E)|(_ & _ & r & -> & ->)]]; try discriminate; [exfalso; exact (No _ E)|]. now rewrite (Rn r eq_refl). }
Qed.
Print Assumptions C80_choice.

(** Restarting the daemon does not change its id, whatever /dev/urandom gives, if the id is
    configured or comes from the hardware. *)
Theorem C80_stable : forall conf rnd h u u', hw_ok h -> conf <> None \/ (rnd = false /\ exists x, hardware_id h x) ->
  start_id conf rnd h u = start_id conf rnd h u' /\ start_id conf rnd h u <> None.
Proof.
  intros conf rnd h u u' Hw H. unfold start_id. destruct conf as [c|]; [split; [reflexivity|discriminate]|].
  destruct H as [H|(-> & x & Hx)]; [congruence|]. apply (hardware_loop h x Hw) in Hx. rewrite Hx. split; [reflexivity|discriminate].
Qed.
Print Assumptions C80_stable.

(** Ids that come from different addresses of 6 bytes differ, so do those of addresses of 8
    bytes; an id that comes from hardware differs from every random one; it is neither all
    zeroes nor all ones, which RFC 8966 reserves. *)
Theorem C80_distinct :
  (forall f f' m m' id, In f [1; 774; 800; 6] -> In f' [1; 774; 800; 6] -> hw_id f m id -> hw_id f' m' id -> firstn 6 m = firstn 6 m') /\
  (forall f f' m m' id, In f [27; 24; 32] -> In f' [27; 24; 32] -> hw_id f m id -> hw_id f' m' id -> firstn 8 m = firstn 8 m') /\
  (forall h h' rnd u u' id, hw_ok h -> hw_ok h' -> (forall r, u' = Some r -> bytes_ok r) ->
     start_id None false h u = Some id -> hardware_id h id -> (rnd = true \/ forall x, ~ hardware_id h' x) ->
     start_id None rnd h' u' <> Some id) /\
  (forall f m id, hw_id f m id -> id <> repeat 0 8 /\ id <> repeat 255 8).
Proof.
  split; [|split; [|split]].
  - intros f f' m m' id F F' A B. destruct A as [fam a b c d e g rest If As Ne|fam a b c d e g i k rest If As Ne].
    + inversion B as [? ? ? ? ? ? ? ? If' As' Ne'|? ? ? ? ? ? ? ? ? ? If' As' Ne']; subst.
      * cbn [firstn]. repeat (f_equal; try lia).
      * cbn in F', If'. lia.
    + cbn in F, If. lia.
  - intros f f' m m' id F F' A B. destruct A as [fam a b c d e g rest If As Ne|fam a b c d e g i k rest If As Ne].
    + cbn in F, If. lia.
    + inversion B as [? ? ? ? ? ? ? ? If' As' Ne'|? ? ? ? ? ? ? ? ? ? If' As' Ne']; subst.
      * cbn in F', If'. lia.
      * cbn [firstn]. repeat (f_equal; try lia).
  - intros h h' rnd u u' id Hw Hw' U E (i & _ & (n & fam & mac & _ & _ & Hi) & _) Rn Q.
    apply (proj1 (C80_choice _ _ _ _ _ Hw' U)) in Q. destruct (hw_id_shape _ _ _ Hi) as (a & l & -> & M & _).
    destruct Q as [Q|[(_ & -> & Q)|(_ & _ & r & -> & Q)]]; [discriminate| |].
    + destruct Rn as [Rn|Rn]; [discriminate|]. exact (Rn _ Q).
    + injection Q as -> _. clear - M. set (x := nth 0 r 0) in *. clearbody x.
      assert ((x - x mod 4) mod 4 = 0) by (rewrite Zminus_mod_idemp_r, Z.sub_diag; reflexivity). lia.
  - intros f m id H. destruct (hw_id_shape _ _ _ H) as (a & l & -> & M & _). split; intros Q; injection Q as -> _; discriminate M.
Qed.
Print Assumptions C80_distinct.

(** The options "router-id" and "random-id" of the files: the last of each counts, and a
    router-id overrides random-id wherever the two are. *)
Definition is_id (o : opt) (i : list Z) : Prop := o = OId i.
Definition is_random (o : opt) (b : bool) : Prop := o = OBool (str "random-id") b.
Definition islot (o : opt) : option (list Z) := match o with OId i => Some i | _ => None end.
Lemma conf_id_opts : forall l, conf_id (map opt_effect l) = lookup islot l.
Proof.
  intros l. unfold conf_id, lookup. generalize (@None (list Z)) as x. induction l as [|o l IH]; intros x; auto.
  cbn [map fold_left]. rewrite IH. destruct o; reflexivity.
Qed.
Definition rslot (o : opt) : option bool := match o with OBool n b => if beq n (str "random-id") then Some b else None | _ => None end.
Lemma conf_random_opts : forall l, conf_random (map opt_effect l) = match lookup rslot l with Some b => b | None => false end.
Proof.
  intros l. unfold conf_random, lookup.
  assert (G : forall x, fold_left (fun b e => match e with SetBool n v => if beq n (str "random-id") then v else b | _ => b end) (map opt_effect l)
      (match x with Some b => b | None => false end) = match fold_left (fun o x => match rslot x with Some v => Some v | None => o end) l x with Some b => b | None => false end).
  { induction l as [|o l IH]; intros x; auto. cbn [map fold_left]. rewrite <- IH. f_equal. destruct o; cbn [opt_effect rslot]; auto.
    destruct (beq name (str "random-id")); auto. }
  apply (G None).
Qed.
Theorem C80_file : forall e ls ts p, file_text e ls ts -> (forall x, In x (concat ts) -> 0 <= x) -> fresh (p_cfg p) -> g_log (p_cfg p) = [] ->
  Z.of_nat (named ls) <= 65535 ->
  exists p', from_file e (concat ts) p = (true, p') /\
  let log := g_log (p_cfg p') in
  (forall i, last_of is_id (opts ls) i -> forall h u, start_id (conf_id log) (conf_random log) h u = Some i) /\
  ((forall i, ~ last_of is_id (opts ls) i) -> last_of is_random (opts ls) true -> forall h u, hw_ok h -> (forall r, u = Some r -> bytes_ok r) ->
     forall id, start_id (conf_id log) (conf_random log) h u = Some id <-> exists r, u = Some r /\ id = (nth 0 r 0 - nth 0 r 0 mod 4) :: skipn 1 r) /\
  ((forall i, ~ last_of is_id (opts ls) i) -> ~ last_of is_random (opts ls) true -> forall h u id, hw_ok h -> hardware_id h id ->
     start_id (conf_id log) (conf_random log) h u = Some id).
Proof.
  intros e ls ts p T Nn Fr Lg Bn. destruct (C76_file e ls ts p T Nn Fr Bn) as (p' & P & L & _). exists p'. split; [exact P|]. cbv zeta.
  rewrite L, Lg, app_nil_l, conf_id_opts, conf_random_opts.
  assert (Li : forall i, last_of is_id (opts ls) i <-> lookup islot (opts ls) = Some i).
  { intros i. apply last_lookup. intros x v. unfold is_id. split; [intros ->; reflexivity|]. destruct x; try discriminate. intros Q. now injection Q as ->. }
  assert (Lr : forall b, last_of is_random (opts ls) b <-> lookup rslot (opts ls) = Some b).
  { intros b. apply last_lookup. intros x v. unfold is_random, rslot. split; [intros ->; now rewrite beq_refl|].
    destruct x; try discriminate. destruct (beq name (str "random-id")) eqn:B; [|discriminate]. apply beq_true in B. intros Q. injection Q as ->. now subst. }
  split; [|split].
  - intros i Hi h u. apply Li in Hi. rewrite Hi. reflexivity.
  - intros No Hr h u Hw Hu id. apply Lr in Hr. rewrite Hr. rewrite (C80_choice _ _ h u id Hw Hu).
    destruct (lookup _ (opts ls)) as [i|] eqn:E; [exfalso; apply (No i), Li; reflexivity|]. split.
    + intros [Q|[(_ & Q & _)|(_ & _ & Q)]]; try discriminate. exact Q.
    + intros Q. right. right. auto.
  - intros No Hr h u id Hw Hi. destruct (lookup _ (opts ls)) as [i|] eqn:E; [exfalso; apply (No i), Li; reflexivity|].
    assert (Rf : match lookup rslot (opts ls) with Some b => b | None => false end = false).
    { destruct (lookup rslot (opts ls)) as [[|]|] eqn:Q; auto. exfalso. apply Hr, Lr. reflexivity. }
    rewrite Rf. unfold start_id. apply (hardware_loop h id Hw) in Hi. now rewrite Hi.
Qed.
Print Assumptions C80_file.

(** The reserved ids are not avoided: the random one may be all zeroes, and the
    configuration may give either. *)
Theorem C80_reserved_refuted :
  (~ forall rnd h u id, hw_ok h -> start_id None rnd h u = Some id -> id <> repeat 0 8) /\
  (~ forall e t i p, (forall x, In x (concat [t]) -> 0 <= x) -> fresh (p_cfg p) -> file_text e [LOpt (OId i)] [t] -> fst (from_file e t p) = true -> i <> repeat 0 8 /\ i <> repeat 255 8).
Proof.
  split.
  - intros H. apply (H true (mkHw (fun _ => None) (fun _ => None)) (Some (repeat 0 8)) (repeat 0 8)).
    + intros n fam mac Q. discriminate Q.
    + reflexivity.
    + reflexivity.
  - intros H. assert (Tx : texts r_env [] [LOpt (OId (repeat 255 8))] [nl (str "router-id ff:ff:ff:ff:ff:ff:ff:ff")]).
    { split; [|exact Logic.I]. exists [str "router-id"; format_eui64 (repeat 255 8)]. split; [constructor; split; [reflexivity|repeat constructor; unfold byte_ok; lia]|apply spacedb_ok; vm_compute; reflexivity]. }
    destruct (H r_env (nl (str "router-id ff:ff:ff:ff:ff:ff:ff:ff")) (repeat 255 8) r_p) as (_ & Q).
    + intros x Hx. assert (F : forallb (fun x => 0 <=? x) (concat [nl (str "router-id ff:ff:ff:ff:ff:ff:ff:ff")]) = true) by (vm_compute; reflexivity).
      rewrite forallb_forall in F. specialize (F x Hx). lia.
    + unfold fresh; auto.
    + apply texts_file. exact Tx.
    + vm_compute. reflexivity.
    + now apply Q.
Qed.
Print Assumptions C80_reserved_refuted.
Definition x_hw : hw := mkHw (fun i => if i =? 1 then Some (str "lo") else if i =? 2 then Some (str "tun0") else if i =? 3 then Some (str "eth0") else None)
  (fun n => if beq n (str "lo") then Some (772, repeat 0 14) else if beq n (str "tun0") then Some (1, 2 :: 17 :: repeat 0 12)
            else if beq n (str "eth0") then Some (1, [0; 27; 33; 60; 77; 94; 0; 0; 0; 0; 0; 0; 0; 0]) else None).
Example C80_choice_ex : hw_ok x_hw /\ start_id None false x_hw None = Some [2; 27; 33; 255; 254; 60; 77; 94] /\
  start_id None true x_hw (Some [255; 1; 2; 3; 4; 5; 6; 7]) = Some [252; 1; 2; 3; 4; 5; 6; 7] /\
  hardware_id x_hw [2; 27; 33; 255; 254; 60; 77; 94].
Proof.
  assert (Hw : hw_ok x_hw).
  { intros n fam mac. unfold x_hw. cbn [h_addr]. destruct (beq n (str "lo")); [|destruct (beq n (str "tun0")); [|destruct (beq n (str "eth0")); [|discriminate]]];
      intros Q; injection Q as <- <-; (split; [reflexivity|repeat constructor; unfold byte_ok; lia]). }
  split; [exact Hw|]. split; [vm_compute; reflexivity|]. split; [vm_compute; reflexivity|]. apply hardware_loop; [exact Hw|vm_compute; reflexivity].
Qed.

(** ** C80: one daemon per process id file *)
Lemma fset_same : forall f n o, fset f n o n = o.
Proof. intros. unfold fset. now rewrite beq_refl. Qed.
Lemma fset_other : forall f n o m, m <> n -> fset f n o m = f m.
Proof. intros. unfold fset. now rewrite beq_no. Qed.
Lemma unlink_other : forall n f m, m <> n -> p_unlink n f m = f m.
Proof. intros n f m H. destruct n; auto. unfold p_unlink. now apply fset_other. Qed.
Definition held (s : psys) : Prop :=
  NoDup (map fst (p_run s)) /\
  forall pid path, In (pid, path) (p_run s) -> path <> [] ->
    p_files s path = Some (dec pid) /\ forall pid', In (pid', path) (p_run s) -> pid' = pid.
Lemma nd_filter : forall (l : list (Z * list Z)) g, NoDup (map fst l) -> NoDup (map fst (filter g l)).
Proof.
  induction l as [|x l IH]; intros g H; [constructor|]. inversion H as [|? ? N H']; subst. cbn [filter]. destruct (g x); cbn [map]; auto. constructor; auto.
  intros Q. apply N. apply in_map_iff in Q. destruct Q as (y & <- & Hy). apply filter_In in Hy. apply in_map. tauto.
Qed.
Lemma path_in : forall pid l path, NoDup (map fst l) -> In (pid, path) l -> pid_path pid l = Some path.
Proof.
  intros pid l path. unfold pid_path. induction l as [|(q, n) l IH]; intros N H; [destruct H|]. cbn [find fst]. destruct (q =? pid) eqn:E.
  - assert (q = pid) by lia. subst q. destruct H as [H|H]; [now injection H as ->|]. exfalso. inversion N as [|? ? N1 N2]; subst. apply N1. cbn. apply (in_map fst) in H. exact H.
  - destruct H as [H|H]; [injection H as -> _; lia|]. apply IH; auto. now inversion N.
Qed.
Lemma in_path : forall pid l path, pid_path pid l = Some path -> In (pid, path) l.
Proof.
  intros pid l path H. unfold pid_path in H. destruct (find (fun x => fst x =? pid) l) as [(q, n)|] eqn:E; [|discriminate]. injection H as <-.
  apply find_some in E. destruct E as (I & Q). cbn [fst snd] in *. assert (q = pid) by lia. now subst.
Qed.
Lemma held_step : forall s ev, held s -> hands_off s ev -> held (pstep s ev).
Proof.
  intros s ev (Nd & H) Ho. destruct ev as [pid path cre wr ok|pid|pid|path o]; cbn [pstep].
  - destruct (existsb (fun x => fst x =? pid) (p_run s)) eqn:Ex; [split; auto|].
    assert (Nw : ~ In pid (map fst (p_run s))).
    { intros Q. apply in_map_iff in Q. destruct Q as (x & E & Hx).
      assert (T : existsb (fun x => fst x =? pid) (p_run s) = true) by (apply existsb_exists; exists x; split; auto; lia). congruence. }
    unfold p_start. destruct path as [|c0 path0] eqn:Ep.
    + destruct ok; [|split; auto]. split; cbn [p_run p_files map fst]; [now constructor|].
      intros q n [E|I] Ne; [injection E as _ <-; congruence|]. destruct (H q n I Ne) as (A & B). split; auto. intros q' [E|I']; [congruence|auto].
    + assert (Np : path <> []) by (rewrite Ep; discriminate). rewrite <- Ep in Ho |- *. clear Ep c0 path0.
      destruct (p_files s path) as [x|] eqn:Ef; [split; auto|]. cbn [orb].
      assert (Fr : forall q, ~ In (q, path) (p_run s) \/ path = []).
      { intros q. destruct path as [|c0 path0]; [now right|left]. intros I. destruct (H q _ I ltac:(discriminate)) as (A & _). congruence. }
      assert (Keep : forall f, (forall n, n <> path -> f n = p_files s n) -> held (mkPs f (p_run s))).
      { intros f Hf. split; cbn [p_run p_files]; auto. intros q n I Ne. destruct (H q n I Ne) as (A & B). split; auto. rewrite Hf; auto.
        intros ->. destruct (Fr q) as [Q|Q]; auto. }
      destruct (negb cre); [split; auto|]. destruct (negb wr).
      * apply Keep; auto. intros n Hn. rewrite unlink_other, fset_other by auto. reflexivity.
      * destruct ok.
        { split; cbn [p_run p_files map fst]; [now constructor|]. intros q n [E|I] Ne.
          - injection E as <- <-. split; [now rewrite fset_same|]. intros q' [E|I']; [now injection E as <-|]. destruct (Fr q') as [Q|Q]; [now elim Q|congruence].
          - destruct (H q n I Ne) as (A & B). assert (n <> path) by (intros ->; destruct (Fr q) as [Q|Q]; auto).
            split; [rewrite !fset_other by auto; exact A|]. intros q' [E|I']; [injection E as <- <-; congruence|auto]. }
        { apply Keep; auto. intros n Hn. rewrite unlink_other, !fset_other by auto. reflexivity. }
  - destruct (pid_path pid (p_run s)) as [path|] eqn:Ep; [|split; auto]. apply in_path in Ep.
    split; cbn [p_run p_files]; [now apply nd_filter|]. intros q n I Ne. apply filter_In in I. destruct I as (I & Q). cbn [fst] in Q.
    destruct (H q n I Ne) as (A & B). split.
    + rewrite unlink_other; auto. intros ->. specialize (B pid Ep). lia.
    + intros q' I'. apply filter_In in I'. apply B. tauto.
  - split; cbn [p_run p_files]; [now apply nd_filter|]. intros q n I Ne. apply filter_In in I. destruct I as (I & Q).
    destruct (H q n I Ne) as (A & B). split; auto. intros q' I'. apply filter_In in I'. apply B. tauto.
  - split; cbn [p_run p_files]; auto. intros q n I Ne. destruct (H q n I Ne) as (A & B). split; auto. rewrite fset_other; auto.
    intros ->. exact (Ho q I).
Qed.
(** As long as nobody else touches the file of a running daemon: no two running daemons have
    the same file, and the file holds the number of its daemon.  When a daemon ends by itself
    its file is removed, and no other; a daemon that does not start because the file exists
    changes nothing. *)
Theorem C80_pid_file : forall f l, let s := pruns f l in hands_off_run (mkPs f []) l ->
  (forall pid path, In (pid, path) (p_run s) -> path <> [] ->
     p_files s path = Some (dec pid) /\ forall pid', In (pid', path) (p_run s) -> pid' = pid) /\
  (forall pid path, In (pid, path) (p_run s) -> path <> [] ->
     p_files (pstep s (PExit pid)) path = None /\ (forall n, n <> path -> p_files (pstep s (PExit pid)) n = p_files s n) /\
     forall p, ~ In (pid, p) (p_run (pstep s (PExit pid)))) /\
  (forall pid path x cre wr ok, path <> [] -> p_files s path = Some x -> pstep s (PStart pid path cre wr ok) = s) /\
  (forall pid path cre wr ok, (forall p, ~ In (pid, p) (p_run s)) -> path <> [] -> p_files s path = None ->
     (In (pid, path) (p_run (pstep s (PStart pid path cre wr ok))) <-> cre && wr && ok = true) /\
     (cre && wr && ok = false -> forall n, p_files (pstep s (PStart pid path cre wr ok)) n = p_files s n)).
Proof.
  intros f l s Ho.
  assert (Hs : held s).
  { unfold s, pruns. assert (H0 : held (mkPs f [])) by (split; [constructor|intros ? ? []]). revert H0 Ho. generalize (mkPs f []) as q.
    induction l as [|ev l IH]; intros q Hq Ho; [exact Hq|]. destruct Ho as (Ho1 & Ho2). cbn [fold_left]. apply IH; auto. now apply held_step. }
  clearbody s. destruct Hs as (Nd & H). split; [exact H|]. split; [|split].
  - intros pid path I Ne. cbn [pstep]. rewrite (path_in pid (p_run s) path Nd I). cbn [p_files p_run]. split; [|split].
    + destruct path as [|c0 q]; [congruence|]. unfold p_unlink. apply fset_same.
    + intros n Hn. now apply unlink_other.
    + intros p Q. apply filter_In in Q. destruct Q as (_ & Q). cbn [fst] in Q. lia.
  - intros pid path x cre wr ok Ne E. cbn [pstep]. destruct (existsb _ (p_run s)); auto. unfold p_start. destruct path as [|c0 q]; [congruence|]. now rewrite E.
  - intros pid path cre wr ok Nw Ne E. cbn [pstep].
    assert (Ex : existsb (fun x => fst x =? pid) (p_run s) = false).
    { destruct (existsb (fun x => fst x =? pid) (p_run s)) eqn:Q; auto. apply existsb_exists in Q. destruct Q as ((a, b) & Ia & Qa). cbn in Qa.
      assert (a = pid) by lia. subst. exfalso. exact (Nw b Ia). }
    rewrite Ex. unfold p_start. destruct path as [|c0 q] eqn:Ep; [congruence|]. rewrite <- Ep in *. rewrite E. cbn [orb].
    assert (U : forall g, (forall n, n <> path -> g n = p_files s n) -> forall n, p_unlink path g n = p_files s n).
    { intros g Hg n. destruct (beq n path) eqn:B.
      - apply beq_true in B. subst n. rewrite Ep at 1. unfold p_unlink. rewrite <- Ep, fset_same. now rewrite E.
      - assert (n <> path) by (intros ->; rewrite beq_refl in B; discriminate). rewrite unlink_other by auto. auto. }
    destruct cre; cbn [negb andb].
    + destruct wr; cbn [negb andb].
      * destruct ok; cbn [p_run p_files].
        { split; [split; auto; intros _; now left|discriminate]. }
        { split; [split; [intros Q; exfalso; exact (Nw _ Q)|discriminate]|]. intros _. apply U. intros n Hn. now rewrite !fset_other. }
      * cbn [p_run p_files]. split; [split; [intros Q; exfalso; exact (Nw _ Q)|discriminate]|]. intros _. apply U. intros n Hn. now rewrite !fset_other.
    + split; [split; [intros Q; exfalso; exact (Nw _ Q)|discriminate]|]. auto.
Qed.
Print Assumptions C80_pid_file.
Definition x_evs : list pev :=
  [PStart 41 (str "/run/b") true true true; PStart 42 (str "/run/b") true true true; PStart 43 (str "/run/c") true true true; PExit 41;
   PStart 44 (str "/run/b") true true true; PKill 43; PStart 45 (str "/run/c") true true true].
Example C80_pid_ex : hands_off_run (mkPs (fun _ => None) []) x_evs /\ let s := pruns (fun _ => None) x_evs in
  p_run s = [(44, str "/run/b")] /\ p_files s (str "/run/b") = Some (str "44") /\ p_files s (str "/run/c") = Some (str "43").
Proof. split; [cbn; tauto|]. vm_compute. repeat split. Qed.
(** If the file of a running daemon is removed, a second one starts, and the end of the
    first one removes the file of the second. *)
Theorem C80_removed_refuted : ~ forall f l pid path, let s := pruns f l in In (pid, path) (p_run s) -> path <> [] -> p_files s path = Some (dec pid).
Proof.
  intros H. specialize (H (fun _ => None) [PStart 41 [98] true true true; PFile [98] None; PStart 42 [98] true true true; PExit 41] 42 [98]).
  specialize (H ltac:(vm_compute; auto) ltac:(discriminate)). discriminate H.
Qed.
Print Assumptions C80_removed_refuted.
Definition x_ids : list line := [LOpt (OId [2; 0; 0; 0; 0; 0; 0; 9]); LOpt (OBool (str "random-id") true)].
Definition x_idt : list (list Z) := [nl (str "router-id 02:00:00:00:00:00:00:09"); nl (str "random-id yes # not used")].
Example C80_file_ex : file_text r_env x_ids x_idt /\ last_of is_id (opts x_ids) [2; 0; 0; 0; 0; 0; 0; 9] /\
  let '(ok, p') := from_file r_env (concat x_idt) r_p in
  ok = true /\ start_id (conf_id (g_log (p_cfg p'))) (conf_random (g_log (p_cfg p'))) x_hw None = Some [2; 0; 0; 0; 0; 0; 0; 9].
Proof.
  split; [|split].
  - apply texts_file. split; [|split; [|exact Logic.I]].
    + exists [str "router-id"; format_eui64 [2; 0; 0; 0; 0; 0; 0; 9]]. split; [constructor; split; [reflexivity|repeat constructor; unfold byte_ok; lia]|].
      apply spacedb_ok. vm_compute. reflexivity.
    + exists [str "random-id"; str "yes"]. split; [|apply spacedb_ok; vm_compute; reflexivity].
      apply (ot_bool r_env (str "random-id") (str "yes") 2); [cbn; tauto|cbn; tauto|lia].
  - exists [], (OId [2; 0; 0; 0; 0; 0; 0; 9]), [OBool (str "random-id") true]. split; [reflexivity|]. split; [reflexivity|].
    intros y w [<-|[]] Q. discriminate Q.
  - vm_compute. repeat split.
Qed.

(** P_Ifreg.v: C77: interfaces can be added, changed and removed at run time. *)
From Coq Require Import String.
From Verif Require Import Base M_Config M_Ifreg S_Ifreg L_Line2 L_Ifreg.
From Coq Require Import Lia.
Close Scope string_scope.
Open Scope Z_scope.

(** After any history of lines, start and removals: no configuration was used after it was
    freed or freed twice; there is at most one interface of each name; there are exactly the
    interfaces that were added and not removed since, which is what control clients were told;
    removing one succeeds exactly if it is there. *)
Theorem C77_interfaces : forall h, history h ->
  let r := rrun (rev h) reg0 in
  r_bad r = false /\ NoDup (map fst (r_ifs r)) /\
  (forall n, In n (map fst (r_ifs r)) <-> stands n h <> None) /\
  known (r_notes r) [] = map fst (r_ifs r) /\
  (forall n, fst (do_flush n r) = true <-> stands n h <> None).
Proof.
  intros h H r. pose proof (inv_run h H) as I. fold r in I. split; [apply (v_bad _ _ I)|]. split; [apply (v_ifnd _ _ I)|]. split; [|split].
  - intro n. split; [|apply (v_all _ _ I)]. intros K E. apply in_map_iff in K. destruct K as ((k & cp) & K1 & K2). cbn in K1. subst k.
    pose proof (v_ifs _ _ I n cp K2) as V. rewrite E in V. exact V.
  - apply (v_notes _ _ I).
  - intro n. apply (inv_flush h r n I).
Qed.
Print Assumptions C77_interfaces.

(** Each interface reads the parameters and the key its lines give: those of the
    configuration, then of the default lines; the default lines; those given at run time. *)
Theorem C77_parameters : forall h n, history h ->
  let r := rrun (rev h) reg0 in
  match stands n h with
  | None => read_if n r = RdNone
  | Some x =>
      (exists c, read_if n r = RdConf c /\
         (forall i, nth i (ic_vals c) 0 = value_in i (lines_for x n h)) /\ ic_key c = key_in (lines_for x n h)) \/
      (read_if n r = RdZero /\ lines_for x n h = [])
  end.
Proof.
  intros h n H r. pose proof (inv_run h H) as I. fold r in I. unfold read_if. pose proof (find_name n (r_ifs r) (v_ifnd _ _ I)) as F.
  destruct (find (fun x => beq (fst x) n) (r_ifs r)) as [[k cp]|].
  - destruct F as (-> & Hn). pose proof (v_ifs _ _ I n cp Hn) as V. pose proof (v_def _ _ I) as Vd.
    destruct (stands n h) as [[|[]|]|]; cbn [lines_for].
    + destruct V as (p & c & -> & V2 & (V3 & V4 & V5) & _). left. exists c. rewrite V2. auto.
    + destruct V as (V1 & V2). destruct cp as [d|]; [|congruence]. rewrite <- V1 in Vd. destruct Vd as (c & D1 & (D2 & D3 & D4) & _).
      left. exists c. rewrite D1. auto.
    + subst cp. right. auto.
    + destruct V as (p & c & -> & V2 & V3 & V4). left. exists c. rewrite V3. destruct (v_list _ _ I p V2) as (x & X1 & (X2 & X3 & X4) & _).
      assert (x = c) by congruence. subst x. rewrite V4 in X3, X4. auto.
    + destruct V.
  - destruct (stands n h) eqn:E; [|reflexivity]. exfalso. apply F. apply (v_all _ _ I). congruence.
Qed.
Print Assumptions C77_parameters.

(** For an interface that neither the configuration nor the command line names, the lines
    that count are those since it was last removed. *)
Fixpoint since (n : list Z) (h : list rop) : list ifconf :=
  match h with
  | [] => []
  | RIf c :: h' => if beq (ic_name c) n then c :: since n h' else since n h'
  | RFlush m :: h' => if beq m n then [] else since n h'
  | _ :: h' => since n h'
  end.
Definition only_lines (n : list Z) (h : list rop) : Prop :=
  (forall a b, h = a ++ RStart :: b -> existsb (is_if n) b = false) /\ ~ In (RArg n) h.
Lemma run_time : forall h n, history h -> started h = true -> only_lines n h ->
  kept n h = since n h /\ ((stands n h = None /\ since n h = []) \/ stands n h = Some FromLine).
Proof.
  induction h as [|o h IH]; intros n H St (O1 & O2); [discriminate St|].
  destruct (history_tail o h H) as (Ht & Fo & Hs & Ha & Hn).
  assert (O : started h = true -> only_lines n h).
  { intros _. split; [|intro K; apply O2; right; exact K]. intros a b E. apply (O1 (o :: a) b). rewrite E. reflexivity. }
  assert (Cases : o = RStart \/ started h = true).
  { unfold started in St. cbn [existsb] in St. apply orb_true_iff in St. destruct St as [St|St]; [left|right; exact St].
    destruct o; try discriminate St. reflexivity. }
  destruct Cases as [->|S1].
  - pose proof (O1 [] h eq_refl) as E. specialize (Hs eq_refl). cbn [stands since kept]. rewrite (before_stands n h Hs), E.
    assert (Z : since n h = []).
    { clear - E Hs. induction Hs as [|o h Ho F IHh]; cbn [since]; auto. cbn [existsb] in E. apply orb_false_iff in E. destruct E as (E1 & E2).
      destruct o; cbn in Ho, E1; try tauto; auto.
      - rewrite E1. auto.
      - destruct (beq name n); auto. }
    auto.
  - specialize (IH n Ht S1 (O S1)). destruct IH as (I0 & IH). destruct o.
    + cbn [stands since kept]. rewrite S1, andb_true_r. destruct IH as [(I1 & I2)|I1]; rewrite I1.
      * destruct (beq (ic_name c) n); [|auto]. split; [congruence|]. right. reflexivity.
      * split; [destruct (beq (ic_name c) n); congruence|]. right. reflexivity.
    + cbn [stands since kept]. destruct IH as [(I1 & I2)|I1]; rewrite I1; auto.
    + exfalso. apply (Hn S1). reflexivity.
    + cbn [stands since kept]. destruct IH as [(I1 & I2)|I1]; rewrite I1; auto.
      destruct (beq name n) eqn:E; [|auto]. apply beq_true in E. subst name. exfalso. apply O2. left. reflexivity.
    + rewrite stands_flush. cbn [since kept]. destruct (beq name n).
      * destruct IH as [(I1 & I2)|I1]; rewrite I1; [split; [congruence|auto]|auto].
      * destruct IH as [(I1 & I2)|I1]; rewrite I1; auto.
Qed.
Theorem C77_run_time : forall h n, history h -> started h = true -> only_lines n h ->
  (since n h = [] /\ stands n h = None) \/ (stands n h = Some FromLine /\ lines_for FromLine n h = since n h).
Proof.
  intros h n H St O. destruct (run_time h n H St O) as (A & [(B & C)|B]); [left; auto|right; auto].
Qed.
Print Assumptions C77_run_time.

(** The memory used is bounded by the names that lines mention, not by the number of lines. *)
Theorem C77_memory : forall h, history h ->
  (length (r_heap (rrun (rev h) reg0)) <= 1 + 2 * length (nodup (list_eq_dec Z.eq_dec) (if_names h)))%nat.
Proof. intros h H. exact (inv_memory h _ (inv_run h H)). Qed.
Print Assumptions C77_memory.

(** Before the start, the objects are what the parser's tables (M_Config.v, used in C75) hold. *)
Definition tables (o : rop) (x : list ifconf * option ifconf) : list ifconf * option ifconf :=
  match o with
  | RIf c => (fst (add_ifconf c (fst x)), snd x)
  | RDef c => (fst x, Some (match snd x with None => c | Some d => merge_ifconf d c d end))
  | _ => x
  end.
Definition held (r : reg) (x : list ifconf * option ifconf) : Prop :=
  map (deref (r_heap r)) (r_list r) = map Some (fst x) /\ oderef (r_heap r) (r_def r) = snd x.
Lemma walk_table : forall h c (t : Z -> option ifconf) l m, map (deref h) l = map Some m -> NoDup l ->
  (forall q, In q l -> t q = deref h q) ->
  match walk h (ic_name c) l with
  | (Some q, _) => forall cq, deref h q = Some cq ->
      map (fun x => if x =? q then Some (merge_ifconf cq c cq) else t x) l = map Some (fst (add_ifconf c m))
  | (None, _) => map t l ++ [Some c] = map Some (fst (add_ifconf c m))
  end.
Proof.
  induction l as [|q l IH]; intros m E N T; destruct m as [|x m]; try discriminate E; cbn [walk add_ifconf].
  - reflexivity.
  - cbn [map] in E. injection E as E1 E2. rewrite E1. inversion N as [|? ? Nq Nl]; subst. destruct (beq (ic_name x) (ic_name c)) eqn:B.
    + intros cq Hq. assert (cq = x) by congruence. subst cq. cbn [map fst]. rewrite Z.eqb_refl. f_equal.
      rewrite <- E2. apply map_ext_in. intros a Ha. destruct (Z.eqb_spec a q); [subst a; contradiction|]. apply T. right. exact Ha.
    + specialize (IH m E2 Nl (fun a Ha => T a (or_intror Ha))). pose proof (T q (or_introl eq_refl)) as Tq.
      destruct (walk h (ic_name c) l) as [[p|] b] eqn:W.
      * intros cq Hq. specialize (IH cq Hq). destruct (add_ifconf c m) as [m' b']. cbn [fst map] in *. rewrite IH. f_equal.
        destruct (Z.eqb_spec q p) as [Ep|Np]; [|congruence]. subst p. exfalso.
        assert (Q : In q l).
        { clear - W. revert W. induction l as [|a l IHl]; cbn [walk]; intro W; [discriminate W|].
          destruct (deref h a); [|discriminate W]. destruct (beq (ic_name i) (ic_name c)); [left; congruence|right; auto]. }
        contradiction.
      * destruct (add_ifconf c m) as [m' b']. cbn [fst map app] in *. rewrite IH. f_equal. congruence.
Qed.
Theorem C77_same_tables : forall h, Forall full h -> Forall before_start h ->
  held (rrun (rev h) reg0) (fold_right tables ([], None) h).
Proof.
  intros h Ff Fb. induction Fb as [|o h Ho Fb IH]; [split; reflexivity|]. inversion Ff as [|? ? Fo Fh]; subst. specialize (IH Fh).
  assert (I : Inv h (rrun (rev h) reg0)) by (apply inv_run; split; [exact Fh|left; exact Fb]).
  cbn [rev]. rewrite rrun_app. cbn [rrun fold_right]. set (r := rrun (rev h) reg0) in *. set (x := fold_right tables ([], None) h) in *.
  clearbody x. destruct IH as (H1 & H2). pose proof (fresh_none _ _ I) as Fr.
  assert (D : forall c q, deref (r_heap r ++ [(r_next r, c)]) q = if q =? r_next r then Some c else deref (r_heap r) q)
    by (intros; apply deref_snoc; exact Fr).
  assert (Nf : r_final r = false) by (rewrite (v_final _ _ I); apply before_started; exact Fb).
  assert (Nl : ~ In (r_next r) (r_list r)) by (intro K; destruct (v_list _ _ I _ K) as (y & K2 & _); congruence).
  destruct o; cbn in Ho; try tauto; cbn [rstep tables].
  - unfold held. cbn [fst snd]. unfold do_interface, alloc, add_conf. cbn [r_heap r_list r_def]. rewrite D, Z.eqb_refl.
    assert (Dl : forall q, In q (r_list r) -> deref (r_heap r ++ [(r_next r, c)]) q = deref (r_heap r) q).
    { intros q Hq. rewrite D. destruct (Z.eqb_spec q (r_next r)); [subst q; contradiction|reflexivity]. }
    pose proof (walk_table (r_heap r ++ [(r_next r, c)]) c (deref (r_heap r)) (r_list r) (fst x)) as W.
    assert (W1 : map (deref (r_heap r ++ [(r_next r, c)])) (r_list r) = map Some (fst x)).
    { rewrite <- H1. apply map_ext_in. exact Dl. }
    specialize (W W1 (v_lnd _ _ I) (fun q Hq => eq_sym (Dl q Hq))).
    pose proof (walk_spec (r_heap r ++ [(r_next r, c)]) (ic_name c) (r_list r)) as Wk.
    assert (Lv : forall q, In q (r_list r) -> exists y, deref (r_heap r ++ [(r_next r, c)]) q = Some y).
    { intros q Hq. rewrite Dl by exact Hq. destruct (v_list _ _ I q Hq) as (y & X & _). eauto. }
    specialize (Wk Lv). destruct (walk _ (ic_name c) (r_list r)) as [[q|] b].
    + destruct Wk as (Eb & Hq & cq & Dq & Nq). subst b. specialize (W cq Dq). rewrite Dl in Dq by exact Hq.
      destruct (merge_free h r c q cq I Dq) as (h' & E & Dh & Nk). unfold set_bad. cbn [r_heap r_next r_list r_def r_ifs r_final r_notes r_bad].
      rewrite orb_false_r. unfold alloc in E. cbn [snd] in E. rewrite E. cbn [r_final]. rewrite Nf. cbn [r_heap r_list r_def]. split.
      * rewrite <- W. apply map_ext. exact Dh.
      * rewrite <- H2. unfold oderef. pose proof (v_def _ _ I) as Vd. destruct (r_def r) as [d|]; [|reflexivity]. rewrite Dh.
        destruct (Z.eqb_spec d q); [|reflexivity]. subst d. destruct Vd as (_ & _ & _ & V & _). contradiction.
    + destruct Wk as (Eb & Hno). subst b. unfold set_bad, set_list. cbn [r_heap r_next r_list r_def r_ifs r_final r_notes r_bad]. rewrite Nf.
      cbn [r_heap r_list r_def]. split.
      * rewrite map_app. cbn [map]. rewrite D, Z.eqb_refl, <- W. f_equal. apply map_ext_in. exact Dl.
      * rewrite <- H2. unfold oderef. pose proof (v_def _ _ I) as Vd. destruct (r_def r) as [d|]; [|reflexivity]. rewrite D.
        destruct (Z.eqb_spec d (r_next r)); [|reflexivity]. subst d. destruct Vd as (y & V & _). congruence.
  - unfold held. cbn [fst snd]. unfold do_default. destruct (alloc c r) as [p r1] eqn:Al.
    assert (E1 : r1 = snd (alloc c r)) by (rewrite Al; reflexivity). assert (Ep : p = r_next r) by (unfold alloc in Al; congruence). subst p.
    assert (Ed : r_def r1 = r_def r) by (rewrite E1; reflexivity). rewrite Ed. pose proof (v_def _ _ I) as Vd. destruct (r_def r) as [d|] eqn:Rd.
    + destruct Vd as (cd & Hd & _ & Nd & _). rewrite E1. destruct (merge_free h r c d cd I Hd) as (h' & E & Dh & Nk). rewrite E.
      cbn [r_heap r_list r_def]. rewrite Rd. cbn [oderef] in *. rewrite Dh, Z.eqb_refl, <- H2, Hd. split; [|reflexivity].
      rewrite <- H1. apply map_ext_in. intros q Hq. rewrite Dh. destruct (Z.eqb_spec q d); [subst q; contradiction|reflexivity].
    + rewrite E1. unfold alloc, set_def. cbn [snd r_heap r_list r_def oderef] in *. rewrite D, Z.eqb_refl, <- H2. split; [|reflexivity].
      rewrite <- H1. apply map_ext_in. intros q Hq. rewrite D. destruct (Z.eqb_spec q (r_next r)); [subst q; contradiction|reflexivity].
  - assert (N0 : take_if name (r_ifs r) = None).
    { pose proof (take_spec name (r_ifs r) (v_ifnd _ _ I)) as Tk. destruct (take_if name (r_ifs r)) as [[cp m]|]; [|reflexivity].
      destruct Tk as (T1 & _). pose proof (v_ifs _ _ I _ _ T1) as V. rewrite (before_stands name h Fb) in V. destruct V. }
    unfold do_flush. rewrite N0. cbn [snd]. split; assumption.
Qed.
Print Assumptions C77_same_tables.

(** ** A daemon at work: eth0 in the configuration, with a default line; tun0 on the command
    line; eth1 added, changed, removed and added again *)
Definition eth0 := str "eth0". Definition eth1 := str "eth1". Definition tun0 := str "tun0".
Definition setting (n : list Z) (i : nat) (v : Z) : ifconf := set_val i v (ic0 n).
Definition day : list rop :=   (* oldest first *)
  [RIf (setting eth0 2 500); RDef (setting [] 0 1000); RIf (setting eth0 1 8000); RStart; RArg tun0;
   RIf (setting eth1 2 96); RIf (setting eth1 2 200); RFlush eth1; RIf (setting eth1 1 5000); RDef (setting [] 2 300)].
Lemma day_history : history (rev day).
Proof.
  split.
  - unfold day. cbn [rev app]. repeat (constructor; [try reflexivity; exact Logic.I|]). constructor.
  - right. exists (rev [RArg tun0; RIf (setting eth1 2 96); RIf (setting eth1 2 200); RFlush eth1; RIf (setting eth1 1 5000); RDef (setting [] 2 300)]),
      (rev [RIf (setting eth0 2 500); RDef (setting [] 0 1000); RIf (setting eth0 1 8000)]).
    split; [reflexivity|]. cbn [rev app]. split; repeat (constructor; [first [exact Logic.I|discriminate]|]); constructor.
Qed.
Example C77_ex : let r := rrun day reg0 in
  map fst (r_ifs r) = [eth0; tun0; eth1] /\
  match read_if eth0 r, read_if tun0 r, read_if eth1 r with
  | RdConf a, RdConf b, RdConf c =>
      firstn 3 (ic_vals a) = [1000; 8000; 500] /\ firstn 3 (ic_vals b) = [1000; 0; 300] /\ firstn 3 (ic_vals c) = [0; 5000; 0]
  | _, _, _ => False
  end /\ stands eth1 (rev day) = Some FromLine /\ stands tun0 (rev day) = Some (FromArgs true) /\ stands eth0 (rev day) = Some FromFile.
Proof. vm_compute. repeat split; reflexivity. Qed.
Example C77_ex_only : only_lines eth1 (rev day) /\ map (fun c => firstn 3 (ic_vals c)) (since eth1 (rev day)) = [[0; 5000; 0]].
Proof.
  split; [|reflexivity]. split.
  - intros a b E. unfold day in E. cbn [rev app] in E.
    do 6 (destruct a as [|? a]; [discriminate E|cbn [app] in E; injection E as _ E]).
    destruct a as [|? a]; [cbn [app] in E; injection E as <-; reflexivity|].
    cbn [app] in E. injection E as _ E. do 3 (destruct a as [|? a]; [discriminate E|cbn [app] in E; injection E as _ E]).
    destruct a; discriminate E.
  - intro K. unfold day in K. cbn [rev app] in K. repeat (destruct K as [K|K]; [discriminate K|]). destruct K.
Qed.

(** ** What does not hold *)
(** A line for an interface of the configuration is ignored while the interface is there. *)
Definition ignored : list rop := [RIf (setting eth0 2 500); RStart].
Theorem C77_ignored_refuted :
  ~ (forall h c i, history (RIf c :: h) -> started h = true -> nth i (ic_vals c) 0 <> 0 ->
     exists x, read_if (ic_name c) (rrun (rev (RIf c :: h)) reg0) = RdConf x /\ nth i (ic_vals x) 0 = nth i (ic_vals c) 0).
Proof.
  intro H. specialize (H (rev ignored) (setting eth0 2 96) 2%nat).
  assert (Hh : history (RIf (setting eth0 2 96) :: rev ignored)).
  { split.
    - repeat (constructor; [try reflexivity; exact Logic.I|]). constructor.
    - right. exists [RIf (setting eth0 2 96)], [RIf (setting eth0 2 500)]. split; [reflexivity|].
      split; repeat (constructor; [first [exact Logic.I|discriminate]|]); constructor. }
  destruct (H Hh eq_refl ltac:(discriminate)) as (x & H1 & H2). vm_compute in H1. injection H1 as <-. vm_compute in H2. discriminate H2.
Qed.
Print Assumptions C77_ignored_refuted.
(** It is remembered, though: when the interface is removed and added again, the old line
    counts again. *)
Definition again : list rop := ignored ++ [RIf (setting eth0 2 96); RFlush eth0; RIf (setting eth0 1 8000)].
Theorem C77_again_refuted :
  ~ (forall h n i x, history h -> stands n h = Some FromLine -> read_if n (rrun (rev h) reg0) = RdConf x ->
     nth i (ic_vals x) 0 = value_in i (since n h)).
Proof.
  intro H. specialize (H (rev again) eth0 2%nat).
  assert (Hh : history (rev again)).
  { split.
    - unfold again, ignored. cbn [rev app]. repeat (constructor; [try reflexivity; exact Logic.I|]). constructor.
    - right. exists (rev [RIf (setting eth0 2 96); RFlush eth0; RIf (setting eth0 1 8000)]), [RIf (setting eth0 2 500)]. split; [reflexivity|].
      cbn [rev app]. split; repeat (constructor; [first [exact Logic.I|discriminate]|]); constructor. }
  specialize (H _ Hh eq_refl eq_refl). vm_compute in H. discriminate H.
Qed.
Print Assumptions C77_again_refuted.
(** Removing an interface of the configuration leaves its configuration allocated, out of reach. *)
Theorem C77_leak_refuted :
  ~ (forall h p c, history h -> let r := rrun (rev h) reg0 in deref (r_heap r) p = Some c ->
     r_def r = Some p \/ In p (r_list r) \/ In (Some p) (map snd (r_ifs r))).
Proof.
  intro H. specialize (H (rev (ignored ++ [RFlush eth0])) 1 (setting eth0 2 500)).
  assert (Hh : history (rev (ignored ++ [RFlush eth0]))).
  { split.
    - unfold ignored. cbn [rev app]. repeat (constructor; [try reflexivity; exact Logic.I|]). constructor.
    - right. exists [RFlush eth0], [RIf (setting eth0 2 500)]. split; [reflexivity|].
      split; repeat (constructor; [first [exact Logic.I|discriminate]|]); constructor. }
  destruct (H Hh eq_refl) as [K|[K|K]]; vm_compute in K; [discriminate K|destruct K|destruct K].
Qed.
Print Assumptions C77_leak_refuted.

(** L_Nlink4.v: datagrams of kernel messages. *)
From Verif Require Import Base M_Util M_Source M_Filter M_Types M_Neigh M_State M_Table M_Msg M_Route M_Xroute M_Nlink S_Nlink L_Nlink L_Nlink3.

Definition skipped (p : nlp) (seq pid : Z) : bool :=
  match np_ignore p with Some x => pid =? x | None => false end || (np_answer p && (negb (pid =? np_pid p) || negb (seq =? np_seq p))).
Definition heard1 (p : nlp) (m : kmessage) (l : list notif) : Prop :=
  let '(_, seq, pid, x) := m in if skipped p seq pid then l = [] else told (np_tables p) x l.
Lemma nl_step b p pre m post done : kmessage_ok m -> b = pre ++ kbytes m ++ post ->
  exists l, heard1 p m l /\ forall fuel, nl_loop b p (S fuel) (zl pre) (zl (kbytes m ++ post)) done =
    match nl_loop b p fuel (zl (pre ++ kbytes m)) (zl post) (done || negb (np_answer p)) with Some (e, l') => Some (e, l ++ l') | None => None end.
Proof.
  intros O ->. destruct m as (((fl, seq), pid), x). cbn [kbytes kmessage_ok] in *. destruct O as (I & M).
  destruct (msg_hdr pre _ post M) as (H1 & H2 & H3 & H4). pose proof (msg_len (to_msg fl seq pid x)) as L. pose proof (msg_aligned _ M) as A.
  assert (S1 : m_seq (to_msg fl seq pid x) = seq) by (destruct x; reflexivity). assert (S2 : m_pid (to_msg fl seq pid x) = pid) by (destruct x; reflexivity). rewrite S1 in H3. rewrite S2 in H4.
  set (B := msg_bytes (to_msg fl seq pid x)) in *. assert (G : 16 <= zl B) by lia. cbn [heard1].
  assert (E : forall l, (forall fuel, let dn := done || negb (np_answer p) in
      let next l0 := match nl_loop (pre ++ B ++ post) p fuel (zl pre + align4 (zl B)) (zl (B ++ post) - align4 (zl B)) dn with Some (e, l') => Some (e, l0 ++ l') | None => None end in
      nl_loop (pre ++ B ++ post) p (S fuel) (zl pre) (zl (B ++ post)) done = next l) ->
      forall fuel, nl_loop (pre ++ B ++ post) p (S fuel) (zl pre) (zl (B ++ post)) done =
        match nl_loop (pre ++ B ++ post) p fuel (zl (pre ++ B)) (zl post) (done || negb (np_answer p)) with Some (e, l') => Some (e, l ++ l') | None => None end).
  { intros l H fuel. rewrite H. cbv zeta. rewrite A. rewrite !app_length. replace (zl pre + zl B) with (Z.of_nat (length pre + length B)) by lia.
    replace (Z.of_nat (length B + length post) - zl B) with (zl post) by lia. reflexivity. }
  assert (D : exists l, (if skipped p seq pid then l = [] else told (np_tables p) x l) /\ forall fuel, let dn := done || negb (np_answer p) in
      let next l0 := match nl_loop (pre ++ B ++ post) p fuel (zl pre + align4 (zl B)) (zl (B ++ post) - align4 (zl B)) dn with Some (e, l') => Some (e, l0 ++ l') | None => None end in
      nl_loop (pre ++ B ++ post) p (S fuel) (zl pre) (zl (B ++ post)) done = next l).
  2:{ destruct D as (l & D1 & D2). exists l. split; [exact D1|]. apply E. exact D2. }
  clear E. unfold skipped.
  assert (Lt : (zl (B ++ post) <? 16) = false) by (rewrite app_length; lia).
  assert (Ln : (zl B <? 16) || (zl B >? zl (B ++ post)) = false) by (rewrite app_length; lia).
  destruct (match np_ignore p with Some x0 => pid =? x0 | None => false end) eqn:Ig; cbn [orb].
  { exists []. split; [reflexivity|]. intros fuel. cbv zeta. cbn [nl_loop]. rewrite Lt, H1, H2, H3, H4, Ln, Ig. reflexivity. }
  destruct (np_answer p && _) eqn:An.
  { exists []. split; [reflexivity|]. intros fuel. cbv zeta. cbn [nl_loop]. rewrite Lt, H1, H2, H3, H4, Ln, Ig, An. reflexivity. }
  destruct x as [new family dst_len src_len tos table proto scope rtype flags l|new family plen flags scope ifindex l|new body l].
  - destruct (filter_route pre post (np_tables p) fl seq pid _ _ _ _ _ _ _ _ _ _ _ M I) as (o & F & T). fold B in F.
    exists (match o with Some r => [NRoute new r] | None => [] end). split; [exact T|]. intros fuel. cbv zeta. cbn [nl_loop]. rewrite Lt, H1, H2, H3, H4, Ln, Ig, An.
    rewrite F. cbn [to_msg m_type]. destruct new, o; reflexivity.
  - destruct (filter_addr pre post (np_tables p) fl seq pid _ _ _ _ _ _ _ M I) as (F & T). fold B in F.
    eexists. split; [exact T|]. intros fuel. cbv zeta. cbn [nl_loop]. rewrite Lt, H1, H2, H3, H4, Ln, Ig, An.
    rewrite F. cbn [to_msg m_type]. destruct new; reflexivity.
  - exists [NLink new]. split; [constructor|]. intros fuel. cbv zeta. cbn [nl_loop]. rewrite Lt, H1, H2, H3, H4, Ln, Ig, An.
    cbn [to_msg m_type]. destruct new; reflexivity.
Qed.
Lemma nl_msgs p ms : forall pre post b done, Forall kmessage_ok ms -> b = pre ++ concat (map kbytes ms) ++ post ->
  exists ls, Forall2 (heard1 p) ms ls /\ forall fuel, nl_loop b p (length ms + fuel) (zl pre) (zl (concat (map kbytes ms) ++ post)) done =
    match nl_loop b p fuel (zl (pre ++ concat (map kbytes ms))) (zl post) (done || (negb (np_answer p) && match ms with [] => false | _ => true end)) with
    | Some (e, l') => Some (e, concat ls ++ l') | None => None end.
Proof.
  induction ms as [|m ms IH]; intros pre post b done F E; cbn [map concat] in *.
  - exists []. split; [constructor|]. intros fuel. cbn [app length concat Nat.add]. rewrite app_nil_r, andb_false_r, orb_false_r. destruct (nl_loop b p fuel _ _ _) as [(e, l)|]; reflexivity.
  - apply Forall_cons_iff in F. destruct F as (O & F). rewrite <- app_assoc in *.
    destruct (nl_step b p pre m (concat (map kbytes ms) ++ post) done O E) as (l & H1 & S1).
    destruct (IH (pre ++ kbytes m) post b (done || negb (np_answer p)) F ltac:(rewrite E; now rewrite <- app_assoc)) as (ls & H2 & S2).
    exists (l :: ls). split; [now constructor|]. intros fuel. cbn [length Nat.add concat]. rewrite S1, S2. rewrite <- app_assoc, andb_true_r.
    replace ((done || negb (np_answer p)) || _) with (done || negb (np_answer p)) by (destruct done, (np_answer p), ms; reflexivity).
    destruct (nl_loop b p fuel _ _ _) as [(e, l')|]; [|reflexivity]. now rewrite app_assoc.
Qed.
Lemma kbytes_len m : (16 <= length (kbytes m))%nat.
Proof. destruct m as (((fl, seq), pid), x). cbn [kbytes]. pose proof (msg_len (to_msg fl seq pid x)). lia. Qed.
Lemma msgs_count ms : (length ms <= length (concat (map kbytes ms)))%nat.
Proof. induction ms as [|m ms IH]; cbn [map concat length]; [lia|]. rewrite app_length. pose proof (kbytes_len m). lia. Qed.
Lemma nl_loop_end b p fuel off done : nl_loop b p fuel off 0 done = Some (if done then EndRc 0 else EndMore, []).
Proof. destruct fuel; reflexivity. Qed.
(** A whole datagram *)
Lemma datagram_msgs p ms : Forall kmessage_ok ms -> exists ls, Forall2 (heard1 p) ms ls /\
  nl_datagram p (concat (map kbytes ms)) = Some (if negb (np_answer p) && match ms with [] => false | _ => true end then EndRc 0 else EndMore, concat ls).
Proof.
  intros F. destruct (nl_msgs p ms [] [] (concat (map kbytes ms)) false F ltac:(now rewrite app_nil_r)) as (ls & H & S1).
  exists ls. split; [exact H|]. unfold nl_datagram. pose proof (msgs_count ms) as C.
  specialize (S1 (length (concat (map kbytes ms)) - length ms)%nat). replace (length ms + _)%nat with (length (concat (map kbytes ms))) in S1 by lia.
  rewrite app_nil_r in S1. cbn [app length orb] in S1. change (Z.of_nat 0) with 0 in S1. rewrite S1, nl_loop_end. now rewrite app_nil_r.
Qed.
(** The end of an answer: a message of type 3, or an error, type 2 *)
Lemma nl_final b p pre m post done fuel : msg_ok m -> b = pre ++ msg_bytes m ++ post -> skipped p (m_seq m) (m_pid m) = false ->
  (m_type m = 3 -> nl_loop b p (S fuel) (zl pre) (zl (msg_bytes m ++ post)) done = Some (EndRc 0, [])) /\
  (m_type m = 2 -> nl_loop b p (S fuel) (zl pre) (zl (msg_bytes m ++ post)) done =
     match rd32 b (zl pre + 16) with Some e => Some (EndRc (if e =? 0 then 0 else s32 e), []) | None => None end).
Proof.
  intros M E Sk. destruct (msg_hdr pre m post M) as (H1 & H2 & H3 & H4). rewrite <- E in *. pose proof (msg_len m) as L.
  unfold skipped in Sk; apply orb_false_iff in Sk; destruct Sk as (K1 & K2).
  split; intros T; cbn [nl_loop]; (replace (zl _ <? 16) with false by (rewrite app_length; lia)); rewrite H1, H2, H3, H4;
  (replace (_ || _) with false by (rewrite app_length; lia)); rewrite K1, K2, T; reflexivity.
Qed.
Lemma nl_ended p ms m rest rc : Forall kmessage_ok ms -> msg_ok m -> skipped p (m_seq m) (m_pid m) = false ->
  (m_type m = 3 /\ rc = 0 \/ m_type m = 2 /\ exists more, m_body m = le 4 (rc mod 4294967296) ++ more /\ -2147483648 <= rc < 2147483648) ->
  exists ls, Forall2 (heard1 p) ms ls /\ nl_datagram p (concat (map kbytes ms) ++ msg_bytes m ++ rest) = Some (EndRc rc, concat ls).
Proof.
  intros F M Sk R. set (b := concat (map kbytes ms) ++ msg_bytes m ++ rest).
  destruct (nl_msgs p ms [] (msg_bytes m ++ rest) b false F eq_refl) as (ls & H & S1). exists ls. split; [exact H|].
  unfold nl_datagram. pose proof (msgs_count ms) as C. pose proof (msg_len m) as L.
  assert (Lb : (length ms < length b)%nat) by (unfold b; rewrite !app_length; lia).
  specialize (S1 (S (length b - length ms - 1))%nat). replace (length ms + _)%nat with (length b) in S1 by lia. fold b in S1.
  cbn [length app] in S1. change (Z.of_nat 0) with 0 in S1. rewrite S1.
  destruct (nl_final b p (concat (map kbytes ms)) m rest (false || (negb (np_answer p) && match ms with [] => false | _ => true end)) (length b - length ms - 1) M eq_refl Sk) as (N1 & N2).
  destruct R as [(T & ->)|(T & more & B & Rr)]; [rewrite N1 by exact T|rewrite N2 by exact T].
  - now rewrite app_nil_r.
  - destruct (msg_split m) as (S2 & S3). unfold b at 1. rewrite S2, B, le4_le32. set (e := rc mod 4294967296).
    assert (He : 0 <= e < 4294967296) by (apply Z.mod_pos_bound; lia). pose proof (num_le32 e He) as Ne. unfold le32 in Ne |- *.
    rewrite <- !app_assoc. rewrite (app_assoc (concat _)). cbn [app]. rewrite rd32_app by (rewrite app_length; lia). rewrite Ne, app_nil_r.
    f_equal. f_equal. f_equal. unfold e. clear - Rr. destruct (Z.eqb_spec (rc mod 4294967296) 0) as [X|X].
    + Z.div_mod_to_equations. lia.
    + unfold s32. rewrite Zmod_mod. destruct (_ <? _) eqn:Y; Z.div_mod_to_equations; lia.
Qed.
Lemma read_more p : np_answer p = true -> forall dss ds, Forall (Forall kmessage_ok) dss -> exists lss, Forall2 (Forall2 (heard1 p)) dss lss /\
  netlink_read p (map (fun ms => concat (map kbytes ms)) dss ++ ds) =
  match netlink_read p ds with Some (rc, l', ds') => Some (rc, concat (map (@concat notif) lss) ++ l', ds') | None => None end.
Proof.
  intros An. induction dss as [|ms dss IH]; intros ds F; cbn [map app].
  - exists []. split; [constructor|]. cbn. destruct (netlink_read p ds) as [((rc, l), ds')|]; reflexivity.
  - apply Forall_cons_iff in F. destruct F as (F & F'). destruct (datagram_msgs p ms F) as (ls & H & E). rewrite An in E. cbn [negb andb] in E.
    destruct (IH ds F') as (lss & H' & E'). exists (ls :: lss). split; [now constructor|]. cbn [netlink_read map concat]. rewrite E, E'.
    destruct (netlink_read p ds) as [((rc, l), ds')|]; [|reflexivity]. now rewrite app_assoc.
Qed.
Lemma Forall2_mono {A B} (P Q : A -> B -> Prop) l l' : (forall a b, P a b -> Q a b) -> Forall2 P l l' -> Forall2 Q l l'.
Proof. intros H F. induction F; constructor; auto. Qed.

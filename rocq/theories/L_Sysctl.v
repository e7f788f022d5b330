(** L_Sysctl.v: the settings of the kernel are put back (M_Sysctl.v). *)
From Coq Require Import String.
From Verif Require Import Base M_Util M_Config L_Rule M_Sysctl S_Sysctl.
From Coq Require Import Lia Permutation.
Close Scope string_scope.
Open Scope Z_scope.

(** ** Names of files *)
Lemma rp_inj : forall a b, rp a = rp b -> a = b.
Proof. intros a b H. unfold rp in H. apply app_inv_head in H. now apply app_inv_tail in H. Qed.
Lemma rp_needed : forall n, In (rp n) (map fst settings) -> n = str "all".
Proof.
  assert (T : forall n, last (rp n) 0 = 114).
  { intro n. unfold rp. rewrite app_assoc. change (str "/rp_filter") with (str "/rp_filte" ++ [114]). rewrite app_assoc. apply last_last. }
  intros n H. cbn [settings map fst In] in H. destruct H as [H|[H|[H|[H|[]]]]].
  - exfalso. pose proof (T n) as E. rewrite <- H in E. vm_compute in E. discriminate E.
  - exfalso. pose proof (T n) as E. rewrite <- H in E. vm_compute in E. discriminate E.
  - exfalso. pose proof (T n) as E. rewrite <- H in E. vm_compute in E. discriminate E.
  - symmetry. apply rp_inj. exact H.
Qed.
Lemma settings_nodup : NoDup (map fst settings).
Proof.
  cbn [settings map fst]. repeat constructor; intro H; cbn [In] in H;
    repeat (destruct H as [H|H]; [vm_compute in H; discriminate H|]); exact H.
Qed.
Lemma upd_same : forall f p o, upd f p o p = o.
Proof. intros. unfold upd. now rewrite beq_refl. Qed.
Lemma upd_other : forall f p o q, q <> p -> upd f p o q = f q.
Proof. intros f p o q N. unfold upd. now rewrite beq_no. Qed.
Lemma write_other : forall f p v q, q <> p -> snd (write_proc f p v) q = f q.
Proof. intros f p v q N. unfold write_proc. destruct (f p) as [x|]; [|reflexivity]. destruct (f_w x); [|reflexivity]. now apply upd_other. Qed.

(** ** The table old_if *)
Definition fresh_in (n : list Z) (l : list (list Z * Z)) : Prop := forall v, ~ In (n, v) l.
Lemma find_some : forall n l i, find_old n l = Some i -> exists v, nth_error l i = Some (n, v).
Proof.
  induction l as [|(m, w) l IH]; intros i H; cbn [find_old] in H; [discriminate H|]. destruct (beq m n) eqn:E.
  - injection H as <-. apply beq_true in E. subst. exists w. reflexivity.
  - destruct (find_old n l) as [j|] eqn:F; [|discriminate H]. injection H as <-. exact (IH j eq_refl).
Qed.
Lemma find_none : forall n l, find_old n l = None -> fresh_in n l.
Proof.
  induction l as [|(m, w) l IH]; intros H v I; [exact I|]. cbn [find_old] in H. destruct (beq m n) eqn:E; [discriminate H|].
  destruct (find_old n l); [discriminate H|]. destruct I as [I|I]; [|exact (IH eq_refl v I)]. injection I as -> _. rewrite beq_refl in E. discriminate E.
Qed.
Lemma in_nth : forall (l : list (list Z * Z)) i x, nth_error l i = Some x -> l = firstn i l ++ x :: skipn (S i) l /\ length (firstn i l) = i.
Proof.
  induction l as [|y l IH]; intros [|i] x H; try discriminate H; cbn [nth_error] in H.
  - injection H as ->. split; reflexivity.
  - destruct (IH i x H) as (E & L). cbn [firstn skipn length app]. split; [|now rewrite L]. f_equal. exact E.
Qed.
Lemma nodup_mid : forall (a b : list (list Z * Z)) n v w, NoDup (map fst (a ++ (n, v) :: b)) -> NoDup (map fst (a ++ (n, w) :: b)).
Proof. intros a b n v w H. rewrite map_app in *. exact H. Qed.
Lemma nodup_out : forall (a b : list (list Z * Z)) n v, NoDup (map fst (a ++ (n, v) :: b)) -> fresh_in n (a ++ b) /\ NoDup (map fst (a ++ b)).
Proof.
  intros a b n v H. rewrite map_app in H. cbn [map fst] in H. pose proof (NoDup_remove_1 _ _ _ H) as H1. pose proof (NoDup_remove_2 _ _ _ H) as H2.
  rewrite <- map_app in *. split; [|exact H1]. intros w I. apply H2. apply (in_map fst) in I. exact I.
Qed.
Lemma put_spec : forall i n v w l, nth_error l i = Some (n, v) -> NoDup (map fst l) ->
  NoDup (map fst (put_old i (n, w) l)) /\ nth_error (put_old i (n, w) l) i = Some (n, w) /\
  (forall m u, m <> n -> (In (m, u) (put_old i (n, w) l) <-> In (m, u) l)) /\ length (put_old i (n, w) l) = length l.
Proof.
  intros i n v w l H D. destruct (in_nth l i _ H) as (E & L). unfold put_old. set (a := firstn i l) in *. set (b := skipn (S i) l) in *. clearbody a b.
  split; [|split; [|split]].
  - rewrite E in D. exact (nodup_mid a b n v w D).
  - rewrite nth_error_app2 by lia. rewrite L, Nat.sub_diag. reflexivity.
  - intros m u N. rewrite E, !in_app_iff. cbn [In]. split; intros [I|[I|I]]; auto; injection I as -> _; now destruct N.
  - rewrite E, !app_length. reflexivity.
Qed.
Lemma free_spec : forall i n v l, nth_error l i = Some (n, v) -> NoDup (map fst l) ->
  NoDup (map fst (free_old_if i l)) /\ fresh_in n (free_old_if i l) /\ (forall m u, m <> n -> (In (m, u) (free_old_if i l) <-> In (m, u) l)).
Proof.
  intros i n v l H D. destruct (in_nth l i _ H) as (E & L). unfold free_old_if.
  assert (Li : (i < length l)%nat) by (apply nth_error_Some; congruence). replace (i <? length l)%nat with true by (symmetry; apply Nat.ltb_lt; exact Li).
  set (a := firstn i l) in *. set (b := skipn (S i) l) in *.
  assert (Ll : length l = (i + S (length b))%nat) by (rewrite E, app_length, L; reflexivity).
  assert (G : forall l', (forall x, In x l' <-> In x (a ++ b)) -> NoDup (map fst l') -> NoDup (map fst l') /\ fresh_in n l' /\ (forall m u, m <> n -> (In (m, u) l' <-> In (m, u) l))).
  { intros l' Q D'. rewrite E in D. destruct (nodup_out a b n v D) as (F & _). split; [exact D'|]. split.
    - intros u I. apply Q in I. exact (F u I).
    - intros m u N. rewrite Q, E, !in_app_iff. cbn [In]. split; [tauto|]. intros [I|[I|I]]; auto. injection I as -> _. now destruct N. }
  assert (Dab : NoDup (map fst (a ++ b))) by (rewrite E in D; exact (proj2 (nodup_out a b n v D))).
  destruct (i =? length l - 1)%nat eqn:Q.
  - apply Nat.eqb_eq in Q. assert (B : b = []) by (destruct b; [reflexivity|cbn [length] in Ll; lia]).
    assert (Er : removelast l = a ++ b) by (rewrite E, B, app_nil_r; apply removelast_last). rewrite Er. apply G; [tauto|exact Dab].
  - apply Nat.eqb_neq in Q. destruct (exists_last (l := b)) as (c & z & Ez); [intro B; rewrite B in Ll; cbn [length] in Ll; lia|].
    assert (El : last l ([], 0) = z) by (rewrite E, Ez, app_comm_cons, app_assoc; apply last_last).
    rewrite El. unfold put_old. fold a b. clearbody a b. rewrite Ez, app_comm_cons, app_assoc, removelast_last.
    assert (P : Permutation (a ++ z :: c) (a ++ b)).
    { rewrite Ez. apply Permutation_app_head. apply (Permutation_app_comm [z] c). }
    apply G.
    + intro x. split; intro I; [exact (Permutation_in _ P I)|exact (Permutation_in _ (Permutation_sym P) I)].
    + apply (Permutation_NoDup (l := map fst (a ++ b))); [|exact Dab]. apply Permutation_map. now apply Permutation_sym.
Qed.
Lemma in_get : forall n v l, NoDup (map fst l) -> In (n, v) l -> exists i, get_old_if n l = (Some i, l) /\ nth_error l i = Some (n, v).
Proof.
  intros n v l D I. unfold get_old_if. destruct (find_old n l) as [i|] eqn:F; [|exfalso; exact (find_none n l F v I)].
  exists i. split; [reflexivity|]. destruct (find_some n l i F) as (w & E). rewrite E.
  destruct (in_nth l i _ E) as (El & _). rewrite El in D, I. destruct (nodup_out _ _ _ _ D) as (Fr & _).
  apply in_app_iff in I. cbn [In] in I. destruct I as [I|[I|I]]; [|exact (f_equal Some I)|]; exfalso; apply (Fr v); apply in_app_iff; auto.
Qed.
Lemma new_get : forall n l, fresh_in n l -> Z.of_nat (length l) < 1024 -> get_old_if n l = (Some (length l), l ++ [(n, -1)]).
Proof.
  intros n l F L. unfold get_old_if. destruct (find_old n l) as [i|] eqn:E.
  - destruct (find_some n l i E) as (w & X). exfalso. apply (F w). eapply nth_error_In; eauto.
  - now replace (Z.of_nat (length l) >=? 1024) with false by lia.
Qed.

(** ** kernel_setup_interface *)
Definition short (n : list Z) : bool := negb (Z.of_nat (length (rp n)) >=? 100).
Definition same_rest (n : list Z) (s s' : sst) : Prop :=
  s_was s' = s_was s /\ s_ifs s' = s_ifs s /\ s_ub s' = s_ub s /\ s_run s' = s_run s /\
  (forall q, q <> rp n -> s_fs s' q = s_fs s q) /\ (forall m u, m <> n -> (In (m, u) (s_old s') <-> In (m, u) (s_old s))).
Definition back (f : fs) (p : list Z) (v : Z) : option file := if v >? 0 then snd (write_proc f p v) p else f p.
Lemma setup_up : forall n s, short n = true -> fresh_in n (s_old s) -> NoDup (map fst (s_old s)) -> Z.of_nat (length (s_old s)) < 1024 -> sane (s_fs s (rp n)) ->
  let '(rc, s') := setup_interface false true n s in
  same_rest n s s' /\ NoDup (map fst (s_old s')) /\ exists v, In (n, v) (s_old s') /\ back (s_fs s') (rp n) v = s_fs s (rp n) /\
  (rc < 0 \/ exists x, s_fs s' (rp n) = Some x /\ f_val x = 0).
Proof.
  intros n s Sh F D L Sa. unfold setup_interface. unfold short in Sh. apply negb_true_iff in Sh. rewrite Sh, (new_get n _ F L). cbv zeta. cbn [set_old s_fs s_old].
  set (v := read_proc (s_fs s) (rp n)). set (old := s_old s ++ [(n, -1)]).
  assert (Nt : nth_error old (length (s_old s)) = Some (n, -1)) by (unfold old; rewrite nth_error_app2, Nat.sub_diag by lia; reflexivity).
  assert (Do : NoDup (map fst old)).
  { unfold old. rewrite map_app. apply (Permutation_NoDup (l := n :: map fst (s_old s))).
    - apply (Permutation_app_comm [n] (map fst (s_old s))).
    - constructor; [|exact D]. intro I. apply in_map_iff in I. destruct I as ((m, w) & E & I). cbn [fst] in E. subst m. exact (F w I). }
  destruct (put_spec (length (s_old s)) n (-1) v old Nt Do) as (P1 & P2 & P3 & _). set (o2 := put_old (length (s_old s)) (n, v) old) in *.
  assert (Oth : forall m u, m <> n -> (In (m, u) o2 <-> In (m, u) (s_old s))).
  { intros m u N. rewrite (P3 m u N). unfold old. rewrite in_app_iff. cbn [In]. split; [|tauto]. intros [I|[I|[]]]; auto. injection I as -> _. now destruct N. }
  assert (In2 : In (n, v) o2) by (eapply nth_error_In; exact P2).
  destruct (v =? 0) eqn:V.
  - repeat split; try exact Oth; try apply Oth; auto. cbn [set_old s_old s_fs]. exists v. split; [exact In2|]. split; [unfold back; now replace (v >? 0) with false by lia|].
    right. unfold v, read_proc in V. destruct (s_fs s (rp n)) as [x|]; [|discriminate V]. exists x. split; [reflexivity|]. destruct (f_r x); [lia|discriminate V].
  - unfold write_proc. cbn [set_old s_fs]. destruct (s_fs s (rp n)) as [x|] eqn:X.
    + destruct (Sa x eq_refl) as (Sv & Sw). destruct (f_w x) eqn:W.
      * cbn [set_fs set_old s_was s_ifs s_ub s_run s_fs s_old]. rewrite (Sw eq_refl).
        assert (Ev : v = f_val x) by (unfold v, read_proc; now rewrite X, (Sw eq_refl)).
        split; [repeat split; try apply Oth; auto; intros q N; now apply upd_other|]. split; [exact P1|]. exists v. split; [exact In2|].
        split.
        -- unfold back. replace (v >? 0) with true by lia. unfold write_proc. rewrite upd_same. cbn [f_w f_r snd]. rewrite upd_same, Ev.
           destruct x as [vx rx wx]; cbn [f_val f_r f_w] in *. now rewrite (Sw eq_refl), W.
        -- right. eexists. split; [apply upd_same|reflexivity].
      * cbn [set_fs set_old s_was s_ifs s_ub s_run s_fs s_old]. split; [repeat split; try apply Oth; auto|]. split; [exact P1|]. exists v. split; [exact In2|].
        split; [|now left]. unfold back. destruct (v >? 0); [|exact X]. unfold write_proc. rewrite X, W. cbn [snd]. exact X.
    + cbn [set_fs set_old s_was s_ifs s_ub s_run s_fs s_old]. split; [repeat split; try apply Oth; auto|]. split; [exact P1|]. exists v. split; [exact In2|].
      split; [|now left]. unfold back. destruct (v >? 0); [|exact X]. unfold write_proc. rewrite X. cbn [snd]. exact X.
Qed.
Lemma setup_down : forall n v s, short n = true -> In (n, v) (s_old s) -> NoDup (map fst (s_old s)) ->
  let s' := snd (setup_interface false false n s) in
  same_rest n s s' /\ NoDup (map fst (s_old s')) /\ fresh_in n (s_old s') /\ s_fs s' (rp n) = back (s_fs s) (rp n) v.
Proof.
  intros n v s Sh I D. unfold setup_interface. unfold short in Sh. apply negb_true_iff in Sh. rewrite Sh. destruct (in_get n v _ D I) as (i & G & Nt). rewrite G. cbv zeta.
  destruct (free_spec i n v _ Nt D) as (F1 & F2 & F3). unfold old_rp. rewrite Nt. cbn [snd]. unfold back.
  destruct (v >? 0); cbn [snd set_old set_fs s_was s_ifs s_ub s_run s_fs s_old].
  - split; [repeat split; try apply F3; auto; intros q N; now apply write_other|]. auto.
  - split; [repeat split; try apply F3; auto|]. auto.
Qed.
Lemma setup_long : forall n u s, short n = false -> setup_interface false u n s = (-1, s).
Proof. intros n u s Sh. unfold setup_interface. unfold short in Sh. apply negb_false_iff in Sh. now rewrite Sh. Qed.

(** ** The invariant while it runs *)
Definition free (b : fs) (s : sst) (n : list Z) : Prop := s_fs s (rp n) = b (rp n) /\ fresh_in n (s_old s).
Definition rest (b : fs) (s : sst) (n : list Z) : Prop := exists v, In (n, v) (s_old s) /\ back (s_fs s) (rp n) v = b (rp n).
Definition occupied (x : kif) : bool := i_up x && (i_index x >? 0) && short (i_name x).
Definition okR (b : fs) (s : sst) (x : kif) : Prop := if occupied x then rest b s (i_name x) else free b s (i_name x).
Definition zero (s : sst) (x : kif) : Prop :=
  i_up x = true -> i_index x > 0 /\ short (i_name x) = true /\ (s_fs s (rp (i_name x)) = None \/ exists y, s_fs s (rp (i_name x)) = Some y /\ f_val y = 0).
Definition saved (b f : fs) (pw : list Z * Z) (v : Z) : Prop :=
  exists x, b (fst pw) = Some x /\ 0 <= f_val x /\ v = f_val x /\ f (fst pw) = Some (mkFile (snd pw) (f_r x) (f_w x)) /\ (v = snd pw \/ f_w x = true).
Record R (b : fs) (s : sst) : Prop := mkR {
  r_names : NoDup (map i_name (s_ifs s)); r_all : forall x, In x (s_ifs s) -> i_name x <> str "all";
  r_few : Z.of_nat (length (s_ifs s)) <= 1024; r_nd : NoDup (map fst (s_old s));
  r_old : forall m v, In (m, v) (s_old s) -> exists x, In x (s_ifs s) /\ i_name x = m /\ i_up x = true;
  r_ok : forall x, In x (s_ifs s) -> okR b s x;
  r_else : forall p, ~ In p (map fst settings) -> (forall x, In x (s_ifs s) -> p <> rp (i_name x)) -> s_fs s p = b p;
  r_set : Forall2 (saved b (s_fs s)) settings (s_was s);
  r_ub : s_ub s = false }.

Lemma get_in : forall n l x, get_kif n l = Some x -> In x l /\ i_name x = n.
Proof.
  induction l as [|y l IH]; intros x H; cbn [get_kif] in H; [discriminate H|]. destruct (beq (i_name y) n) eqn:E.
  - injection H as ->. apply beq_true in E. split; [now left|exact E].
  - destruct (IH x H). split; [now right|assumption].
Qed.
Lemma get_none : forall n l, get_kif n l = None -> ~ In n (map i_name l).
Proof.
  induction l as [|y l IH]; intros H I; [exact I|]. cbn [get_kif] in H. destruct (beq (i_name y) n) eqn:E; [discriminate H|].
  destruct I as [I|I]; [subst n; rewrite beq_refl in E; discriminate E|exact (IH H I)].
Qed.
Lemma map_names : forall n g l, (forall x, i_name (g x) = i_name x) -> map i_name (map_kif n g l) = map i_name l.
Proof. intros n g l H. unfold map_kif. rewrite map_map. apply map_ext. intro x. destruct (beq (i_name x) n); [apply H|reflexivity]. Qed.
Lemma in_map_kif : forall n g l y, In y (map_kif n g l) -> exists x, In x l /\ ((i_name x = n /\ y = g x) \/ (i_name x <> n /\ y = x)).
Proof.
  intros n g l y H. unfold map_kif in H. apply in_map_iff in H. destruct H as (x & E & I). exists x. split; [exact I|].
  destruct (beq (i_name x) n) eqn:B; [left; apply beq_true in B; auto|right]. split; [|auto]. intros N. rewrite N, beq_refl in B. discriminate B.
Qed.
Lemma in_map_other : forall n g l x, In x l -> i_name x <> n -> In x (map_kif n g l).
Proof. intros n g l x I N. unfold map_kif. apply in_map_iff. exists x. split; [now rewrite beq_no|exact I]. Qed.
Lemma in_map_this : forall n g l x, In x l -> i_name x = n -> In (g x) (map_kif n g l).
Proof. intros n g l x I N. unfold map_kif. apply in_map_iff. exists x. split; [now rewrite N, beq_refl|exact I]. Qed.
Lemma name_inj : forall l x y, NoDup (map i_name l) -> In x l -> In y l -> i_name x = i_name y -> x = y.
Proof.
  induction l as [|z l IH]; intros x y D Ix Iy E; [destruct Ix|]. cbn [map] in D. inversion D; subst.
  destruct Ix as [->|Ix], Iy as [->|Iy]; auto.
  - exfalso. apply H1. rewrite E. now apply in_map.
  - exfalso. apply H1. rewrite <- E. now apply in_map.
Qed.

(** A call about [n] which leaves it in order *)
Lemma okR_frame : forall b n s s' x, same_rest n s s' -> i_name x <> n -> okR b s x -> okR b s' x.
Proof.
  intros b n s s' x (_ & _ & _ & _ & F & O) N H. assert (Nr : rp (i_name x) <> rp n) by (intro E; apply N; now apply rp_inj).
  unfold okR in *. destruct (occupied x).
  - destruct H as (v & I & B). exists v. split; [now apply O|]. unfold back, write_proc in *. rewrite !(F _ Nr). destruct (v >? 0); [|exact B].
    destruct (s_fs s (rp (i_name x))) as [y|] eqn:Y; [|cbn [snd] in *; rewrite (F _ Nr); exact B]. destruct (f_w y); cbn [snd] in *.
    + rewrite upd_same in *. exact B.
    + rewrite (F _ Nr). exact B.
  - destruct H as (E & Fr). split; [now rewrite (F _ Nr)|]. intros v I. apply (Fr v). now apply O.
Qed.
Lemma saved_frame : forall b n s s', n <> str "all" -> same_rest n s s' -> Forall2 (saved b (s_fs s)) settings (s_was s) -> Forall2 (saved b (s_fs s')) settings (s_was s').
Proof.
  intros b n s s' Na (W & _ & _ & _ & F & _) H. rewrite W.
  assert (G : forall l w, (forall p, In p (map fst l) -> In p (map fst settings)) -> Forall2 (saved b (s_fs s)) l w -> Forall2 (saved b (s_fs s')) l w).
  { intros l w In_ H'. induction H' as [|(p, v) y l w A _ IH]; constructor.
    - destruct A as (x & A1 & A2 & A3 & A4 & A5). exists x. cbn [fst snd] in *. repeat split; auto. rewrite F; [exact A4|]. intros ->. apply Na, rp_needed, In_. now left.
    - apply IH. intros q I. apply In_. now right. }
  apply G; auto.
Qed.
(** The interface [n] is replaced by one with other number and flag, the files and the table by those of [s'] *)
Lemma R_step : forall b n g s s1 s', R b s -> (forall x, i_name (g x) = i_name x) ->
  s1 = set_ifs (map_kif n g (s_ifs s)) s -> same_rest n s1 s' -> NoDup (map fst (s_old s')) ->
  (forall x, In x (s_ifs s) -> i_name x = n -> okR b s' (g x) /\ (forall v, In (n, v) (s_old s') -> i_up (g x) = true)) ->
  In n (map i_name (s_ifs s)) -> R b s'.
Proof.
  intros b n g s s1 s' H G -> Sr Nd K Inn. destruct H as [H1 H2 H3 H4 H5 H6 H7 H8 H9]. pose proof Sr as (W & I & U & _ & F & O).
  cbn [set_ifs s_was s_ifs s_ub s_fs s_old] in *. apply in_map_iff in Inn. destruct Inn as (xn & Exn & Ixn).
  assert (Na : n <> str "all") by (rewrite <- Exn; apply H2; exact Ixn).
  constructor.
  - rewrite I, map_names; assumption.
  - intros y Iy. rewrite I in Iy. destruct (in_map_kif _ _ _ _ Iy) as (x & Ix & [(E & ->)|(E & ->)]); [rewrite G|]; auto.
  - rewrite I. unfold map_kif. now rewrite map_length.
  - exact Nd.
  - intros m v Im. rewrite I. destruct (list_eq_dec Z.eq_dec m n) as [->|N].
    + exists (g xn). split; [now apply in_map_this|]. split; [now rewrite G|]. destruct (K xn Ixn Exn) as (_ & Ku). exact (Ku v Im).
    + apply (O m v N) in Im. destruct (H5 m v Im) as (x & Ix & En & Eu). exists x. split; [|auto]. apply in_map_other; [exact Ix|congruence].
  - intros y Iy. rewrite I in Iy. destruct (in_map_kif _ _ _ _ Iy) as (x & Ix & [(E & ->)|(E & ->)]); [now apply K|].
    apply (okR_frame b n _ s' x Sr E). exact (H6 x Ix).
  - intros p Np Nx. rewrite F.
    + apply H7; [exact Np|]. intros x Ix E. subst p. destruct (list_eq_dec Z.eq_dec (i_name x) n) as [En|En].
      * apply (Nx (g x)); [rewrite I; now apply in_map_this|now rewrite G].
      * apply (Nx x); [rewrite I; now apply in_map_other|reflexivity].
    + intros ->. apply (Nx (g xn)); [rewrite I; now apply in_map_this|now rewrite G, Exn].
  - apply (saved_frame b n (set_ifs (map_kif n g (s_ifs s)) s) s' Na Sr). exact H8.
  - rewrite U. exact H9.
Qed.
Lemma zero_frame : forall n s s' x, same_rest n s s' -> i_name x <> n -> zero s x -> zero s' x.
Proof.
  intros n s s' x (_ & _ & _ & _ & F & _) N H Hu. destruct (H Hu) as (A & B & C). split; [exact A|]. split; [exact B|].
  rewrite F; [exact C|]. intro E. apply N. now apply rp_inj.
Qed.
Lemma same_refl : forall n s, same_rest n s s.
Proof. intros. repeat split; auto. Qed.

Definition zeros (s : sst) : Prop := forall x, In x (s_ifs s) -> zero s x.
Definition zeros_but (n : list Z) (s : sst) : Prop := forall x, In x (s_ifs s) -> i_name x <> n -> zero s x.
Lemma if_down_R : forall b n s, R b s -> zeros_but n s ->
  R b (if_down false n s) /\ zeros (if_down false n s) /\ map i_name (s_ifs (if_down false n s)) = map i_name (s_ifs s) /\
  s_run (if_down false n s) = s_run s /\
  (forall x, In x (s_ifs (if_down false n s)) -> i_name x = n -> i_up x = false) /\
  (forall x, In x (s_ifs (if_down false n s)) -> i_name x <> n -> In x (s_ifs s)) /\
  (forall x, In x (s_ifs s) -> i_name x <> n -> In x (s_ifs (if_down false n s))).
Proof.
  intros b n s H Zb. unfold if_down. destruct (get_kif n (s_ifs s)) as [x|] eqn:G.
  2:{ split; [exact H|]. pose proof (get_none _ _ G) as Nn. split.
      - intros y Iy. apply Zb; [exact Iy|]. intros E. apply Nn. rewrite <- E. now apply in_map.
      - repeat split; auto. intros y Iy E. exfalso. apply Nn. rewrite <- E. now apply in_map. }
  destruct (get_in _ _ _ G) as (Ix & En). destruct (i_up x) eqn:Up; cbn [negb].
  2:{ assert (Only : forall y, In y (s_ifs s) -> i_name y = n -> y = x) by (intros y Iy E; apply (name_inj (s_ifs s)); auto; [apply (r_names _ _ H)|congruence]).
      split; [exact H|]. split.
      - intros y Iy. destruct (list_eq_dec Z.eq_dec (i_name y) n) as [E|E]; [|now apply Zb]. rewrite (Only y Iy E). intro Hu. congruence.
      - repeat split; auto. intros y Iy E. now rewrite (Only y Iy E). }
  set (g := fun x => mkKif (i_name x) (i_index x) false). set (s1 := set_ifs (map_kif n g (s_ifs s)) s).
  assert (Only : forall y, In y (s_ifs s) -> i_name y = n -> y = x) by (intros y Iy E; apply (name_inj (s_ifs s)); auto; [apply (r_names _ _ H)|congruence]).
  assert (Main : forall s', same_rest n s1 s' -> NoDup (map fst (s_old s')) -> free b s' n -> 
    R b s' /\ zeros s' /\ map i_name (s_ifs s') = map i_name (s_ifs s) /\ s_run s' = s_run s /\
    (forall x, In x (s_ifs s') -> i_name x = n -> i_up x = false) /\
    (forall x, In x (s_ifs s') -> i_name x <> n -> In x (s_ifs s)) /\ (forall x, In x (s_ifs s) -> i_name x <> n -> In x (s_ifs s'))).
  { intros s' Sr Nd Fr. pose proof Sr as (_ & I & _ & Rn & _ & _). cbn [s1 set_ifs s_ifs s_run] in I, Rn.
    split; [|split; [|split; [|split; [|split; [|split]]]]].
    - apply (R_step b n g s s1 s' H); auto.
      + intros y Iy E. split; [unfold okR, occupied, g; cbn; rewrite E; exact Fr|]. intros v Iv. exfalso. exact (proj2 Fr v Iv).
      + rewrite <- En. now apply in_map.
    - intros y Iy. rewrite I in Iy. destruct (in_map_kif _ _ _ _ Iy) as (z & Iz & [(E & ->)|(E & ->)]); [intro Hu; discriminate Hu|].
      apply (zero_frame n s1 s' z Sr E). exact (Zb z Iz E).
    - rewrite I. now apply map_names.
    - exact Rn.
    - intros y Iy E. rewrite I in Iy. destruct (in_map_kif _ _ _ _ Iy) as (z & Iz & [(E2 & ->)|(E2 & ->)]); [reflexivity|contradiction].
    - intros y Iy E. rewrite I in Iy. destruct (in_map_kif _ _ _ _ Iy) as (z & Iz & [(E2 & ->)|(E2 & ->)]); [contradiction|exact Iz].
    - intros y Iy E. rewrite I. now apply in_map_other. }
  pose proof (r_ok _ _ H x Ix) as K. unfold okR, occupied in K. rewrite Up, En in K. cbn [andb] in K.
  destruct (i_index x >? 0) eqn:Ixp; cbn [andb] in K.
  - destruct (short n) eqn:Sh.
    + destruct K as (v & Iv & B). destruct (setup_down n v s1 Sh Iv (r_nd _ _ H)) as (S1 & S2 & S3 & S4).
      apply Main; [exact S1|exact S2|]. split; [|exact S3]. rewrite S4. exact B.
    + rewrite (setup_long n false s1 Sh). cbn [snd]. apply Main; [apply same_refl|exact (r_nd _ _ H)|exact K].
  - apply Main; [apply same_refl|exact (r_nd _ _ H)|exact K].
Qed.

Lemma names_bound : forall b s n x, R b s -> In x (s_ifs s) -> i_name x = n -> fresh_in n (s_old s) -> Z.of_nat (length (s_old s)) < 1024.
Proof.
  intros b s n x H Ix En F. pose proof (r_few _ _ H) as Fw.
  assert (L : (length (n :: map fst (s_old s)) <= length (map i_name (s_ifs s)))%nat).
  { apply NoDup_incl_length.
    - constructor; [|exact (r_nd _ _ H)]. intro I. apply in_map_iff in I. destruct I as ((m, v) & E & I). cbn [fst] in E. subst m. exact (F v I).
    - intros m [<-|I]; [rewrite <- En; now apply in_map|]. apply in_map_iff in I. destruct I as ((m', v) & E & I). cbn [fst] in E. subst m'.
      destruct (r_old _ _ H m v I) as (y & Iy & Ey & _). rewrite <- Ey. now apply in_map. }
  cbn [length] in L. rewrite !map_length in L. lia.
Qed.
Lemma if_up_R : forall b ok n s, R b s -> zeros s -> (forall p, sane (b p)) ->
  R b (if_come_up false ok n s) /\ zeros (if_come_up false ok n s) /\ map i_name (s_ifs (if_come_up false ok n s)) = map i_name (s_ifs s) /\
  s_run (if_come_up false ok n s) = s_run s.
Proof.
  intros b ok n s H Z0 Sa. unfold if_come_up. destruct (get_kif n (s_ifs s)) as [x|] eqn:G; [|auto]. destruct (get_in _ _ _ G) as (Ix & En).
  destruct (i_up x) eqn:Up; [auto|]. set (g := fun x => mkKif (i_name x) (i_index x) true). set (s1 := set_ifs (map_kif n g (s_ifs s)) s).
  assert (Only : forall y, In y (s_ifs s) -> i_name y = n -> y = x) by (intros y Iy E; apply (name_inj (s_ifs s)); auto; [apply (r_names _ _ H)|congruence]).
  pose proof (r_ok _ _ H x Ix) as K. unfold okR, occupied in K. rewrite Up, En in K. cbn [andb] in K. destruct K as (Ke & Kf).
  assert (Inn : In n (map i_name (s_ifs s))) by (rewrite <- En; now apply in_map).
  assert (Zb : forall s', same_rest n s1 s' -> zeros_but n s').
  { intros s' Sr y Iy N. pose proof Sr as (_ & I & _). cbn [s1 set_ifs s_ifs] in I. rewrite I in Iy.
    destruct (in_map_kif _ _ _ _ Iy) as (z & Iz & [(E & ->)|(E & ->)]); [now destruct N|]. apply (zero_frame n s1 s' z Sr E). exact (Z0 z Iz). }
  assert (Nm : forall s', same_rest n s1 s' -> map i_name (s_ifs s') = map i_name (s_ifs s) /\ s_run s' = s_run s).
  { intros s' (_ & I & _ & Rn & _). cbn [s1 set_ifs s_ifs s_run] in *. rewrite I. split; [now apply map_names|exact Rn]. }
  assert (Dn : forall s', same_rest n s1 s' -> R b s' -> R b (if_down false n s') /\ zeros (if_down false n s') /\
     map i_name (s_ifs (if_down false n s')) = map i_name (s_ifs s) /\ s_run (if_down false n s') = s_run s).
  { intros s' Sr Hr. destruct (if_down_R b n s' Hr (Zb s' Sr)) as (A & B & C & D & _). destruct (Nm s' Sr). split; [exact A|]. split; [exact B|]. split; congruence. }
  destruct (i_index x <=? 0) eqn:Ip.
  - apply Dn; [apply same_refl|]. apply (R_step b n g s s1 s1 H); auto; [apply same_refl|exact (r_nd _ _ H)|].
    intros y Iy E. rewrite (Only y Iy E). split; [|reflexivity]. unfold okR, occupied, g. cbn [i_up i_index i_name]. replace (i_index x >? 0) with false by lia.
    cbn [andb]. rewrite En. split; assumption.
  - destruct (short n) eqn:Sh.
    + assert (Fw : Z.of_nat (length (s_old s1)) < 1024) by (apply (names_bound b s n x); assumption).
      assert (Sn : sane (s_fs s1 (rp n))) by (cbn [s1 set_ifs s_fs]; rewrite Ke; apply Sa).
      pose proof (setup_up n s1 Sh Kf (r_nd _ _ H) Fw Sn) as Q. destruct (setup_interface false true n s1) as (rc, s2).
      destruct Q as (Sr & Nd & v & Iv & Bk & Q).
      assert (Hr : R b s2).
      { apply (R_step b n g s s1 s2 H); auto. intros y Iy E. rewrite (Only y Iy E). split; [|reflexivity].
        unfold okR, occupied, g. cbn [i_up i_index i_name]. rewrite En, Sh. replace (i_index x >? 0) with true by lia. cbn [andb].
        exists v. split; [exact Iv|]. rewrite Bk. exact Ke. }
      destruct (rc <? 0) eqn:Rc; [now apply Dn|]. destruct ok; [|now apply Dn].
      destruct (Nm s2 Sr) as (N1 & N2). split; [exact Hr|]. split; [|auto]. intros y Iy. destruct (list_eq_dec Z.eq_dec (i_name y) n) as [E|E]; [|now apply (Zb s2 Sr)].
      pose proof Sr as (_ & I & _). cbn [s1 set_ifs s_ifs] in I. rewrite I in Iy. destruct (in_map_kif _ _ _ _ Iy) as (z & Iz & [(E2 & ->)|(E2 & ->)]); [|contradiction].
      rewrite (Only z Iz E2). intros _. cbn [g i_name i_index]. rewrite En. split; [lia|]. split; [exact Sh|]. right. destruct Q as [Q|Q]; [lia|exact Q].
    + rewrite (setup_long n true s1 Sh). cbn [Z.ltb Z.compare]. apply Dn; [apply same_refl|]. apply (R_step b n g s s1 s1 H); auto; [apply same_refl|exact (r_nd _ _ H)|].
      intros y Iy E. rewrite (Only y Iy E). split; [|reflexivity]. unfold okR, occupied, g. cbn [i_up i_index i_name]. rewrite En, Sh, andb_false_r. split; assumption.
Qed.

(** ** Interfaces are checked, added, removed *)
Definition good (b : fs) (s : sst) : Prop := R b s /\ zeros s.
Lemma R_index : forall b n k s, good b s -> (forall x, In x (s_ifs s) -> i_name x = n -> i_up x = false) ->
  good b (set_ifs (map_kif n (fun x => mkKif (i_name x) k (i_up x)) (s_ifs s)) s).
Proof.
  intros b n k s (H & Z0) Dn. set (g := fun x => mkKif (i_name x) k (i_up x)). split.
  - destruct (in_dec (list_eq_dec Z.eq_dec) n (map i_name (s_ifs s))) as [Inn|Nin].
    + apply (R_step b n g s (set_ifs (map_kif n g (s_ifs s)) s) _ H); auto; [apply same_refl|exact (r_nd _ _ H)|]. intros x Ix E. pose proof (r_ok _ _ H x Ix) as K. pose proof (Dn x Ix E) as D.
      unfold okR, occupied in *. cbn [g i_up i_index i_name]. rewrite D in *. cbn [andb] in *. split; [exact K|]. intros v Iv. exfalso. rewrite E in K. exact (proj2 K v Iv).
    + assert (E : map_kif n g (s_ifs s) = s_ifs s).
      { unfold map_kif. rewrite <- map_id. apply map_ext_in. intros x Ix. rewrite beq_no; [reflexivity|]. intro E. apply Nin. rewrite <- E. now apply in_map. }
      rewrite E. destruct s; exact H.
  - intros y Iy. destruct (in_map_kif _ _ _ _ Iy) as (x & Ix & [(E & ->)|(E & ->)]).
    + intro Hu. cbn [g i_up] in Hu. rewrite (Dn x Ix E) in Hu. discriminate Hu.
    + exact (Z0 x Ix).
Qed.
Lemma good_down : forall b n s, good b s -> good b (if_down false n s) /\ s_run (if_down false n s) = s_run s /\
  (forall x, In x (s_ifs (if_down false n s)) -> i_name x = n -> i_up x = false).
Proof. intros b n s (H & Z0). destruct (if_down_R b n s H (fun x I _ => Z0 x I)) as (A & B & _ & C & D & _). split; [split; assumption|]. auto. Qed.
Lemma good_check : forall b n k oper ok s, good b s -> (forall p, sane (b p)) ->
  good b (check_if false n k oper ok s) /\ s_run (check_if false n k oper ok s) = s_run s.
Proof.
  intros b n k oper ok s H Sa. unfold check_if. destruct (get_kif n (s_ifs s)) as [x|]; [|auto]. cbv zeta.
  set (s1 := if k =? i_index x then s else _).
  assert (H1 : good b s1 /\ s_run s1 = s_run s).
  { unfold s1. destruct (k =? i_index x); [auto|]. destruct (good_down b n s H) as (A & B & C). split; [now apply R_index|exact B]. }
  destruct H1 as (H1 & E1). destruct (Bool.eqb _ _); [auto|]. destruct (if k >? 0 then oper else false).
  - destruct (if_up_R b ok n s1 (proj1 H1) (proj2 H1) Sa) as (A & B & _ & C). split; [split; assumption|congruence].
  - destruct (good_down b n s1 H1) as (A & B & _). split; [exact A|congruence].
Qed.
Lemma good_add : forall b n s, good b s -> n <> str "all" -> Z.of_nat (length (s_ifs s)) < 1024 -> good b (add_if n s) /\ s_run (add_if n s) = s_run s.
Proof.
  intros b n s (H & Z0) Na L. unfold add_if. destruct (get_kif n (s_ifs s)) as [x|] eqn:G; [split; [split; assumption|reflexivity]|]. pose proof (get_none _ _ G) as Nn.
  split; [|reflexivity]. destruct H as [H1 H2 H3 H4 H5 H6 H7 H8 H9]. split.
  - constructor; cbn [set_ifs s_ifs s_fs s_old s_was s_ub]; auto.
    + rewrite map_app. apply (Permutation_NoDup (l := n :: map i_name (s_ifs s))); [apply (Permutation_app_comm [n])|]. now constructor.
    + intros x I. apply in_app_iff in I. destruct I as [I|[<-|[]]]; auto.
    + rewrite app_length. cbn [length]. lia.
    + intros m v I. destruct (H5 m v I) as (x & Ix & Q). exists x. split; [apply in_app_iff; now left|exact Q].
    + intros x I. apply in_app_iff in I. destruct I as [I|[<-|[]]]; [exact (H6 x I)|]. unfold okR, occupied. cbn [i_up andb i_name]. split; cbn [set_ifs s_fs s_old].
      * apply H7; [intro I; apply Na, rp_needed, I|]. intros x Ix E. apply rp_inj in E. apply Nn. rewrite E. now apply in_map.
      * intros v I. destruct (H5 n v I) as (x & Ix & E & _). apply Nn. rewrite <- E. now apply in_map.
    + intros p Np Nx. apply H7; [exact Np|]. intros x Ix. apply Nx. apply in_app_iff. now left.
  - intros x I. cbn [set_ifs s_ifs] in I. apply in_app_iff in I. destruct I as [I|[<-|[]]]; [exact (Z0 x I)|]. intro Hu. discriminate Hu.
Qed.
Lemma nodup_filter_names : forall (f : kif -> bool) l, NoDup (map i_name l) -> NoDup (map i_name (filter f l)).
Proof.
  induction l as [|x l IH]; intro D; [constructor|]. cbn [map] in D. inversion D; subst. cbn [filter]. destruct (f x); [|auto]. cbn [map]. constructor; [|auto].
  intro I. apply H1. apply in_map_iff in I. destruct I as (y & E & I). apply filter_In in I. rewrite <- E. apply in_map. tauto.
Qed.
Lemma good_flush : forall b n s, good b s -> good b (flush_kif false n s) /\ s_run (flush_kif false n s) = s_run s.
Proof.
  intros b n s H. unfold flush_kif. destruct (good_down b n s H) as ((H1 & Z1) & E1 & D1). set (s1 := if_down false n s) in *. split; [|exact E1].
  destruct H1 as [A1 A2 A3 A4 A5 A6 A7 A8 A9].
  assert (Inc : forall x, In x (filter (fun x => negb (beq (i_name x) n)) (s_ifs s1)) <-> In x (s_ifs s1) /\ i_name x <> n).
  { intro x. rewrite filter_In. split; intros (I & Q); (split; [exact I|]).
    - intro E. rewrite E, beq_refl in Q. discriminate Q.
    - now rewrite beq_no. }
  split.
  - constructor; cbn [set_ifs s_ifs s_fs s_old s_was s_ub]; auto.
    + now apply nodup_filter_names.
    + intros x I. apply Inc in I. apply A2. tauto.
    + eapply Z.le_trans; [|exact A3]. apply inj_le. clear. induction (s_ifs s1) as [|x l IH]; cbn [filter length]; [lia|]. destruct (negb _); cbn [length]; lia.
    + intros m v I. destruct (A5 m v I) as (x & Ix & E & U). exists x. split; [|auto]. apply Inc. split; [exact Ix|]. intro En. rewrite (D1 x Ix En) in U. discriminate U.
    + intros x I. apply Inc in I. exact (A6 x (proj1 I)).
    + intros p Np Nx. destruct (in_dec (list_eq_dec Z.eq_dec) p (map (fun x => rp (i_name x)) (s_ifs s1))) as [I|I].
      * apply in_map_iff in I. destruct I as (x & E & Ix). destruct (list_eq_dec Z.eq_dec (i_name x) n) as [En|En].
        -- pose proof (A6 x Ix) as K. unfold okR, occupied in K. rewrite (D1 x Ix En) in K. cbn [andb] in K. subst p. exact (proj1 K).
        -- exfalso. apply (Nx x); [now apply Inc|now symmetry].
      * apply A7; [exact Np|]. intros x Ix E. apply I. apply in_map_iff. exists x. auto.
  - intros x I. cbn [set_ifs s_ifs] in I. apply Inc in I. exact (Z1 x (proj1 I)).
Qed.

(** ** Start and exit *)
Lemma setup_loop_gen : forall (f : fs) l (g : fs), (forall p, sane (f p)) ->
  (forall p v, In (p, v) l -> exists x, f p = Some x /\ f_r x = true /\ (f_val x = v \/ f_w x = true)) ->
  NoDup (map fst l) -> (forall q, In q (map fst l) -> g q = f q) ->
  let '(rc, was, f') := setup_loop l g in rc = 1 /\ Forall2 (saved f f') l was /\ (forall q, ~ In q (map fst l) -> f' q = g q).
Proof.
  intros f l g Sa. revert g. induction l as [|(q, wq) l0 IH]; intros g Rd D Eg; cbn [setup_loop]; [repeat split; constructor|].
  cbn [map fst] in D. inversion D as [|? ? Nq Dl]; subst. destruct (Rd q wq) as (x & Ex & Er & Ew); [now left|]. destruct (Sa q x Ex) as (Sv & _).
  assert (Gq : g q = Some x) by (rewrite Eg; [exact Ex|now left]). unfold read_proc. rewrite Gq, Er. replace (f_val x <? 0) with false by lia.
  assert (Step : exists f1 : fs, (if f_val x =? wq then (1, g) else write_proc g q wq) = (1, f1) /\ f1 q = Some (mkFile wq (f_r x) (f_w x)) /\
    (forall r, r <> q -> f1 r = g r) /\ (f_val x = wq \/ f_w x = true)).
  { destruct (f_val x =? wq) eqn:V.
    - exists g. assert (f_val x = wq) by lia. repeat split; auto. rewrite Gq. destruct x as [vx rx wx]; cbn [f_val f_r f_w] in *. f_equal. f_equal. lia.
    - destruct Ew as [Ew|Ew]; [lia|]. unfold write_proc. rewrite Gq, Ew. eexists. split; [reflexivity|]. split; [apply upd_same|]. split; [intros; now apply upd_other|auto]. }
  destruct Step as (f1 & E1 & P1 & Q1 & W1). rewrite E1. cbn [Z.ltb Z.compare].
  assert (Ih : forall r, In r (map fst l0) -> f1 r = f r) by (intros r Ir; rewrite Q1 by (intros ->; contradiction); apply Eg; now right).
  specialize (IH f1 (fun p v I => Rd p v (or_intror I)) Dl Ih). destruct (setup_loop l0 f1) as ((rc, was), f'). destruct IH as (-> & F2 & Fr).
  split; [reflexivity|]. split.
  - constructor; [|exact F2]. exists x. cbn [fst snd]. split; [exact Ex|]. split; [lia|]. split; [reflexivity|]. split; [now rewrite (Fr q Nq)|exact W1].
  - intros r Nr. cbn [map fst In] in Nr. rewrite Fr by tauto. apply Q1. intros ->. tauto.
Qed.
Lemma setup_loop_spec : forall l (f : fs), NoDup (map fst l) -> (forall p, sane (f p)) ->
  (forall p v, In (p, v) l -> exists x, f p = Some x /\ f_r x = true /\ (f_val x = v \/ f_w x = true)) ->
  let '(rc, was, f') := setup_loop l f in rc = 1 /\ Forall2 (saved f f') l was /\ (forall q, ~ In q (map fst l) -> f' q = f q).
Proof. intros l f D Sa Rd. exact (setup_loop_gen f l f Sa Rd D (fun _ _ => eq_refl)). Qed.
Lemma restore_spec : forall l b was f, NoDup (map fst l) -> Forall2 (saved b f) l was ->
  (forall q, In q (map fst l) -> snd (restore_loop l was f) q = b q) /\ (forall q, ~ In q (map fst l) -> snd (restore_loop l was f) q = f q).
Proof.
  induction l as [|(p, want) l IH]; intros b was f D H; inversion H as [|? v ? w A Fl]; subst; cbn [restore_loop]; [split; [intros q []|reflexivity]|].
  cbn [map fst] in *. inversion D as [|? ? Np Dl]; subst. destruct A as (x & Bx & Pv & Ev & Fx & Wx). cbn [fst snd] in *.
  assert (Keep : forall f1, (forall q, q <> p -> f1 q = f q) -> Forall2 (saved b f1) l w).
  { intros f1 Q. clear - Fl Q Np. induction Fl as [|(r, u) y l w A _ IH]; constructor.
    - destruct A as (x & A1 & A2 & A3 & A4 & A5). exists x. cbn [fst snd] in *. repeat split; auto. rewrite Q; [exact A4|]. intros ->. apply Np. now left.
    - apply IH. intro I. apply Np. now right. }
  assert (Fin : forall f1, (forall q, q <> p -> f1 q = f q) -> f1 p = b p ->
     (forall q, p = q \/ In q (map fst l) -> snd (restore_loop l w f1) q = b q) /\ (forall q, ~ (p = q \/ In q (map fst l)) -> snd (restore_loop l w f1) q = f q)).
  { intros f1 Q E. destruct (IH b w f1 Dl (Keep f1 Q)) as (I1 & I2). split.
    - intros q [<-|I]; [|exact (I1 q I)]. now rewrite (I2 p Np).
    - intros q N. rewrite I2 by tauto. apply Q. intros ->. tauto. }
  destruct ((v >=? 0) && negb (v =? want)) eqn:C.
  - apply andb_true_iff in C. destruct C as (_ & C). apply negb_true_iff in C. destruct Wx as [Wx|Wx]; [lia|].
    unfold write_proc. rewrite Fx. cbn [f_w f_r]. rewrite Wx. cbn [Z.ltb Z.compare]. apply Fin; [intros; now apply upd_other|]. rewrite upd_same, Bx, Ev. destruct x as [vx rx wx]; cbn [f_val f_r f_w] in *. now rewrite Wx.
  - apply Fin; [auto|]. rewrite Fx, Bx. destruct x as [vx rx wx]; cbn [f_val f_r f_w] in *. f_equal. f_equal.
    apply andb_false_iff in C. destruct C as [C|C]; [lia|]. apply negb_false_iff in C. lia.
Qed.

Definition Inv (b : fs) (s : sst) : Prop :=
  (forall p, sane (b p)) /\ s_ub s = false /\ (if s_run s then good b s else forall p, s_fs s p = b p).
Lemma downs : forall b l s, good b s -> incl (map i_name (s_ifs s)) (map i_name l) ->
  let s' := fold_left (fun s x => if_down false (i_name x) s) l s in good b s' /\ s_run s' = s_run s /\ map i_name (s_ifs s') = map i_name (s_ifs s) /\
  (forall x, In x (s_ifs s') -> i_up x = false).
Proof.
  intros b l s H Ic.
  assert (G : forall l s, good b s -> let s' := fold_left (fun s x => if_down false (i_name x) s) l s in good b s' /\ s_run s' = s_run s /\ map i_name (s_ifs s') = map i_name (s_ifs s) /\
     (forall x, In x (s_ifs s') -> In (i_name x) (map i_name l) \/ In x (s_ifs s) -> In (i_name x) (map i_name l) -> i_up x = false) /\
     (forall x, In x (s_ifs s') -> i_up x = true -> In x (s_ifs s))).
  { clear. induction l as [|y l IH]; intros s H; cbn [fold_left map].
    - cbv zeta. repeat split; try apply H; auto. intros x _ _ [].
    - destruct H as (H & Z0). destruct (if_down_R b (i_name y) s H (fun x I _ => Z0 x I)) as (A & B & C & D & E & F & _).
      destruct (IH _ (conj A B)) as (I1 & I2 & I3 & I4 & I5). cbv zeta. split; [exact I1|]. split; [congruence|]. split; [congruence|]. split.
      + intros x Ix _ [Q|Q]; [|apply I4; auto]. destruct (i_up x) eqn:U; [|reflexivity]. pose proof (I5 x Ix U) as K. rewrite (E x K (eq_sym Q)) in U. discriminate U.
      + intros x Ix U. pose proof (I5 x Ix U) as K. destruct (list_eq_dec Z.eq_dec (i_name x) (i_name y)) as [Q|Q]; [rewrite (E x K Q) in U; discriminate U|]. exact (F x K Q). }
  destruct (G l s H) as (A & B & C & D & _). cbv zeta. repeat split; try apply A; auto.
  intros x Ix. assert (I : In (i_name x) (map i_name l)) by (apply Ic; rewrite <- C; now apply in_map). apply D; auto.
Qed.
Lemma inv_finish : forall b s, Inv b s -> s_run s = true -> Inv b (finish false s).
Proof.
  intros b s (Sa & U & H) Rn. rewrite Rn in H. unfold finish. destruct (downs b (s_ifs s) s H (incl_refl _)) as (H1 & R1 & _ & D1).
  set (s1 := fold_left _ (s_ifs s) s) in *. destruct H1 as (H1 & _). split; [exact Sa|]. split; [exact (r_ub _ _ H1)|]. cbn [s_run s_fs].
  unfold kernel_setup_0. cbn [set_old set_fs s_fs s_was]. destruct (restore_spec settings b (s_was s1) (s_fs s1) settings_nodup (r_set _ _ H1)) as (A & B).
  intro p. destruct (in_dec (list_eq_dec Z.eq_dec) p (map fst settings)) as [I|I]; [exact (A p I)|]. rewrite (B p I).
  destruct (in_dec (list_eq_dec Z.eq_dec) p (map (fun x => rp (i_name x)) (s_ifs s1))) as [J|J].
  - apply in_map_iff in J. destruct J as (x & <- & Ix). pose proof (r_ok _ _ H1 x Ix) as K. unfold okR, occupied in K. rewrite (D1 x Ix) in K. exact (proj1 K).
  - apply (r_else _ _ H1); [exact I|]. intros x Ix E. apply J. apply in_map_iff. exists x. auto.
Qed.
Lemma saved_base : forall f b f' l w, (forall p, f p = b p) -> Forall2 (saved f f') l w -> Forall2 (saved b f') l w.
Proof. intros f b f' l w E H. induction H as [|pw v l w A _ IH]; constructor; auto. destruct A as (x & A1 & A). exists x. now rewrite <- E. Qed.
Lemma inv_start : forall b s a c, Inv b s -> s_run s = false -> ready (s_fs s) -> Inv b (start false a c s).
Proof.
  intros b s a c (Sa & U & H) Rn Rd. rewrite Rn in H. unfold start, kernel_setup_1. cbv zeta. cbn [s_fs s_old s_ifs s_ub s_run].
  destruct a; cbn [negb]; [|cbn [Z.ltb Z.compare]; split; [exact Sa|]; split; [exact U|exact H]].
  pose proof (setup_loop_spec settings (s_fs s) settings_nodup) as Q. specialize (Q ltac:(intro p; rewrite H; apply Sa) Rd).
  destruct (setup_loop settings (s_fs s)) as ((rc, was), f'). destruct Q as (-> & F2 & Fr). cbn [Z.ltb Z.compare].
  pose proof (saved_base _ b f' _ _ H F2) as F2b. destruct c; cbn [negb].
  - split; [exact Sa|]. split; [exact U|]. cbn [s_run]. split.
    + constructor; cbn [s_fs s_was s_old s_ifs s_ub map length]; auto; try (intros; contradiction); try constructor; try lia.
      intros p Np _. now rewrite (Fr p Np).
    + intros x [].
  - split; [exact Sa|]. split; [exact U|]. unfold kernel_setup_0. cbn [set_old set_fs s_run s_fs s_was].
    destruct (restore_spec settings b was f' settings_nodup F2b) as (A & B). intro p.
    destruct (in_dec (list_eq_dec Z.eq_dec) p (map fst settings)) as [I|I]; [exact (A p I)|]. now rewrite (B p I), (Fr p I).
Qed.
Lemma inv_file : forall b s p o, Inv b s -> fair false s (VFile p o) -> Inv (upd b p o) (set_fs (upd (s_fs s) p o) s).
Proof.
  intros b s p o (Sa & U & H) (So & Fr). split; [|split; [exact U|]].
  { intro q. unfold upd. destruct (beq q p); auto. }
  cbn [set_fs s_run s_fs]. destruct (s_run s) eqn:Rn.
  2:{ intro q. unfold upd. destruct (beq q p); [reflexivity|apply H]. }
  destruct H as (H & Z0).
  assert (Np : ~ In p (map fst settings)). { destruct Fr as [Fr|(_ & Fr)]; [|exact Fr]. intro I. apply Fr. split; [exact Rn|]. now left. }
  assert (On : forall x, In x (s_ifs s) -> rp (i_name x) = p -> i_up x = true -> o = None).
  { intros x Ix E Hu. destruct Fr as [Fr|(Fr & _)]; [|exact Fr]. exfalso. apply Fr. split; [exact Rn|]. right. exists x. split; [exact Ix|]. split; [exact Hu|now symmetry]. }
  destruct H as [H1 H2 H3 H4 H5 H6 H7 H8 H9]. split.
  - constructor; cbn [set_fs s_ifs s_fs s_old s_was s_ub]; auto.
    + intros x Ix. pose proof (H6 x Ix) as K. unfold okR in *. destruct (list_eq_dec Z.eq_dec (rp (i_name x)) p) as [E|E].
      * destruct (occupied x) eqn:Oc.
        -- assert (Hu : i_up x = true) by (unfold occupied in Oc; apply andb_true_iff in Oc; destruct Oc as (Oc & _); apply andb_true_iff in Oc; tauto).
           rewrite (On x Ix E Hu). destruct K as (v & Iv & _). exists v. split; [exact Iv|]. rewrite E. unfold back, write_proc. cbn [set_fs s_fs].
           rewrite upd_same. destruct (v >? 0); cbn [snd]; now rewrite ?upd_same.
        -- destruct K as (_ & K). split; [|exact K]. rewrite E. cbn [set_fs s_fs]. now rewrite !upd_same.
      * destruct (occupied x).
        -- destruct K as (v & Iv & B). exists v. split; [exact Iv|]. rewrite (upd_other b) by exact E. rewrite <- B. unfold back, write_proc. cbn [set_fs s_fs]. rewrite (upd_other _ _ _ _ E).
           destruct (v >? 0); [|reflexivity]. destruct (s_fs s (rp (i_name x))) as [y|]; [destruct (f_w y)|]; cbn [snd]; rewrite ?upd_same; try reflexivity; now rewrite upd_other.
        -- destruct K as (K1 & K2). split; [|exact K2]. cbn [set_fs s_fs]. rewrite !upd_other by exact E. exact K1.
    + intros q Nq Nx. unfold upd. destruct (beq q p); [reflexivity|]. now apply H7.
    + assert (G : forall l w, (forall q, In q (map fst l) -> In q (map fst settings)) -> Forall2 (saved b (s_fs s)) l w -> Forall2 (saved (upd b p o) (upd (s_fs s) p o)) l w).
      { intros l w Ic F. induction F as [|(q, u) y l w A _ IH]; constructor.
        - assert (N : q <> p) by (intros ->; apply Np, Ic; now left). destruct A as (x & A). exists x. cbn [fst snd] in *. now rewrite !upd_other by exact N.
        - apply IH. intros r Ir. apply Ic. now right. }
      apply G; auto.
  - intros x Ix Hu. destruct (Z0 x Ix Hu) as (A & B & C). split; [exact A|]. split; [exact B|]. cbn [set_fs s_fs].
    destruct (list_eq_dec Z.eq_dec (rp (i_name x)) p) as [E|E]; [left; rewrite E, upd_same; now apply (On x)|]. now rewrite upd_other.
Qed.
Lemma inv_step : forall b s ev, Inv b s -> fair false s ev ->
  Inv (match ev with VFile p o => upd b p o | _ => b end) (sstep false s ev).
Proof.
  intros b s ev H Fa. destruct ev as [a c|n|n k oper ok|n| |p o]; cbn [sstep]; try (now apply inv_file);
    destruct (s_run s) eqn:Rn; cbn [negb]; try exact H.
  - destruct Fa as [Fa|Fa]; [discriminate Fa|]. now apply inv_start.
  - destruct Fa as (F1 & F2). destruct H as (Sa & U & H). rewrite Rn in H. destruct (good_add b n s H F1 F2) as (A & B). split; [exact Sa|]. split; [exact (r_ub _ _ (proj1 A))|]. now rewrite B, Rn.
  - destruct H as (Sa & U & H). rewrite Rn in H. destruct (good_check b n k oper ok s H Sa) as (A & B). split; [exact Sa|]. split; [exact (r_ub _ _ (proj1 A))|]. now rewrite B, Rn.
  - destruct H as (Sa & U & H). rewrite Rn in H. destruct (good_flush b n s H) as (A & B). split; [exact Sa|]. split; [exact (r_ub _ _ (proj1 A))|]. now rewrite B, Rn.
  - now apply inv_finish.
Qed.
Lemma without_snoc : forall f evs ev, without f (evs ++ [ev]) = match ev with VFile p o => upd (without f evs) p o | _ => without f evs end.
Proof. intros. unfold without. rewrite fold_left_app. destruct ev; reflexivity. Qed.
Lemma srun_snoc : forall k f evs ev, srun k f (evs ++ [ev]) = sstep k (srun k f evs) ev.
Proof. intros. unfold srun. now rewrite fold_left_app. Qed.
Lemma inv_all : forall f evs, (forall p, sane (f p)) -> fair_run false f evs -> Inv (without f evs) (srun false f evs).
Proof.
  intros f evs Sa. induction evs as [|ev evs IH] using rev_ind; intro Fa.
  - split; [exact Sa|]. split; [reflexivity|]. intro p. reflexivity.
  - rewrite without_snoc, srun_snoc. apply inv_step.
    + apply IH. intros a e b E. apply (Fa a e (b ++ [ev])). rewrite E, <- app_assoc. reflexivity.
    + exact (Fa evs ev [] eq_refl).
Qed.

(** ** Nothing else is touched, whatever happens *)
Definition touches (P : list Z -> Prop) (s s' : sst) : Prop := forall q, ~ P q -> s_fs s' q = s_fs s q.
Lemma setup_touch : forall k u n s, (forall q, q <> rp n -> s_fs (snd (setup_interface k u n s)) q = s_fs s q) /\ s_ifs (snd (setup_interface k u n s)) = s_ifs s.
Proof.
  intros k u n s. unfold setup_interface. destruct k; [auto|]. destruct (_ >=? 100); [auto|]. destruct (get_old_if n (s_old s)) as ([i|], old); destruct u; cbv zeta; cbn [snd set_old set_ub s_fs s_ifs]; auto.
  - destruct (_ =? 0); cbn [snd set_old s_fs s_ifs]; auto. destruct (write_proc _ _ _) as (rc, f) eqn:E. cbn [snd set_fs set_old s_fs s_ifs]. split; [|reflexivity]. intros q N.
    pose proof (write_other (s_fs s) (rp n) 0 q N) as Q. rewrite E in Q. exact Q.
  - destruct (_ >? 0); cbn [snd set_fs set_old s_fs s_ifs]; auto. split; [|reflexivity]. intros q N. now apply write_other.
Qed.
Lemma down_touch : forall k n s, (forall q, q <> rp n -> s_fs (if_down k n s) q = s_fs s q) /\ map i_name (s_ifs (if_down k n s)) = map i_name (s_ifs s).
Proof.
  intros k n s. unfold if_down. destruct (get_kif n (s_ifs s)) as [x|]; [|auto]. destruct (negb (i_up x)); [auto|].
  set (s1 := set_ifs _ s). assert (E : map i_name (s_ifs s1) = map i_name (s_ifs s)) by (apply map_names; reflexivity).
  destruct (i_index x >? 0); [|split; [reflexivity|exact E]]. destruct (setup_touch k false n s1) as (A & B). split; [intros q N; now rewrite (A q N)|]. now rewrite B.
Qed.
Lemma up_touch : forall k ok n s, (forall q, q <> rp n -> s_fs (if_come_up k ok n s) q = s_fs s q) /\ map i_name (s_ifs (if_come_up k ok n s)) = map i_name (s_ifs s).
Proof.
  intros k ok n s. unfold if_come_up. destruct (get_kif n (s_ifs s)) as [x|]; [|auto]. destruct (i_up x); [auto|].
  set (s1 := set_ifs _ s). assert (E : map i_name (s_ifs s1) = map i_name (s_ifs s)) by (apply map_names; reflexivity).
  assert (D : forall s2, (forall q, q <> rp n -> s_fs s2 q = s_fs s q) -> map i_name (s_ifs s2) = map i_name (s_ifs s) ->
    (forall q, q <> rp n -> s_fs (if_down k n s2) q = s_fs s q) /\ map i_name (s_ifs (if_down k n s2)) = map i_name (s_ifs s)).
  { intros s2 A B. destruct (down_touch k n s2) as (C & F). split; [intros q N; rewrite (C q N); auto|congruence]. }
  destruct (i_index x <=? 0); [now apply D|]. destruct (setup_touch k true n s1) as (A & B). destruct (setup_interface k true n s1) as (rc, s2). cbn [snd] in A, B.
  assert (B2 : map i_name (s_ifs s2) = map i_name (s_ifs s)) by (now rewrite B).
  destruct (rc <? 0); [now apply D|]. destruct ok; [|now apply D]. split; [exact A|exact B2].
Qed.
Lemma check_touch : forall k n i oper ok s, (forall q, ~ In q (map (fun x => rp (i_name x)) (s_ifs s)) -> s_fs (check_if k n i oper ok s) q = s_fs s q) /\
  map i_name (s_ifs (check_if k n i oper ok s)) = map i_name (s_ifs s).
Proof.
  intros k n i oper ok s. unfold check_if. destruct (get_kif n (s_ifs s)) as [x|] eqn:G; [|auto]. cbv zeta. destruct (get_in _ _ _ G) as (Ix & En).
  assert (Nq : forall q, ~ In q (map (fun x => rp (i_name x)) (s_ifs s)) -> q <> rp n).
  { intros q N ->. apply N. apply in_map_iff. exists x. now rewrite En. }
  set (s1 := if i =? i_index x then s else _).
  assert (H1 : (forall q, q <> rp n -> s_fs s1 q = s_fs s q) /\ map i_name (s_ifs s1) = map i_name (s_ifs s)).
  { unfold s1. destruct (i =? i_index x); [auto|]. destruct (down_touch k n s) as (A & B). cbn [set_ifs s_fs s_ifs]. split; [exact A|]. rewrite map_names; auto. }
  destruct H1 as (A & B). destruct (Bool.eqb _ _); [auto|]. destruct (if i >? 0 then oper else false).
  - destruct (up_touch k ok n s1) as (C & D). split; [intros q N; rewrite (C q (Nq q N)); auto|congruence].
  - destruct (down_touch k n s1) as (C & D). split; [intros q N; rewrite (C q (Nq q N)); auto|congruence].
Qed.
Lemma setup_loop_touch : forall l f q, ~ In q (map fst l) -> snd (setup_loop l f) q = f q.
Proof.
  induction l as [|(p, w) l IH]; intros f q N; cbn [setup_loop]; [reflexivity|]. cbn [map fst In] in N. destruct (_ <? 0); [reflexivity|].
  assert (Q : forall rc f1, (if read_proc f p =? w then (1, f) else write_proc f p w) = (rc, f1) -> f1 q = f q).
  { intros rc f1. destruct (_ =? _); intro E; [now injection E as <- <-|]. pose proof (write_other f p w q) as W. rewrite E in W. apply W. intros ->. tauto. }
  destruct (if read_proc f p =? w then (1, f) else write_proc f p w) as (rc, f1). specialize (Q rc f1 eq_refl). destruct (rc <? 0); [exact Q|].
  specialize (IH f1 q). destruct (setup_loop l f1) as ((rc2, was), f2). cbn [snd] in *. rewrite IH; [exact Q|tauto].
Qed.
Lemma restore_touch : forall l w f q, ~ In q (map fst l) -> snd (restore_loop l w f) q = f q.
Proof.
  induction l as [|(p, v) l IH]; intros [|y w] f q N; cbn [restore_loop]; try reflexivity. cbn [map fst In] in N.
  destruct (_ && _); [|apply IH; tauto]. pose proof (write_other f p y q) as W. destruct (write_proc f p y) as (rc, f1). cbn [snd] in W.
  destruct (rc <? 0); [apply W; intros ->; tauto|]. rewrite IH by tauto. apply W. intros ->. tauto.
Qed.
Lemma downs_touch : forall k l s, (forall q, ~ In q (map (fun x => rp (i_name x)) l) -> s_fs (fold_left (fun s x => if_down k (i_name x) s) l s) q = s_fs s q) /\
  map i_name (s_ifs (fold_left (fun s x => if_down k (i_name x) s) l s)) = map i_name (s_ifs s).
Proof.
  induction l as [|y l IH]; intro s; cbn [fold_left map]; [auto|]. destruct (IH (if_down k (i_name y) s)) as (A & B). destruct (down_touch k (i_name y) s) as (C & D).
  split; [|congruence]. intros q N. cbn [In] in N. rewrite A by tauto. apply C. intros ->. tauto.
Qed.
Lemma only_all : forall k f evs, (forall x, In x (s_ifs (srun k f evs)) -> added evs (i_name x)) /\
  (forall q, ~ In q (map fst settings) -> (forall n, added evs n -> q <> rp n) -> s_fs (srun k f evs) q = without f evs q).
Proof.
  intros k f. induction evs as [|ev evs (IN & IF)] using rev_ind; [split; [intros x []|reflexivity]|].
  assert (Ad : forall n, added evs n -> added (evs ++ [ev]) n) by (intros n I; apply in_app_iff; now left).
  rewrite srun_snoc, without_snoc. set (s := srun k f evs) in *. set (b := without f evs) in *.
  assert (Nm : forall s', map i_name (s_ifs s') = map i_name (s_ifs s) -> forall x, In x (s_ifs s') -> added (evs ++ [ev]) (i_name x)).
  { intros s' E x Ix. apply Ad. apply (in_map i_name) in Ix. rewrite E in Ix. apply in_map_iff in Ix. destruct Ix as (y & <- & Iy). now apply IN. }
  assert (Nq : forall q, (forall n, added (evs ++ [ev]) n -> q <> rp n) -> ~ In q (map (fun x => rp (i_name x)) (s_ifs s))).
  { intros q Hq I. apply in_map_iff in I. destruct I as (x & <- & Ix). exact (Hq _ (Ad _ (IN x Ix)) eq_refl). }
  assert (Old : forall q, ~ In q (map fst settings) -> (forall n, added (evs ++ [ev]) n -> q <> rp n) -> s_fs s q = b q) by (intros q N Hq; apply IF; auto).
  destruct ev as [a c|n|n i oper ok|n| |p o]; cbn [sstep].
  - destruct (s_run s); [split; [now apply Nm|exact Old]|]. unfold start, kernel_setup_1. cbv zeta. cbn [s_fs s_old s_ifs s_ub s_run].
    destruct a; cbn [negb]; [|cbn [Z.ltb Z.compare]; split; [intros x []|exact Old]]. destruct k.
    + cbn [Z.ltb Z.compare]. destruct c; cbn [negb]; (split; [intros x []|exact Old]).
    + pose proof (setup_loop_touch settings (s_fs s)) as Q. destruct (setup_loop settings (s_fs s)) as ((rc, was), f'). cbn [snd] in Q.
      destruct (rc <? 0); [split; [intros x []|]; intros q N Hq; cbn [s_fs]; rewrite (Q q N); auto|].
      destruct c; cbn [negb]; (split; [intros x []|]); intros q N Hq; cbn [kernel_setup_0 set_old set_fs s_fs s_was]; rewrite ?restore_touch by exact N; rewrite (Q q N); auto.
  - destruct (s_run s); cbn [negb]; [|split; [now apply Nm|exact Old]]. unfold add_if. destruct (get_kif n (s_ifs s)); [split; [now apply Nm|exact Old]|].
    split; [|exact Old]. intros x I. cbn [set_ifs s_ifs] in I. apply in_app_iff in I. destruct I as [I|[<-|[]]]; [now apply Ad, IN|]. apply in_app_iff. right. now left.
  - destruct (s_run s); cbn [negb]; [|split; [now apply Nm|exact Old]]. destruct (check_touch k n i oper ok s) as (A & B). split; [now apply Nm|]. intros q N Hq. rewrite (A q (Nq q Hq)). auto.
  - destruct (s_run s); cbn [negb]; [|split; [now apply Nm|exact Old]]. unfold flush_kif. destruct (down_touch k n s) as (A & B). cbn [set_ifs s_ifs s_fs]. split.
    + intros x I. apply filter_In in I. now apply (Nm (if_down k n s) B).
    + intros q N Hq. destruct (list_eq_dec Z.eq_dec q (rp n)) as [->|E]; [|rewrite (A q E); auto].
      unfold if_down. destruct (get_kif n (s_ifs s)) as [x|] eqn:G; [|auto]. exfalso. destruct (get_in _ _ _ G) as (Ix & En). apply (Nq _ Hq). apply in_map_iff. exists x. now rewrite En.
  - destruct (s_run s); cbn [negb]; [|split; [now apply Nm|exact Old]]. unfold finish. destruct (downs_touch k (s_ifs s) s) as (A & B).
    set (s1 := fold_left _ (s_ifs s) s) in *. split.
    + intros x I. apply (Nm s1 B). unfold kernel_setup_0 in I. destruct k; exact I.
    + intros q N Hq. unfold kernel_setup_0. destruct k; cbn [set_old set_fs s_fs s_was]; rewrite ?restore_touch by exact N; rewrite (A q (Nq q Hq)); auto.
  - split; [now apply Nm|]. intros q N Hq. cbn [set_fs s_fs]. unfold upd. destruct (beq q p); [reflexivity|auto].
Qed.

(** ** Without the setup nothing is written *)
Lemma skip_down : forall n s, s_fs (if_down true n s) = s_fs s /\ s_ub (if_down true n s) = s_ub s.
Proof. intros. unfold if_down. destruct (get_kif n (s_ifs s)); [|auto]. destruct (negb _); [auto|]. destruct (_ >? 0); auto. Qed.
Lemma skip_up : forall ok n s, s_fs (if_come_up true ok n s) = s_fs s /\ s_ub (if_come_up true ok n s) = s_ub s.
Proof.
  intros. unfold if_come_up. destruct (get_kif n (s_ifs s)); [|auto]. destruct (i_up k); [auto|]. set (s1 := set_ifs _ s). destruct (skip_down n s1) as (A & B).
  destruct (_ <=? 0); [auto|]. cbn [setup_interface Z.ltb Z.compare]. destruct ok; auto.
Qed.
Lemma skip_all : forall f evs, (forall q, s_fs (srun true f evs) q = without f evs q) /\ s_ub (srun true f evs) = false.
Proof.
  intros f. induction evs as [|ev evs (IH & U)] using rev_ind; [split; reflexivity|]. rewrite srun_snoc, without_snoc. set (s := srun true f evs) in *.
  assert (G : forall s', s_fs s' = s_fs s /\ s_ub s' = s_ub s -> (forall q, s_fs s' q = without f evs q) /\ s_ub s' = false) by (intros s' (-> & ->); auto).
  destruct ev as [a c|n|n i oper ok|n| |p o]; cbn [sstep].
  - destruct (s_run s); [auto|]. apply G. unfold start, kernel_setup_1. destruct a, c; auto.
  - destruct (s_run s); cbn [negb]; [|auto]. apply G. unfold add_if. destruct (get_kif n (s_ifs s)); auto.
  - destruct (s_run s); cbn [negb]; [|auto]. apply G. unfold check_if. destruct (get_kif n (s_ifs s)) as [x|]; [|auto]. cbv zeta. set (s1 := if i =? i_index x then s else _).
    assert (H1 : s_fs s1 = s_fs s /\ s_ub s1 = s_ub s) by (unfold s1; destruct (_ =? _); [auto|]; exact (skip_down n s)).
    destruct (Bool.eqb _ _); [exact H1|]. destruct H1 as (A & B). destruct (if i >? 0 then oper else false); [destruct (skip_up ok n s1)|destruct (skip_down n s1)]; split; congruence.
  - destruct (s_run s); cbn [negb]; [|auto]. apply G. exact (skip_down n s).
  - destruct (s_run s); cbn [negb]; [|auto]. apply G. unfold finish, kernel_setup_0. cbn [s_fs s_ub set_old].
    assert (D : forall l s, s_fs (fold_left (fun s x => if_down true (i_name x) s) l s) = s_fs s /\ s_ub (fold_left (fun s x => if_down true (i_name x) s) l s) = s_ub s).
    { clear. induction l as [|x l IH]; intro s; cbn [fold_left]; [auto|]. destruct (IH (if_down true (i_name x) s)). destruct (skip_down (i_name x) s). split; congruence. }
    apply D.
  - split; [|exact U]. intro q. cbn [set_fs s_fs]. unfold upd. destruct (beq q p); auto.
Qed.

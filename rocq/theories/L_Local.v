(** L_Local.v: the control sockets. *)
From Coq Require Import String.
From Verif Require Import Base M_Config M_Local S_Local.
Close Scope string_scope.
Open Scope Z_scope.

Lemma cut_line_spec : forall l, match cut_line l with
  | Some (a, b) => l = a ++ b /\ exists body, a = body ++ [10] /\ ~ In 10 body
  | None => ~ In 10 l end.
Proof.
  induction l as [|c l IH]; simpl; [easy|]. destruct (Z.eqb_spec c 10) as [->|N].
  - split; [easy|]. now exists [].
  - destruct (cut_line l) as [(a, b)|].
    + destruct IH as (-> & body & -> & Nb). split; [easy|]. exists (c :: body). split; [easy|]. intros [K|K]; easy.
    + intros [K|K]; easy.
Qed.
Lemma lines_of_app : forall l ls t, lines_of l ls t -> forall d ls2 t2, lines_of (t ++ d) ls2 t2 -> lines_of (l ++ d) (ls ++ ls2) t2.
Proof.
  induction 1 as [t N|b l ls t N _ IH]; intros d ls2 t2 H; [exact H|].
  rewrite <- app_assoc. simpl. apply lo_line; auto.
Qed.
Lemma obey_app : forall e l p a p1, obey e l p a p1 -> forall l2 a2 p2, obey e l2 p1 a2 p2 -> obey e (l ++ l2) p (a ++ a2) p2.
Proof. induction 1; intros; [easy|]. simpl. econstructor; eauto. Qed.
Lemma lines_of_tail : forall l ls t, lines_of l ls t -> ~ In 10 t.
Proof. induction 1; easy. Qed.
Lemma split_10 : forall (a b x y : list Z), a ++ 10 :: x = b ++ 10 :: y -> ~ In 10 a -> ~ In 10 b -> a = b /\ x = y.
Proof.
  induction a as [|c a IH]; intros [|d b] x y E Na Nb; simpl in E.
  - now injection E.
  - injection E as <- _. exfalso. apply Nb. now left.
  - injection E as -> _. exfalso. apply Na. now left.
  - injection E as <- E. destruct (IH b x y E) as (-> & ->); [|  |easy].
    + intros K. apply Na. now right.
    + intros K. apply Nb. now right.
Qed.
Lemma lines_of_fun : forall l ls t, lines_of l ls t -> forall ls2 t2, lines_of l ls2 t2 -> ls2 = ls /\ t2 = t.
Proof.
  induction 1 as [t N|b l ls t N _ IH]; intros ls2 t2 H.
  - inversion H; subst; [easy|]. exfalso. apply N. apply in_or_app. right. now left.
  - inversion H as [t' N' E|b' l' ls' t' N' H' E]; subst.
    + exfalso. apply N'. apply in_or_app. right. now left.
    + destruct (split_10 _ _ _ _ E N' N) as (-> & ->). destruct (IH _ _ H') as (-> & ->). easy.
Qed.
Lemma obey_fun : forall e l p a p1, obey e l p a p1 -> forall a2 p2, obey e l p a2 p2 -> a2 = a /\ p2 = p1.
Proof.
  induction 1 as [|l ls p a m p1 acts p2 E _ IH]; intros a2 q H; inversion H as [|? ? ? ? ? ? ? ? E' H']; subst; [easy|].
  rewrite E in E'. injection E' as <- <- <-. destruct (IH _ _ H') as (-> & ->). easy.
Qed.

(** ** One read *)
Lemma lines_spec : forall e fuel reply s p k log, (length (k_buf s) < fuel)%nat ->
  let x := lines e (fun _ => WOk) fuel reply s p k log in
  lr_rc x = 1 /\ k_fd (lr_sock x) = k_fd s /\
  exists new, lr_log x = log ++ new /\ lines_of (k_buf s) (map v_line new) (k_buf (lr_sock x)) /\
    obey e (map v_line new) p (map v_act new) (lr_p x).
Proof.
  induction fuel as [|fuel IH]; intros reply s p k log F; [lia|]. cbn [lines].
  pose proof (cut_line_spec (k_buf s)) as C. destruct (cut_line (k_buf s)) as [(line, rest)|].
  2:{ cbn. split; [easy|]. split; [easy|]. exists []. rewrite app_nil_r. split; [easy|]. split; constructor. easy. }
  destruct C as (Eb & body & -> & Nb). destruct (from_string e (body ++ [10]) p) as ((a, m), p1) eqn:Es.
  cbv zeta. set (r := reply_for a m reply). set (s1 := mkSock _ rest _ _).
  assert (Q : forall k', let x := lines e (fun _ => WOk) fuel r s1 p1 k' (log ++ [mkServed (body ++ [10]) a r]) in
    lr_rc x = 1 /\ k_fd (lr_sock x) = k_fd s /\
    exists new, lr_log x = log ++ new /\ lines_of (k_buf s) (map v_line new) (k_buf (lr_sock x)) /\
      obey e (map v_line new) p (map v_act new) (lr_p x)).
  { intros k'. cbv zeta. destruct (IH r s1 p1 k' (log ++ [mkServed (body ++ [10]) a r])) as (A1 & A2 & new & A3 & A4 & A5).
    { cbn [k_buf s1]. rewrite Eb, !app_length in F. simpl in F. lia. }
    split; [exact A1|]. split; [exact A2|]. exists (mkServed (body ++ [10]) a r :: new).
    split; [rewrite A3, <- app_assoc; easy|]. cbn [map v_line v_act]. split.
    - rewrite Eb, <- app_assoc. simpl. now constructor.
    - econstructor; eauto. }
  destruct r; apply Q.
Qed.
Lemma read_spec : forall e d s p, Z.of_nat (length (k_buf s)) + Z.of_nat (length d) <= BUFSIZE -> d <> [] ->
  let x := local_read e (RData d) (fun _ => WOk) s p 0 in
  lr_rc x = 1 /\ lines_of (k_buf s ++ d) (map v_line (lr_log x)) (k_buf (lr_sock x)) /\
  obey e (map v_line (lr_log x)) p (map v_act (lr_log x)) (lr_p x).
Proof.
  intros e d s p F N. cbv zeta. unfold local_read.
  assert (Hd : (0 < length d)%nat) by (destruct d; [easy|simpl; lia]).
  destruct (Z.geb_spec (Z.of_nat (length (k_buf s))) BUFSIZE); [lia|].
  rewrite firstn_all2 by lia.
  destruct (lines_spec e (S (length (k_buf s ++ d))) reply0 (mkSock (k_fd s) (k_buf s ++ d) (k_mon s) (k_shut s)) p 0 [])
    as (A1 & _ & new & A2 & A3 & A4); [cbn [k_buf]; lia|].
  cbn [k_buf app] in *. rewrite A2. auto.
Qed.
Lemma reading_spec : forall e s p ds log s2 p2, reading e s p ds log s2 p2 -> ~ In 10 (k_buf s) ->
  lines_of (k_buf s ++ concat ds) (map v_line log) (k_buf s2) /\ obey e (map v_line log) p (map v_act log) p2.
Proof.
  induction 1 as [s p|s p d x ds log s2 p2 N F E H IH]; intros B.
  - simpl. rewrite app_nil_r. split; constructor; easy.
  - pose proof (read_spec e d s p F N) as Q. cbv zeta in Q. rewrite <- E in Q. destruct Q as (_ & A2 & A3).
    destruct (IH (lines_of_tail _ _ _ A2)) as (I1 & I2). simpl concat. rewrite !map_app, app_assoc. split.
    + eapply lines_of_app; eauto.
    + eapply obey_app; eauto.
Qed.

(** ** Bounds *)
Lemma lines_len : forall e ws fuel reply s p k log,
  (length (k_buf (lr_sock (lines e ws fuel reply s p k log))) <= length (k_buf s))%nat.
Proof.
  induction fuel as [|fuel IH]; intros reply s p k log; cbn [lines]; [easy|].
  pose proof (cut_line_spec (k_buf s)) as C. destruct (cut_line (k_buf s)) as [(line, rest)|]; [|easy].
  destruct C as (Eb & _). destruct (from_string e line p) as ((a, m), p1). cbv zeta.
  assert (L : (length rest <= length (k_buf s))%nat) by (rewrite Eb, app_length; lia).
  destruct (reply_for a m reply).
  - etransitivity; [apply IH|exact L].
  - destruct (ws k); [etransitivity; [apply IH|exact L]|easy].
Qed.
Lemma read_len : forall e r ws s p k, Z.of_nat (length (k_buf s)) <= BUFSIZE ->
  Z.of_nat (length (k_buf (lr_sock (local_read e r ws s p k)))) <= BUFSIZE.
Proof.
  intros e r ws s p k H. unfold local_read. destruct (Z.geb_spec (Z.of_nat (length (k_buf s))) BUFSIZE); [exact H|].
  destruct r; try exact H. cbv zeta.
  match goal with |- Z.of_nat (length (k_buf (lr_sock (lines ?e ?ws ?f ?r ?s ?p ?k ?l)))) <= _ =>
    pose proof (lines_len e ws f r s p k l) as Q end.
  apply Nat2Z.inj_le in Q. etransitivity; [exact Q|]. cbn [k_buf]. rewrite app_length, firstn_length. lia.
Qed.

(** ** Replies *)
Definition neutral (v : served) : Prop := 0 <= v_act v < ACT_NO /\ v_act v <> ACT_QUIT.
Lemma reply_neutral : forall a m r, 0 <= a < ACT_NO -> a <> ACT_QUIT -> reply_for a m r = r.
Proof.
  intros a m r H N. unfold reply_for, ACT_NO, ACT_QUIT, ACT_DONE, ACT_DUMP, ACT_MONITOR, ACT_UNMONITOR in *.
  assert (a = 0 \/ a = 2 \/ a = 3 \/ a = 4) as [->|[->|[->| ->]]] by lia; reflexivity.
Qed.
Lemma reply_for_due : forall a m, reply_due a m (reply_for a m reply0).
Proof.
  intros a m. split; [intros ->; reflexivity|]. split; [|split].
  - intros -> x -> L. unfold reply_for. cbn -[firstn app]. rewrite firstn_all2; [reflexivity|].
    simpl. rewrite app_length. simpl. lia.
  - intros A N. now apply reply_neutral.
  - intros A. unfold reply_for, ACT_NO, ACT_QUIT, ACT_DONE, ACT_DUMP, ACT_MONITOR, ACT_UNMONITOR in *.
    repeat match goal with |- context [?x =? ?y] => destruct (Z.eqb_spec x y); [lia|] end. reflexivity.
Qed.
Lemma lines_log : forall e ws f r s p k lg, exists t, lr_log (lines e ws f r s p k lg) = lg ++ t.
Proof.
  intros e ws. induction f as [|f IH]; intros r s p k lg; cbn [lines]; [exists []; now rewrite app_nil_r|].
  destruct (cut_line (k_buf s)) as [(line, rest)|]; [|exists []; now rewrite app_nil_r].
  destruct (from_string e line p) as ((a, m), p1). cbv zeta.
  destruct (reply_for a m r) as [|x y].
  - match goal with |- context [lines e ws f ?r ?s ?p ?k (lg ++ ?v)] => destruct (IH r s p k (lg ++ v)) as (t & ->) end.
    rewrite <- app_assoc. eauto.
  - destruct (ws k); [|cbn; eauto].
    match goal with |- context [lines e ws f ?r ?s ?p ?k (lg ++ ?v)] => destruct (IH r s p k (lg ++ v)) as (t & ->) end.
    rewrite <- app_assoc. eauto.
Qed.
Lemma lines_replies : forall e ws fuel s p k log,
  exists new, lr_log (lines e ws fuel reply0 s p k log) = log ++ new /\
    forall l1 v l2, new = l1 ++ v :: l2 -> Forall neutral l1 ->
      exists q m q', from_string e (v_line v) q = (v_act v, m, q') /\ reply_due (v_act v) m (v_reply v).
Proof.
  induction fuel as [|fuel IH]; intros s p k log; cbn [lines].
  { exists []. rewrite app_nil_r. split; [easy|]. intros l1 v l2 E. now destruct l1. }
  destruct (cut_line (k_buf s)) as [(line, rest)|].
  2:{ exists []. rewrite app_nil_r. split; [easy|]. intros l1 v l2 E. now destruct l1. }
  destruct (from_string e line p) as ((a, m), p1) eqn:Es. cbv zeta.
  set (s1 := mkSock _ rest _ _). set (v0 := mkServed line a _).
  assert (V0 : exists q m q', from_string e (v_line v0) q = (v_act v0, m, q') /\ reply_due (v_act v0) m (v_reply v0)).
  { exists p, m, p1. split; [exact Es|]. apply reply_for_due. }
  destruct (Z_lt_dec a 0) as [Na|Na]; [|destruct (Z_lt_dec a ACT_NO) as [Nb|Nb]; [destruct (Z.eq_dec a ACT_QUIT) as [Nc|Nc]|]].
  3:{ assert (Er : reply_for a m reply0 = reply0) by (apply reply_neutral; lia).
      rewrite Er. clearbody v0. assert (Hr : match reply0 with [] => False | _ => True end) by exact Logic.I.
      destruct reply0 as [|x y] eqn:Hr0; [easy|]. clear Hr. destruct (ws k).
      + destruct (IH s1 p1 (S k) (log ++ [v0])) as (new & A1 & A2). exists (v0 :: new).
        split; [rewrite A1, <- app_assoc; easy|].
        intros [|v1 l1] v l2 E F; [injection E as <- _; exact V0|]. injection E as <- E. inversion F; subst. eapply A2; eauto.
      + exists [v0]. split; [easy|].
        intros [|v1 l1] v l2 E F; [injection E as <- _; exact V0|]. destruct l1; discriminate E. }
  all: assert (N0 : ~ neutral v0) by (unfold neutral; cbn [v_act v0]; lia);
    assert (Q : forall new, (exists t, new = v0 :: t) -> forall l1 v l2, new = l1 ++ v :: l2 -> Forall neutral l1 ->
      exists q m q', from_string e (v_line v) q = (v_act v, m, q') /\ reply_due (v_act v) m (v_reply v))
      by (intros new (t & ->) [|v1 l1] v l2 E F; [injection E as <- _; exact V0|injection E as <- E; inversion F; subst; easy]).
  all: assert (P : forall x, (exists t, lr_log x = log ++ v0 :: t) -> exists new, lr_log x = log ++ new /\
     forall l1 v l2, new = l1 ++ v :: l2 -> Forall neutral l1 ->
      exists q m q', from_string e (v_line v) q = (v_act v, m, q') /\ reply_due (v_act v) m (v_reply v))
     by (intros x (t & Ex); exists (v0 :: t); split; [exact Ex|apply Q; eauto]).
  all: pose proof (lines_log e ws) as Lg.
  all: apply P.
  all: destruct (reply_for a m reply0) as [|x y] eqn:Er;
    [destruct (Lg fuel [] s1 p1 k (log ++ [v0])) as (t & ->); rewrite <- app_assoc; eexists; reflexivity|];
    destruct (ws k); [destruct (Lg fuel (x :: y) s1 p1 (S k) (log ++ [v0])) as (t & ->); rewrite <- app_assoc; eexists; reflexivity|];
    cbn [lr_log]; exists []; reflexivity.
Qed.

(** ** Serving all the sockets *)
Lemma upd_len : forall A i (x : A) l, (i < length l)%nat -> length (firstn i l ++ x :: skipn (S i) l) = length l.
Proof. intros. rewrite app_length, firstn_length. cbn [length]. rewrite skipn_length. lia. Qed.
Lemma destroy_len : forall i l, (i < length l)%nat -> length (destroy i l) = (length l - 1)%nat.
Proof.
  intros i l H. unfold destroy. destruct (rev l) as [|x y] eqn:E.
  - apply (f_equal (@length sock)) in E. rewrite rev_length in E. simpl in E. lia.
  - assert (Q : forall A (z : list A), length (removelast z) = (length z - 1)%nat).
    { intros A z. induction z as [|z1 z IH]; [easy|]. destruct z; [easy|]. cbn [removelast length] in *. rewrite IH. lia. }
    rewrite Q, upd_len by easy. lia.
Qed.
Lemma lines_again : forall e ws, (forall k, ws k <> WFail true) -> forall fuel reply s p k log,
  lr_again (lines e ws fuel reply s p k log) = false.
Proof.
  intros e ws W. induction fuel as [|fuel IH]; intros reply s p k log; cbn [lines]; [easy|].
  destruct (cut_line (k_buf s)) as [(line, rest)|]; [|easy].
  destruct (from_string e line p) as ((a, m), p1). cbv zeta.
  destruct (reply_for a m reply); [apply IH|]. specialize (W k). destruct (ws k) as [|[]]; [apply IH|easy|easy].
Qed.
Lemma serve_ends : forall e ready rs ws, (forall j, rs j <> RFail true) -> (forall k, ws k <> WFail true) ->
  forall fuel i l p j k log, (length l - i < fuel)%nat ->
  exists l' p' log', serve e ready rs ws fuel i l p j k log = Some (l', p', log') /\
    (length log' <= length log + (length l - i))%nat.
Proof.
  intros e ready rs ws R W. induction fuel as [|fuel IH]; intros i l p j k log F; [lia|]. cbn [serve].
  destruct (nth_error l i) as [s|] eqn:E; [|eexists _, _, _; split; [reflexivity|lia]].
  assert (Hi : (i < length l)%nat) by (apply nth_error_Some; congruence).
  assert (Q : forall l1 p1 j1 k1 log1, (length l1 <= length l)%nat -> length log1 = S (length log) \/ length log1 = length log ->
    exists l' p' log', serve e ready rs ws fuel (S i) l1 p1 j1 k1 log1 = Some (l', p', log') /\ (length log' <= length log + (length l - i))%nat).
  { intros l1 p1 j1 k1 log1 H1 H2. destruct (IH (S i) l1 p1 j1 k1 log1) as (l' & p' & log' & A & B); [lia|].
    eexists _, _, _. split; [exact A|]. lia. }
  destruct (existsb (Z.eqb (k_fd s)) ready); [|apply Q; [lia|now right]]. cbv zeta.
  assert (Ag : lr_again (local_read e (rs j) ws s p k) = false).
  { unfold local_read. destruct (_ >=? BUFSIZE); [easy|]. specialize (R j). destruct (rs j) as [d| |[]]; try easy. now apply lines_again. }
  rewrite Ag, andb_false_r.
  destruct (lr_rc (local_read e (rs j) ws s p k) <=? 0).
  - apply Q; [|left; rewrite app_length; simpl; lia]. rewrite destroy_len; rewrite upd_len by easy; lia.
  - apply Q; [|left; rewrite app_length; simpl; lia]. rewrite upd_len by easy. lia.
Qed.
(** A socket whose read answers EAGAIN is read again at once, for ever. *)
Lemma serve_stalls : forall e ready rs ws s, In (k_fd s) ready -> Z.of_nat (length (k_buf s)) < BUFSIZE ->
  forall fuel i l p j k log, (forall n, (j <= n)%nat -> rs n = RFail true) -> nth_error l i = Some s ->
  serve e ready rs ws fuel i l p j k log = None.
Proof.
  intros e ready rs ws s Hr B. induction fuel as [|fuel IH]; intros i l p j k log R E; [easy|]. cbn [serve]. rewrite E.
  assert (X : existsb (Z.eqb (k_fd s)) ready = true). { apply existsb_exists. exists (k_fd s). split; [easy|apply Z.eqb_refl]. }
  rewrite X. cbv zeta. rewrite (R j (le_n _)). unfold local_read.
  destruct (Z.geb_spec (Z.of_nat (length (k_buf s))) BUFSIZE); [lia|]. cbn [lr_rc lr_again lr_sock lr_p lr_wr lr_log Z.leb Z.ltb Z.compare andb].
  apply IH; [intros n Hn; apply R; lia|].
  rewrite nth_error_app2; rewrite firstn_length_le; try lia; try (apply Nat.lt_le_incl, nth_error_Some; congruence).
  now rewrite Nat.sub_diag.
Qed.

(** ** Monitoring and quitting *)
Definition sw1 (m : bool) (a : Z) : bool := if a =? ACT_MONITOR then true else if a =? ACT_UNMONITOR then false else m.
Lemma sw_keep : forall l m, ~ In ACT_MONITOR l -> ~ In ACT_UNMONITOR l -> fold_left sw1 l m = m.
Proof.
  induction l as [|a l IH]; intros m A B; [reflexivity|]. cbn [fold_left]. rewrite IH by (intros K; cbn in *; tauto).
  unfold sw1. destruct (Z.eqb_spec a ACT_MONITOR) as [->|]; [exfalso; apply A; now left|].
  destruct (Z.eqb_spec a ACT_UNMONITOR) as [->|]; [exfalso; apply B; now left|reflexivity].
Qed.
Lemma sw_true : forall l, ~ In ACT_UNMONITOR l -> fold_left sw1 l true = true.
Proof.
  induction l as [|a l IH]; intros B; [reflexivity|]. cbn [fold_left].
  assert (E : sw1 true a = true).
  { unfold sw1. destruct (a =? ACT_MONITOR); [reflexivity|]. destruct (Z.eqb_spec a ACT_UNMONITOR) as [->|]; [exfalso; apply B; now left|reflexivity]. }
  rewrite E. apply IH. intros K. apply B. now right.
Qed.
Lemma sw_false : forall l, ~ In ACT_MONITOR l -> fold_left sw1 l false = false.
Proof.
  induction l as [|a l IH]; intros B; [reflexivity|]. cbn [fold_left].
  assert (E : sw1 false a = false).
  { unfold sw1. destruct (Z.eqb_spec a ACT_MONITOR) as [->|]; [exfalso; apply B; now left|]. destruct (a =? ACT_UNMONITOR); reflexivity. }
  rewrite E. apply IH. intros K. apply B. now right.
Qed.
Lemma sw_spec : forall l m, switched m l (fold_left sw1 l m).
Proof.
  intros l m. split; [|split].
  - intros l1 l2 -> N. rewrite fold_left_app. cbn [fold_left]. change (sw1 _ ACT_MONITOR) with true. apply sw_true. exact N.
  - intros l1 l2 -> N. rewrite fold_left_app. cbn [fold_left]. change (sw1 _ ACT_UNMONITOR) with false. apply sw_false. exact N.
  - apply sw_keep.
Qed.
Lemma lines_sock : forall e fuel reply s p k log, exists new,
  let x := lines e (fun _ => WOk) fuel reply s p k log in lr_log x = log ++ new /\
  k_fd (lr_sock x) = k_fd s /\
  k_mon (lr_sock x) = fold_left sw1 (map v_act new) (k_mon s) /\
  k_shut (lr_sock x) = k_shut s || existsb (Z.eqb ACT_QUIT) (map v_act new).
Proof.
  induction fuel as [|fuel IH]; intros reply s p k log; cbn [lines].
  { exists []. cbn. rewrite app_nil_r, orb_false_r. auto. }
  destruct (cut_line (k_buf s)) as [(line, rest)|].
  2:{ exists []. cbn. rewrite app_nil_r, orb_false_r. auto. }
  destruct (from_string e line p) as ((a, m), p1). cbv zeta. set (r := reply_for a m reply).
  set (s1 := mkSock _ rest _ _).
  assert (Q : forall k', exists new, let x := lines e (fun _ => WOk) fuel r s1 p1 k' (log ++ [mkServed line a r]) in lr_log x = log ++ new /\
    k_fd (lr_sock x) = k_fd s /\ k_mon (lr_sock x) = fold_left sw1 (map v_act new) (k_mon s) /\
    k_shut (lr_sock x) = k_shut s || existsb (Z.eqb ACT_QUIT) (map v_act new)).
  { intros k'. destruct (IH r s1 p1 k' (log ++ [mkServed line a r])) as (new & A & B & C & D).
    exists (mkServed line a r :: new). cbv zeta in *. rewrite A, B, C, D, <- app_assoc. cbn. split; [reflexivity|]. split; [reflexivity|]. split; [reflexivity|].
    rewrite orb_assoc. f_equal. f_equal. apply Z.eqb_sym. }
  destruct r; [exact (Q k)|exact (Q (S k))].
Qed.
Lemma reading_sock : forall e s p ds log s2 p2, reading e s p ds log s2 p2 ->
  k_fd s2 = k_fd s /\ switched (k_mon s) (map v_act log) (k_mon s2) /\
  (k_shut s2 = true <-> k_shut s = true \/ In ACT_QUIT (map v_act log)).
Proof.
  intros e s p ds log s2 p2 H.
  cut (k_fd s2 = k_fd s /\ k_mon s2 = fold_left sw1 (map v_act log) (k_mon s) /\ k_shut s2 = k_shut s || existsb (Z.eqb ACT_QUIT) (map v_act log)).
  { intros (A & B & C). split; [exact A|]. rewrite B, C. split; [apply sw_spec|]. rewrite orb_true_iff, existsb_exists. split.
    - intros [K|(y & Y & K)]; [auto|]. apply Z.eqb_eq in K. subst y. auto.
    - intros [K|K]; [auto|]. right. exists ACT_QUIT. split; [exact K|reflexivity]. }
  induction H as [s p|s p d x ds log s2 p2 N F E H IH].
  - cbn. rewrite orb_false_r. auto.
  - destruct IH as (A & B & C).
    assert (X : k_fd (lr_sock x) = k_fd s /\ k_mon (lr_sock x) = fold_left sw1 (map v_act (lr_log x)) (k_mon s) /\
      k_shut (lr_sock x) = k_shut s || existsb (Z.eqb ACT_QUIT) (map v_act (lr_log x))).
    { subst x. unfold local_read. destruct (_ >=? BUFSIZE) eqn:G. { exfalso. unfold BUFSIZE in *. destruct d; [now apply N|]. cbn [length] in F. lia. }
      cbv zeta. match goal with |- context [lines e ?ws ?f ?r ?s ?p ?k ?l] => destruct (lines_sock e f r s p k l) as (new & A1 & A2 & A3 & A4) end.
      cbv zeta in *. rewrite A1, A2, A3, A4. cbn. auto. }
    destruct X as (X1 & X2 & X3). rewrite map_app, fold_left_app, existsb_app, A, B, C, X1, X2, X3, orb_assoc. auto.
Qed.

(** L_Eof.v: a last line that does not end with a newline is read as if it did. *)
From Coq Require Import String.
From Verif Require Import Base M_Util M_Filter M_Config.
Close Scope string_scope.
Open Scope Z_scope.
Local Arguments ifconf_loop !fuel c tok name ic p.
Local Arguments filter_loop e !fuel c f ifn p.
Local Arguments key_loop !fuel c k p.

(** The look-ahead and the rest of the input, and those of the input with a newline at its
    end: before the end of the line, and after it *)
Definition sim0 (c : Z) (r : list Z) (c' : Z) (r' : list Z) : Prop :=
  (Forall (fun x => 0 <= x) (c :: r) /\ c' = c /\ r' = r ++ [10]) \/ (c = -1 /\ r = [] /\ c' = 10 /\ r' = []).
Definition sim1 (c : Z) (r : list Z) (c' : Z) (r' : list Z) : Prop :=
  sim0 c r c' r' \/ (c = -1 /\ r = [] /\ c' = -1 /\ r' = []).
(** Some or no input has been consumed *)
Definition shr (c : Z) (r : list Z) (c1 : Z) (r1 : list Z) : Prop :=
  (c1 = -1 /\ r1 = []) \/ exists l, c :: r = l ++ c1 :: r1.
Definition sht (c : Z) (r : list Z) (c1 : Z) (r1 : list Z) : Prop :=
  (c1 = -1 /\ r1 = []) \/ exists l, l <> [] /\ c :: r = l ++ c1 :: r1.
Definition rs {A} (S : Z -> list Z -> Z -> list Z -> Prop) (H : Z -> list Z -> Z -> list Z -> Prop)
  (c : Z) (r : list Z) (R R' : res A) : Prop :=
  match R' with
  | Bad _ => True
  | Good c1' v p' => exists c1 r1, R = Good c1 v (set_in r1 p') /\ S c1 r1 c1' (p_in p') /\ H c r c1 r1
  end.
Lemma shr_refl : forall c r, shr c r c r.
Proof. intros. right. now exists []. Qed.
Lemma sht_shr : forall c r c1 r1, sht c r c1 r1 -> shr c r c1 r1.
Proof. intros c r c1 r1 [H|(l & _ & H)]; [now left|right; eauto]. Qed.
Lemma shr_trans : forall c r c1 r1 c2 r2, shr c r c1 r1 -> shr c1 r1 c2 r2 -> shr c r c2 r2.
Proof.
  intros c r c1 r1 c2 r2 A [B|(l & B)]; [now left|]. destruct A as [(-> & ->)|(l0 & A)].
  - destruct l as [|x l]; cbn in B; [injection B as <- <-; now left|]. injection B as _ B. destruct l; discriminate.
  - right. exists (l0 ++ l). now rewrite A, B, app_assoc.
Qed.
Lemma sht_trans : forall c r c1 r1 c2 r2, sht c r c1 r1 -> shr c1 r1 c2 r2 -> sht c r c2 r2.
Proof.
  intros c r c1 r1 c2 r2 A [B|(l & B)]; [now left|]. destruct A as [(-> & ->)|(l0 & N & A)].
  - destruct l as [|x l]; cbn in B; [injection B as <- <-; now left|]. injection B as _ B. destruct l; discriminate.
  - right. exists (l0 ++ l). split; [now destruct l0|]. now rewrite A, B, app_assoc.
Qed.
Lemma shr_sht : forall c r c1 r1 c2 r2, shr c r c1 r1 -> sht c1 r1 c2 r2 -> sht c r c2 r2.
Proof.
  intros c r c1 r1 c2 r2 A [B|(l & N & B)]; [now left|]. destruct A as [(-> & ->)|(l0 & A)].
  - destruct l as [|x l]; [easy|]. injection B as _ B. destruct l; discriminate.
  - right. exists (l0 ++ l). split; [destruct l0; [easy|discriminate]|]. now rewrite A, B, app_assoc.
Qed.
Lemma sht_len : forall c r c1 r1, sht c r c1 r1 -> (c1 = -1 /\ r1 = []) \/ (S (length r1) <= length r)%nat.
Proof.
  intros c r c1 r1 [H|(l & N & H)]; [now left|right]. apply (f_equal (@length Z)) in H. rewrite app_length in H.
  destruct l; [easy|]. cbn in H. lia.
Qed.
Lemma shr_len : forall c r c1 r1, shr c r c1 r1 -> (c1 = -1 /\ r1 = []) \/ (length r1 <= length r)%nat.
Proof. intros c r c1 r1 [H|(l & H)]; [now left|right]. apply (f_equal (@length Z)) in H. rewrite app_length in H. cbn in H. lia. Qed.
Lemma shr1 : forall c x r c1 r1, shr x r c1 r1 -> sht c (x :: r) c1 r1.
Proof. intros c x r c1 r1 [H|(l & H)]; [now left|right]. exists (c :: l). split; [discriminate|]. cbn. now rewrite H. Qed.

Lemma freet_in : forall t r p, freet t (set_in r p) = set_in r (freet t p).
Proof. intros [t|] r p; auto. unfold freet, is_live. cbn. destruct (existsb (Z.eqb t) (p_live p)); reflexivity. Qed.
Lemma uset_in : forall t r p, uset t (set_in r p) = set_in r (uset t p).
Proof. intros t r p. unfold uset, is_live. cbn. destruct (existsb (Z.eqb t) (p_live p)); reflexivity. Qed.
Lemma in_freet : forall t p, p_in (freet t p) = p_in p.
Proof. intros [t|] p; auto. unfold freet. destruct (is_live t p); reflexivity. Qed.
Lemma in_uset : forall t p, p_in (uset t p) = p_in p.
Proof. intros t p. unfold uset. destruct (is_live t p); reflexivity. Qed.
Lemma cfg_uset : forall t p, p_cfg (uset t p) = p_cfg p.
Proof. intros t p. unfold uset. destruct (is_live t p); reflexivity. Qed.
Lemma set_in_in : forall a b p, set_in a (set_in b p) = set_in a p.
Proof. reflexivity. Qed.

(** ** The lexer *)
Lemma eol_sim : forall c r c' r', sim0 c r c' r' -> eol c = eol c'.
Proof. intros c r c' r' [(_ & -> & _)|(-> & _ & -> & _)]; reflexivity. Qed.
Lemma char_sim : forall c r c' r' k, sim0 c r c' r' -> eol c = false -> (c' =? k) = (c =? k).
Proof. intros c r c' r' k [(_ & -> & _)|(-> & _)]; [reflexivity|discriminate]. Qed.
Lemma skip_ws_sim : forall c r c' r', sim0 c r c' r' ->
  sim0 (fst (skip_ws c r)) (snd (skip_ws c r)) (fst (skip_ws c' r')) (snd (skip_ws c' r')) /\
  shr c r (fst (skip_ws c r)) (snd (skip_ws c r)).
Proof.
  intros c r c' r' [(F & -> & ->)|(-> & -> & -> & ->)].
  - revert c F. induction r as [|x r IH]; intros c F; cbn [skip_ws app].
    + destruct (ws c) eqn:W; cbn; [split; [now right|now left]|]. split; [now left|apply shr_refl].
    + destruct (ws c) eqn:W; [|cbn; split; [now left|apply shr_refl]]. destruct (IH x) as (A & B); [now inversion F|]. split; [exact A|].
      apply sht_shr. now apply shr1.
  - cbn. split; [now right|now left].
Qed.
Lemma gnc1_sim : forall r, Forall (fun x => 0 <= x) r -> sim0 (fst (gnc1 r)) (snd (gnc1 r)) (fst (gnc1 (r ++ [10]))) (snd (gnc1 (r ++ [10]))) /\
  forall c, sht c r (fst (gnc1 r)) (snd (gnc1 r)).
Proof.
  intros [|x r] F; cbn.
  - split; [now right|intros c; now left].
  - split; [now left|]. intros c. right. exists [c]. split; [discriminate|reflexivity].
Qed.
Lemma to_eol_sim : forall c r c' r', sim0 c r c' r' ->
  sim1 (fst (to_eol c r)) (snd (to_eol c r)) (fst (to_eol c' r')) (snd (to_eol c' r')) /\
  sht c r (fst (to_eol c r)) (snd (to_eol c r)).
Proof.
  intros c r c' r' [(F & -> & ->)|(-> & -> & -> & ->)]; [|cbn; split; [now right|now left]].
  revert c F. induction r as [|x r IH]; intros c F; cbn [to_eol app]; inversion F; subst.
  - destruct (Z.eqb_spec c 10) as [->|Nc]; cbn [orb].
    + cbn. split; [left; now right|now left].
    + replace (c <? 0) with false by lia. cbn. split; [now right|now left].
  - destruct (Z.eqb_spec c 10) as [->|Nc]; cbn [orb].
    + cbn [gnc1 fst snd]. split; [left; now left|]. right; exists [10]; split; [discriminate|reflexivity].
    + replace (c <? 0) with false by lia. destruct (IH x H2) as (A & B). split; [exact A|].
      apply shr1. now apply sht_shr.
Qed.
Lemma word_loop_sim : forall r c i, Forall (fun x => 0 <= x) r ->
  let '(c1, r1, w) := word_loop c r i in let '(c1', r1', w') := word_loop c (r ++ [10]) i in
  w' = w /\ ((c1' < -1) \/ (sim0 c1 r1 c1' r1' /\ sht c r c1 r1)).
Proof.
  induction r as [|x r IH]; intros c i F; cbn [word_loop app].
  - destruct (i >=? 255); [split; auto; left; lia|]. cbn. split; auto. right. split; [now right|now left].
  - destruct (i >=? 255); [split; auto; left; lia|]. destruct (ws x || eol x) eqn:E.
    + split; auto. right. split; [now left|]. right. exists [c]. split; [discriminate|reflexivity].
    + inversion F; subst. specialize (IH x (i + 1) H2). destruct (word_loop x r (i + 1)) as ((c1, r1), w).
      destruct (word_loop x (r ++ [10]) (i + 1)) as ((c1', r1'), w'). destruct IH as (-> & [L|(S & H)]); split; auto.
      right. split; [exact S|]. apply shr1. now apply sht_shr.
Qed.
Lemma getword_sim : forall c r c' p, sim0 c r c' (p_in p) -> rs sim0 sht c r (getword c (set_in r p)) (getword c' p).
Proof.
  intros c r c' p H. unfold getword. cbn [p_in set_in]. destruct (skip_ws_sim _ _ _ _ H) as (A & B).
  destruct (skip_ws c r) as (c0, r0). destruct (skip_ws c' (p_in p)) as (c0', r0'). cbn [fst snd] in A, B.
  rewrite <- (eol_sim _ _ _ _ A). destruct (eol c0) eqn:E; [exact Logic.I|]. rewrite (char_sim _ _ _ _ 34 A E). cbn [orb].
  destruct (c0 =? 34); [exact Logic.I|]. destruct A as [(F & -> & ->)|(-> & _)]; [|discriminate].
  pose proof (word_loop_sim r0 c0 0 ltac:(now inversion F)) as W. destruct (word_loop c0 r0 0) as ((c1, r1), w).
  destruct (word_loop c0 (r0 ++ [10]) 0) as ((c1', r1'), w'). destruct W as (-> & [L|(S & T)]).
  - replace (c1' <? -1) with true by lia. exact Logic.I.
  - destruct (c1' <? -1) eqn:L1; [exact Logic.I|]. unfold alloct. cbn [rs].
    assert (L : c1 <? -1 = false).
    { destruct S as [(_ & -> & _)|(-> & _)]; [exact L1|reflexivity]. }
    rewrite L. exists c1, r1. split; [reflexivity|]. split; [exact S|]. eapply shr_sht; eauto.
Qed.
Lemma string_loop_sim : forall fuel c r c' r' i, sim0 c r c' r' ->
  match string_loop fuel c' r' i with
  | None => True
  | Some (c1', r1', w) => exists c1 r1, string_loop fuel c r i = Some (c1, r1, w) /\ sim0 c1 r1 c1' r1' /\ sht c r c1 r1
  end.
Proof.
  induction fuel as [|fuel IH]; intros c r c' r' i H; [exact Logic.I|]. cbn [string_loop].
  destruct (i >=? 255) eqn:Ei; cbn [orb]; [exact Logic.I|]. destruct (Z.eqb_spec c' 10) as [->|N]; [exact Logic.I|].
  destruct H as [(F & -> & ->)|(_ & _ & -> & _)]; [|easy]. inversion F as [|? ? F0 F1]; subst. replace (c =? 10) with false by lia. cbn [orb].
  destruct (c =? 34) eqn:Q.
  { destruct (gnc1_sim r F1) as (A & B). destruct (gnc1 r) as (c1, r1). destruct (gnc1 (r ++ [10])) as (c1', r1'). cbn [fst snd] in *.
    exists c1, r1. split; auto. }
  destruct (c =? 92) eqn:K.
  - destruct r as [|x r]; cbn [gnc1 app].
    + cbn. destruct fuel; cbn; [exact Logic.I|]. destruct (i + 1 >=? 255); exact Logic.I.
    + inversion F1 as [|? ? F2 F3]; subst. replace (x <? 0) with false by lia. destruct (gnc1_sim r F3) as (A & B).
      destruct (gnc1 r) as (c1, r1). destruct (gnc1 (r ++ [10])) as (c1', r1'). cbn [fst snd] in *.
      specialize (IH c1 r1 c1' r1' (i + 1) A). destruct (string_loop fuel c1' r1' (i + 1)) as [((c2', r2'), w)|]; [|exact Logic.I].
      destruct IH as (c2 & r2 & E & S & T). rewrite E. exists c2, r2. split; auto. split; auto.
      apply shr1. apply sht_shr. eapply sht_trans; [exact (B x)|]. now apply sht_shr.
  - replace (c <? 0) with false by lia. destruct (gnc1_sim r F1) as (A & B).
    destruct (gnc1 r) as (c1, r1). destruct (gnc1 (r ++ [10])) as (c1', r1'). cbn [fst snd] in *.
    specialize (IH c1 r1 c1' r1' (i + 1) A). destruct (string_loop fuel c1' r1' (i + 1)) as [((c2', r2'), w)|]; [|exact Logic.I].
    destruct IH as (c2 & r2 & E & S & T). rewrite E. exists c2, r2. split; auto. split; auto.
    eapply sht_trans; [exact (B c)|]. now apply sht_shr.
Qed.
Lemma getstring_sim : forall c r c' p, sim0 c r c' (p_in p) -> rs sim0 sht c r (getstring c (set_in r p)) (getstring c' p).
Proof.
  intros c r c' p H. unfold getstring. cbn [p_in set_in]. destruct (skip_ws_sim _ _ _ _ H) as (A & B).
  destruct (skip_ws c r) as (c0, r0). destruct (skip_ws c' (p_in p)) as (c0', r0'). cbn [fst snd] in A, B.
  rewrite <- (eol_sim _ _ _ _ A). destruct (eol c0) eqn:E; [exact Logic.I|]. rewrite (char_sim _ _ _ _ 34 A E).
  destruct (c0 =? 34) eqn:Q; cbn [negb].
  - destruct A as [(F & -> & ->)|(-> & _)]; [|discriminate]. inversion F as [|? ? F0 F1]; subst.
    destruct (gnc1_sim r0 F1) as (A & T). destruct (gnc1 r0) as (c1, r1). destruct (gnc1 (r0 ++ [10])) as (c1', r1'). cbn [fst snd] in *.
    pose proof (string_loop_sim 256 c1 r1 c1' r1' 0 A) as L. set (n := 256%nat) in *. clearbody n.
    destruct (string_loop n c1' r1' 0) as [((c2', r2'), w)|]; [|exact Logic.I]. destruct L as (c2 & r2 & L & S & T2). rewrite L.
    cbn. exists c2, r2. split; [reflexivity|]. split; [exact S|]. eapply shr_sht; [exact B|]. eapply sht_trans; [apply T|]. now apply sht_shr.
  - pose proof (getword_sim c0 r0 c0' (set_in r0' p) A) as G. rewrite set_in_in in *. destruct (getword c0' (set_in r0' p)) as [|c1' v p1]; [exact Logic.I|].
    destruct G as (c1 & r1 & G & S & T). exists c1, r1. split; [exact G|]. split; [exact S|]. eapply shr_sht; eauto.
Qed.
Lemma skip_eol_sim : forall c r c' p, sim0 c r c' (p_in p) -> rs sim1 sht c r (skip_eol c (set_in r p)) (skip_eol c' p).
Proof.
  intros c r c' p H. unfold skip_eol. cbn [p_in set_in]. destruct (skip_ws_sim _ _ _ _ H) as (A & B).
  destruct (skip_ws c r) as (c0, r0). destruct (skip_ws c' (p_in p)) as (c0', r0'). cbn [fst snd] in A, B.
  rewrite <- (eol_sim _ _ _ _ A). destruct (eol c0) eqn:E; [|exact Logic.I].
  destruct (to_eol_sim _ _ _ _ A) as (S & T). destruct (to_eol c0 r0) as (c1, r1). destruct (to_eol c0' r0') as (c1', r1').
  cbn [fst snd] in *. cbn. exists c1, r1. split; [reflexivity|]. split; [exact S|]. eapply shr_sht; eauto.
Qed.
Lemma getconv_sim : forall A (f : list Z -> option A) c r c' p, sim0 c r c' (p_in p) -> rs sim0 sht c r (getconv f c (set_in r p)) (getconv f c' p).
Proof.
  intros A f c r c' p H. unfold getconv. pose proof (getword_sim c r c' p H) as G. destruct (getword c' p) as [|c1' (t, s) p1]; [exact Logic.I|].
  destruct G as (c1 & r1 & G & S & T). rewrite G. rewrite uset_in, freet_in. destruct (f s); [|exact Logic.I].
  exists c1, r1. split; [reflexivity|]. rewrite in_freet, in_uset. auto.
Qed.
Lemma with_val_sim : forall A B S H c r (R R' : res A) (k : A -> option B), rs S H c r R R' -> rs S H c r (with_val R k) (with_val R' k).
Proof.
  intros A B S H c r R [p'|c1' v p'] k G; [exact Logic.I|]. destruct G as (c1 & r1 & -> & X & Y). cbn [with_val].
  destruct (k v); [|exact Logic.I]. cbn. eauto.
Qed.
Lemma rs_weaken : forall A c r (R R' : res A), rs sim0 sht c r R R' -> rs sim0 shr c r R R'.
Proof. intros A c r R [p'|c1' v p'] G; [exact Logic.I|]. destruct G as (c1 & r1 & -> & X & Y). exists c1, r1. auto using sht_shr. Qed.
Lemma rs_here : forall A c r c' (v : A) p, sim0 c r c' (p_in p) -> rs sim0 shr c r (Good c v (set_in r p)) (Good c' v p).
Proof. intros. exists c, r. split; [reflexivity|]. split; [assumption|apply shr_refl]. Qed.

(** ** Keywords *)
Ltac kwsim H := first
  [ exact Logic.I
  | apply rs_here; exact H
  | apply rs_weaken; apply with_val_sim; first [apply getconv_sim|apply getword_sim|apply getstring_sim]; exact H ].
Lemma filter_kw_sim : forall e s f ifn c r c' p, sim0 c r c' (p_in p) ->
  rs sim0 shr c r (filter_kw e s c f ifn (set_in r p)) (filter_kw e s c' f ifn p).
Proof. intros e s f ifn c r c' p H. unfold filter_kw. repeat (match goal with |- context [if beq s ?x then _ else _] => destruct (beq s x) end; [kwsim H|]). exact Logic.I. Qed.
Lemma key_kw_sim : forall s k c r c' p, sim0 c r c' (p_in p) -> rs sim0 shr c r (key_kw s c k (set_in r p)) (key_kw s c' k p).
Proof. intros s k c r c' p H. unfold key_kw, with_cfg. repeat (match goal with |- context [if beq s ?x then _ else _] => destruct (beq s x) end; [kwsim H|]). exact Logic.I. Qed.
Lemma if_kw_sim : forall s ic c r c' p, sim0 c r c' (p_in p) -> rs sim0 shr c r (if_kw s c ic (set_in r p)) (if_kw s c' ic p).
Proof.
  intros s ic c r c' p H. unfold if_kw. cbv zeta.
  repeat (match goal with |- context [if beq s ?x then _ else _] => destruct (beq s x) end; [first [kwsim H|idtac]|]); [|exact Logic.I].
  pose proof (getword_sim c r c' p H) as G. destruct (getword c' p) as [|c1' (t, id) p1]; [exact Logic.I|].
  destruct G as (c1 & r1 & G & S & T). rewrite G. rewrite uset_in. change (p_cfg (set_in r1 (uset t p1))) with (p_cfg (uset t p1)).
  destruct (find_key id (p_cfg (uset t p1))) as (o, g). destruct o as [i|]; [|exact Logic.I].
  change (set_cfg g (set_in r1 (uset t p1))) with (set_in r1 (set_cfg g (uset t p1))). rewrite freet_in. exists c1, r1.
  split; [reflexivity|]. rewrite in_freet. cbn [p_in set_cfg]. rewrite in_uset. auto using sht_shr.
Qed.

(** ** Loops *)
Definition room (n : nat) (c : Z) (r : list Z) : Prop := (S (length r) < n)%nat \/ (c = -1 /\ r = [] /\ (0 < n)%nat).
Lemma room_step : forall n c r c1 r1, room (S n) c r -> sht c r c1 r1 -> eol c = false -> room n c1 r1.
Proof.
  intros n c r c1 r1 [A|(-> & _)] B E; [|discriminate]. destruct (sht_len _ _ _ _ B) as [(-> & ->)|L]; [right; repeat split; lia|left; lia].
Qed.
Lemma room_shr : forall n c r c1 r1, room n c r -> shr c r c1 r1 -> room n c1 r1.
Proof.
  intros n c r c1 r1 [A|(-> & -> & A)] B; destruct (shr_len _ _ _ _ B) as [(-> & ->)|L]; try (right; repeat split; lia); [left; lia|].
  destruct r1; [|cbn in L; lia]. destruct B as [(-> & _)|(l & B)]; [right; repeat split; lia|]. destruct l as [|? l]; [injection B as <-; right; repeat split; lia|].
  injection B as _ B. destruct l; discriminate.
Qed.
Lemma filter_loop_sim : forall e n' n f ifn c r c' p, sim0 c r c' (p_in p) -> room n c r ->
  rs sim1 sht c r (filter_loop e n c f ifn (set_in r p)) (filter_loop e n' c' f ifn p).
Proof.
  intros e. induction n' as [|n' IH]; intros n f ifn c r c' p H Rm; [exact Logic.I|].
  destruct n as [|n]; [destruct Rm; lia|]. cbn [filter_loop p_in set_in]. destruct (skip_ws_sim _ _ _ _ H) as (A & B).
  pose proof (room_shr _ _ _ _ _ Rm B) as Rm1.
  destruct (skip_ws c r) as (c0, r0). destruct (skip_ws c' (p_in p)) as (c0', r0'). cbn [fst snd] in A, B, Rm1.
  rewrite <- (eol_sim _ _ _ _ A). destruct (eol c0) eqn:E.
  - destruct (to_eol_sim _ _ _ _ A) as (S & T). destruct (to_eol c0 r0) as (c1, r1). destruct (to_eol c0' r0') as (c1', r1').
    cbn [fst snd] in *. exists c1, r1. split; [reflexivity|]. split; [exact S|]. eapply shr_sht; eauto.
  - pose proof (getword_sim c0 r0 c0' (set_in r0' p) A) as G. rewrite set_in_in in *. destruct (getword c0' (set_in r0' p)) as [|c1' (t, s) p1]; [exact Logic.I|].
    destruct G as (c1 & r1 & G & S & T). rewrite G, uset_in.
    assert (S' : sim0 c1 r1 c1' (p_in (uset t p1))) by now rewrite in_uset.
    pose proof (filter_kw_sim e s f ifn c1 r1 c1' (uset t p1) S') as K. destruct (filter_kw e s c1' f ifn (uset t p1)) as [|c2' (f2, ifn2) p2]; [exact Logic.I|].
    destruct K as (c2 & r2 & K & S2 & T2). rewrite K, freet_in.
    assert (S3 : sim0 c2 r2 c2' (p_in (freet (Some t) p2))) by now rewrite in_freet.
    pose proof (room_shr _ _ _ _ _ (room_step _ _ _ _ _ Rm1 T E) T2) as Rm2.
    pose proof (IH n f2 ifn2 c2 r2 c2' (freet (Some t) p2) S3 Rm2) as L.
    destruct (filter_loop e n' c2' f2 ifn2 (freet (Some t) p2)) as [|c3' f3 p3]; [exact Logic.I|].
    destruct L as (c3 & r3 & L & S4 & T4). exists c3, r3. split; [exact L|]. split; [exact S4|].
    eapply shr_sht; [exact B|]. eapply sht_trans; [exact T|]. eapply shr_trans; [exact T2|]. now apply sht_shr.
Qed.
Lemma key_loop_sim : forall n' n k c r c' p, sim0 c r c' (p_in p) -> room n c r ->
  rs sim1 sht c r (key_loop n c k (set_in r p)) (key_loop n' c' k p).
Proof.
  induction n' as [|n' IH]; intros n k c r c' p H Rm; [exact Logic.I|].
  destruct n as [|n]; [destruct Rm; lia|]. cbn [key_loop p_in set_in]. destruct (skip_ws_sim _ _ _ _ H) as (A & B).
  pose proof (room_shr _ _ _ _ _ Rm B) as Rm1.
  destruct (skip_ws c r) as (c0, r0). destruct (skip_ws c' (p_in p)) as (c0', r0'). cbn [fst snd] in A, B, Rm1.
  rewrite <- (eol_sim _ _ _ _ A). destruct (eol c0) eqn:E.
  - destruct (to_eol_sim _ _ _ _ A) as (S & T). destruct (to_eol c0 r0) as (c1, r1). destruct (to_eol c0' r0') as (c1', r1').
    cbn [fst snd] in *. exists c1, r1. split; [reflexivity|]. split; [exact S|]. eapply shr_sht; eauto.
  - pose proof (getword_sim c0 r0 c0' (set_in r0' p) A) as G. rewrite set_in_in in *. destruct (getword c0' (set_in r0' p)) as [|c1' (t, s) p1]; [exact Logic.I|].
    destruct G as (c1 & r1 & G & S & T). rewrite G, uset_in.
    assert (S' : sim0 c1 r1 c1' (p_in (uset t p1))) by now rewrite in_uset.
    pose proof (key_kw_sim s k c1 r1 c1' (uset t p1) S') as K. destruct (key_kw s c1' k (uset t p1)) as [|c2' k2 p2]; [exact Logic.I|].
    destruct K as (c2 & r2 & K & S2 & T2). rewrite K, freet_in.
    assert (S3 : sim0 c2 r2 c2' (p_in (freet (Some t) p2))) by now rewrite in_freet.
    pose proof (room_shr _ _ _ _ _ (room_step _ _ _ _ _ Rm1 T E) T2) as Rm2.
    pose proof (IH n k2 c2 r2 c2' (freet (Some t) p2) S3 Rm2) as L.
    destruct (key_loop n' c2' k2 (freet (Some t) p2)) as [|c3' f3 p3]; [exact Logic.I|].
    destruct L as (c3 & r3 & L & S4 & T4). exists c3, r3. split; [exact L|]. split; [exact S4|].
    eapply shr_sht; [exact B|]. eapply sht_trans; [exact T|]. eapply shr_trans; [exact T2|]. now apply sht_shr.
Qed.
Lemma ifconf_loop_sim : forall n' n tok name ic c r c' p, sim0 c r c' (p_in p) -> room n c r ->
  rs sim1 sht c r (ifconf_loop n c tok name ic (set_in r p)) (ifconf_loop n' c' tok name ic p).
Proof.
  induction n' as [|n' IH]; intros n tok name ic c r c' p H Rm; [exact Logic.I|].
  destruct n as [|n]; [destruct Rm; lia|]. cbn [ifconf_loop p_in set_in]. destruct (skip_ws_sim _ _ _ _ H) as (A & B).
  pose proof (room_shr _ _ _ _ _ Rm B) as Rm1.
  destruct (skip_ws c r) as (c0, r0). destruct (skip_ws c' (p_in p)) as (c0', r0'). cbn [fst snd] in A, B, Rm1.
  rewrite <- (eol_sim _ _ _ _ A). destruct (eol c0) eqn:E.
  - destruct (to_eol_sim _ _ _ _ A) as (S & T). destruct (to_eol c0 r0) as (c1, r1). destruct (to_eol c0' r0') as (c1', r1').
    cbn [fst snd] in *. exists c1, r1. split; [reflexivity|]. split; [exact S|]. eapply shr_sht; eauto.
  - pose proof (getword_sim c0 r0 c0' (set_in r0' p) A) as G. rewrite set_in_in in *. destruct (getword c0' (set_in r0' p)) as [|c1' (t, s) p1]; [exact Logic.I|].
    destruct G as (c1 & r1 & G & S & T). rewrite G, uset_in.
    assert (S' : sim0 c1 r1 c1' (p_in (uset t p1))) by now rewrite in_uset.
    pose proof (if_kw_sim s ic c1 r1 c1' (uset t p1) S') as K. destruct (if_kw s c1' ic (uset t p1)) as [|c2' ic2 p2]; [exact Logic.I|].
    destruct K as (c2 & r2 & K & S2 & T2). rewrite K, freet_in.
    assert (S3 : sim0 c2 r2 c2' (p_in (freet (Some t) p2))) by now rewrite in_freet.
    pose proof (room_shr _ _ _ _ _ (room_step _ _ _ _ _ Rm1 T E) T2) as Rm2.
    pose proof (IH n (Some t) name ic2 c2 r2 c2' (freet (Some t) p2) S3 Rm2) as L.
    destruct (ifconf_loop n' c2' (Some t) name ic2 (freet (Some t) p2)) as [|c3' f3 p3]; [exact Logic.I|].
    destruct L as (c3 & r3 & L & S4 & T4). exists c3, r3. split; [exact L|]. split; [exact S4|].
    eapply shr_sht; [exact B|]. eapply sht_trans; [exact T|]. eapply shr_trans; [exact T2|]. now apply sht_shr.
Qed.

(** ** Lines *)
Lemma room_start : forall c r, room (S (S (length r))) c r.
Proof. intros. left. lia. Qed.
Lemma opt_done_sim : forall A c r (R R' : res A) k, rs sim0 sht c r R R' -> rs sim1 sht c r (opt_done R k) (opt_done R' k).
Proof.
  intros A c r R [p'|c1' v p'] k G; [exact Logic.I|]. destruct G as (c1 & r1 & -> & X & Y). cbn [opt_done].
  change (p_cfg (set_in r1 p')) with (p_cfg p'). destruct (k v (p_cfg p')) as [g|]; [|exact Logic.I].
  change (set_cfg g (set_in r1 p')) with (set_in r1 (set_cfg g p')).
  pose proof (skip_eol_sim c1 r1 c1' (set_cfg g p') X) as L. destruct (skip_eol c1' (set_cfg g p')) as [|c2' u p2]; [exact Logic.I|].
  destruct L as (c2 & r2 & L & S & T). exists c2, r2. split; [exact L|]. split; [exact S|]. eapply sht_trans; [exact Y|]. now apply sht_shr.
Qed.
Lemma parse_option_sim : forall e s c r c' p, sim0 c r c' (p_in p) -> rs sim1 sht c r (parse_option e s c (set_in r p)) (parse_option e s c' p).
Proof.
  intros e s c r c' p H. unfold parse_option. cbv zeta. change (p_cfg (set_in r p)) with (p_cfg p).
  destruct (g_final (p_cfg p) && _); [exact Logic.I|].
  repeat (match goal with |- context [if ?b then _ else _] => destruct b end;
    [apply opt_done_sim; first [apply getconv_sim|apply getstring_sim]; exact H|]). exact Logic.I.
Qed.
Lemma line_action_sim : forall act a c r c' p, sim0 c r c' (p_in p) -> rs sim1 sht c r (line_action act a c (set_in r p)) (line_action act a c' p).
Proof.
  intros act a c r c' p H. unfold line_action. pose proof (skip_eol_sim c r c' p H) as L. destruct (skip_eol c' p) as [|c2' u p2]; [exact Logic.I|].
  destruct L as (c2 & r2 & L & S & T). rewrite L. destruct act; [|exact Logic.I]. exists c2, r2. auto.
Qed.
Lemma line_filter_sim : forall e w c r c' p, sim0 c r c' (p_in p) -> rs sim1 sht c r (line_filter e w c (set_in r p)) (line_filter e w c' p).
Proof.
  intros e w c r c' p H. unfold line_filter, parse_filter, with_cfg. change (p_cfg (set_in r p)) with (p_cfg p). destruct (g_final (p_cfg p)); [exact Logic.I|].
  change (p_in (set_in r p)) with r.
  pose proof (filter_loop_sim e (S (S (length (p_in p)))) _ filt0 None c r c' p H (room_start c r)) as L.
  destruct (filter_loop e (S (S (length (p_in p)))) c' filt0 None p) as [|c2' f p2]; [exact Logic.I|].
  destruct L as (c2 & r2 & L & S & T). rewrite L. cbn [with_val]. exists c2, r2. auto.
Qed.
Lemma line_key_sim : forall c r c' p, sim0 c r c' (p_in p) -> rs sim1 sht c r (line_key c (set_in r p)) (line_key c' p).
Proof.
  intros c r c' p H. unfold line_key, parse_key. change (p_in (set_in r p)) with r.
  pose proof (key_loop_sim (S (S (length (p_in p)))) _ (mkKp None 0 []) c r c' p H (room_start c r)) as L.
  destruct (key_loop (S (S (length (p_in p)))) c' (mkKp None 0 []) p) as [|c2' k p2]; [exact Logic.I|].
  destruct L as (c2 & r2 & L & S & T). rewrite L. destruct (finish_key k) as [((id, ty), v)|]; [|exact Logic.I]. exists c2, r2. auto.
Qed.
Lemma line_default_sim : forall c r c' p, sim0 c r c' (p_in p) -> rs sim1 sht c r (line_default c (set_in r p)) (line_default c' p).
Proof.
  intros c r c' p H. unfold line_default. change (p_in (set_in r p)) with r.
  pose proof (ifconf_loop_sim (S (S (length (p_in p)))) _ None None (ic0 []) c r c' p H (room_start c r)) as L.
  destruct (ifconf_loop (S (S (length (p_in p)))) c' None None (ic0 []) p) as [|c2' k p2]; [exact Logic.I|].
  destruct L as (c2 & r2 & L & S & T). rewrite L. exists c2, r2. auto.
Qed.
Lemma line_interface_sim : forall c r c' p, sim0 c r c' (p_in p) -> rs sim1 sht c r (line_interface c (set_in r p)) (line_interface c' p).
Proof.
  intros c r c' p H. unfold line_interface, parse_ifconf, with_cfg. change (p_in (set_in r p)) with r.
  destruct (skip_ws_sim _ _ _ _ H) as (A & B).
  destruct (skip_ws c r) as (c0, r0). destruct (skip_ws c' (p_in p)) as (c0', r0'). cbn [fst snd] in A, B.
  destruct ((c0' =? 10) || (c0' =? 35)) eqn:E; [exact Logic.I|]. 
  assert (E2 : (c0 =? 10) || (c0 =? 35) = false) by (destruct A as [(_ & -> & _)|(-> & _)]; [exact E|reflexivity]). rewrite E2.
  pose proof (getstring_sim c0 r0 c0' (set_in r0' p) A) as G. rewrite set_in_in in *. destruct (getstring c0' (set_in r0' p)) as [|c1' (t, s) p1]; [exact Logic.I|].
  destruct G as (c1 & r1 & G & S & T). rewrite G. change (p_in (set_in r1 p1)) with r1.
  pose proof (ifconf_loop_sim (Datatypes.S (Datatypes.S (length (p_in p1)))) _ None (Some t) (ic0 s) c1 r1 c1' p1 S (room_start c1 r1)) as L.
  destruct (ifconf_loop (Datatypes.S (Datatypes.S (length (p_in p1)))) c1' None (Some t) (ic0 s) p1) as [|c2' ic p2]; [exact Logic.I|].
  destruct L as (c2 & r2 & L & S2 & T2). rewrite L. cbn [with_val]. change (p_cfg (set_in r2 p2)) with (p_cfg p2).
  destruct (add_ifconf ic (g_ifs (p_cfg p2))) as (l, merged). exists c2, r2. split.
  - destruct merged; [|reflexivity]. rewrite <- freet_in. reflexivity.
  - split; [|eapply shr_sht; [exact B|]; eapply sht_trans; [exact T|]; now apply sht_shr]. destruct merged; [rewrite in_freet|]; exact S2.
Qed.
Lemma line_flush_sim : forall e c r c' p, sim0 c r c' (p_in p) -> rs sim1 sht c r (line_flush e c (set_in r p)) (line_flush e c' p).
Proof.
  intros e c r c' p H. unfold line_flush.
  pose proof (getword_sim c r c' p H) as G. destruct (getword c' p) as [|c1' (t2, s2) p1]; [exact Logic.I|].
  destruct G as (c1 & r1 & G & S & T). rewrite G, uset_in. destruct (beq s2 (str "interface")); [|exact Logic.I].
  assert (S' : sim0 c1 r1 c1' (p_in (uset t2 p1))) by now rewrite in_uset.
  pose proof (getword_sim c1 r1 c1' (uset t2 p1) S') as G2. destruct (getword c1' (uset t2 p1)) as [|c2' (t, s) p2]; [exact Logic.I|].
  destruct G2 as (c2 & r2 & G2 & S2 & T2). rewrite G2.
  pose proof (skip_eol_sim c2 r2 c2' p2 S2) as L. destruct (skip_eol c2' p2) as [|c3' u p3]; [exact Logic.I|].
  destruct L as (c3 & r3 & L & S3 & T3). rewrite L, uset_in.
  change (p_cfg (set_in r3 (uset t p3))) with (p_cfg (uset t p3)).
  set (g := effect1 (FlushInterface s) (p_cfg (uset t p3))). change (set_cfg g (set_in r3 (uset t p3))) with (set_in r3 (set_cfg g (uset t p3))).
  rewrite !freet_in. exists c3, r3. split; [reflexivity|]. split.
  - rewrite !in_freet. cbn [p_in set_cfg]. rewrite in_uset. exact S3.
  - eapply sht_trans; [exact T|]. eapply shr_trans; [apply sht_shr; exact T2|]. now apply sht_shr.
Qed.
Lemma directive_sim : forall e act s c r c' p, sim0 c r c' (p_in p) -> rs sim1 sht c r (directive e act s c (set_in r p)) (directive e act s c' p).
Proof.
  intros e act s c r c' p H. unfold directive. change (p_cfg (set_in r p)) with (p_cfg p).
  destruct (beq s (str "quit")); [now apply line_action_sim|]. destruct (beq s (str "dump")); [now apply line_action_sim|].
  destruct (beq s (str "monitor")); [now apply line_action_sim|]. destruct (beq s (str "unmonitor")); [now apply line_action_sim|].
  destruct (g_final (p_cfg p) && negb (g_write (p_cfg p))); [exact Logic.I|].
  destruct (beq s (str "in")); [now apply line_filter_sim|]. destruct (beq s (str "out")); [now apply line_filter_sim|].
  destruct (beq s (str "redistribute")); [now apply line_filter_sim|]. destruct (beq s (str "install")); [now apply line_filter_sim|].
  destruct (beq s (str "interface")); [now apply line_interface_sim|]. destruct (beq s (str "default")); [now apply line_default_sim|].
  destruct (beq s (str "flush")); [now apply line_flush_sim|]. destruct (beq s (str "reopen-logfile")).
  - pose proof (skip_eol_sim c r c' p H) as L. destruct (skip_eol c' p) as [|c2' u p2]; [exact Logic.I|].
    destruct L as (c2 & r2 & L & S & T). rewrite L. destruct act; [|exact Logic.I]. exists c2, r2. auto.
  - destruct (beq s (str "key")); [now apply line_key_sim|].
    pose proof (parse_option_sim e s c r c' p H) as L. destruct (parse_option e s c' p) as [|c2' u p2]; [exact Logic.I|].
    destruct L as (c2 & r2 & L & S & T). rewrite L. exists c2, r2. auto.
Qed.
Lemma line_sim : forall e act c r c' p, sim0 c r c' (p_in p) ->
  rs sim1 sht c r (parse_config_line e act c (set_in r p)) (parse_config_line e act c' p).
Proof.
  intros e act c r c' p H. unfold parse_config_line. change (p_in (set_in r p)) with r. destruct (skip_ws_sim _ _ _ _ H) as (A & B).
  destruct (skip_ws c r) as (c0, r0). destruct (skip_ws c' (p_in p)) as (c0', r0'). cbn [fst snd] in A, B.
  rewrite <- (eol_sim _ _ _ _ A). destruct (eol c0) eqn:E.
  - destruct (to_eol_sim _ _ _ _ A) as (S & T). destruct (to_eol c0 r0) as (c1, r1). destruct (to_eol c0' r0') as (c1', r1').
    cbn [fst snd] in *. exists c1, r1. split; [reflexivity|]. split; [exact S|]. eapply shr_sht; eauto.
  - pose proof (getword_sim c0 r0 c0' (set_in r0' p) A) as G. rewrite set_in_in in *. destruct (getword c0' (set_in r0' p)) as [|c1' (t, s) p1]; [exact Logic.I|].
    destruct G as (c1 & r1 & G & S & T). rewrite G, uset_in.
    assert (S' : sim0 c1 r1 c1' (p_in (uset t p1))) by now rewrite in_uset.
    pose proof (directive_sim e act s c1 r1 c1' (uset t p1) S') as K. destruct (directive e act s c1' (uset t p1)) as [|c2' a p2]; [exact Logic.I|].
    destruct K as (c2 & r2 & K & S2 & T2). rewrite K, freet_in. exists c2, r2. split; [reflexivity|]. rewrite in_freet. split; [exact S2|].
    eapply shr_sht; [exact B|]. eapply sht_trans; [exact T|]. now apply sht_shr.
Qed.
(** A line, alone *)
Lemma line_eof : forall e act t c r p v q, t = c :: r -> Forall (fun x => 0 <= x) t ->
  parse_config_line e act c (set_in (r ++ [10]) p) = Good (-1) v q -> p_in q = [] ->
  parse_config_line e act c (set_in r p) = Good (-1) v q.
Proof.
  intros e act t c r p v q -> F E I. pose proof (line_sim e act c r c (set_in (r ++ [10]) p)) as L. rewrite E, set_in_in in L.
  destruct L as (c1 & r1 & L & S & _); [now left|]. rewrite L. rewrite I in S.
  destruct S as [[(_ & <- & S)|(_ & _ & S & _)]|(-> & -> & _)].
  - destruct r1; discriminate.
  - discriminate.
  - rewrite <- I. now destruct q.
Qed.

(** ** Files *)
Lemma file_loop_sim : forall e n' n c r c' p q, sim0 c r c' (p_in p) -> c <> -1 -> room n c r ->
  file_loop e n' c' p = (true, q) -> exists r1, file_loop e n c (set_in r p) = (true, set_in r1 q).
Proof.
  intros e. induction n' as [|n' IH]; intros n c r c' p q H Nc Rm E; [discriminate|].
  destruct n as [|n]; [destruct Rm; lia|]. cbn [file_loop] in *. pose proof (line_sim e false c r c' p H) as L.
  destruct (parse_config_line e false c' p) as [p1|c1' v p1]; [discriminate|].
  destruct L as (c1 & r1 & L & S & T). rewrite L. destruct (Z.eqb_spec c1 (-1)) as [->|N1].
  - destruct (Z.eqb_spec c1' (-1)) as [->|N2].
    + injection E as <-. exists r1. reflexivity.
    + destruct S as [[(_ & E1 & _)|(_ & -> & -> & I)]|(_ & _ & E1 & _)]; try congruence.
      destruct n' as [|n']; [discriminate|]. cbn [file_loop] in E. unfold parse_config_line in E. rewrite I in E. cbn in E.
      injection E as <-. exists []. reflexivity.
  - destruct S as [S|(-> & _)]; [|easy]. destruct S as [(F & -> & I)|(-> & _)]; [|easy].
    replace (c1 =? -1) with false in E by lia.
    eapply IH; [left; eauto|exact N1| |exact E].
    destruct Rm as [A|(-> & _)]; [|easy]. destruct (sht_len _ _ _ _ T) as [(-> & ->)|Ln]; [easy|left; lia].
Qed.
Lemma file_eof : forall e s p q, Forall (fun x => 0 <= x) s -> from_file e (s ++ [10]) p = (true, q) ->
  exists r, from_file e s p = (true, set_in r q).
Proof.
  intros e [|c r] p q F E.
  - unfold from_file in *. cbn in E. injection E as <-. exists (p_in p). now destruct p.
  - unfold from_file in *. cbn [app] in E. destruct (fun A B C => file_loop_sim e _ (S (S (length r))) c r c (set_in (r ++ [10]) p) q A B C E) as (r1 & L).
    + left. auto.
    + inversion F. lia.
    + apply room_start.
    + exists r1. exact L.
Qed.

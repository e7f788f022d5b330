(** P_Monitor.v: C82, what a monitoring client knows. *)
From Verif Require Import Base M_Util M_Slot M_Source M_Filter M_Types M_Neigh M_State M_Table M_Msg M_Route M_Xroute M_Daemon.
From Verif Require Import S_Util S_World S_Resend L_Util L_Slot L_Table L_Step L_Inv L_Xroute L_Daemon L_World4 M_Monitor S_Monitor L_Monitor
  L_Select2 L_Quiet L_Chain L_Select L_Update L_Update2 L_Monitor2 L_Monitor3 X_Run.

Lemma obs_run evs : forall w, W [] w -> allowed_run evs w -> obs w (n_run evs w) (run evs w) /\ W [] (run evs w).
Proof.
  induction evs as [|ev evs IH]; intros w Hw A; [split; [apply obs_refl|exact Hw]|]. destruct A as (A & B).
  destruct (IH (run1 ev w) (W_run1 _ _ Hw A) B) as (O & H). split; [|exact H]. cbn [n_run].
  eapply obs_trans; [apply o_run1; auto|exact O].
Qed.

(** The lines sent at first *)
Lemma see_xs l : forall P, NoDup (map x_dest l) -> (forall x, In x l -> px P (x_dest x) = None) ->
  exists P', see_all (flat_map (xnote Add) l) P = Some P' /\ pr P' = pr P /\
    forall d, px P' d = match find (isd d) l with Some x => Some (x_metric x) | None => px P d end.
Proof.
  induction l as [|x l IH]; intros P N H; [exists P; split; [reflexivity|split; reflexivity]|].
  cbn [map] in N. apply NoDup_cons_iff in N. destruct N as (N0 & N). cbn. rewrite (H x) by (left; reflexivity).
  destruct (IH (put_x (x_dest x) (Some (x_metric x)) P) N) as (P' & S & R & X).
  { intros y Hy. cbn. destruct (dest_dec _ _) as [E|]; [|apply H; right; exact Hy]. exfalso. apply N0. rewrite <- E. apply in_map, Hy. }
  exists P'. split; [exact S|]. split; [exact R|]. intros d. rewrite X. cbn. unfold isd at 2.
  destruct (dest_dec (x_dest x) d) as [<-|Ne].
  - rewrite find_none_all; [destruct (dest_dec _ _); [reflexivity|contradiction]|].
    intros y Hy. apply isd_not. intros E. apply N0. rewrite <- E. apply in_map, Hy.
  - destruct (dest_dec d (x_dest x)); [congruence|reflexivity].
Qed.
Lemma see_rs l : forall P, NoDup (map r_ptr l) -> (forall r, In r l -> pr P (r_ptr r) = None) ->
  exists P', see_all (map (fun r => NRoute Add (r_ptr r) (show r)) l) P = Some P' /\ px P' = px P /\
    forall p, pr P' p = match find (is_ptr p) l with Some r => Some (show r) | None => pr P p end.
Proof.
  induction l as [|x l IH]; intros P N H; [exists P; split; [reflexivity|split; reflexivity]|].
  cbn [map] in N. apply NoDup_cons_iff in N. destruct N as (N0 & N). cbn. rewrite (H x) by (left; reflexivity).
  destruct (IH (put_r (r_ptr x) (Some (show x)) P) N) as (P' & S & R & X).
  { intros y Hy. cbn. destruct (Z.eq_dec _ _) as [E|]; [|apply H; right; exact Hy]. exfalso. apply N0. rewrite <- E. apply in_map, Hy. }
  exists P'. split; [exact S|]. split; [exact R|]. intros p. rewrite X. cbn. unfold is_ptr at 2.
  destruct (r_ptr x =? p) eqn:E.
  - apply Z.eqb_eq in E. subst p. rewrite find_none_all; [destruct (Z.eq_dec _ _); [reflexivity|contradiction]|].
    intros y Hy. unfold is_ptr. apply Z.eqb_neq. intros E. apply N0. rewrite <- E. apply in_map, Hy.
  - apply Z.eqb_neq in E. destruct (Z.eq_dec p (r_ptr x)); [congruence|reflexivity].
Qed.
Lemma told_ok e w : W e w -> exists P, see_all (told_all w) blank = Some P /\ agrees P w.
Proof.
  intros Hw. unfold told_all. rewrite see_all_app.
  destruct (see_xs (w_xr w) blank) as (P1 & S1 & R1 & X1); [|reflexivity|].
  { eapply sorted_NoDup_key; [|apply (W_xr _ _ Hw)]; auto using dest_compare_refl. }
  destruct (see_rs (concat (w_rt w)) P1 (wf_ptrs _ (W_rt _ _ Hw))) as (P2 & S2 & X2 & R2); [intros r _; rewrite R1; reflexivity|].
  exists P2. rewrite S1. split; [exact S2|]. split.
  - intros p. rewrite R2, R1. unfold vw, find_ptr. destruct (find _ _); reflexivity.
  - intros d. rewrite X2, X1, xw_isd. destruct (find _ _); reflexivity.
Qed.
Lemma px_ok e P w : W e w -> (forall d, px P d = xw w d) ->
  forall d m, px P d = Some m <-> exists x, In x (w_xr w) /\ x_dest x = d /\ x_metric x = m.
Proof.
  intros Hw H d m. rewrite H, xw_isd.
  assert (Nd : NoDup (map x_dest (w_xr w))) by (eapply sorted_NoDup_key; [|apply (W_xr _ _ Hw)]; auto using dest_compare_refl).
  destruct (find (isd d) (w_xr w)) as [y|] eqn:F.
  - apply find_some in F. destruct F as (F & E). apply isd_iff in E. cbn. split.
    + intros Em. injection Em as <-. eauto.
    + intros (x & Hx & Ex & <-). f_equal. f_equal. eapply NoDup_map_inj; eauto. congruence.
  - cbn. split; [discriminate|]. intros (x & Hx & Ex & _). apply find_none with (x := x) in F; auto.
    exfalso. rewrite (proj2 (isd_iff d x) Ex) in F. discriminate.
Qed.
Lemma vw_In e w r : W e w -> In r (all_routes w) -> vw w (r_ptr r) = Some (show r).
Proof.
  intros Hw Hr. unfold vw. replace (find_ptr (r_ptr r) w) with (Some r); [reflexivity|].
  symmetry. apply find_ptr_iff; [apply (W_rt _ _ Hw)|auto].
Qed.
Lemma vw_Some w p a : vw w p = Some a -> exists r, In r (all_routes w) /\ r_ptr r = p.
Proof.
  unfold vw. destruct (find_ptr p w) as [r|] eqn:F; [|discriminate]. intros _. exists r.
  split; [apply (find_In _ _ _ F)|apply (find_ptr_ptr _ _ _ F)].
Qed.
Lemma agrees_right e P w : W e w -> agrees P w -> right_picture P w.
Proof.
  intros Hw (G & H). split; [|split].
  - intros r Hr. exists (show r). rewrite G. split; [eapply vw_In; eauto|repeat split].
  - intros p a E. rewrite G in E. eapply vw_Some; eauto.
  - eapply px_ok; eauto.
Qed.
Lemma near_close e P w : W e w -> near P w -> close_picture P w.
Proof.
  intros Hw (G & H). split; [|split].
  - intros r Hr. specialize (G (r_ptr r)). rewrite (vw_In _ _ _ Hw Hr) in G. destruct (pr P (r_ptr r)) as [a|]; [|contradiction].
    exists a. split; [reflexivity|exact G].
  - intros p a E. specialize (G p). rewrite E in G. destruct (vw w p) as [b|] eqn:V; [|contradiction]. eapply vw_Some; eauto.
  - eapply px_ok; eauto.
Qed.
Lemma agrees_near P w : agrees P w -> near P w.
Proof. intros (G & H). split; [|exact H]. intros p. rewrite G. apply osim_refl. Qed.
Lemma refusedb_ok e : refusedb e = true -> refused e.
Proof.
  destruct e; cbn; try tauto.
  - intros H. apply andb_prop in H. destruct H as (A & B). rewrite negb_true_iff in *. lia.
  - intros H. rewrite negb_true_iff in *. lia.
Qed.
Lemma none_nerr w w' : none_refused w w' -> nerr w' = nerr w.
Proof.
  intros (l & E & F). unfold nerr. rewrite E, filter_app, app_length.
  assert (filter refusedb l = []) as ->; [|cbn; lia]. clear E. induction F as [|e l He F IH]; [reflexivity|]. cbn.
  destruct (refusedb e) eqn:R; [|exact IH]. elim He. apply refusedb_ok, R.
Qed.

(** A client that sends "monitor" in any reachable state and reads what it is sent from then on
    knows, after any further events and as long as the kernel refuses no request, exactly the
    routes and the redistributed routes, with all their attributes; and it is never told that
    something changed or is gone that it does not know, or that something is new that it knows. *)
Theorem C82_monitor : forall c w evs, c_half_life c <> 2 -> reach c w -> allowed_run evs w ->
  none_refused w (run evs w) ->
  exists P, see_all (told_all w ++ n_run evs w) blank = Some P /\ right_picture P (run evs w).
Proof.
  intros c w evs Hl R A Nr. destruct (reach_W c w Hl R) as (Hw & _). destruct (told_ok _ _ Hw) as (P & S & G).
  destruct (obs_run evs w Hw A) as ((_ & O & _) & H). destruct (O (none_nerr _ _ Nr) P G) as (P' & S' & G').
  exists P'. rewrite see_all_app, S. split; [exact S'|]. eapply agrees_right; eauto.
Qed.
Print Assumptions C82_monitor.

(** Whatever the kernel answers, it knows exactly the routes and the redistributed routes, with
    their destinations, metrics and neighbours; only "installed" and "id" may be out of date. *)
Theorem C82_any_kernel : forall c w evs, c_half_life c <> 2 -> reach c w -> allowed_run evs w ->
  exists P, see_all (told_all w ++ n_run evs w) blank = Some P /\ close_picture P (run evs w).
Proof.
  intros c w evs Hl R A. destruct (reach_W c w Hl R) as (Hw & _). destruct (told_ok _ _ Hw) as (P & S & G).
  destruct (obs_run evs w Hw A) as ((_ & _ & O) & H). destruct (O P (agrees_near _ _ G)) as (P' & S' & G').
  exists P'. rewrite see_all_app, S. split; [exact S'|]. eapply near_close; eauto.
Qed.
Print Assumptions C82_any_kernel.

(** ** Examples *)
Lemma allowed_list evs : forall w, allowed_runb evs w = true -> allowed_run evs w.
Proof.
  induction evs as [|ev evs IH]; intros w H; [exact Logic.I|]. cbn in H. apply andb_prop in H. destruct H as (A & B).
  split; [apply allowedb_ok, A|apply IH, B].
Qed.
(** The client connects when both neighbours are up and sees the updates of X_Run: routes that
    appear, are installed, switched and whose metrics change, a redistributed route; then all
    routes are flushed. *)
Definition m_w : world := run x_up x_boot.
Definition m_evs : list event := x_updates ++ [EvKernel false (mkKr (xd 9) 0 3 4); EvFlushAll].
Definition brief (n : note) : Z * Z * bool :=
  match n with
  | NRoute k p a => (match k with Add => 1 | Change => 2 | Flush => 3 end, p, sh_installed a)
  | NXroute k d m => (match k with Add => 4 | Change => 5 | Flush => 6 end, m, false)
  end.
Example C82_example : reach x_conf m_w /\ allowed_run m_evs m_w /\ none_refused m_w (run m_evs m_w) /\
  map brief (n_run m_evs m_w) =
    [(1,1,false); (2,1,true); (1,2,false); (2,2,true); (1,3,false); (4,128,false); (2,1,true); (2,3,false); (2,2,true);
     (2,3,false); (6,128,false); (2,2,false); (3,2,false); (2,1,false); (3,1,false); (3,3,false)].
Proof.
  split; [apply reach_list; [apply x_boot_reach|vm_compute; reflexivity]|].
  split; [apply allowed_list; vm_compute; reflexivity|]. split; [|vm_compute; reflexivity].
  exists (w_ktr (run m_evs m_w)). assert (E : w_ktr m_w = []) by (vm_compute; reflexivity). rewrite E. split; [symmetry; apply app_nil_l|].
  assert (F : forallb (fun e => negb (refusedb e)) (w_ktr (run m_evs m_w)) = true) by (vm_compute; reflexivity).
  apply Forall_forall. intros e He Hr. rewrite forallb_forall in F. specialize (F e He). clear E He.
  destruct e; cbn in F, Hr; [rewrite negb_true_iff, andb_false_iff, !negb_false_iff in F; lia
                        |rewrite negb_true_iff, negb_false_iff in F; lia|discriminate].
Qed.

(** ** What is not so *)
(** Attributes known to the client that are not those of the route *)
Definition stale (f : shown -> shown -> bool) (ns : list note) (w : world) : bool :=
  match see_all ns blank with
  | Some P => existsb (fun r => match pr P (r_ptr r) with Some a => f a (show r) | None => false end) (concat (w_rt w))
  | None => false
  end.
Lemma stale_ok f ns w : stale f ns w = true -> exists P r a, see_all ns blank = Some P /\ In r (all_routes w) /\
  pr P (r_ptr r) = Some a /\ f a (show r) = true.
Proof.
  unfold stale. destruct (see_all ns blank) as [P|]; [|discriminate]. intros H. apply existsb_exists in H.
  destruct H as (r & Hr & H). destruct (pr P (r_ptr r)) as [a|] eqn:E; [|discriminate]. exists P, r, a. auto.
Qed.

(** A neighbour's route to 10.9.0.0/16 is selected; the same prefix is then redistributed, and the
    kernel refuses to remove the neighbour's route (answer 5).  The route counts as not installed,
    but the client is not told (route.c:521-524 returns before line 527). *)
Definition u_evs : list event :=
  [EvUpdate (Some (x_id 7)) (xd 9) 40 300 1600 1 (x_nh 51); EvOracle [] [5]; EvKernel true (mkKr (xd 9) 0 3 4)].
Theorem C82_installed_refuted : exists c w evs P r a, c_half_life c <> 2 /\ reach c w /\ allowed_run evs w /\
  see_all (told_all w ++ n_run evs w) blank = Some P /\ In r (all_routes (run evs w)) /\ pr P (r_ptr r) = Some a /\
  sh_installed a = true /\ r_installed r = false.
Proof.
  assert (H : stale (fun a b => sh_installed a && negb (sh_installed b)) (told_all m_w ++ n_run u_evs m_w) (run u_evs m_w) = true)
    by (vm_compute; reflexivity).
  apply stale_ok in H. destruct H as (P & r & a & E & Hr & Ea & H). apply andb_prop in H. destruct H as (H1 & H2).
  exists x_conf, m_w, u_evs, P, r, a. split; [apply x_hl|].
  split; [apply reach_list; [apply x_boot_reach|vm_compute; reflexivity]|].
  split; [apply allowed_list; vm_compute; reflexivity|]. split; [exact E|]. split; [exact Hr|]. split; [exact Ea|].
  split; [exact H1|]. cbn in H2. destruct (r_installed r); [discriminate|reflexivity].
Qed.
Print Assumptions C82_installed_refuted.

(** The selected route's neighbour retracts it under another router-id, and the kernel refuses
    the unreachable route that is to take its place.  The route has the new id
    (route.c:919), but the client is not told (route.c:586-589 returns before line 604). *)
Definition i_evs : list event :=
  [EvUpdate (Some (x_id 7)) (xd 1) 40 300 1600 1 (x_nh 51); EvOracle [] [0; 5];
   EvUpdate (Some (x_id 8)) (xd 1) 40 65535 1600 1 (x_nh 51)].
Theorem C82_id_refuted : exists c w evs P r a, c_half_life c <> 2 /\ reach c w /\ allowed_run evs w /\
  see_all (told_all w ++ n_run evs w) blank = Some P /\ In r (all_routes (run evs w)) /\ pr P (r_ptr r) = Some a /\
  sh_id a <> k_id (r_src r).
Proof.
  assert (H : stale (fun a b => negb (beq (sh_id a) (sh_id b))) (told_all m_w ++ n_run i_evs m_w) (run i_evs m_w) = true)
    by (vm_compute; reflexivity).
  apply stale_ok in H. destruct H as (P & r & a & E & Hr & Ea & H).
  exists x_conf, m_w, i_evs, P, r, a. split; [apply x_hl|].
  split; [apply reach_list; [apply x_boot_reach|vm_compute; reflexivity]|].
  split; [apply allowed_list; vm_compute; reflexivity|]. split; [exact E|]. split; [exact Hr|]. split; [exact Ea|].
  intros Eq. change (sh_id (show r)) with (k_id (r_src r)) in H. rewrite Eq, beq_refl in H. discriminate.
Qed.
Print Assumptions C82_id_refuted.

(** P_Sysctl.v: C79, the settings of the kernel are as needed while babeld runs, and put back. *)
From Coq Require Import String.
From Verif Require Import Base M_Util M_Config L_Rule M_Sysctl S_Sysctl L_Sysctl.
From Coq Require Import Lia.
Close Scope string_scope.
Open Scope Z_scope.

(** At any time a file that is not held is as if babeld had never run: in particular all of
    them after the exit, and that of an interface once it is down or removed. *)
Theorem C79_restored : forall f evs p, (forall q, sane (f q)) -> fair_run false f evs ->
  ~ held (srun false f evs) p -> s_fs (srun false f evs) p = without f evs p.
Proof.
  intros f evs p Sa Fa Nh. destruct (inv_all f evs Sa Fa) as (_ & _ & H). destruct (s_run (srun false f evs)) eqn:Rn; [|apply H].
  set (s := srun false f evs) in *. destruct H as (H & _).
  assert (Np : ~ In p (map fst settings)) by (intro I; apply Nh; split; [exact Rn|]; now left).
  destruct (in_dec (list_eq_dec Z.eq_dec) p (map (fun x => rp (i_name x)) (s_ifs s))) as [J|J].
  - apply in_map_iff in J. destruct J as (x & <- & Ix). pose proof (r_ok _ _ H x Ix) as K. unfold okR, occupied in K.
    destruct (i_up x) eqn:Hu; [|exact (proj1 K)]. exfalso. apply Nh. split; [exact Rn|]. right. exists x. auto.
  - apply (r_else _ _ H); [exact Np|]. intros x Ix E. apply J. apply in_map_iff. exists x. auto.
Qed.
Print Assumptions C79_restored.

(** While it runs the four settings are as needed, and the filter of every interface up is
    off (unless the interface has just gone). *)
Theorem C79_running : forall f evs, (forall q, sane (f q)) -> fair_run false f evs -> s_run (srun false f evs) = true ->
  (forall p v, In (p, v) needed -> exists x, s_fs (srun false f evs) p = Some x /\ f_val x = v) /\
  (forall x, In x (s_ifs (srun false f evs)) -> i_up x = true ->
     s_fs (srun false f evs) (rp_path (i_name x)) = None \/ exists y, s_fs (srun false f evs) (rp_path (i_name x)) = Some y /\ f_val y = 0).
Proof.
  intros f evs Sa Fa Rn. destruct (inv_all f evs Sa Fa) as (_ & _ & H). rewrite Rn in H. destruct H as (H & Z0). split.
  - intros p v I. pose proof (r_set _ _ H) as F.
    assert (G : forall l w, Forall2 (saved (without f evs) (s_fs (srun false f evs))) l w -> In (p, v) l -> exists x, s_fs (srun false f evs) p = Some x /\ f_val x = v).
    { intros l w F'. induction F' as [|pw u l w A _ IH]; intros J; [destruct J|]. destruct J as [->|J]; [|exact (IH J)].
      destruct A as (x & _ & _ & _ & E & _). cbn [fst snd] in E. eexists. split; [exact E|reflexivity]. }
    exact (G _ _ F I).
  - intros x Ix Hu. exact (proj2 (proj2 (Z0 x Ix Hu))).
Qed.
Print Assumptions C79_running.

(** No access outside the table of saved values, with at most 1024 interfaces. *)
Theorem C79_safe : forall f evs, (forall q, sane (f q)) -> fair_run false f evs -> s_ub (srun false f evs) = false.
Proof. intros f evs Sa Fa. exact (proj1 (proj2 (inv_all f evs Sa Fa))). Qed.
Print Assumptions C79_safe.

(** Whatever happens, with whatever files and failures, no other file is touched. *)
Theorem C79_only : forall skip f evs p, ~ In p (map fst needed) -> (forall n, added evs n -> p <> rp_path n) ->
  s_fs (srun skip f evs) p = without f evs p.
Proof. intros skip f evs p N H. exact (proj2 (only_all skip f evs) p N H). Qed.
Print Assumptions C79_only.

(** With skip-kernel-setup no file is ever written. *)
Theorem C79_skip : forall f evs p, s_fs (srun true f evs) p = without f evs p.
Proof. intros f evs p. exact (proj1 (skip_all f evs) p). Qed.
Print Assumptions C79_skip.

(** ** What does not hold *)
Definition rw (v : Z) : option file := Some (mkFile v true true).
Lemma rw_sane : forall v, 0 <= v < 2147483648 -> sane (rw v).
Proof. intros v Hv y E. injection E as <-. auto. Qed.
Definition files (l : list (list Z * option file)) : fs :=
  fun p => match find (fun x => beq (fst x) p) l with Some x => snd x | None => None end.
Lemma files_sane : forall l, Forall (fun x => sane (snd x)) l -> forall q, sane (files l q).
Proof.
  intros l F q. unfold files. destruct (find _ l) as [x|] eqn:E; [|intros y H; discriminate H].
  apply List.find_some in E. exact (proj1 (Forall_forall _ _) F x (proj1 E)).
Qed.
Definition p6 := str "/proc/sys/net/ipv6/conf/all/forwarding".
Definition p4 := str "/proc/sys/net/ipv4/conf/all/forwarding".
Definition pr := str "/proc/sys/net/ipv6/conf/all/accept_redirects".
Definition pf := str "/proc/sys/net/ipv4/conf/all/rp_filter".
Definition eth := str "eth0".
Definition x_fs : fs := files [(p6, rw 0); (p4, rw 1); (pr, rw 1); (pf, rw 2); (rp eth, rw 1)].
Lemma x_sane : forall q, sane (x_fs q).
Proof. apply files_sane. repeat apply Forall_cons; try apply Forall_nil; apply rw_sane; lia. Qed.

(** A start that fails at one of the settings leaves those before it changed: here the file
    for redirects is missing, and forwarding stays on. *)
Theorem C79_failed_start_refuted : ~ forall f p, (forall q, sane (f q)) ->
  s_run (srun false f [VStart true true]) = false -> s_fs (srun false f [VStart true true]) p = f p.
Proof.
  intros H. specialize (H (files [(p6, rw 0); (p4, rw 0)]) p4). assert (S0 : forall q, sane (files [(p6, rw 0); (p4, rw 0)] q)).
  { apply files_sane. repeat apply Forall_cons; try apply Forall_nil; apply rw_sane; lia. }
  specialize (H S0 ltac:(vm_compute; reflexivity)). vm_compute in H. discriminate H.
Qed.
Print Assumptions C79_failed_start_refuted.

(** An interface that disappears and is created again between two checks gets the value of
    the old one. *)
Theorem C79_recreated_refuted : ~ forall f n evs o, (forall q, sane (f q)) -> sane o ->
  s_run (srun false f (evs ++ [VFile (rp n) None; VFile (rp n) o; VCheck n 2 true true; VExit])) = false ->
  s_fs (srun false f (evs ++ [VFile (rp n) None; VFile (rp n) o; VCheck n 2 true true; VExit])) (rp n) = o.
Proof.
  intros H. specialize (H x_fs eth [VStart true true; VAdd eth; VCheck eth 1 true true] (rw 2) x_sane).
  specialize (H (rw_sane 2 ltac:(lia)) ltac:(vm_compute; reflexivity)). vm_compute in H. discriminate H.
Qed.
Print Assumptions C79_recreated_refuted.

(** At the exit the first file that cannot be written ends the restoration. *)
Theorem C79_first_failure_refuted : ~ forall f evs p q, (forall r, sane (f r)) -> p <> q ->
  s_run (srun false f (evs ++ [VFile p (Some (mkFile 1 true false)); VExit])) = false ->
  s_fs (srun false f (evs ++ [VFile p (Some (mkFile 1 true false)); VExit])) q = f q.
Proof.
  intros H. specialize (H x_fs [VStart true true] p6 pr x_sane ltac:(vm_compute; discriminate) ltac:(vm_compute; reflexivity)). vm_compute in H. discriminate H.
Qed.
Print Assumptions C79_first_failure_refuted.

(** Beyond 1024 interfaces the saved value is read from outside the table. *)
Definition nm (i : nat) : list Z := [Z.of_nat i / 64 + 33; Z.of_nat i mod 64 + 48].
Definition x_many : list sev := VStart true true :: flat_map (fun i => [VAdd (nm i); VCheck (nm i) (Z.of_nat i + 1) true true]) (seq 0 1025).
Theorem C79_many_refuted : ~ forall f evs, (forall q, sane (f q)) -> s_ub (srun false f evs) = false.
Proof.
  intros H. specialize (H (fun _ => rw 0) x_many). assert (S0 : forall q : list Z, sane (rw 0)) by (intros; apply rw_sane; lia).
  specialize (H S0). vm_compute in H. discriminate H.
Qed.
Print Assumptions C79_many_refuted.

(** ** A case: an interface comes up, goes down, disappears; exit *)
Fixpoint fairs (skip : bool) (s : sst) (evs : list sev) : Prop :=
  match evs with [] => True | ev :: evs => fair skip s ev /\ fairs skip (sstep skip s ev) evs end.
Lemma fairs_run : forall skip f evs, fairs skip (sboot f) evs -> fair_run skip f evs.
Proof.
  intros skip f evs H a ev b E. unfold srun. revert H. generalize (sboot f) as s. subst evs. induction a as [|x a IH]; intros s H; cbn [app fairs fold_left] in *; [tauto|].
  apply IH. tauto.
Qed.
Definition wlan := str "wlan0".
Definition x_evs : list sev :=
  [VStart true true; VAdd eth; VAdd wlan; VCheck eth 3 true true; VCheck wlan 0 false true; VFile (rp wlan) (rw 2); VCheck wlan 4 true true;
   VCheck eth 3 false true; VFile (rp eth) (rw 0); VCheck eth 3 true true; VFile (rp wlan) None; VFlush eth].
Example C79_ex : (forall q, sane (x_fs q)) /\ fair_run false x_fs x_evs /\ fair_run false x_fs (x_evs ++ [VExit]) /\
  let s := srun false x_fs x_evs in let s' := srun false x_fs (x_evs ++ [VExit]) in
  s_run s = true /\ map (fun x => (i_name x, i_up x)) (s_ifs s) = [(wlan, true)] /\ map (s_fs s) [p6; p4; pr; pf; rp eth; rp wlan] = [rw 1; rw 1; rw 0; rw 0; rw 0; None] /\
  s_run s' = false /\ map (s_fs s') [p6; p4; pr; pf; rp eth; rp wlan] = [rw 0; rw 1; rw 1; rw 2; rw 0; None].
Proof.
  assert (F : fair_run false x_fs (x_evs ++ [VExit])).
  { apply fairs_run. unfold x_evs. cbn [app fairs fair].
    assert (Sn : sane None) by (intros y E; discriminate E).
    repeat match goal with |- _ /\ _ => split end; try exact Logic.I; try (apply rw_sane; lia); try exact Sn; try (vm_compute; reflexivity); try (vm_compute; discriminate).
    - right. intros p v I. cbn [needed In] in I. destruct I as [I|[I|[I|[I|[]]]]]; injection I as <- <-; eexists; (split; [vm_compute; reflexivity|]); cbn; auto.
    - left. intros (_ & [I|(x & Ix & Hu & E)]); [vm_compute in I; intuition discriminate|]. vm_compute in Ix. destruct Ix as [<-|[<-|[]]]; vm_compute in E, Hu; discriminate.
    - left. intros (_ & [I|(x & Ix & Hu & E)]); [vm_compute in I; intuition discriminate|]. vm_compute in Ix. destruct Ix as [<-|[<-|[]]]; vm_compute in E, Hu; discriminate.
    - right. split; [reflexivity|]. intro I. vm_compute in I. intuition discriminate. }
  split; [exact x_sane|]. split; [|split; [exact F|]].
  - intros a ev b E. apply (F a ev (b ++ [VExit])). rewrite E, <- app_assoc. reflexivity.
  - vm_compute. repeat split.
Qed.

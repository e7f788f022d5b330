(** L_Monitor2.v: a picture that was right stays right. *)
From Verif Require Import Base M_Util M_Slot M_Source M_Filter M_Types M_Neigh M_State M_Table M_Msg M_Route M_Xroute M_Daemon.
From Verif Require Import S_Util S_World L_Util L_Slot L_Table L_Step L_Msg L_Quiet L_Select L_Select2 L_Chain L_Chain2 L_Chain3
  L_Update2 L_Xroute L_Daemon L_World4 M_Monitor S_Monitor L_Monitor.

Definition refusedb (e : kev) : bool :=
  match e with KAdd _ x => negb (x =? 0) && negb (x =? 17) | KDel _ x => negb (x =? 0) | KFail _ _ => true end.
Definition nerr (w : world) : nat := length (filter refusedb (w_ktr w)).
Definition agrees (P : picture) (w : world) : Prop := (forall p, pr P p = vw w p) /\ (forall d, px P d = xw w d).
(** The same but for the attributes "installed" and "id". *)
Definition sim (a b : shown) : Prop :=
  sh_dest a = sh_dest b /\ sh_metric a = sh_metric b /\ sh_refmetric a = sh_refmetric b /\ sh_neigh a = sh_neigh b.
Definition osim (a b : option shown) : Prop :=
  match a, b with Some x, Some y => sim x y | None, None => True | _, _ => False end.
Definition near (P : picture) (w : world) : Prop := (forall p, osim (pr P p) (vw w p)) /\ (forall d, px P d = xw w d).
Definition obs (w : world) (ns : list note) (w' : world) : Prop :=
  (nerr w <= nerr w')%nat /\
  (nerr w' = nerr w -> forall P, agrees P w -> exists P', see_all ns P = Some P' /\ agrees P' w') /\
  (forall P, near P w -> exists P', see_all ns P = Some P' /\ near P' w').

Lemma sim_refl a : sim a a.
Proof. repeat split. Qed.
Lemma osim_refl a : osim a a.
Proof. destruct a; [apply sim_refl|exact I]. Qed.
Lemma osim_none a b : osim a b -> a = None <-> b = None.
Proof. destruct a, b; cbn; split; intros; (discriminate || reflexivity || contradiction). Qed.
Lemma osim_trans a b c : osim a b -> osim b c -> osim a c.
Proof.
  destruct a as [a|], b as [b|], c as [c|]; cbn; try tauto. intros (A1 & A2 & A3 & A4) (B1 & B2 & B3 & B4).
  repeat split; congruence.
Qed.

Lemma see_all_app a b P : see_all (a ++ b) P = match see_all a P with Some P' => see_all b P' | None => None end.
Proof. revert P. induction a as [|n a IH]; intros P; cbn; [reflexivity|]. destruct (see P n); auto. Qed.
Lemma obs_trans w a w1 b w2 : obs w a w1 -> obs w1 b w2 -> obs w (a ++ b) w2.
Proof.
  intros (L1 & A & A') (L2 & B & B'). split; [lia|]. split.
  - intros E P G.
    destruct (A ltac:(lia) P G) as (P1 & S1 & G1). destruct (B ltac:(lia) P1 G1) as (P2 & S2 & G2).
    exists P2. rewrite see_all_app, S1. auto.
  - intros P G. destruct (A' P G) as (P1 & S1 & G1). destruct (B' P1 G1) as (P2 & S2 & G2).
    exists P2. rewrite see_all_app, S1. auto.
Qed.
Lemma near_view P w w' : (forall p, vw w' p = vw w p) -> w_xr w' = w_xr w -> near P w -> near P w'.
Proof. intros V X (G & H). split; [intros p; rewrite V; apply G|intros d; unfold xw; rewrite X; apply H]. Qed.
Lemma obs_nil w w' : (nerr w <= nerr w')%nat -> (forall p, vw w' p = vw w p) -> w_xr w' = w_xr w -> obs w [] w'.
Proof.
  intros L A B. split; [exact L|]. split; [intros _ P (G & H)|intros P G]; exists P; (split; [reflexivity|]).
  - split.
    + intros p. rewrite A. apply G.
    + intros d. unfold xw. rewrite B. apply H.
  - eapply near_view; eauto.
Qed.
Lemma obs_calm w w' : calm w w' -> obs w [] w'.
Proof. intros (A & B & C & _). apply obs_nil; auto. unfold nerr. rewrite C. auto. Qed.
Lemma obs_refl w : obs w [] w.
Proof. apply obs_calm, calm_refl. Qed.
Lemma obs_l w w1 a w2 : calm w w1 -> obs w1 a w2 -> obs w a w2.
Proof. intros C O. apply (obs_trans w [] w1 a w2); [apply obs_calm, C|exact O]. Qed.
Lemma obs_r w a w1 w2 : obs w a w1 -> calm w1 w2 -> obs w a w2.
Proof. intros O C. rewrite <- (app_nil_r a). eapply obs_trans; [exact O|apply obs_calm, C]. Qed.

(** ** The kernel *)
Lemma nerr_trace e w : nerr (ktrace e w) = (nerr w + if refusedb e then 1 else 0)%nat.
Proof. unfold nerr, ktrace. cbn [w_ktr set_w_ktr]. rewrite filter_app, app_length. cbn. destruct (refusedb e); reflexivity. Qed.
Lemma nerr_resp w e w1 : kresp1 w = (e, w1) -> nerr w1 = nerr w.
Proof. unfold kresp1. destruct (w_kresp w); intros H; inversion H; reflexivity. Qed.
Lemma kr1_err b t d ps g i m w rc w1 : kernel_route1 b t d ps g i m w = (rc, w1) ->
  (nerr w <= nerr w1)%nat /\ (nerr w1 = nerr w -> rc = 0 \/ (b = true /\ rc = -17)).
Proof.
  unfold kernel_route1.
  destruct (negb (family_ok d g)); [intros H; inversion H; rewrite nerr_trace; cbn; split; lia|].
  destruct (_ && _); [intros H; inversion H; rewrite nerr_trace; cbn; split; lia|].
  destruct (_ && _); [intros H; inversion H; subst; split; auto|].
  destruct (kresp1 w) as [x w2] eqn:E. intros H. inversion H; subst. rewrite nerr_trace, (nerr_resp _ _ _ E).
  split; [lia|]. intros Z0. destruct b; cbn [refusedb] in Z0.
  - destruct (Z.abs x =? 0) eqn:E0; [left; lia|]. destruct (Z.abs x =? 17) eqn:E1; [right; split; lia|]. cbn in Z0. lia.
  - destruct (Z.abs x =? 0) eqn:E0; [left; lia|]. cbn in Z0. lia.
Qed.
Lemma add_err r i m w rc w1 : change_route_add r i m w = (rc, w1) -> (nerr w <= nerr w1)%nat.
Proof.
  unfold change_route_add. destruct (inst_filter r i w) as [[[] t] p]; intros H; [inversion H; subst; auto|].
  apply kr1_err in H. apply H.
Qed.
Lemma flush_err r i m w rc w1 : change_route_flush r i m w = (rc, w1) ->
  (nerr w <= nerr w1)%nat /\ (nerr w1 = nerr w -> (rc <? 0) = false).
Proof.
  unfold change_route_flush. destruct (inst_filter r i w) as [[a t] p]. intros H. apply kr1_err in H.
  destruct H as (A & B). split; [exact A|]. intros E. destruct (B E) as [-> |(? & _)]; [reflexivity|discriminate].
Qed.
Lemma modify_err r i m g ni nm w rc w1 : change_route_modify r i m g ni nm w = (rc, w1) ->
  (nerr w <= nerr w1)%nat /\ (nerr w1 = nerr w -> (rc <? 0) = false).
Proof.
  unfold change_route_modify, kernel_route_modify. destruct (inst_filter r i w) as [[a t] p].
  destruct (negb (family_ok _ _)); [intros H; inversion H; rewrite nerr_trace; cbn; split; lia|].
  destruct (_ && _); [intros H; inversion H; subst; split; auto|].
  destruct (kernel_route1 false _ _ _ _ _ _ w) as [x w2] eqn:E1. apply kr1_err in E1.
  destruct (kernel_route1 true _ _ _ _ _ _ w2) as [y w3] eqn:E2. apply kr1_err in E2.
  intros H. inversion H; subst. destruct E1 as (L1 & _), E2 as (L2 & B). split; [lia|]. intros E.
  destruct (B ltac:(lia)) as [-> |(_ & ->)]; reflexivity.
Qed.
Lemma kframe_obs w w1 : kframe w w1 -> (nerr w <= nerr w1)%nat -> obs w [] w1.
Proof. intros (a & b & ->) L. apply obs_nil; auto. Qed.

(** ** Changes of one route *)
Lemma rnote_vw k p w : rnote k p w = match vw w p with Some a => [NRoute k p a] | None => [] end.
Proof. unfold rnote, vw. destruct (find_ptr p w); reflexivity. Qed.
Lemma rnote_calm k p w w' : calm w w' -> rnote k p w' = rnote k p w.
Proof. intros (A & _). rewrite !rnote_vw, A. reflexivity. Qed.

Lemma see_change p w2 P : (pr P p = None <-> vw w2 p = None) ->
  exists P', see_all (rnote Change p w2) P = Some P' /\ px P' = px P /\
    forall q, pr P' q = if Z.eq_dec q p then vw w2 p else pr P q.
Proof.
  intros H. rewrite rnote_vw. destruct (vw w2 p) as [a|] eqn:E.
  - cbn. destruct (pr P p) eqn:Ep; [|exfalso; destruct H as (H & _); specialize (H eq_refl); discriminate].
    eexists. split; [reflexivity|]. split; [reflexivity|]. intros q. reflexivity.
  - exists P. split; [reflexivity|]. split; [reflexivity|]. intros q. destruct (Z.eq_dec q p) as [-> |]; [|reflexivity].
    apply H. reflexivity.
Qed.

(** The picture is right but perhaps for route [p], whose existence is known. *)
Definition but (p : Z) (P : picture) (w : world) : Prop :=
  (forall q, q <> p -> pr P q = vw w q) /\ (pr P p = None <-> vw w p = None) /\ (forall d, px P d = xw w d).
Lemma agrees_but p P w : agrees P w -> but p P w.
Proof. intros (A & B). split; [auto|]. split; [rewrite A; tauto|exact B]. Qed.
Lemma but_note p P w : but p P w -> exists P', see_all (rnote Change p w) P = Some P' /\ agrees P' w.
Proof.
  intros (A & B & C). destruct (see_change p w P B) as (P' & S & X & R). exists P'. split; [exact S|]. split.
  - intros q. rewrite R. destruct (Z.eq_dec q p) as [-> |N]; [reflexivity|]. auto.
  - rewrite X. exact C.
Qed.
Lemma vw_map_ptr p q f w : (forall r, r_ptr (f r) = r_ptr r) ->
  vw (map_ptr p f w) q = if Z.eq_dec q p then option_map (fun r => show (f r)) (find_ptr q w) else vw w q.
Proof. intros H. unfold vw. rewrite find_map_ptr by exact H. destruct (Z.eq_dec q p), (find_ptr q w); reflexivity. Qed.
Lemma but_map p f P w : (forall r, r_ptr (f r) = r_ptr r) -> but p P w -> but p P (map_ptr p f w).
Proof.
  intros H (A & B & C). split; [|split; [|exact C]].
  - intros q N. rewrite vw_map_ptr by exact H. destruct (Z.eq_dec q p); [contradiction|auto].
  - rewrite vw_map_ptr by exact H. destruct (Z.eq_dec p p); [|contradiction]. rewrite B. unfold vw.
    destruct (find_ptr p w); cbn; split; intros; (discriminate || reflexivity).
Qed.
Lemma but_view p P w w' : (forall q, vw w' q = vw w q) -> w_xr w' = w_xr w -> but p P w -> but p P w'.
Proof. intros V X (A & B & C). split; [|split]; [intros q N; rewrite V; auto|rewrite V; exact B|unfold xw; rewrite X; exact C]. Qed.
Lemma but_calm p P w w' : calm w w' -> but p P w -> but p P w'.
Proof. intros (A & B & _). apply but_view; auto. Qed.
Lemma but_kframe p P w w' : kframe w w' -> but p P w -> but p P w'.
Proof. intros (a & b & ->). apply but_view; reflexivity. Qed.

(** The same for pictures that are nearly right. *)
Definition nbut (p : Z) (P : picture) (w : world) : Prop :=
  (forall q, q <> p -> osim (pr P q) (vw w q)) /\ (pr P p = None <-> vw w p = None) /\ (forall d, px P d = xw w d).
Lemma near_nbut p P w : near P w -> nbut p P w.
Proof. intros (A & B). split; [auto|]. split; [apply osim_none, A|exact B]. Qed.
Lemma nbut_note p P w : nbut p P w -> exists P', see_all (rnote Change p w) P = Some P' /\ near P' w.
Proof.
  intros (A & B & C). destruct (see_change p w P B) as (P' & S & X & R). exists P'. split; [exact S|]. split.
  - intros q. rewrite R. destruct (Z.eq_dec q p) as [-> |N]; [apply osim_refl|]. auto.
  - rewrite X. exact C.
Qed.
Lemma nbut_map p f P w : (forall r, r_ptr (f r) = r_ptr r) -> nbut p P w -> nbut p P (map_ptr p f w).
Proof.
  intros H (A & B & C). split; [|split; [|exact C]].
  - intros q N. rewrite vw_map_ptr by exact H. destruct (Z.eq_dec q p); [contradiction|auto].
  - rewrite vw_map_ptr by exact H. destruct (Z.eq_dec p p); [|contradiction]. rewrite B. unfold vw.
    destruct (find_ptr p w); cbn; split; intros; (discriminate || reflexivity).
Qed.
Lemma near_map p f P w : (forall r, r_ptr (f r) = r_ptr r) -> (forall r, find_ptr p w = Some r -> sim (show r) (show (f r))) ->
  near P w -> near P (map_ptr p f w).
Proof.
  intros H Sf (A & B). split; [|exact B]. intros q. rewrite vw_map_ptr by exact H. destruct (Z.eq_dec q p) as [-> |]; [|apply A].
  eapply osim_trans; [apply A|]. unfold vw. destruct (find_ptr p w) as [r|]; cbn; [auto|exact I].
Qed.
Lemma near_kframe P w w' : kframe w w' -> near P w -> near P w'.
Proof. intros (a & b & ->). apply near_view; reflexivity. Qed.
Lemma near_calm P w w' : calm w w' -> near P w -> near P w'.
Proof. intros (A & B & _). apply near_view; auto. Qed.

Lemma obs_map p f w : (forall r, r_ptr (f r) = r_ptr r) -> obs w (rnote Change p (map_ptr p f w)) (map_ptr p f w).
Proof.
  intros H. split; [cbn; auto|]. split; [intros _ P G|intros P G].
  - apply but_note. apply but_map; [exact H|]. apply agrees_but, G.
  - apply nbut_note. apply nbut_map; [exact H|]. apply near_nbut, G.
Qed.

Lemma find_move_front q p l m : find (is_ptr q) (move_front p l ++ m) = find (is_ptr q) (l ++ m).
Proof.
  unfold move_front.
  assert (F : forall (g : route -> bool) l m, (forall r, is_ptr q r = true -> g r = true) ->
    find (is_ptr q) (filter g l ++ m) = find (is_ptr q) (l ++ m)).
  { intros g l0 m0 Hg. induction l0 as [|r l0 IH]; cbn; [reflexivity|].
    destruct (is_ptr q r) eqn:E; [rewrite (Hg r E); cbn; rewrite E; reflexivity|].
    destruct (g r); cbn; [rewrite E|]; exact IH. }
  assert (N : forall (g : route -> bool) l m, (forall r, is_ptr q r = true -> g r = false) ->
    find (is_ptr q) (filter g l ++ m) = find (is_ptr q) m).
  { intros g l0 m0 Hg. induction l0 as [|r l0 IH]; cbn; [reflexivity|].
    destruct (g r) eqn:G; [|exact IH]. cbn. destruct (is_ptr q r) eqn:E; [rewrite (Hg r E) in G; discriminate|exact IH]. }
  rewrite <- app_assoc. unfold is_ptr in *. destruct (Z.eq_dec q p) as [-> |Ne].
  - assert (Nn : forall l m, find (fun r => r_ptr r =? p) (filter (fun r => negb (r_ptr r =? p)) l ++ m) =
                             find (fun r => r_ptr r =? p) m).
    { intros. apply N. intros r Hr. rewrite Hr. reflexivity. }
    assert (K : forall l0, find (fun r => r_ptr r =? p)
        (filter (fun r => r_ptr r =? p) l0 ++ filter (fun r => negb (r_ptr r =? p)) l ++ m) =
        find (fun r => r_ptr r =? p) (l0 ++ m)).
    { induction l0 as [|r l0 IH]; cbn; [apply Nn|]. destruct (r_ptr r =? p) eqn:E; cbn; rewrite ?E; auto. }
    apply K.
  - rewrite N by (intros r Hr; apply Z.eqb_eq in Hr; apply Z.eqb_neq; congruence).
    apply F. intros r Hr. apply Z.eqb_eq in Hr. rewrite negb_true_iff. apply Z.eqb_neq. congruence.
Qed.
Lemma find_app_cong {A} (g : A -> bool) a b b' : find g b = find g b' -> find g (a ++ b) = find g (a ++ b').
Proof. intros H. induction a as [|x a IH]; cbn; [exact H|]. destruct (g x); auto. Qed.
Lemma q_move d p w : calm w (move_installed d p w).
Proof.
  unfold move_installed. destruct (find_route_slot d w) as [i|]; [|apply q_fault]. repeat split.
  intros q. unfold vw, find_ptr. cbn [w_rt set_w_rt]. f_equal.
  generalize (Z.to_nat i). induction (w_rt w) as [|l t IH]; intros k.
  - destruct k; reflexivity.
  - destruct k as [|k]; cbn [upd nth concat].
    + apply find_move_front.
    + apply find_app_cong. apply IH.
Qed.

(** ** route.c *)
Lemma o_install p w : obs w (n_install p w) (install_route p w).
Proof.
  unfold n_install, install_route. destruct (find_ptr p w) as [r|]; [|apply obs_calm, q_fault].
  destruct (r_installed r); [apply obs_refl|]. destruct (slot_of _ w) as [|h t]; [apply obs_calm, q_fault|].
  destruct (_ && _); [apply obs_refl|]. destruct (nb_if _ w) as [[n i]|]; [|apply obs_calm, q_fault].
  destruct (change_route_add _ _ _ w) as [rc w1] eqn:E. pose proof (change_route_add_frame _ _ _ _ _ _ E) as K.
  pose proof (add_err _ _ _ _ _ _ E) as L. destruct (_ && _); [apply kframe_obs; auto|].
  change (rnote Change p ?x) with ([] ++ rnote Change p x). eapply obs_trans; [apply kframe_obs; eauto|].
  eapply obs_l; [apply (q_selected r w None)|].
  rewrite (rnote_calm _ _ _ _ (q_move _ _ _)). eapply obs_r; [|apply q_move]. apply obs_map. reflexivity.
Qed.
Lemma o_uninstall p w : obs w (n_uninstall p w) (uninstall_route p w).
Proof.
  unfold n_uninstall, uninstall_route. destruct (find_ptr p w) as [r|]; [|apply obs_calm, q_fault].
  destruct (negb _); [apply obs_refl|]. destruct (nb_if _ w) as [[n i]|]; [|apply obs_calm, q_fault].
  cbv zeta. destruct (change_route_flush _ _ _ _) as [rc w1] eqn:E. cbn [snd].
  pose proof (change_route_flush_frame _ _ _ _ _ _ E) as K.
  destruct (flush_err _ _ _ _ _ _ E) as (L & B). split; [exact L|]. split; [intros Z0 P G|intros P G].
  - rewrite (B Z0). apply but_note. eapply but_kframe; [exact K|]. apply but_map; [reflexivity|]. apply agrees_but, G.
  - assert (G1 : near P w1).
    { eapply near_kframe; [exact K|]. apply near_map; [reflexivity| |exact G]. intros x _. repeat split. }
    destruct (rc <? 0); [exists P; split; [reflexivity|exact G1]|]. apply nbut_note, near_nbut, G1.
Qed.
Lemma o_switch o p w : obs w (n_switch o p w) (switch_routes o p w).
Proof.
  unfold n_switch, switch_routes. destruct o as [o|]; [|apply o_install].
  destruct (find_ptr o w) as [ro|]; [|apply obs_calm, q_fault].
  destruct (find_ptr p w) as [rn|]; [|apply obs_calm, q_fault].
  destruct (negb _); [apply obs_refl|].
  destruct (nb_if (r_neigh ro) w) as [[no io]|]; [|apply obs_calm, q_fault].
  destruct (nb_if (r_neigh rn) w) as [[nn inw]|]; [|apply obs_calm, q_fault].
  destruct (change_route_modify _ _ _ _ _ _ w) as [rc w1] eqn:E.
  pose proof (change_route_modify_frame _ _ _ _ _ _ _ _ _ E) as K. destruct (modify_err _ _ _ _ _ _ _ _ _ E) as (L & B).
  destruct (rc <? 0) eqn:Rc; [apply kframe_obs; auto|]. cbv zeta.
  set (w2 := move_installed _ _ _). change (rnote Change o ?x ++ ?y) with ([] ++ rnote Change o x ++ y).
  eapply obs_trans; [apply kframe_obs; eauto|].
  set (w1' := selected rn w (Some ro) w1) in *. eapply obs_l; [apply (q_selected rn w (Some ro))|]. fold w1'.
  assert (C : calm (map_ptr p (set_r_installed true) (map_ptr o (set_r_installed false) w1')) w2) by apply q_move.
  destruct C as (Cv & Cx & Ck & _).
  assert (V : forall q, q <> o -> q <> p -> vw w2 q = vw w1' q).
  { intros q N1 N2. rewrite Cv, !vw_map_ptr by reflexivity. destruct (Z.eq_dec q p); [contradiction|].
    destruct (Z.eq_dec q o); [contradiction|]. reflexivity. }
  assert (N : forall q, vw w2 q = None <-> vw w1' q = None).
  { intros q. rewrite Cv. unfold vw. rewrite !find_map_ptr by reflexivity.
    destruct (Z.eq_dec q p), (Z.eq_dec q o), (find_ptr q w1'); cbn; split; intros; (discriminate || reflexivity). }
  split; [unfold nerr; rewrite Ck; auto|]. split.
  2:{ intros P G.
    assert (G2 : near P w2).
    { eapply near_view; [exact Cv|exact Cx|]. apply near_map; [reflexivity|intros; repeat split|].
      apply near_map; [reflexivity|intros; repeat split|exact G]. }
    destruct (nbut_note o P w2 (near_nbut _ _ _ G2)) as (P1 & S1 & G3).
    destruct (nbut_note p P1 w2 (near_nbut _ _ _ G3)) as (P2 & S2 & G4).
    exists P2. rewrite see_all_app, S1. auto. }
  intros _ P (G & H).
  destruct (see_change o w2 P) as (P1 & S1 & X1 & R1); [rewrite G, N; tauto|].
  destruct (see_change p w2 P1) as (P2 & S2 & X2 & R2).
  { rewrite R1. destruct (Z.eq_dec p o) as [-> |]; [tauto|]. rewrite G, N. tauto. }
  exists P2. rewrite see_all_app, S1. split; [exact S2|]. split.
  - intros q. rewrite R2, R1. destruct (Z.eq_dec q p) as [-> |Np]; [reflexivity|].
    destruct (Z.eq_dec q o) as [-> |No]; [reflexivity|]. rewrite V; auto.
  - intros d. rewrite X2, X1, H. unfold xw. rewrite Cx. reflexivity.
Qed.

(** change_route_metric, from a picture that may be wrong about the route *)
Lemma metric_but p a b c w r n i P : find_ptr p w = Some r -> nb_if (r_neigh r) w = Some (n, i) ->
  (nerr w <= nerr (change_route_metric p a b c w))%nat /\
  (nerr (change_route_metric p a b c w) = nerr w -> but p P w ->
   exists P', see_all (n_metric p a b c w) P = Some P' /\ agrees P' (change_route_metric p a b c w)) /\
  (near P w ->
   exists P', see_all (n_metric p a b c w) P = Some P' /\ near P' (change_route_metric p a b c w)).
Proof.
  intros F N. unfold n_metric. set (w' := change_route_metric p a b c w). pose proof (eq_refl w') as Ew.
  unfold w' at 2, change_route_metric in Ew. rewrite F, N in *. cbv zeta in *.
  destruct (if _ && _ then _ else _) as [rc w1] eqn:E.
  assert (K : kframe w w1 /\ (nerr w <= nerr w1)%nat /\ (nerr w1 = nerr w -> (rc <? 0) = false)).
  { destruct (_ && _).
    - split; [eapply change_route_modify_frame; eauto|]. eapply modify_err; eauto.
    - inversion E; subst. split; [apply kframe_refl|]. split; auto. }
  destruct K as (K & L & B). destruct (rc <? 0) eqn:Rc.
  { rewrite Ew. split; [exact L|]. split; [intros Z0; specialize (B Z0); discriminate|].
    intros G. exists P. split; [reflexivity|]. eapply near_kframe; eauto. }
  assert (C : calm w1 (snd (smoothed_metric p w1))) by apply q_smoothed.
  set (w2 := snd (smoothed_metric p w1)) in *. destruct C as (Cv & Cx & Ck & Cn).
  split; [|split].
  - rewrite Ew. unfold nerr in *. cbn [map_ptr w_ktr set_w_rt]. rewrite Ck. exact L.
  - intros _ G. apply but_note. rewrite Ew. apply but_map.
    + intros x. destruct (c_half_life (w_cfg w) =? 0); reflexivity.
    + eapply but_calm; [split; [exact Cv|split; [exact Cx|split; [exact Ck|exact Cn]]]|]. eapply but_kframe; eauto.
  - intros G. apply nbut_note. rewrite Ew. apply nbut_map.
    + intros x. destruct (c_half_life (w_cfg w) =? 0); reflexivity.
    + apply near_nbut. eapply near_view; [exact Cv|exact Cx|]. eapply near_kframe; eauto.
Qed.
Lemma o_metric p a b c w : obs w (n_metric p a b c w) (change_route_metric p a b c w).
Proof.
  destruct (find_ptr p w) as [r|] eqn:F.
  2:{ unfold n_metric, change_route_metric. rewrite F. apply obs_calm, q_fault. }
  destruct (nb_if (r_neigh r) w) as [[n i]|] eqn:N.
  2:{ unfold n_metric, change_route_metric. rewrite F, N. apply obs_calm, q_fault. }
  split; [apply (metric_but p a b c w r n i blank F N)|].
  split; [intros Z0 P G|intros P G].
  - apply (metric_but p a b c w r n i P F N); [exact Z0|]. apply agrees_but, G.
  - apply (metric_but p a b c w r n i P F N). exact G.
Qed.
Lemma o_retract p w : obs w (n_retract p w) (retract_route p w).
Proof. apply o_metric. Qed.
Lemma o_ci p i w : obs w (n_switch (option_map r_ptr i) p w) (consider_install p i w).
Proof.
  unfold consider_install. pose proof (o_switch (option_map r_ptr i) p w) as O. set (w1 := switch_routes _ p w) in *.
  clearbody w1. eapply obs_r; [exact O|]. cm.
Qed.
Lemma o_consider p w : obs w (n_consider p w) (consider_route p w).
Proof.
  unfold n_consider, consider_route. destruct (find_ptr p w) as [r|]; [|apply obs_calm, q_fault].
  destruct (r_installed r); [apply obs_refl|]. destruct (negb _); [apply obs_refl|].
  destruct (match find_xroute _ w with Some _ => _ | None => _ end); [apply obs_refl|].
  destruct (find_installed _ w) as [i|]; [|apply (o_ci p None)].
  destruct (_ >=? _); [apply obs_refl|]. destruct (_ >=? _); [apply (o_ci p (Some i))|].
  destruct (_ >=? _); [|apply obs_refl].
  pose proof (q_smoothed (r_ptr i) w) as C1. destruct (smoothed_metric (r_ptr i) w) as [mi w1]. cbn [snd] in C1.
  pose proof (q_smoothed p w1) as C2. destruct (smoothed_metric p w1) as [mr w2]. cbn [snd] in C2.
  pose proof (calm_trans _ _ _ C1 C2) as C. destruct (_ >? _); [|apply obs_calm, C].
  eapply obs_l; [exact C|]. apply (o_ci p (Some i)).
Qed.
Lemma o_changed p k m w : obs w (n_changed p k m w) (route_changed p k m w).
Proof.
  unfold n_changed, route_changed. destruct (find_ptr p w) as [r|]; [|apply obs_calm, q_fault]. cbv zeta.
  assert (T : forall ns w1, obs w ns w1 -> obs w
     (ns ++ match find_ptr p w1 with None => [] | Some r1 => if r_installed r1 then [] else n_consider p w1 end)
     match find_ptr p w1 with
     | None => fault w1
     | Some r1 => if r_installed r1 then send_triggered_update p k m w1 else consider_route p w1
     end).
  { intros ns w1 O. eapply obs_trans; [exact O|]. destruct (find_ptr p w1) as [r1|]; [|apply obs_calm, q_fault].
    destruct (r_installed r1); [apply obs_calm, q_trig|apply o_consider]. }
  destruct (r_installed r); [|apply (T [] w); apply obs_refl].
  pose proof (q_best (rdest r) true None w) as C. destruct (find_best_route _ _ _ w) as [b w1]. cbn [snd] in C.
  destruct b as [q|]; [|apply (T [] w1); apply obs_calm, C].
  destruct (find_ptr q w1) as [rb|].
  2:{ apply (T [] (fault w1)). apply obs_calm. eapply calm_trans; [exact C|apply q_fault]. }
  destruct (_ <? _); [|apply (T [] w1); apply obs_calm, C].
  apply T. eapply obs_l; [exact C|]. apply o_consider.
Qed.
Lemma o_lost k m w : obs w (n_lost k w) (route_lost k m w).
Proof.
  unfold n_lost, route_lost. pose proof (q_best (kdest k) true None w) as C.
  destruct (find_best_route _ _ _ w) as [b w1]. cbn [snd] in C.
  destruct (match b with Some _ => _ | None => _ end) as [q|].
  - eapply obs_l; [exact C|]. apply o_consider.
  - apply obs_calm. eapply calm_trans; [exact C|]. cm.
Qed.
Lemma o_urm p w : obs w (n_urm p w) (update_route_metric p w).
Proof.
  unfold n_urm, update_route_metric. destruct (find_ptr p w) as [r|]; [|apply obs_calm, q_fault]. cbv zeta.
  pose proof (q_smoothed p w) as C. destruct (smoothed_metric p w) as [sm w1]. cbn [snd] in C.
  eapply obs_l; [exact C|]. destruct (route_expired r w).
  - destruct (_ <? _); [|apply obs_refl]. destruct (src_of r w1) as [s|]; [|apply obs_calm, q_fault].
    eapply obs_l; [apply (q_map_ptr p (set_r_seqno (seqno_plus (s_seqno s) 1))); intros; split; reflexivity|].
    eapply obs_trans; [apply o_retract|]. destruct (_ <? _); [apply o_changed|apply obs_refl].
  - destruct (nb_if _ w1) as [[n i]|]; [|apply obs_calm, q_fault].
    eapply obs_trans; [apply o_metric|]. set (w2 := change_route_metric _ _ _ _ _). clearbody w2.
    destruct (find_ptr p w2) as [r2|]; [|apply obs_calm, q_fault].
    destruct (negb _); [apply o_changed|].
    pose proof (q_smoothed p w2) as C2. destruct (smoothed_metric p w2) as [sm2 w3]. cbn [snd] in C2.
    destruct (negb _); [|apply obs_calm, C2]. eapply obs_l; [exact C2|apply o_changed].
Qed.
Lemma o_walk_slot k s f nf : (forall p w, obs w (nf p w) (f p w)) ->
  forall p w, obs w (n_walk_slot k s f nf p w) (walk_slot k s f p w).
Proof.
  intros H. induction k as [|k IH]; intros p w; cbn [walk_slot n_walk_slot]; [apply obs_calm, q_nofuel|].
  destruct (find_ptr p w) as [r|]; [|apply obs_calm, q_fault]. cbv zeta.
  eapply obs_trans with (w1 := if s w r then f p w else w); [destruct (s w r); [apply H|apply obs_refl]|].
  destruct (next_ptr _ _); [apply IH|apply obs_refl].
Qed.
Lemma o_walk_slots n k s f nf : (forall p w, obs w (nf p w) (f p w)) ->
  forall i w, obs w (n_walk_slots n k s f nf i w) (walk_slots n k s f i w).
Proof.
  intros H. induction n as [|n IH]; intros i w; cbn [walk_slots n_walk_slots]; [apply obs_refl|].
  destruct (nth_error _ _) as [[|r l]|]; [apply obs_calm, q_fault| |apply obs_refl].
  eapply obs_trans; [apply o_walk_slot, H|apply IH].
Qed.
Lemma o_unm n c w : obs w (n_unm n c w) (update_neighbour_metric n c w).
Proof. unfold n_unm, update_neighbour_metric. destruct c; [apply o_walk_slots, o_urm|apply obs_refl]. Qed.
Lemma o_uim i w : obs w (n_uim i w) (update_interface_metric i w).
Proof. apply o_walk_slots, o_urm. Qed.
Lemma o_retract1 p w : obs w (n_retract1 p w) (retract1 p w).
Proof.
  unfold n_retract1, retract1. destruct (find_ptr p w) as [r|]; [|apply obs_calm, q_fault].
  destruct (negb _); [|apply obs_refl]. cbv zeta. eapply obs_trans; [apply o_retract|].
  destruct (negb _); [|apply obs_refl]. destruct (find_ptr p (retract_route p w)); [apply o_changed|apply obs_calm, q_fault].
Qed.
Lemma o_rnr n w : obs w (n_rnr n w) (retract_neighbour_routes n w).
Proof. apply o_walk_slots, o_retract1. Qed.

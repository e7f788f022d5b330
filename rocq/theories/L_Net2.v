(** L_Net2.v: the feasibility distance of one source, the updates sent for it and the
    routes selected for it, over every function of the model. *)
From Verif Require Import Base M_Util M_Slot M_Source M_Filter M_Types M_Neigh M_State M_Table M_Msg M_Route M_Xroute M_Daemon.
From Verif Require Import S_Util S_Source S_Neigh S_World S_Net L_Util L_Slot L_Source L_Neigh L_Table L_Step L_Chain2 L_Msg L_Update2 L_Daemon L_Seqno L_Seqno2 L_Mono L_Net.
From Coq Require Import Sorting.Sorted Permutation.

(** The kernel accepted the request, or already had the route, or it was a deletion. *)
Definition kok (e : kev) : Prop :=
  match e with KAdd _ rc => rc = 0 \/ rc = EEXIST | KDel _ _ => True | KFail add _ => add = false end.
Definition good (w : world) : Prop := w_bad w = false /\ Forall kok (w_ktr w).
Lemma mono_good a b : mono a b -> good b -> good a.
Proof.
  intros (A & (l & B) & _) (C & D). split; [auto|]. rewrite B in D. apply Forall_app in D. apply D.
Qed.

Section Net.
Variables (k : skey) (q : Z) (P : Z -> Z -> Z -> Prop) (T : Z -> Z * Z -> Prop) (Q : Prop).
Hypothesis HP : forall n s m, P n s m -> in_half q s.
Hypothesis HT : forall n s m y, P n s m -> closer q (s, m) y -> T n y.

Definition fdp (s : source) : Z * Z := (s_seqno s, s_metric s).
Definition fd (w : world) : option (Z * Z) := option_map fdp (get_src k (w_srcs w)).
Definition fdle (b a : world) : Prop := forall y, fd a = Some y -> exists y', fd b = Some y' /\ closer_eq q y' y.
Definition finsel (w : world) : Prop := Q /\
  Forall (fun e => r_src (e_new e) = k -> r_refmetric (e_new e) < INFINITY) (w_sel w).
Definition cov (w : world) (e : obuf * tlv) : Prop :=
  match snd e with
  | TUpdate id d s m _ => mkey id d = k -> m < INFINITY ->
      id = c_myid (w_cfg w) \/ exists y, fd w = Some y /\ closer_eq q y (s, m)
  | _ => True
  end.
Record Inv (w : world) : Prop := mkInv {
  I_rt : rt_wf (w_rt w);
  I_next : forall r, In r (all_routes w) -> r_ptr r < w_next w;
  I_srcs : ssorted (w_srcs w);
  I_src : forall s, get_src k (w_srcs w) = Some s -> in_half q (s_seqno s) /\ sec w - 200 <= s_time s;
  I_has : forall r, In r (all_routes w) -> r_src r = k -> get_src k (w_srcs w) <> None;
  I_ref : forall r, In r (all_routes w) -> r_src r = k ->
      u16_ok (r_refmetric r) /\ 0 <= r_cost r /\ 0 <= r_add_metric r;
  I_fin : forall r, In r (all_routes w) -> r_src r = k -> r_refmetric r < INFINITY ->
      P (r_neigh r) (r_seqno r) (r_refmetric r);
  I_nb : Forall neigh_ok (w_nbs w);
  I_if : Forall iface_in (w_ifs w);
  I_now : tv_ok (w_now w) }.
Definition J (w : world) : Prop :=
  (forall r, In r (all_routes w) -> r_installed r = true -> r_src r = k -> exists y, fd w = Some y /\ T (r_neigh r) y) /\
  Forall (fun n => 1 <= n_txcost n) (w_nbs w) /\
  (forall r, In r (all_routes w) -> r_src r = k -> r_refmetric r < INFINITY -> 0 < r_cost r).
Definition R (a b : world) : Prop :=
  Inv b /\ fdle b a /\ (exists l, w_out b = w_out a ++ l /\ Forall (cov b) l) /\
  w_cfg b = w_cfg a /\ w_now b = w_now a /\ (finsel b -> J a -> J b).
Definition V (a b : world) : Prop := mono a b /\ (good b -> Inv a -> R a b).

Lemma mono_finsel a b : mono a b -> finsel b -> finsel a.
Proof. intros (_ & _ & (l & B)). unfold finsel. rewrite B. intros (X & D). apply Forall_app in D. split; [exact X|apply D]. Qed.
Lemma fdle_refl a : fdle a a. Proof. intros y H. exists y. split; [exact H|apply closer_eq_refl]. Qed.
Lemma fdle_trans a b c : fdle b a -> fdle c b -> fdle c a.
Proof.
  intros H K y E. destruct (H y E) as (y' & E' & C). destruct (K y' E') as (y2 & E2 & C2).
  exists y2. split; [exact E2|]. eapply closer_eq_trans; eauto.
Qed.
Lemma cov_mono a b e : w_cfg b = w_cfg a -> fdle b a -> cov a e -> cov b e.
Proof.
  unfold cov. destruct (snd e); auto. intros C F H K L. destruct (H K L) as [M|(y & Y & Y')]; [left; congruence|].
  right. destruct (F y Y) as (y' & E & E'). exists y'. split; [exact E|]. eapply closer_eq_trans; eauto.
Qed.
Lemma R_refl a : Inv a -> R a a.
Proof.
  intros I0. split; [exact I0|]. split; [apply fdle_refl|]. split; [exists []; rewrite app_nil_r; auto|]. auto.
Qed.
Lemma R_trans a b c : mono b c -> R a b -> R b c -> R a c.
Proof.
  intros M (I1 & F1 & (l1 & O1 & C1) & G1 & N1 & J1) (I2 & F2 & (l2 & O2 & C2) & G2 & N2 & J2).
  split; [exact I2|]. split; [eapply fdle_trans; eauto|]. split; [|split; [congruence|split; [congruence|]]].
  - exists (l1 ++ l2). rewrite O2, O1, app_assoc. split; [reflexivity|]. apply Forall_app. split; [|exact C2].
    eapply Forall_impl; [|exact C1]. intros e. apply cov_mono; auto.
  - intros Fs J0. apply J2; [exact Fs|]. apply J1; [|exact J0]. eapply mono_finsel; eauto.
Qed.
Lemma V_refl a : V a a. Proof. split; [apply mono_refl|]. intros _. apply R_refl. Qed.
Lemma V_trans a b c : V a b -> V b c -> V a c.
Proof.
  intros (M1 & H1) (M2 & H2). split; [eapply mono_trans; eauto|]. intros G I0.
  pose proof (H1 (mono_good _ _ M2 G) I0) as R1. pose proof (H2 G (proj1 R1)) as R2. eapply R_trans; eauto.
Qed.
Lemma V_intro a b : mono a b -> (good b -> Inv a -> V a b) -> V a b.
Proof. intros M H. split; [exact M|]. intros G I0. exact (proj2 (H G I0) G I0). Qed.
Lemma V_then a b c : V a b -> mono b c -> (Inv a -> Inv b -> good b -> w_cfg b = w_cfg a -> w_now b = w_now a -> V b c) -> V a c.
Proof.
  intros (M1 & H1) M2 K. split; [eapply mono_trans; eauto|]. intros G I0.
  pose proof (mono_good _ _ M2 G) as G'. pose proof (H1 G' I0) as R1.
  pose proof R1 as (I1 & _ & _ & C1 & N1 & _).
  eapply R_trans; [exact M2|exact R1|]. exact (proj2 (K I0 I1 G' C1 N1) G I1).
Qed.
Lemma V_then' a b c : V a b -> mono b c -> (Inv a -> good b -> R a b -> V b c) -> V a c.
Proof.
  intros (M1 & H1) M2 K. split; [eapply mono_trans; eauto|]. intros G I0.
  pose proof (mono_good _ _ M2 G) as G'. pose proof (H1 G' I0) as R1.
  eapply R_trans; [exact M2|exact R1|]. exact (proj2 (K I0 G' R1) G (proj1 R1)).
Qed.
(** Nothing that matters changes *)
Lemma R_same a b : w_now b = w_now a -> w_cfg b = w_cfg a -> w_ifs b = w_ifs a -> w_nbs b = w_nbs a ->
  w_srcs b = w_srcs a -> w_rt b = w_rt a -> w_next a <= w_next b -> w_out b = w_out a -> Inv a -> R a b.
Proof.
  intros En Ec Ei Eb Es Er Ex Eo I0.
  assert (A : all_routes b = all_routes a) by (unfold all_routes; congruence).
  assert (F : fd b = fd a) by (unfold fd; congruence).
  split; [|split; [|split; [|split; [|split]]]]; auto.
  - destruct I0. constructor; unfold sec in *; rewrite ?A, ?En, ?Ei, ?Eb, ?Es, ?Er; auto.
    intros r Hr. specialize (I_next0 r Hr). lia.
  - intros y. rewrite F. intros H. exists y. split; [exact H|apply closer_eq_refl].
  - exists []. rewrite app_nil_r. auto.
  - intros _ (J1 & J2 & J3). unfold J. rewrite A, F, Eb. auto.
Qed.
Lemma V_same a b : mono a b -> w_now b = w_now a -> w_cfg b = w_cfg a -> w_ifs b = w_ifs a -> w_nbs b = w_nbs a ->
  w_srcs b = w_srcs a -> w_rt b = w_rt a -> w_next a <= w_next b -> w_out b = w_out a -> V a b.
Proof. intros M. intros. split; [exact M|]. intros _ I0. apply R_same; assumption. Qed.
Lemma V_bad a b : mono a b -> w_bad b = true -> V a b.
Proof. intros M E. split; [exact M|]. intros (G & _). congruence. Qed.
Lemma fold_V {A} (f : world -> A -> world) l : (forall w a, V w (f w a)) -> forall w, V w (fold_left f l w).
Proof.
  intros H. induction l as [|a l IH]; intros w; cbn; [apply V_refl|]. eapply V_trans; [apply H|apply IH].
Qed.
Lemma fold_V_fst {A B} (f : world * B -> A -> world * B) l : 
  (forall w a, V (fst w) (fst (f w a))) -> forall x, V (fst x) (fst (fold_left f l x)).
Proof.
  intros H. induction l as [|a l IH]; intros w; cbn; [apply V_refl|]. eapply V_trans; [apply H|apply IH].
Qed.
Lemma fold_V_snd {A B} (f : B * world -> A -> B * world) l :
  (forall w a, V (snd w) (snd (f w a))) -> forall x, V (snd x) (snd (fold_left f l x)).
Proof.
  intros H. induction l as [|a l IH]; intros w; cbn; [apply V_refl|]. eapply V_trans; [apply H|apply IH].
Qed.

(** ** Changes of the route table *)
Definition rsame (r r' : route) : Prop :=
  r_ptr r' = r_ptr r /\ r_src r' = r_src r /\ r_neigh r' = r_neigh r /\ r_seqno r' = r_seqno r /\
  r_refmetric r' = r_refmetric r /\ r_cost r' = r_cost r /\ r_add_metric r' = r_add_metric r /\
  (r_installed r' = true -> r_installed r = true).
Lemma rsame_refl r : rsame r r. Proof. unfold rsame. auto 10. Qed.
Lemma R_rt a t : rt_wf t -> (forall r', In r' (concat t) -> exists r, In r (all_routes a) /\ rsame r r') ->
  Inv a -> R a (set_w_rt t a).
Proof.
  intros Wt H I0. split; [|split; [|split; [|split; [|split]]]]; auto.
  - destruct I0. constructor; cbn; auto; intros r' K; destruct (H r' K) as (r & Hr & E1 & E2 & E3 & E4 & E5 & E6 & E7 & _);
      rewrite ?E1, ?E2, ?E3, ?E4, ?E5, ?E6, ?E7; eauto.
  - exact (fdle_refl a).
  - exists []. rewrite app_nil_r. auto.
  - intros _ (J1 & J2 & J3). split; [|split; [exact J2|]].
    + intros r' K E E'. destruct (H r' K) as (r & Hr & E1 & E2 & E3 & E4 & E5 & E6 & E7 & E8). rewrite E3. apply J1; auto. congruence.
    + intros r' K E E'. destruct (H r' K) as (r & Hr & E1 & E2 & E3 & E4 & E5 & E6 & E7 & E8). rewrite E6. apply J3; auto; congruence.
Qed.
Lemma V_rt a t : (Inv a -> rt_wf t /\ (forall r', In r' (concat t) -> exists r, In r (all_routes a) /\ rsame r r')) ->
  V a (set_w_rt t a).
Proof. intros H. split; [apply m_rt|]. intros _ I0. destruct (H I0). apply R_rt; assumption. Qed.
Lemma v_map_ptr p f w : (forall r, rsame r (f r) /\ r_installed (f r) = r_installed r) -> V w (map_ptr p f w).
Proof.
  intros H. unfold map_ptr. apply V_rt. intros I0. split.
  - apply (map_ptr_wf p f w); [|intros r; apply H|apply I0]. intros r. destruct (H r) as ((E1 & E2 & E3 & _) & _).
    unfold dest_of. rewrite E1, E2, E3. auto.
  - intros r' K. rewrite <- concat_map in K. apply in_map_iff in K. destruct K as (x & <- & K).
    exists x. split; [exact K|]. destruct (is_ptr p x); [apply H|apply rsame_refl].
Qed.
Lemma v_uninst p w : V w (map_ptr p (set_r_installed false) w).
Proof.
  unfold map_ptr. apply V_rt. intros I0. split.
  - apply (map_ptr_uninst_wf p w). apply I0.
  - intros r' K. rewrite <- concat_map in K. apply in_map_iff in K. destruct K as (x & <- & K).
    exists x. split; [exact K|]. destruct (is_ptr p x); [|apply rsame_refl]. unfold rsame. cbn. repeat split. discriminate.
Qed.
(** Changing one route in place *)
Lemma put_wf p h w r : rt_wf (w_rt w) -> find_ptr p w = Some r -> dest_of (h r) = dest_of r ->
  (forall x, r_ptr (h x) = r_ptr x /\ r_neigh (h x) = r_neigh x /\ r_installed (h x) = r_installed x) ->
  rt_wf (w_rt (map_ptr p h w)).
Proof.
  intros Wf F D K.
  set (h' := fun x => set_r_src (mkKey (k_id (r_src (h x))) (k_prefix (r_src x)) (k_plen (r_src x)) (k_src (r_src x)) (k_splen (r_src x))) (h x)).
  rewrite (map_ptr_ext w p r h h' Wf F).
  - apply map_ptr_wf; auto; intros x; destruct (K x) as (A & B & C); unfold h'; cbn; auto.
  - unfold h'. unfold dest_of, dest_of_key in D. injection D as <- <- <- <-.
    destruct (h r) as [? [? ? ? ? ?] ? ? ? ? ? ? ? ? ? ? ?]. reflexivity.
Qed.
Lemma R_put p h w r : Inv w -> find_ptr p w = Some r -> dest_of (h r) = dest_of r ->
  (forall x, r_ptr (h x) = r_ptr x /\ r_neigh (h x) = r_neigh x /\ r_installed (h x) = r_installed x) ->
  (r_src (h r) = k -> get_src k (w_srcs w) <> None /\ u16_ok (r_refmetric (h r)) /\ 0 <= r_cost (h r) /\ 0 <= r_add_metric (h r) /\
     (r_refmetric (h r) < INFINITY -> P (r_neigh r) (r_seqno (h r)) (r_refmetric (h r))) /\
     (finsel w -> J w -> (r_refmetric (h r) < INFINITY -> 0 < r_cost (h r)) /\
          (r_src r <> k -> r_installed r = true -> exists y, fd w = Some y /\ T (r_neigh r) y))) ->
  R w (map_ptr p h w).
Proof.
  intros I0 F D K C.
  assert (U : forall r', In r' (all_routes (map_ptr p h w)) -> r' = h r /\ In r (all_routes w) \/ In r' (all_routes w)).
  { intros r' H. rewrite all_map_ptr in H. apply in_map_iff in H. destruct H as (x & <- & Hx). unfold upd_route.
    destruct (is_ptr p x) eqn:Ep; [left|auto].
    assert (G : find_ptr p w = Some x) by (apply find_ptr_iff; [apply I0|]; unfold is_ptr in Ep; split; [exact Hx|lia]).
    split; [congruence|]. rewrite F in G. injection G as ->. exact Hx. }
  destruct (K r) as (K1 & K2 & K3).
  split; [|split; [|split; [|split; [|split]]]]; auto.
  - destruct I0. constructor; cbn; auto.
    + apply put_wf with (r := r); auto.
    + intros r' H. destruct (U r' H) as [(-> & Hr)|Hr]; [rewrite K1|]; auto.
    + intros r' H E. destruct (U r' H) as [(-> & Hr)|Hr]; [apply C; exact E|eauto].
    + intros r' H E. destruct (U r' H) as [(-> & Hr)|Hr]; [|auto]. destruct (C E) as (_ & C1 & C2 & C3 & _). auto.
    + intros r' H E E'. destruct (U r' H) as [(-> & Hr)|Hr]; [|auto]. destruct (C E) as (_ & _ & _ & _ & C4 & _). rewrite K2. auto.
  - exact (fdle_refl w).
  - exists []. rewrite app_nil_r. auto.
  - intros Fs J0. pose proof J0 as (J1 & J2 & J3). split; [|split; [exact J2|]].
    + intros r' H E E'. destruct (U r' H) as [(-> & Hr)|Hr]; [|auto]. rewrite K2.
      destruct (skey_dec (r_src r) k) as [Ek|Ek]; [apply J1; auto; congruence|].
      destruct (C E') as (_ & _ & _ & _ & _ & C5). apply (C5 Fs J0); [exact Ek|congruence].
    + intros r' H E E'. destruct (U r' H) as [(-> & Hr)|Hr]; [|auto]. destruct (C E) as (_ & _ & _ & _ & _ & C5). apply (C5 Fs J0). exact E'.
Qed.

(** ** Other tables *)
Lemma V_ifs w l : (Inv w -> Forall iface_in l) -> V w (set_w_ifs l w).
Proof.
  intros H. split; [apply m_ifs|]. intros _ I0. specialize (H I0). destruct I0.
  split; [constructor; assumption|]. split; [exact (fdle_refl w)|]. split; [exists []; rewrite app_nil_r; auto|]. auto.
Qed.
Lemma v_map_if i f w : (forall x, iface_in x -> iface_in (f x)) -> V w (map_if i f w).
Proof.
  intros H. apply V_ifs. intros I0. pose proof (I_if _ I0) as F. rewrite Forall_forall in *. intros x K.
  apply in_map_iff in K. destruct K as (y & <- & K). destruct (_ =? i); auto.
Qed.
Lemma V_nbs w l : (Inv w -> Forall neigh_ok l /\ (Q -> Forall (fun n => 1 <= n_txcost n) (w_nbs w) -> Forall (fun n => 1 <= n_txcost n) l)) ->
  V w (set_w_nbs l w).
Proof.
  intros H. split; [apply m_nbs|]. intros _ I0. destruct (H I0) as (A & B). destruct I0.
  split; [constructor; assumption|]. split; [exact (fdle_refl w)|]. split; [exists []; rewrite app_nil_r; auto|].
  split; [auto|]. split; [auto|]. intros (Hq & _) (J1 & J2 & J3). split; [exact J1|]. split; [exact (B Hq J2)|exact J3].
Qed.
Lemma v_map_nb n f w : (forall x, In x (w_nbs w) -> n_id x = n -> tv_ok (w_now w) -> neigh_ok x -> neigh_ok (f x)) ->
  (Q -> forall x, In x (w_nbs w) -> n_id x = n -> 1 <= n_txcost x -> 1 <= n_txcost (f x)) -> V w (map_nb n f w).
Proof.
  intros H K. apply V_nbs. intros I0. pose proof (I_nb _ I0) as F. pose proof (I_now _ I0) as N. rewrite !Forall_forall in *. split; intros.
  - apply in_map_iff in H0. destruct H0 as (y & <- & L). destruct (n_id y =? n) eqn:E; auto. apply H; auto. lia.
  - rename H0 into Hq. rename H1 into H0. apply in_map_iff in H2. destruct H2 as (y & <- & L). destruct (n_id y =? n) eqn:E; auto. apply K; auto. lia.
Qed.
Lemma v_next x w : w_next w <= x -> V w (set_w_next x w).
Proof. intros H. apply V_same; auto. apply m_next. Qed.

(** ** Source entries *)
Lemma R_srcs w t : ssorted t ->
  (forall s, get_src k t = Some s -> in_half q (s_seqno s) /\ sec w - 200 <= s_time s) ->
  (forall s, get_src k (w_srcs w) = Some s -> exists s', get_src k t = Some s' /\ closer_eq q (fdp s') (fdp s)) ->
  (J w -> forall r, In r (all_routes w) -> r_installed r = true -> r_src r = k -> exists y, option_map fdp (get_src k t) = Some y /\ T (r_neigh r) y) ->
  Inv w -> R w (set_w_srcs t w).
Proof.
  intros A B C D I0. split; [|split; [|split; [|split; [|split]]]]; auto.
  - destruct I0. constructor; cbn; auto. intros r H E. specialize (I_has0 r H E).
    destruct (get_src k (w_srcs w)) as [s|] eqn:G; [|congruence]. destruct (C s eq_refl) as (s' & X & _). intros Y. change (get_src k t = None) in Y. congruence.
  - intros y. unfold fd. cbn [w_srcs set_w_srcs]. destruct (get_src k (w_srcs w)) as [s|] eqn:G; [|discriminate]. intros H. injection H as <-.
    destruct (C s eq_refl) as (s' & -> & K). exists (fdp s'). auto.
  - exists []. rewrite app_nil_r. auto.
  - intros _ J0. pose proof J0 as (J1 & J2 & J3). split; [|split; [exact J2|exact J3]]. intros r. apply (D J0).
Qed.
Lemma v_map_src k' f w : (forall s, s_key (f s) = s_key s /\ s_seqno (f s) = s_seqno s /\ s_metric (f s) = s_metric s /\ s_time (f s) = s_time s) ->
  V w (set_w_srcs (map_src k' f (w_srcs w)) w).
Proof.
  intros H. split; [apply m_srcs|]. intros _ I0.
  assert (Hk : forall s, s_key (f s) = s_key s) by (intros s; apply H).
  assert (E : forall s, get_src k (w_srcs w) = Some s -> exists s', get_src k (map_src k' f (w_srcs w)) = Some s' /\ fdp s' = fdp s /\ s_time s' = s_time s).
  { intros s G. rewrite get_map_src by exact Hk. rewrite G. eexists. split; [reflexivity|].
    destruct (skey_eqb k' k); [|auto]. destruct (H s) as (_ & E1 & E2 & E3). unfold fdp. rewrite E1, E2, E3. auto. }
  apply R_srcs; auto.
  - apply map_src_sorted; [exact Hk|apply I0].
  - intros s G. rewrite get_map_src in G by exact Hk. destruct (get_src k (w_srcs w)) as [s0|] eqn:G0; [|discriminate].
    destruct (E s0 eq_refl) as (s' & X & Y & Z0). rewrite get_map_src in X by exact Hk. rewrite G0 in X.
    assert (s' = s) by congruence. subst s'. unfold fdp in Y. injection Y as Y _. rewrite Y, Z0. apply (I_src _ I0). exact G0.
  - intros s G. destruct (E s G) as (s' & X & Y & _). exists s'. split; [exact X|]. rewrite Y. apply closer_eq_refl.
  - intros (J1 & _) r Hr Hi Hk0. destruct (J1 r Hr Hi Hk0) as (y & Y & Y'). exists y. split; [|exact Y'].
    unfold fd in Y. destruct (get_src k (w_srcs w)) as [s|] eqn:G; [|discriminate]. destruct (E s eq_refl) as (s' & -> & Z0 & _).
    cbn in *. rewrite Z0. exact Y.
Qed.
Lemma v_find k' s w : (k' = k -> in_half q s) -> V w (set_w_srcs (snd (find_source (sec w) k' true s (w_srcs w))) w).
Proof.
  intros H. split; [apply m_srcs|]. intros _ I0. pose proof (find_source_spec (sec w) k' true s (w_srcs w) (I_srcs _ I0)) as S0.
  destruct (get_src k' (w_srcs w)) as [s0|] eqn:G.
  - rewrite S0. cbn [snd]. apply R_same; auto. cbn. lia.
  - destruct S0 as (t1 & t2 & E & -> & S1). cbn [snd]. set (n := mkSrc k' s INFINITY 0 (sec w)) in *.
    assert (X : forall x, get_src k (t1 ++ n :: t2) = Some x <-> (x = n /\ k' = k) \/ get_src k (w_srcs w) = Some x).
    { intros x. rewrite (get_src_iff _ _ _ S1), (get_src_iff _ _ _ (I_srcs _ I0)), E, !in_app_iff. cbn [In].
      split; [intros ([K|[K|K]] & L); auto; left; subst; auto|intros [(-> & L)|([K|K] & L)]; auto]. }
    apply R_srcs; auto.
    + intros x K. apply X in K. destruct K as [(-> & K)|K]; [|apply (I_src _ I0); exact K]. cbn. split; [auto|lia].
    + intros x K. exists x. split; [apply X; auto|apply closer_eq_refl].
    + intros (J1 & _) r Hr Hi Hk. destruct (J1 r Hr Hi Hk) as (y & Y & Y'). exists y. split; [|exact Y'].
      unfold fd in Y. destruct (get_src k (w_srcs w)) as [x|] eqn:G0; [|discriminate].
      rewrite (proj2 (X x)); auto.
Qed.
(** Announcing a route *)
Lemma half_update q0 now seqno metric s : in_half q0 (s_seqno s) -> now - 200 <= s_time s -> in_half q0 seqno -> metric < INFINITY ->
  closer_eq q0 (fdp (update_source1 now seqno metric s)) (fdp s) /\
  closer_eq q0 (fdp (update_source1 now seqno metric s)) (seqno, metric) /\
  in_half q0 (s_seqno (update_source1 now seqno metric s)) /\ s_time (update_source1 now seqno metric s) = now /\
  (fdp (update_source1 now seqno metric s) = fdp s \/ fdp (update_source1 now seqno metric s) = (seqno, metric)).
Proof.
  intros A B C D. unfold update_source1. replace (metric >=? INFINITY) with false by lia.
  replace (s_time s <? now - SOURCE_GC_TIME) with false by (unfold SOURCE_GC_TIME; lia). cbn [orb].
  destruct (half_compare q0 _ _ A C) as (X & Y & Z0). rewrite Y. 
  destruct (ahead (s_seqno s) q0 <? ahead seqno q0) eqn:L; cbn [orb].
  - unfold fdp, closer_eq, closer. cbn [fst snd s_seqno s_metric s_time s_key s_count]. repeat split; auto; try (apply C); right; left; lia.
  - destruct ((s_seqno s =? seqno) && (s_metric s >? metric)) eqn:M.
    + unfold fdp, closer_eq, closer. cbn [fst snd s_seqno s_metric s_time s_key s_count]. repeat split; auto; try (apply C). right. right. lia.
    + unfold fdp, closer_eq, closer. cbn [fst snd s_seqno s_metric s_time s_key s_count]. repeat split; auto; try (apply A).
      destruct (Z.eq_dec (s_seqno s) seqno) as [E|E].
      * rewrite E in *. destruct (Z.eq_dec (s_metric s) metric) as [->|N]; [auto|]. right. right. split; [auto|]. lia.
      * right. left. assert (ahead (s_seqno s) q0 <> ahead seqno q0) by (intros K; apply E, Z0, K). lia.
Qed.

(** ** Messages *)
#[local] Ltac vv1 :=
  match goal with
  | |- V ?x ?x => apply V_refl
  | |- V _ (let '(_, _) := ?x in _) => rewrite (surjective_pairing x)
  | |- V _ (snd (let '(_, _) := ?x in _)) => rewrite (surjective_pairing x)
  | |- V _ (fst (let '(_, _) := ?x in _)) => rewrite (surjective_pairing x)
  | |- V _ (if ?c then _ else _) => destruct c
  | |- V _ (match ?x with _ => _ end) => destruct x
  | |- V _ (snd (if ?c then _ else _)) => destruct c
  | |- V _ (fst (if ?c then _ else _)) => destruct c
  | |- V _ (snd (match ?x with _ => _ end)) => destruct x
  | |- V _ (fst (match ?x with _ => _ end)) => destruct x
  | |- V _ _ => eapply V_trans; [|solve [eauto 2 with vdb nocore]]
  end; cbv beta iota zeta; cbn [fst snd].
#[local] Ltac vv := intros; cbv beta iota zeta; cbn [fst snd]; repeat vv1.
#[local] Ltac triv := intros; apply V_same; [|try reflexivity..]; try (apply mono_same; reflexivity).
Lemma v_fault w : V w (fault w). Proof. apply V_bad; [apply m_fault|reflexivity]. Qed.
Lemma v_nofuel w : V w (nofuel w). Proof. triv. Qed.
Lemma v_xr x w : V w (set_w_xr x w). Proof. triv. Qed.
Lemma v_rsd x w : V w (set_w_rsd x w). Proof. triv. Qed.
Lemma v_rsdt x w : V w (set_w_rsd_time x w). Proof. triv. Qed.
Lemma v_rnd x w : V w (set_w_rnd x w). Proof. triv. Qed.
Lemma v_kresp x w : V w (set_w_kresp x w). Proof. triv. Qed.
#[local] Hint Resolve v_fault v_nofuel v_xr v_rsd v_rsdt v_rnd v_kresp v_uninst : vdb.
#[local] Hint Extern 1 (V _ (map_ptr _ _ _)) => (apply v_map_ptr; intros ?; split; [unfold rsame; cbn; auto 10|reflexivity]) : vdb.
#[local] Hint Extern 1 (V _ (map_if _ _ _)) => (apply v_map_if; intros ? H; first [exact H|cbv beta; match goal with |- context [if ?c then _ else _] => destruct c end; exact H]) : vdb.

Lemma v_rand w : V w (snd (rand w)). Proof. unfold rand. vv. Qed.
#[local] Hint Resolve v_rand : vdb.
Lemma v_recompute w : V w (recompute_resend_time w). Proof. triv. Qed.
#[local] Hint Resolve v_recompute : vdb.
Lemma v_record kd d s i p dl w : V w (record_resend kd d s i p dl w).
Proof. unfold record_resend. vv. Qed.
Lemma v_satisfy d s i p w : V w (satisfy_request d s i p w).
Proof. unfold satisfy_request. vv. Qed.
Lemma v_expire_resend w : V w (expire_resend w).
Proof. unfold expire_resend. vv. Qed.
Lemma v_jitter i u w : V w (snd (update_jitter i u w)).
Proof. unfold update_jitter. vv. Qed.
Lemma v_timeout i w : V w (snd (set_timeout i w)).
Proof. unfold set_timeout. vv. Qed.
#[local] Hint Resolve v_record v_satisfy v_expire_resend v_jitter v_timeout : vdb.
Lemma R_out w l : (forall e, In e l -> cov w e) -> Inv w -> R w (set_w_out (w_out w ++ l) w).
Proof.
  intros H I0. split; [|split; [|split; [|split; [|split]]]]; auto.
  - destruct I0. constructor; assumption.
  - exact (fdle_refl w).
  - exists l. split; [reflexivity|]. apply Forall_forall. exact H.
Qed.
Lemma v_emit b t w : cov w (b, t) -> V w (emit b t w).
Proof.
  intros H. split; [apply m_emit|]. intros _ I0. apply R_out; [|exact I0]. intros e [<-|[]]. exact H.
Qed.
Definition sent_as (id : list Z) (d : dest) (s m : Z) (e : obuf * tlv) : Prop :=
  exists m' iv, snd e = TUpdate id d s m' iv /\ (m' < INFINITY -> m <= m').
Lemma output_nonneg fs id d i : 0 <= output_filter fs id d i.
Proof. unfold output_filter. cbv zeta. destruct (_ <? 0) eqn:E; lia. Qed.
Lemma rbu_spec b i id d s m w : exists l, really_buffer_update b i id d s m w = set_w_out (w_out w ++ l) w /\ Forall (sent_as id d s m) l.
Proof.
  assert (N : exists l, w = set_w_out (w_out w ++ l) w /\ Forall (sent_as id d s m) l).
  { exists []. rewrite app_nil_r. destruct w. auto. }
  unfold really_buffer_update. cbv zeta. destruct (negb (if_up i)); [exact N|]. destruct (_ && _); [exact N|].
  pose proof (output_nonneg (c_outfs (w_cfg w)) (Some id) d (if_ifindex i)) as G.
  destruct (_ >=? _); [exact N|]. destruct (_ && _); [exact N|]. eexists. split; [reflexivity|].
  constructor; [|constructor]. eexists _, _. split; [reflexivity|]. lia.
Qed.
Lemma rsu_spec i id d s m w : exists l, really_send_update i id d s m w = set_w_out (w_out w ++ l) w /\ Forall (sent_as id d s m) l.
Proof.
  unfold really_send_update. destruct (negb (if_up i)).
  - exists []. rewrite app_nil_r. destruct w. auto.
  - generalize (buffers i w). intros l. revert w. induction l as [|b l IH]; intros w; cbn [fold_left].
    + exists []. rewrite app_nil_r. destruct w. auto.
    + destruct (rbu_spec b i id d s m w) as (l1 & -> & F1). destruct (IH (set_w_out (w_out w ++ l1) w)) as (l2 & -> & F2).
      exists (l1 ++ l2). cbn [w_out set_w_out]. rewrite app_assoc. split; [reflexivity|]. apply Forall_app. auto.
Qed.
Lemma v_rsu_own i id d s m w : id = c_myid (w_cfg w) -> V w (really_send_update i id d s m w).
Proof.
  intros E. split; [apply m_rsu|]. intros _ I0. destruct (rsu_spec i id d s m w) as (l & -> & F).
  apply R_out; [|exact I0]. rewrite Forall_forall in F. intros e H. destruct (F e H) as (m' & iv & X & _).
  unfold cov. rewrite X. auto.
Qed.
Lemma mkey_kdest x : mkey (k_id x) (kdest x) = x. Proof. destruct x. reflexivity. Qed.
Lemma one_installed w r r' : rt_wf (w_rt w) -> In r (all_routes w) -> In r' (all_routes w) -> r_installed r = true -> r_installed r' = true ->
  dest_of r' = dest_of r -> r' = r.
Proof.
  intros Wf A B C D E. pose proof (route_dvalid _ _ Wf A) as Dv.
  assert (X : find_installed (dest_of r) w = Some r) by (apply find_installed_iff; auto).
  assert (Y : find_installed (dest_of r) w = Some r') by (apply find_installed_iff; auto). congruence.
Qed.
Lemma v_announce i r w : In r (all_routes w) -> r_installed r = true ->
  let w2 := really_send_update i (k_id (r_src r)) (rdest r) (r_seqno r) (route_metric r) w in
  V w (set_w_srcs (update_source (sec w2) (r_src r) (r_seqno r) (route_metric r) (w_srcs w2)) w2).
Proof.
  intros Hr Hi. cbv zeta. split; [eapply mono_trans; [apply m_rsu|apply m_srcs]|]. intros _ I0.
  destruct (rsu_spec i (k_id (r_src r)) (rdest r) (r_seqno r) (route_metric r) w) as (l & -> & F).
  set (t := update_source (sec w) (r_src r) (r_seqno r) (route_metric r) (w_srcs w)).
  change (R w (set_w_out (w_out (set_w_srcs t w) ++ l) (set_w_srcs t w))).
  assert (Hf : forall s, s_key (update_source1 (sec w) (r_seqno r) (route_metric r) s) = s_key s).
  { intros s. unfold update_source1. destruct (_ >=? _); reflexivity. }
  pose proof (fun x => get_map_src (r_src r) (update_source1 (sec w) (r_seqno r) (route_metric r)) (w_srcs w) x Hf) as G.
  fold (update_source (sec w) (r_src r) (r_seqno r) (route_metric r) (w_srcs w)) in G. fold t in G.
  assert (St : ssorted t) by (apply map_src_sorted; [exact Hf|apply I0]).
  assert (M : mono (set_w_srcs t w) (set_w_out (w_out (set_w_srcs t w) ++ l) (set_w_srcs t w))) by (apply mono_same; reflexivity).
  rewrite Forall_forall in F.
  destruct (skey_dec (r_src r) k) as [Ek|Ek].
  2: { assert (Gk : get_src k t = get_src k (w_srcs w)).
       { rewrite G. apply skey_eqb_false in Ek. rewrite Ek. destruct (get_src k (w_srcs w)); reflexivity. }
       assert (R1 : R w (set_w_srcs t w)).
       { apply R_srcs; auto; rewrite Gk; auto; [apply I0|intros s H; exists s; split; [exact H|apply closer_eq_refl]|].
         intros (J1 & _) r' A B C. exact (J1 r' A B C). }
       eapply R_trans; [exact M|exact R1|]. apply R_out; [|apply R1]. intros e He. destruct (F e He) as (m' & iv & X & _).
       unfold cov. rewrite X. intros Y. unfold rdest in Y. rewrite mkey_kdest in Y. contradiction. }
  destruct (get_src k (w_srcs w)) as [s|] eqn:Gs; [|exfalso; exact (I_has _ I0 r Hr Ek Gs)].
  assert (Gk : get_src k t = Some (update_source1 (sec w) (r_seqno r) (route_metric r) s)) by (rewrite G, Gs, Ek, skey_eqb_refl; reflexivity).
  destruct (I_src _ I0 s Gs) as (Hs & Ht). destruct (I_ref _ I0 r Hr Ek) as (A1 & A2 & A3).
  destruct (Z_lt_ge_dec (route_metric r) INFINITY) as [Hm|Hm].
  - assert (Hm' : route_metric r = r_refmetric r + r_cost r + r_add_metric r) by (unfold route_metric in *; lia).
    assert (Hf' : r_refmetric r < INFINITY) by lia.
    pose proof (I_fin _ I0 r Hr Ek Hf') as Hp.
    destruct (half_update q (sec w) (r_seqno r) (route_metric r) s Hs Ht (HP _ _ _ Hp) Hm) as (U1 & U2 & U3 & U4 & U5).
    assert (R1 : R w (set_w_srcs t w)).
    { apply R_srcs; auto; rewrite Gk.
      - intros x X. injection X as <-. split; [exact U3|lia].
      - intros x X. assert (x = s) by congruence. subst x. eexists. split; [reflexivity|exact U1].
      - intros (J1 & J2 & J3) r' B1 B2 B3. assert (r' = r).
        { apply (one_installed w); auto; [apply I0|]. unfold dest_of. congruence. }
        subst r'. eexists. split; [reflexivity|]. destruct U5 as [->|U5].
        + destruct (J1 r Hr Hi Ek) as (y & Y & Y'). unfold fd in Y. rewrite Gs in Y. injection Y as <-. exact Y'.
        + rewrite U5. apply (HT _ _ _ _ Hp). right. cbn. split; [reflexivity|]. specialize (J3 r Hr Ek Hf'). lia. }
    eapply R_trans; [exact M|exact R1|]. apply R_out; [|apply R1]. intros e He. destruct (F e He) as (m' & iv & X & X').
    unfold cov. rewrite X. intros _ Hm2. specialize (X' Hm2). right. unfold fd. cbn [w_srcs set_w_srcs]. rewrite Gk. eexists. split; [reflexivity|].
    eapply closer_eq_trans; [exact U2|]. destruct (Z.eq_dec (route_metric r) m') as [->|N]; [apply closer_eq_refl|].
    right. right. cbn. split; [reflexivity|lia].
  - assert (Gk' : get_src k t = Some s) by (rewrite Gk; unfold update_source1; replace (route_metric r >=? INFINITY) with true by lia; reflexivity).
    assert (R1 : R w (set_w_srcs t w)).
    { apply R_srcs; auto; rewrite Gk'.
      - intros x X. injection X as <-. auto.
      - intros x X. assert (x = s) by congruence. subst x. exists s. split; [reflexivity|apply closer_eq_refl].
      - intros (J1 & _) r' B1 B2 B3. destruct (J1 r' B1 B2 B3) as (y & Y & Y'). exists y. unfold fd in Y. rewrite Gs in Y. auto. }
    eapply R_trans; [exact M|exact R1|]. apply R_out; [|apply R1]. intros e He. destruct (F e He) as (m' & iv & X & X').
    unfold cov. rewrite X. intros _ Hm2. specialize (X' Hm2). lia.
Qed.
Lemma satisfy_rt d s i p w : w_rt (satisfy_request d s i p w) = w_rt w.
Proof. unfold satisfy_request. repeat match goal with |- context [match ?x with _ => _ end] => destruct x end; reflexivity. Qed.
Lemma v_flush1_rt i r (last : option dest) w1 : In r (all_routes w1) -> r_installed r = true ->
  V w1 (fst (match nb_if (r_neigh r) w1 with
          | None => (fault w1, last)
          | Some (_, ri) =>
              if flag i IF_SPLIT_HORIZON && (if_id ri =? if_id i) then (w1, last)
              else
                let w2 := really_send_update i (k_id (r_src r)) (rdest r) (r_seqno r) (route_metric r) w1 in
                (set_w_srcs (update_source (sec w2) (r_src r) (r_seqno r) (route_metric r) (w_srcs w2)) w2,
                 Some (rdest r))
          end)).
Proof.
  intros H H'. destruct (nb_if (r_neigh r) w1) as [[nb ri]|]; cbn [fst]; [|apply v_fault].
  destruct (_ && _); cbn [fst]; [apply V_refl|]. apply v_announce; assumption.
Qed.
Lemma v_flush1 i wl b : V (fst wl) (fst (flush1 i wl b)).
Proof.
  unfold flush1. destruct wl as [w last]. cbn [fst]. cbv zeta.
  match goal with |- V _ (fst (if ?c then _ else _)) => destruct c end; [apply V_refl|].
  destruct (find_xroute (snd b) w) as [x|], (find_installed (snd b) w) as [r|] eqn:E; cbn [fst];
    try (apply v_rsu_own; reflexivity).
  all: destruct (find_installed_In _ _ _ E) as (A & B).
  all: assert (A' : forall c : bool, In r (all_routes (if c then satisfy_request (rdest r) (r_seqno r) (k_id (r_src r)) (Some (if_id i)) w else w)))
      by (intros c; unfold all_routes; destruct c; [rewrite satisfy_rt|]; exact A).
  - destruct (x_metric x <=? c_kernel_metric (w_cfg w)); [apply v_rsu_own; reflexivity|].
    eapply V_trans; [|apply (v_flush1_rt i r last _ (A' _) B)]. destruct (_ <? _); [apply v_satisfy|apply V_refl].
  - eapply V_trans; [|apply (v_flush1_rt i r last _ (A' _) B)]. destruct (_ <? _); [apply v_satisfy|apply V_refl].
Qed.
Lemma v_flushupdates i w : V w (flushupdates i w).
Proof. unfold flushupdates. vv. eapply V_trans; [|apply (fold_V_fst (flush1 i0)); apply v_flush1]. cbn [fst]. vv. Qed.
#[local] Hint Resolve v_flushupdates : vdb.
Lemma v_suf i u w : V w (schedule_update_flush i u w).
Proof. unfold schedule_update_flush. vv. Qed.
Lemma v_bu i d w : V w (buffer_update i d w).
Proof. unfold buffer_update. vv. Qed.
#[local] Hint Resolve v_suf v_bu : vdb.
Lemma v_sui i u d w : V w (send_update_if i u d w).
Proof. unfold send_update_if. vv. Qed.
#[local] Hint Resolve v_sui : vdb.
Lemma v_self i w : V w (send_self_update_if i w).
Proof. unfold send_self_update_if. apply fold_V. vv. Qed.
#[local] Hint Resolve v_self : vdb.
Lemma v_wild i u s w : V w (send_update_wild i u s w).
Proof. unfold send_update_wild. vv. eapply V_trans; [|apply fold_V; vv]. vv. Qed.
#[local] Hint Resolve v_wild : vdb.
Lemma v_full i u w : V w (send_update_full i u w).
Proof. unfold send_update_full. vv. Qed.
Lemma v_sua u d w : V w (send_update_all u d w).
Proof.
  assert (H : V w (fold_left (fun w i => send_update_if i u d w) (map if_id (w_ifs w)) w))
    by (apply fold_V; vv).
  unfold send_update_all. cbv zeta. vv; exact H.
Qed.
#[local] Hint Resolve v_full v_sua : vdb.
Lemma v_sur d w : V w (send_update_resend d w).
Proof. unfold send_update_resend. vv. Qed.
Lemma v_retr i w : V w (send_wildcard_retraction i w).
Proof. unfold send_wildcard_retraction. vv. apply fold_V. intros. apply v_emit. exact Logic.I. Qed.
Lemma v_sr b i d w : V w (send_request b i d w).
Proof. unfold send_request. vv. apply v_emit. exact Logic.I. Qed.
#[local] Hint Resolve v_sur v_retr v_sr : vdb.
Lemma v_smr d i w : V w (send_multicast_request_if d i w).
Proof. unfold send_multicast_request_if. vv. eapply V_trans; [|apply fold_V; vv]. vv. Qed.
#[local] Hint Resolve v_smr : vdb.
Lemma v_smra d w : V w (send_multicast_request_all d w).
Proof. unfold send_multicast_request_all. apply fold_V. vv. Qed.
Lemma v_sunr n d w : V w (send_unicast_request n d w).
Proof. unfold send_unicast_request. vv. Qed.
Lemma v_smh b i d s id h w : V w (send_multihop_request b i d s id h w).
Proof. unfold send_multihop_request. vv. apply v_emit. exact Logic.I. Qed.
#[local] Hint Resolve v_smra v_sunr v_smh : vdb.
Lemma v_smmh d s id h i w : V w (send_multicast_multihop_request_if d s id h i w).
Proof. unfold send_multicast_multihop_request_if. vv. eapply V_trans; [|apply fold_V; vv]. vv. Qed.
#[local] Hint Resolve v_smmh : vdb.
Lemma v_smm p d s id h w : V w (send_multicast_multihop_request p d s id h w).
Proof. unfold send_multicast_multihop_request. destruct p; vv. apply fold_V. vv. Qed.
Lemma v_sumh n d s id h w : V w (send_unicast_multihop_request n d s id h w).
Proof. unfold send_unicast_multihop_request. vv. Qed.
#[local] Hint Resolve v_smm v_sumh : vdb.
Lemma v_resend1 w j : V w (do_resend1 w j).
Proof. unfold do_resend1. vv. Qed.
Lemma v_resend w : V w (do_resend w).
Proof. unfold do_resend. eapply V_trans; [|apply v_recompute]. apply fold_V. apply v_resend1. Qed.
#[local] Hint Resolve v_resend : vdb.

(** route.c *)
Lemma v_kresp1 w : V w (snd (kresp1 w)). Proof. unfold kresp1. vv. Qed.
Lemma v_ktrace e w : V w (ktrace e w). Proof. apply V_same; try reflexivity. apply m_ktrace. Qed.
#[local] Hint Resolve v_kresp1 v_ktrace : vdb.
Lemma v_kr1 a t d p g i m w : V w (snd (kernel_route1 a t d p g i m w)).
Proof. unfold kernel_route1. vv. Qed.
#[local] Hint Resolve v_kr1 : vdb.
Lemma v_krm t d p g i m a b c e w : V w (snd (kernel_route_modify t d p g i m a b c e w)).
Proof. unfold kernel_route_modify. vv. Qed.
#[local] Hint Resolve v_krm : vdb.
Lemma v_cra r i m w : V w (snd (change_route_add r i m w)).
Proof. unfold change_route_add. destruct (inst_filter r i w) as [[? ?] ?]. vv. Qed.
Lemma v_crf r i m w : V w (snd (change_route_flush r i m w)).
Proof. unfold change_route_flush. destruct (inst_filter r i w) as [[? ?] ?]. vv. Qed.
Lemma v_crm r i m a b c w : V w (snd (change_route_modify r i m a b c w)).
Proof. unfold change_route_modify. destruct (inst_filter r i w) as [[? ?] ?]. vv. Qed.
#[local] Hint Resolve v_cra v_crf v_crm : vdb.
Lemma v_selected r w o w1 : V w1 (selected r w o w1).
Proof. apply V_same; try reflexivity. apply m_selected. Qed.
#[local] Hint Resolve v_selected : vdb.
Lemma crm_good r i m a b c w : good (snd (change_route_modify r i m a b c w)) -> 0 <= fst (change_route_modify r i m a b c w).
Proof.
  assert (X : forall e w0, good (ktrace e w0) -> kok e).
  { intros e w0 (_ & H). cbn [ktrace w_ktr set_w_ktr] in H. apply Forall_app in H. destruct H as (_ & H). inversion H; auto. }
  unfold change_route_modify. destruct (inst_filter r i w) as [[? ?] ?]. unfold kernel_route_modify.
  destruct (negb _); cbn [fst snd]. { intros H. apply X in H. discriminate H. }
  destruct (_ && _ && _); cbn [fst snd]; [lia|].
  destruct (kernel_route1 false _ _ _ _ _ _ _) as [x w1]. unfold kernel_route1. cbv zeta.
  destruct (negb (family_ok _ _)); cbn [fst snd]. { intros H. apply X in H. discriminate H. }
  destruct (_ && _); cbn [fst snd]. { intros H. apply X in H. discriminate H. }
  destruct (_ && _); cbn [fst snd]; [intros _; vm_compute; discriminate|].
  destruct (kresp1 w1) as [e w2]. cbn [fst snd]. intros H. apply X in H. cbn [kok] in H.
  destruct (_ =? - EEXIST) eqn:E; unfold EEXIST in *; lia.
Qed.

(** Selecting a route *)
Lemma feas_closer w r : Inv w -> In r (all_routes w) -> r_src r = k -> r_refmetric r < INFINITY -> feasible r w = true ->
  exists y, fd w = Some y /\ T (r_neigh r) y.
Proof.
  intros I0 Hr Hk Hf Hg. pose proof (I_fin _ I0 r Hr Hk Hf) as Hp. unfold feasible, src_of, update_feasible in Hg. rewrite Hk in Hg.
  destruct (get_src k (w_srcs w)) as [s|] eqn:G; [|exfalso; exact (I_has _ I0 r Hr Hk G)].
  destruct (I_src _ I0 s G) as (A & B). exists (fdp s). split; [unfold fd; rewrite G; reflexivity|].
  replace (s_time s <? sec w - SOURCE_GC_TIME) with false in Hg by (unfold SOURCE_GC_TIME; lia).
  replace (r_refmetric r >=? INFINITY) with false in Hg by lia.
  apply (HT _ _ _ _ Hp). destruct (half_compare q _ _ (HP _ _ _ Hp) A) as (X & _ & _). 
  apply orb_true_iff in Hg. destruct Hg as [Hg|Hg].
  - rewrite X in Hg. left. cbn. lia.
  - apply andb_true_iff in Hg. right. cbn. lia.
Qed.
Lemma R_install w p r : Inv w -> find_ptr p w = Some r -> find_installed (rdest r) w = None ->
  (finsel w -> r_src r = k -> exists y, fd w = Some y /\ T (r_neigh r) y) ->
  R w (move_installed (rdest r) p (map_ptr p (set_r_installed true) w)).
Proof.
  intros I0 F Ni C. pose proof (I_rt _ I0) as Wf.
  destruct (inst_split w w p r Wf eq_refl F) as (A & l1 & l2 & B & E & Sl & ->).
  pose proof (none_installed_rest w A l1 r l2 B Wf E Ni) as Nr.
  assert (Hr : In r (all_routes w)) by (apply (find_ptr_In _ _ _ F)).
  assert (U : forall x, In x (concat (A ++ (set_r_installed true r :: l1 ++ l2) :: B)) -> x = set_r_installed true r \/ In x (all_routes w)).
  { intros x Hx. unfold all_routes. rewrite E. rewrite concat_mid in *. rewrite !in_app_iff in *. cbn [In] in *. rewrite !in_app_iff in Hx. cbn [In].
    destruct Hx as [Hx|[[Hx|Hx]|Hx]]; [|left; auto|..]; right; tauto. }
  split; [|split; [|split; [|split; [|split]]]]; auto.
  - pose proof Wf as Wf0. destruct I0. constructor; cbn; auto.
    + rewrite E in Wf0. eapply front_wf; eauto.
    + intros x Hx. destruct (U x Hx) as [->|H]; [exact (I_next0 r Hr)|auto].
    + intros x Hx. destruct (U x Hx) as [->|H]; [exact (I_has0 r Hr)|apply I_has0; auto].
    + intros x Hx. destruct (U x Hx) as [->|H]; [exact (I_ref0 r Hr)|auto].
    + intros x Hx. destruct (U x Hx) as [->|H]; [exact (I_fin0 r Hr)|auto].
  - exact (fdle_refl w).
  - exists []. rewrite app_nil_r. auto.
  - intros Fs (J1 & J2 & J3). split; [|split; [exact J2|]].
    + intros x Hx. destruct (U x Hx) as [->|H]; [intros _; exact (C Fs)|apply J1; auto].
    + intros x Hx. destruct (U x Hx) as [->|H]; [exact (J3 r Hr)|apply J3; auto].
Qed.
Definition feasp (p : Z) (w : world) : Prop := forall r, find_ptr p w = Some r -> feasible r w = true.
Lemma cra_frame r i m w : kframe w (snd (change_route_add r i m w)).
Proof. destruct (change_route_add r i m w) eqn:E. eapply change_route_add_frame; eauto. Qed.
Lemma crm_frame r i m a b c w : kframe w (snd (change_route_modify r i m a b c w)).
Proof. destruct (change_route_modify r i m a b c w) eqn:E. eapply change_route_modify_frame; eauto. Qed.
Lemma sel_last w : forall e l, finsel w -> w_sel w = l ++ [e] -> r_src (e_new e) = k -> r_refmetric (e_new e) < INFINITY.
Proof. intros e l (_ & H) E. rewrite E in H. apply Forall_app in H. destruct H as (_ & H). inversion H; auto. Qed.
Lemma v_install p w : feasp p w -> V w (install_route p w).
Proof.
  intros Fp. apply V_intro; [apply m_install|]. intros _ I0.
  unfold install_route. destruct (find_ptr p w) as [r|] eqn:F; [|apply v_fault].
  destruct (r_installed r) eqn:Ir; [apply V_refl|]. destruct (slot_of (rdest r) w) as [|h t] eqn:Sl; [apply v_fault|].
  destruct (negb (r_ptr h =? p) && r_installed h) eqn:Hh; [apply V_refl|].
  destruct (nb_if (r_neigh r) w) as [[nb i]|]; [|apply v_fault].
  pose proof (v_cra r i (metric_to_kernel (w_cfg w) (route_metric r)) w) as V1.
  pose proof (cra_frame r i (metric_to_kernel (w_cfg w) (route_metric r)) w) as KF.
  destruct (change_route_add _ _ _ _) as [rc w1]. cbn [snd] in *.
  destruct ((rc <? 0) && _); [exact V1|].
  assert (Hr : In r (all_routes w)) by (apply (find_ptr_In _ _ _ F)).
  assert (Ni : find_installed (rdest r) w = None).
  { unfold find_installed. rewrite Sl. destruct (r_installed h) eqn:Ih; [|reflexivity].
    rewrite andb_true_r in Hh. assert (Ep : r_ptr h = p) by lia.
    assert (In h (all_routes w)).
    { unfold slot_of in Sl. destruct (find_route_slot (rdest r) w); [|discriminate Sl]. unfold all_routes. eapply In_nth_concat. rewrite Sl. left. reflexivity. }
    assert (find_ptr p w = Some h) by (apply find_ptr_iff; [apply I0|auto]). congruence. }
  eapply V_then; [exact V1|..].
  { eapply mono_trans; [apply (m_selected r w None)|]. eapply mono_trans; [apply m_map_ptr|apply m_mi]. }
  intros _ I1 _ _ _. destruct KF as (ka & kb & E1).
  assert (V2 : V w1 (selected r w None w1)) by apply v_selected.
  split; [eapply mono_trans; [apply V2|]; eapply mono_trans; [apply m_map_ptr|apply m_mi]|]. intros G _.
  set (w2 := selected r w None w1) in *.
  assert (G2 : good w2) by (eapply mono_good; [|exact G]; eapply mono_trans; [apply m_map_ptr|apply m_mi]).
  pose proof (proj2 V2 G2 I1) as R2. eapply R_trans; [|exact R2|]; [eapply mono_trans; [apply m_map_ptr|apply m_mi]|].
  apply R_install; [apply R2| | |].
  - unfold w2. rewrite E1. exact F.
  - unfold w2. rewrite E1. exact Ni.
  - intros Fs Hk. assert (Hf : r_refmetric r < INFINITY) by (apply (sel_last w2 (mkSel r (src_of r w) (sec w) None) (w_sel w1)); auto).
    destruct (feas_closer w r I0 Hr Hk Hf (Fp r F)) as (y & Y & Y'). exists y. split; [|exact Y']. unfold w2. rewrite E1. exact Y.
Qed.
Lemma v_switch o p w ro rn : find_ptr o w = Some ro -> find_ptr p w = Some rn -> dest_of ro = dest_of rn -> r_installed rn = false ->
  feasp p w -> V w (switch_routes (Some o) p w).
Proof.
  intros Fo Fn D Nn Fp. apply V_intro; [apply m_switch|]. intros _ I0. cbn [switch_routes]. rewrite Fo, Fn.
  destruct (r_installed ro) eqn:Io; cbn [negb]; [|apply V_refl].
  destruct (nb_if (r_neigh ro) w) as [[nb i]|]; [|apply v_fault]. destruct (nb_if (r_neigh rn) w) as [[nb' i']|]; [|apply v_fault].
  pose proof (v_crm ro i (metric_to_kernel (w_cfg w) (route_metric ro)) (r_nexthop rn) (if_ifindex i') (metric_to_kernel (w_cfg w) (route_metric rn)) w) as V1.
  pose proof (crm_frame ro i (metric_to_kernel (w_cfg w) (route_metric ro)) (r_nexthop rn) (if_ifindex i') (metric_to_kernel (w_cfg w) (route_metric rn)) w) as KF.
  destruct (change_route_modify _ _ _ _ _ _ _) as [rc w1]. cbn [snd] in *. destruct (rc <? 0); [exact V1|].
  assert (Hr : In rn (all_routes w)) by (apply (find_ptr_In _ _ _ Fn)).
  set (w2 := selected rn w (Some ro) w1) in *. set (w3 := map_ptr o (set_r_installed false) w2) in *.
  assert (V3 : V w w3) by (eapply V_trans; [exact V1|]; eapply V_trans; [apply v_selected|apply v_uninst]).
  assert (M : mono w3 (move_installed (rdest rn) p (map_ptr p (set_r_installed true) w3))) by (eapply mono_trans; [apply m_map_ptr|apply m_mi]).
  eapply V_then; [exact V3|exact M|]. intros _ I3 _ _ _. split; [exact M|]. intros _ _. destruct KF as (ka & kb & E1).
  assert (Fo2 : find_ptr o w2 = Some ro) by (unfold w2; rewrite E1; exact Fo).
  assert (Fn2 : find_ptr p w2 = Some rn) by (unfold w2; rewrite E1; exact Fn).
  assert (Wf2 : rt_wf (w_rt w2)) by (unfold w2; rewrite E1; apply I0).
  apply R_install; [exact I3| | |].
  - unfold w3. rewrite find_ptr_map_ptr by auto. rewrite Fn2. cbn [option_map]. unfold upd_route.
    replace (is_ptr o rn) with false; [reflexivity|]. symmetry. unfold is_ptr. apply Z.eqb_neq. rewrite (find_ptr_ptr _ _ _ Fn). intros X. subst. congruence.
  - change (rdest rn) with (dest_of rn). rewrite <- D. apply none_after_uninst; auto.
  - intros Fs Hk. assert (Hf : r_refmetric rn < INFINITY) by (apply (sel_last w3 (mkSel rn (src_of rn w) (sec w) (Some ro)) (w_sel w1)); auto).
    destruct (feas_closer w rn I0 Hr Hk Hf (Fp rn Fn)) as (y & Y & Y'). exists y. split; [|exact Y']. unfold w3, w2. rewrite E1. exact Y.
Qed.
Lemma v_uninstall p w : V w (uninstall_route p w).
Proof. unfold uninstall_route. vv. Qed.
#[local] Hint Resolve v_uninstall : vdb.
Lemma v_smoothed p w : V w (snd (smoothed_metric p w)).
Proof. unfold smoothed_metric. vv. Qed.
#[local] Hint Resolve v_smoothed : vdb.
Lemma v_best_step f e bw p : V (snd bw) (snd (best_step f e bw p)).
Proof. unfold best_step. destruct bw as [b w]. vv. Qed.
Lemma v_best_from f e w l : V w (snd (best_from f e w l)).
Proof.
  induction l as [|r l IH]; cbn [best_from]; [apply V_refl|].
  destruct (acceptable r f e w); [|exact IH].
  rewrite (surjective_pairing (fold_left _ _ _)). cbn [snd]. refine (fold_V_snd (best_step f e) (map r_ptr l) _ (r_ptr r, w)). apply v_best_step.
Qed.
Lemma v_best d f e w : V w (snd (find_best_route d f e w)).
Proof. apply v_best_from. Qed.
#[local] Hint Resolve v_best : vdb.
Lemma v_trig p k' m w : V w (send_triggered_update p k' m w).
Proof. unfold send_triggered_update. vv. Qed.
#[local] Hint Resolve v_trig : vdb.

(** Changing the metric of a route *)
Definition mg (a b c : Z) (g : route -> route) : Prop := forall x,
  r_ptr (g x) = r_ptr x /\ r_src (g x) = r_src x /\ r_neigh (g x) = r_neigh x /\ r_seqno (g x) = r_seqno x /\
  r_installed (g x) = r_installed x /\ r_refmetric (g x) = u16 a /\ r_cost (g x) = u16 b /\ r_add_metric (g x) = u16 c.
Lemma chm_spec p a b c w : good (change_route_metric p a b c w) ->
  exists r ka kb rnd g, find_ptr p w = Some r /\ mg a b c g /\
    change_route_metric p a b c w = map_ptr p g (set_w_rnd rnd (set_w_kresp ka (set_w_ktr kb w))).
Proof.
  unfold change_route_metric. destruct (find_ptr p w) as [r|] eqn:F; [|intros (X & _); discriminate X].
  destruct (nb_if (r_neigh r) w) as [[nb i]|]; [|intros (X & _); discriminate X]. cbv zeta.
  match goal with |- context [match ?x with (rc, w1) => _ end] => set (t := x) end.
  assert (KF : kframe w (snd t)) by (unfold t; destruct (_ && _); [apply crm_frame|apply kframe_refl]).
  assert (Rc : good (snd t) -> 0 <= fst t) by (unfold t; destruct (_ && _); [apply crm_good|cbn; lia]).
  destruct t as [rc w1]. cbn [fst snd] in *. destruct (rc <? 0) eqn:El; [intros G; specialize (Rc G); lia|].
  clear Rc. intros G. destruct KF as (ka & kb & ->).
  set (m := fun x => _) in *. unfold smoothed_metric in *.
  change (find_ptr p (set_w_kresp ka (set_w_ktr kb w))) with (find_ptr p w) in *. rewrite F in *.
  destruct (smooth _ _ _ _ _ _) as [[[sm tm] rnd] ok] eqn:Sm. cbv zeta in *. cbn [snd] in *.
  destruct ok; [|destruct G as (X & _); discriminate X].
  rewrite map_ptr_comp by reflexivity. exists r, ka, kb, rnd. eexists. split; [reflexivity|]. split; [|reflexivity].
  intros x. unfold m. cbv zeta. destruct (_ =? 0); cbn; auto 10.
Qed.
Lemma map_ptr_id p w : map_ptr p (fun r => r) w = w.
Proof.
  unfold map_ptr. replace (map _ (w_rt w)) with (w_rt w); [destruct w; reflexivity|].
  rewrite <- (map_id (w_rt w)) at 1. apply map_ext. intros l. rewrite <- (map_id l) at 1. apply map_ext. intros x. destruct (is_ptr p x); reflexivity.
Qed.
Lemma R_chm p a b c h w r : Inv w -> find_ptr p w = Some r -> good (change_route_metric p a b c (map_ptr p h w)) ->
  (forall x, r_ptr (h x) = r_ptr x /\ r_neigh (h x) = r_neigh x /\ r_installed (h x) = r_installed x) ->
  dest_of (h r) = dest_of r ->
  (r_src (h r) = k -> get_src k (w_srcs w) <> None /\ u16_ok a /\ (a < INFINITY -> P (r_neigh r) (r_seqno (h r)) a) /\
     (finsel w -> J w -> (a < INFINITY -> 0 < u16 b) /\
       (r_src r <> k -> r_installed r = true -> exists y, fd w = Some y /\ T (r_neigh r) y))) ->
  R w (change_route_metric p a b c (map_ptr p h w)).
Proof.
  intros I0 F G Hh D C. assert (M : mono w (change_route_metric p a b c (map_ptr p h w))) by (eapply mono_trans; [apply m_map_ptr|apply m_chm]).
  destruct (chm_spec _ _ _ _ _ G) as (r' & ka & kb & rnd & g & _ & Hg & E). rewrite E in *. clear E G.
  change (set_w_rnd rnd (set_w_kresp ka (set_w_ktr kb (map_ptr p h w)))) with (map_ptr p h (set_w_rnd rnd (set_w_kresp ka (set_w_ktr kb w)))) in *.
  rewrite map_ptr_comp in * by apply Hh. set (w1 := set_w_rnd rnd (set_w_kresp ka (set_w_ktr kb w))) in *.
  assert (M1 : mono w w1) by exact M.
  assert (R1 : R w w1) by (apply R_same; auto; cbn; lia).
  assert (Uu : forall z, 0 <= u16 z) by (intros z; unfold u16; apply Z.mod_pos_bound; lia).
  eapply R_trans; [apply m_map_ptr|exact R1|]. destruct (Hg (h r)) as (G1 & G2 & G3 & G4 & G5 & G6 & G7 & G8).
  apply R_put with (r := r); [apply R1|exact F| | |].
  - unfold dest_of. rewrite G2. exact D.
  - intros x. destruct (Hg (h x)) as (X1 & X2 & X3 & X4 & X5 & _). rewrite X1, X3, X5. apply Hh.
  - rewrite G2, G4, G6, G7, G8. intros Ek. destruct (C Ek) as (C1 & Ha & C2 & C3).
    assert (Ua : u16 a = a) by (unfold u16; apply Z.mod_small; exact Ha). rewrite Ua. split; [exact C1|]. split; [exact Ha|]. split; [auto|]. split; [auto|].
    split; [exact C2|]. intros Fs J0. apply C3; [exact (mono_finsel _ _ M1 Fs)|exact J0].
Qed.
Lemma INF_u16 : u16_ok INFINITY. Proof. unfold u16_ok, INFINITY. lia. Qed.
Lemma R_chm0 p a b c w r : Inv w -> find_ptr p w = Some r -> good (change_route_metric p a b c w) ->
  (r_src r = k -> u16_ok a /\ (a < INFINITY -> P (r_neigh r) (r_seqno r) a) /\ (finsel w -> J w -> a < INFINITY -> 0 < u16 b)) ->
  R w (change_route_metric p a b c w).
Proof.
  intros I0 F G C. assert (X : R w (change_route_metric p a b c (map_ptr p (fun r => r) w))); [|rewrite map_ptr_id in X; exact X].
  apply R_chm with (r := r); auto; [rewrite map_ptr_id; exact G|]. intros Ek. destruct (C Ek) as (C1 & C2 & C3).
  split; [apply (I_has _ I0 r); [apply (find_ptr_In _ _ _ F)|exact Ek]|]. split; [exact C1|]. split; [exact C2|].
  intros Fs J0. split; [apply (C3 Fs J0)|contradiction].
Qed.
Lemma v_retract p w : V w (retract_route p w).
Proof.
  split; [apply m_chm|]. unfold retract_route. intros G I0. destruct (chm_spec _ _ _ _ _ G) as (r & _ & _ & _ & _ & F & _).
  apply R_chm0 with (r := r); auto. intros Ek. split; [apply INF_u16|]. split; [lia|]. intros _ _. lia.
Qed.
#[local] Hint Resolve v_retract : vdb.
(** Smoothing touches nothing else *)
Lemma sm_find p' p w r : find_ptr p w = Some r -> exists r', find_ptr p (snd (smoothed_metric p' w)) = Some r' /\ rsame r r' /\ r_installed r' = r_installed r.
Proof.
  intros F. unfold smoothed_metric. destruct (find_ptr p' w) as [x|]; [|exists r; split; [exact F|split; [apply rsame_refl|reflexivity]]].
  destruct (smooth _ _ _ _ _ _) as [[[sm tm] rnd] ok]. cbv zeta. cbn [snd].
  assert (X : exists r', find_ptr p (map_ptr p' (fun r => set_r_smoothed sm (set_r_smoothed_time tm r)) (set_w_rnd rnd w)) = Some r' /\ rsame r r' /\ r_installed r' = r_installed r).
  { rewrite find_ptr_map_ptr by reflexivity. change (find_ptr p (set_w_rnd rnd w)) with (find_ptr p w). rewrite F. eexists. split; [reflexivity|].
    unfold upd_route. destruct (is_ptr p' r); [unfold rsame; cbn; auto 10|split; [apply rsame_refl|reflexivity]]. }
  destruct ok; exact X.
Qed.
Lemma sm_frame p w : w_srcs (snd (smoothed_metric p w)) = w_srcs w /\ w_now (snd (smoothed_metric p w)) = w_now w /\
  w_nbs (snd (smoothed_metric p w)) = w_nbs w /\ w_ifs (snd (smoothed_metric p w)) = w_ifs w.
Proof.
  unfold smoothed_metric. destruct (find_ptr p w) as [x|]; [|auto]. destruct (smooth _ _ _ _ _ _) as [[[sm tm] rnd] ok]. cbv zeta. cbn [snd].
  destruct ok; auto.
Qed.
Lemma sm_feasible p w r r' : rsame r r' -> feasible r' (snd (smoothed_metric p w)) = feasible r w.
Proof.
  intros (_ & E1 & _ & E2 & E3 & _). destruct (sm_frame p w) as (A & B & _). unfold feasible, src_of, sec. rewrite E1, E2, E3, A, B. reflexivity.
Qed.
Lemma v_ci_none p w : feasp p w -> V w (consider_install p None w).
Proof. intros H. unfold consider_install. cbn [option_map switch_routes]. eapply V_trans; [apply (v_install p w H)|]. vv. Qed.
Lemma v_ci p i w ro rn : find_ptr (r_ptr i) w = Some ro -> find_ptr p w = Some rn -> dest_of ro = dest_of rn -> r_installed rn = false ->
  feasp p w -> V w (consider_install p (Some i) w).
Proof.
  intros A B C D H. unfold consider_install. cbn [option_map]. eapply V_trans; [apply (v_switch _ _ _ _ _ A B C D H)|].
  generalize (switch_routes (Some (r_ptr i)) p w). vv.
Qed.
Lemma v_consider p w : V w (consider_route p w).
Proof.
  apply V_intro; [apply m_consider|]. intros _ I0.
  unfold consider_route. destruct (find_ptr p w) as [r|] eqn:F; [|apply v_fault].
  destruct (r_installed r) eqn:Ir; [apply V_refl|]. destruct (feasible r w) eqn:Fe; cbn [negb]; [|apply V_refl].
  match goal with |- V _ (if ?c then _ else _) => destruct c; [apply V_refl|] end.
  assert (Fp : feasp p w) by (intros x X; congruence).
  destruct (find_installed (rdest r) w) as [i|] eqn:Fi; [|apply v_ci_none; exact Fp].
  assert (Fi' : find_ptr (r_ptr i) w = Some i /\ dest_of i = dest_of r).
  { apply find_installed_iff in Fi; [|apply I0|apply (route_dvalid w); [apply I0|apply (find_ptr_In _ _ _ F)]].
    destruct Fi as (X1 & X2 & X3). split; [apply find_ptr_iff; [apply I0|auto]|exact X3]. }
  destruct Fi' as (Fi' & D).
  destruct (_ >=? _); [apply V_refl|]. destruct (_ >=? _); [apply (v_ci _ _ _ _ _ Fi' F D Ir Fp)|]. destruct (_ >=? _); [|apply V_refl].
  pose proof (v_smoothed (r_ptr i) w) as V1.
  destruct (sm_find (r_ptr i) _ _ _ Fi') as (i1 & Fi1 & Si1 & Ii1). destruct (sm_find (r_ptr i) _ _ _ F) as (r1 & F1 & S1 & Ir1).
  pose proof (sm_feasible (r_ptr i) w r r1 S1) as Fe1.
  destruct (smoothed_metric (r_ptr i) w) as [mi w1]. cbn [snd] in *.
  pose proof (v_smoothed p w1) as V2. 
  destruct (sm_find p _ _ _ Fi1) as (i2 & Fi2 & Si2 & Ii2). destruct (sm_find p _ _ _ F1) as (r2 & F2 & S2 & Ir2).
  pose proof (sm_feasible p w1 r1 r2 S2) as Fe2.
  destruct (smoothed_metric p w1) as [mr w2]. cbn [snd] in *.
  pose proof (V_trans _ _ _ V1 V2) as V3. destruct (_ >? _); [|exact V3]. eapply V_trans; [exact V3|].
  refine (v_ci _ _ _ _ _ Fi2 F2 _ _ _).
  - destruct Si1 as (_ & X1 & _). destruct Si2 as (_ & X2 & _). destruct S1 as (_ & X3 & _). destruct S2 as (_ & X4 & _).
    unfold dest_of in *. congruence.
  - congruence.
  - intros x X. congruence.
Qed.
#[local] Hint Resolve v_consider : vdb.
Lemma v_changed p k' m w : V w (route_changed p k' m w).
Proof. unfold route_changed. vv. Qed.
Lemma v_srr d s id w : V w (send_request_resend d s id w).
Proof. unfold send_request_resend. vv. eapply V_trans; [|apply fold_V; vv]. vv. Qed.
#[local] Hint Resolve v_changed v_srr : vdb.
Lemma v_lost k' m w : V w (route_lost k' m w).
Proof. unfold route_lost. vv. Qed.
Lemma v_retain k' w : V w (retain_source k' w).
Proof. unfold retain_source. vv. apply v_map_src. auto. Qed.
Lemma v_release k' w : V w (release_source k' w).
Proof. unfold release_source. vv. apply v_map_src. auto. Qed.
#[local] Hint Resolve v_lost v_retain v_release : vdb.
Lemma find_uninstall p w r : find_ptr p w = Some r -> exists r', find_ptr p (uninstall_route p w) = Some r' /\ rsame r r' /\
  (good (uninstall_route p w) -> r_installed r' = false).
Proof.
  intros F. unfold uninstall_route. rewrite F. destruct (r_installed r) eqn:Ir; cbn [negb].
  2: { exists r. split; [exact F|]. split; [apply rsame_refl|auto]. }
  destruct (nb_if (r_neigh r) w) as [[nb i]|].
  2: { exists r. split; [exact F|]. split; [apply rsame_refl|]. intros (X & _). discriminate X. }
  destruct (change_route_flush _ _ _ _) as [rc w1] eqn:E. apply change_route_flush_frame in E. cbn [snd]. rewrite (kframe_find _ _ _ E).
  exists (set_r_installed false r). split; [apply map_ptr_find; [reflexivity|exact F]|]. split; [|reflexivity].
  unfold rsame. cbn. repeat split. discriminate.
Qed.
Lemma srcs_uninstall p w : w_srcs (uninstall_route p w) = w_srcs w.
Proof.
  unfold uninstall_route. destruct (find_ptr p w) as [r|]; [|reflexivity]. destruct (negb _); [reflexivity|].
  destruct (nb_if (r_neigh r) w) as [[nb i]|]; [|reflexivity].
  destruct (change_route_flush _ _ _ _) as [rc w1] eqn:E. apply change_route_flush_frame in E. destruct E as (? & ? & ->). reflexivity.
Qed.
Lemma v_unlink p r w : find_ptr p w = Some r -> V w (unlink_route (rdest r) p w).
Proof.
  intros F. split; [apply m_unlink|]. intros G I0.
  pose proof (unlink_wf w p r (I_rt _ I0) F) as Wf. pose proof (In_unlink (rdest r) p w) as H.
  unfold unlink_route, all_routes in *. destruct (find_route_slot (rdest r) w) as [i|i]; [|destruct G as (X & _); discriminate X].
  cbn [w_rt set_w_rt] in *. apply R_rt; auto. intros r' Hr. exists r'. split; [apply H, Hr|apply rsame_refl].
Qed.
Lemma v_flush p w : V w (flush_route p w).
Proof.
  unfold flush_route. destruct (find_ptr p w) as [r|] eqn:F; [|apply v_fault]. cbv zeta.
  destruct (r_installed r).
  - eapply V_trans; [apply (v_uninstall p w)|]. destruct (find_uninstall _ _ _ F) as (r' & F' & (_ & E & _) & _).
    replace (rdest r) with (rdest r') by (unfold rdest; congruence). eapply V_trans; [apply (v_unlink _ _ _ F')|]. 
    eapply V_trans; [apply v_lost|apply v_release].
  - eapply V_trans; [apply (v_unlink _ _ _ F)|]. apply v_release.
Qed.
#[local] Hint Resolve v_flush : vdb.
Lemma v_flush_slot f : forall i w, V w (flush_slot f i w).
Proof. induction f as [|f IH]; intros i w; cbn [flush_slot]; [apply v_nofuel|]. vv; (eapply V_trans; [|apply IH]); vv. Qed.
Lemma v_fal n : forall w, V w (flush_all_loop n w).
Proof. induction n as [|n IH]; intros w; cbn [flush_all_loop]; [apply V_refl|]. eapply V_trans; [|apply IH]. apply v_flush_slot. Qed.
Lemma v_flush_sel f s : forall i w, V w (flush_sel f s i w).
Proof. induction f as [|f IH]; intros i w; cbn [flush_sel]; [apply v_nofuel|]. vv; (eapply V_trans; [|apply IH]); vv. Qed.

Lemma nb_if_ok n w nb i : Inv w -> nb_if n w = Some (nb, i) -> neigh_ok nb /\ iface_in i /\ In nb (w_nbs w).
Proof.
  intros I0 E. unfold nb_if in E. destruct (get_nb n w) as [x|] eqn:G; [|discriminate E].
  destruct (get_if (n_if x) w) as [y|] eqn:Gi; [|discriminate E]. injection E as <- <-.
  apply find_some in G. apply find_some in Gi. pose proof (I_nb _ I0) as A. pose proof (I_if _ I0) as B. rewrite Forall_forall in A, B.
  split; [apply A, G|]. split; [apply B, Gi|apply G].
Qed.
Lemma cost_pos n w nb i : Inv w -> Forall (fun n => 1 <= n_txcost n) (w_nbs w) -> nb_if n w = Some (nb, i) -> 0 < u16 (neighbour_cost (w_now w) i nb).
Proof.
  intros I0 J2 E. destruct (nb_if_ok _ _ _ _ I0 E) as (A & B & C). rewrite Forall_forall in J2. specialize (J2 nb C).
  destruct (cost_in (w_now w) i nb B A) as (X & Y). unfold u16. rewrite Z.mod_small by (unfold INFINITY in X; lia).
  destruct (Z_lt_ge_dec (neighbour_cost (w_now w) i nb) INFINITY) as [L|L]; [|unfold INFINITY in *; lia].
  destruct (Y L) as (_ & _ & _ & Y' & _). lia.
Qed.
Lemma v_urm p w : V w (update_route_metric p w).
Proof.
  unfold update_route_metric. destruct (find_ptr p w) as [r|] eqn:F; [|apply v_fault].
  pose proof (v_smoothed p w) as V1. destruct (sm_find p _ _ _ F) as (r1 & F1 & S1 & Ir1).
  destruct (smoothed_metric p w) as [oldsm w1]. cbn [snd] in *.
  destruct (route_expired r w).
  - destruct (r_refmetric r <? INFINITY); [|exact V1]. destruct (src_of r w1) as [s|]; [|eapply V_trans; [exact V1|apply v_fault]]. cbv zeta.
    assert (V3 : V w (retract_route p (map_ptr p (set_r_seqno (seqno_plus (s_seqno s) 1)) w1))).
    { eapply V_trans; [exact V1|]. split; [eapply mono_trans; [apply m_map_ptr|apply m_chm]|]. intros G I0.
      unfold retract_route in *. apply R_chm with (r := r1); auto. cbn [r_src set_r_seqno].
      intros Ek. split; [apply (I_has _ I0 r1); [apply (find_ptr_In _ _ _ F1)|exact Ek]|]. split; [apply INF_u16|]. split; [lia|]. intros _ _. split; [lia|contradiction]. }
    vv; exact V3.
  - destruct (nb_if (r_neigh r) w1) as [[nb i]|] eqn:N; [|eapply V_trans; [exact V1|apply v_fault]]. cbv zeta.
    match goal with |- context [change_route_metric p ?a ?b ?c w1] => set (w2 := change_route_metric p a b c w1) end.
    assert (V2 : V w w2).
    { eapply V_trans; [exact V1|]. split; [apply m_chm|]. intros G I0. unfold w2 in *.
      destruct S1 as (E1 & E2 & E3 & E4 & E5 & _). rewrite <- E5 in *.
      assert (H1 : In r1 (all_routes w1)) by apply (find_ptr_In _ _ _ F1).
      apply R_chm0 with (r := r1); auto. intros Ek. split; [apply (I_ref _ I0 r1 H1 Ek)|].
      split; [intros Hf; apply (I_fin _ I0 r1 H1 Ek Hf)|]. intros _ J0 _. apply (cost_pos _ _ _ _ I0 (proj1 (proj2 J0)) N). }
    clearbody w2. vv; exact V2.
Qed.
#[local] Hint Resolve v_urm : vdb.
Lemma v_walk_slot n s f : (forall p w, V w (f p w)) -> forall p w, V w (walk_slot n s f p w).
Proof.
  intros H. induction n as [|n IH]; intros p w; cbn [walk_slot]; [apply v_nofuel|].
  vv; try (eapply V_trans; [|apply IH]); vv; try apply H.
Qed.
Lemma v_walk_slots n m s f : (forall p w, V w (f p w)) -> forall i w, V w (walk_slots n m s f i w).
Proof.
  intros H. induction n as [|n IH]; intros i w; cbn [walk_slots]; [apply V_refl|].
  vv; try (eapply V_trans; [|apply IH]); vv. apply v_walk_slot, H.
Qed.
Lemma v_unm n c w : V w (update_neighbour_metric n c w).
Proof. unfold update_neighbour_metric. vv. apply v_walk_slots, v_urm. Qed.
Lemma v_uim n w : V w (update_interface_metric n w).
Proof. apply v_walk_slots, v_urm. Qed.
Lemma v_retract1 p w : V w (retract1 p w).
Proof. unfold retract1. vv. Qed.
Lemma v_rnr n w : V w (retract_neighbour_routes n w).
Proof. apply v_walk_slots, v_retract1. Qed.
#[local] Hint Resolve v_unm v_uim v_rnr : vdb.
Lemma v_unf n f s m k' w : V w (send_unfeasible_request n f s m k' w).
Proof. unfold send_unfeasible_request. vv. Qed.
#[local] Hint Resolve v_unf : vdb.
Lemma v_expire f : forall i p w, V w (expire_loop f i p w).
Proof.
  induction f as [|f IH]; intros i p w; cbn [expire_loop]; [apply v_nofuel|].
  destruct p; vv; try (eapply V_trans; [|apply IH]); vv.
Qed.
Lemma fd_retain k' w : fd (retain_source k' w) = fd w.
Proof.
  unfold retain_source. destruct (get_src k' (w_srcs w)) as [s|]; [|reflexivity]. destruct (retain_ok s); [|reflexivity].
  unfold fd. cbn [w_srcs set_w_srcs]. rewrite get_map_src by reflexivity. destruct (get_src k (w_srcs w)) as [x|]; [|reflexivity].
  cbn. destruct (skey_eqb k' k); reflexivity.
Qed.
Lemma fd_some w : get_src k (w_srcs w) <> None <-> fd w <> None.
Proof. unfold fd. destruct (get_src k (w_srcs w)); cbn; split; congruence. Qed.
Lemma find_retain k' p w : find_ptr p (retain_source k' w) = find_ptr p w.
Proof. unfold retain_source. destruct (get_src k' (w_srcs w)) as [s|]; [|reflexivity]. destruct (retain_ok s); reflexivity. Qed.
Lemma upd_closer w n s m : Inv w -> get_src k (w_srcs w) <> None -> P n s m -> m < INFINITY ->
  update_feasible (sec w) (get_src k (w_srcs w)) s m = true -> exists y, fd w = Some y /\ T n y.
Proof.
  intros I0 Hs Hp Hf Hg. unfold update_feasible in Hg.
  destruct (get_src k (w_srcs w)) as [x|] eqn:G; [|congruence].
  destruct (I_src _ I0 x G) as (A & B). exists (fdp x). split; [unfold fd; rewrite G; reflexivity|].
  replace (s_time x <? sec w - SOURCE_GC_TIME) with false in Hg by (unfold SOURCE_GC_TIME; lia).
  replace (m >=? INFINITY) with false in Hg by lia.
  apply (HT _ _ _ _ Hp). destruct (half_compare q _ _ (HP _ _ _ Hp) A) as (X & _ & _). 
  apply orb_true_iff in Hg. destruct Hg as [Hg|Hg].
  - rewrite X in Hg. left. cbn. lia.
  - apply andb_true_iff in Hg. right. cbn. lia.
Qed.
Lemma nbs_retain k' w : w_nbs (retain_source k' w) = w_nbs w.
Proof. unfold retain_source. destruct (get_src k' (w_srcs w)) as [s|]; [|reflexivity]. destruct (retain_ok s); reflexivity. Qed.
Lemma nbs_uninstall p w : w_nbs (uninstall_route p w) = w_nbs w.
Proof.
  unfold uninstall_route. destruct (find_ptr p w) as [r|]; [|reflexivity]. destruct (negb _); [reflexivity|].
  destruct (nb_if (r_neigh r) w) as [[nb i]|]; [|reflexivity].
  destruct (change_route_flush _ _ _ _) as [rc w1] eqn:E. apply change_route_flush_frame in E. destruct E as (? & ? & ->). reflexivity.
Qed.
Lemma v_uk r k' f s a m c ad h n w : find_ptr (r_ptr r) w = Some r -> dest_of_key k' = dest_of r ->
  f = update_feasible (sec w) (get_src k' (w_srcs w)) s a ->
  (k' = k -> get_src k (w_srcs w) <> None /\ u16_ok a /\ (a < INFINITY -> P (r_neigh r) s a) /\
             (Q -> a >= INFINITY -> r_installed r = true -> r_src r = k)) ->
  (Inv w -> Forall (fun n => 1 <= n_txcost n) (w_nbs w) -> 0 < u16 c) ->
  V w (update_known r k' f s a m c ad h n w).
Proof.
  intros F D Ef C Hc. apply V_intro; [apply m_uk|]. intros _ I0. unfold update_known. cbv zeta.
  match goal with |- V _ (release_source _ ?x) => eapply (V_trans _ x); [|apply v_release] end.
  set (l0 := negb f && r_installed r && negb (skey_eqb k' (r_src r))).
  set (w1 := if l0 then uninstall_route (r_ptr r) w else w). set (w2 := retain_source k' w1).
  set (hh := fun r0 => set_r_seqno s _).
  match goal with |- context [change_route_metric ?p ?x ?y ?z ?v] => set (w3 := change_route_metric p x y z v) end.
  assert (V2 : V w w2).
  { eapply V_trans; [|apply v_retain]. unfold w1. destruct l0; [apply v_uninstall|apply V_refl]. }
  assert (X1 : exists r1, find_ptr (r_ptr r) w1 = Some r1 /\ rsame r r1 /\ (l0 = true -> good w1 -> r_installed r1 = false)).
  { unfold w1. destruct l0; [|exists r; split; [exact F|split; [apply rsame_refl|discriminate]]].
    destruct (find_uninstall _ _ _ F) as (r1 & A & B & A'). exists r1. auto. }
  destruct X1 as (r1 & F1 & S1 & N1).
  assert (Fd : fd w2 = fd w).
  { unfold w2. rewrite fd_retain. unfold w1, fd. destruct l0; [rewrite srcs_uninstall|]; reflexivity. }
  assert (Nb : w_nbs w2 = w_nbs w).
  { unfold w2. rewrite nbs_retain. unfold w1. destruct l0; [apply nbs_uninstall|reflexivity]. }
  assert (V3 : V w w3).
  { destruct V2 as (M2 & R2). 
    assert (M3 : mono w2 w3) by (eapply mono_trans; [apply m_map_ptr|apply m_chm]).
    split; [eapply mono_trans; eauto|]. intros G _. pose proof (mono_good _ _ M3 G) as G2.
    specialize (R2 G2 I0). eapply R_trans; [exact M3|exact R2|]. pose proof (proj1 R2) as I2.
    assert (F2 : find_ptr (r_ptr r) w2 = Some r1) by (unfold w2; rewrite find_retain; exact F1).
    destruct S1 as (E1 & E2 & E3 & E4 & E5 & E6 & E7 & E8).
    unfold w3. apply R_chm with (r := r1); auto.
    - exact (eq_trans D (eq_sym (f_equal dest_of_key E2))).
    - cbn [hh r_src set_r_seqno set_r_time set_r_src r_seqno]. intros Ek. destruct (C Ek) as (C1 & C2 & C3 & C4).
      split; [apply fd_some; rewrite Fd; apply fd_some; exact C1|]. split; [exact C2|]. rewrite E3. split; [exact C3|].
      intros Fs (_ & J2 & _). split.
      + intros _. apply (Hc I0). rewrite <- Nb. exact J2.
      + intros Nk Ir. rewrite Fd. rewrite E2 in Nk. destruct (Z_lt_ge_dec a INFINITY) as [L|L].
        * apply (upd_closer w _ s a I0 C1 (C3 L) L). rewrite <- Ek at 1. rewrite <- Ef. destruct f eqn:Ff; [reflexivity|].
          assert (l0 = true).
          { unfold l0. rewrite (E8 Ir). cbn. apply negb_true_iff. apply skey_eqb_false. congruence. }
          rewrite N1 in Ir; [discriminate Ir|assumption|]. eapply mono_good; [apply m_retain|exact G2].
        * exfalso. apply Nk. apply C4; [apply Fs|exact L|exact (E8 Ir)]. }
  clearbody w3. vv; exact V3.
Qed.

Lemma u16_range z : 0 <= u16 z < 65536. Proof. unfold u16. apply Z.mod_pos_bound. lia. Qed.
Lemma satisfy_nbs d s i p w : w_nbs (satisfy_request d s i p w) = w_nbs w.
Proof. unfold satisfy_request. repeat match goal with |- context [match ?x with _ => _ end] => destruct x end; reflexivity. Qed.
Lemma flush1_frame i wl b : w_rt (fst (flush1 i wl b)) = w_rt (fst wl) /\ w_nbs (fst (flush1 i wl b)) = w_nbs (fst wl).
Proof.
  assert (X : forall i id d s m w, w_rt (really_send_update i id d s m w) = w_rt w /\ w_nbs (really_send_update i id d s m w) = w_nbs w).
  { intros. destruct (rsu_spec i0 id d s m w) as (l & -> & _). auto. }
  unfold flush1. destruct wl as [w last]. cbv zeta.
  repeat match goal with
  | |- context [if ?c then satisfy_request ?a ?b ?c1 ?d ?e else ?w] =>
      let H := fresh in pose proof (satisfy_rt a b c1 d e) as H; let H2 := fresh in pose proof (satisfy_nbs a b c1 d e) as H2; destruct c
  | |- context [match ?x with _ => _ end] => destruct x
  end; cbn [fst w_rt w_nbs set_w_srcs fault set_w_bad]; rewrite ?(proj1 (X _ _ _ _ _ _)), ?(proj2 (X _ _ _ _ _ _)), ?satisfy_rt, ?satisfy_nbs; auto.
Qed.
Lemma flushupdates_frame i w : w_rt (flushupdates i w) = w_rt w /\ w_nbs (flushupdates i w) = w_nbs w.
Proof.
  unfold flushupdates. destruct (get_if i w) as [x|]; [|auto]. cbv zeta. destruct (if_pend x) as [|p0 l0]; [auto|]. destruct (negb _); [auto|].
  set (l := M_Msg.sort _ _). clearbody l. cbn [w_rt w_nbs map_if set_w_ifs].
  set (w0 := map_if i _ w). change (w_rt w) with (w_rt (fst (w0, @None dest))). change (w_nbs w) with (w_nbs (fst (w0, @None dest))).
  generalize (w0, @None dest). clear w0 p0 l0. induction l as [|b l IH]; intros wl; cbn [fold_left]; [auto|].
  destruct (IH (flush1 x wl b)) as (A & B). destruct (flush1_frame x wl b) as (C & D). split; congruence.
Qed.
Lemma unf_frame n f s m k' w : w_rt (send_unfeasible_request n f s m k' w) = w_rt w /\
  w_nbs (send_unfeasible_request n f s m k' w) = w_nbs w.
Proof.
  unfold send_unfeasible_request. destruct (get_src k' (w_srcs w)) as [x|]; [|auto]. destruct (_ >? _); [auto|]. destruct (_ || _); [|auto].
  unfold send_unicast_multihop_request. destruct (nb_if n w) as [[nb i]|]; [|auto]. unfold send_multihop_request.
  destruct (_ && _); apply flushupdates_frame.
Qed.
Lemma v_insert r w : r_ptr r = w_next w -> r_installed r = false -> dvalid (dest_of r) ->
  (forall r', In r' (all_routes w) -> dest_of r' = dest_of r -> r_neigh r' <> r_neigh r) ->
  (r_src r = k -> get_src k (w_srcs w) <> None /\ u16_ok (r_refmetric r) /\ 0 <= r_cost r /\ 0 <= r_add_metric r /\
     (r_refmetric r < INFINITY -> P (r_neigh r) (r_seqno r) (r_refmetric r)) /\ (J w -> 0 < r_cost r)) ->
  V w (insert_route r (set_w_next (w_next w + 1) w)).
Proof.
  intros Ep Ei D U C. split; [eapply mono_trans; [apply m_next|apply m_ins]|]. intros _ I0.
  set (w0 := set_w_next (w_next w + 1) w).
  pose proof (insert_wf w0 r (I_rt _ I0)) as Wf. pose proof (In_insert r w0) as In_.
  assert (X : forall x, In x (all_routes w0) -> r_ptr x < r_ptr r) by (intros x Hx; rewrite Ep; apply (I_next _ I0 x Hx)).
  specialize (Wf X Ei D U).
  assert (E : exists t, insert_route r w0 = set_w_rt t w0) by (unfold insert_route; destruct (find_route_slot _ _); eauto).
  destruct E as (t & E). rewrite E in *. cbn [w_rt set_w_rt] in Wf.
  change (all_routes (set_w_rt t w0)) with (concat t) in In_. change (all_routes w0) with (all_routes w) in *.
  split; [|split; [|split; [|split; [|split]]]]; auto.
  - destruct I0. constructor; cbn; auto.
    + intros x Hx. destruct (In_ x Hx) as [->|H]; [lia|]. specialize (I_next0 x H). lia.
    + intros x Hx Ex. destruct (In_ x Hx) as [->|H]; [apply (C Ex)|apply (I_has0 x H Ex)].
    + intros x Hx Ex. destruct (In_ x Hx) as [->|H]; [|apply (I_ref0 x H Ex)]. destruct (C Ex) as (_ & C1 & C2 & C3 & _). auto.
    + intros x Hx Ex. destruct (In_ x Hx) as [->|H]; [|apply (I_fin0 x H Ex)]. apply (C Ex).
  - exact (fdle_refl w).
  - exists []. rewrite app_nil_r. auto.
  - intros _ J0. pose proof J0 as (J1 & J2 & J3). split; [|split; [exact J2|]].
    + intros x Hx Ix. destruct (In_ x Hx) as [->|H]; [congruence|apply (J1 x H Ix)].
    + intros x Hx Ex. destruct (In_ x Hx) as [->|H]; [intros _; apply (C Ex); exact J0|apply (J3 x H Ex)].
Qed.
(** What an update must satisfy *)
Definition upd_ok (id : option (list Z)) (d : dest) (s m n : Z) (w : world) : Prop :=
  dvalid d /\ u16_ok m /\
  forall i, id = Some i -> mkey i d = k -> in_half q s /\ (m < INFINITY -> P n s m) /\
    (Q -> m >= INFINITY -> forall r, find_route d n w = Some r -> r_installed r = true -> r_src r = k).
Lemma v_update id d s m iv n nh w : upd_ok id d s m n w -> V w (update_route id d s m iv n nh w).
Proof.
  intros (Dv & Um & Ok). apply V_intro; [apply m_update|]. intros _ I0. unfold update_route. cbv zeta.
  destruct (match id with None => m <? INFINITY | Some i => beq i (c_myid (w_cfg w)) end) eqn:Eid; [apply V_refl|].
  repeat match goal with |- V _ (if ?c then _ else _) => destruct c; [apply V_refl|] end.
  destruct (nb_if n w) as [[nb i]|] eqn:Nb; [|apply v_fault].
  match goal with |- V _ (if ?c then _ else _) => destruct c; [apply V_refl|] end.
  destruct (find_route d n w) as [r|] eqn:E.
  - destruct (find_route_In _ _ _ _ (I_rt _ I0) Dv E) as (Hr & Dr & Nr).
    assert (Fr : find_ptr (r_ptr r) w = Some r) by (apply find_ptr_iff; [apply I0|auto]).
    assert (Kr : mkey (k_id (r_src r)) d = r_src r).
    { rewrite <- Dr. apply mkey_kdest. }
    match goal with |- context [if beq (k_id (r_src r)) ?i then _ else _] => destruct (beq (k_id (r_src r)) i) eqn:B end.
    + destruct (src_of r w) as [sx|] eqn:Sx; [|apply v_fault]. apply v_uk; auto.
      * rewrite <- Sx. reflexivity.
      * intros Ek. split; [apply (I_has _ I0 r Hr Ek)|]. split; [exact Um|]. rewrite Nr.
        split; [|intros _ _ _; exact Ek]. intros L. destruct id as [id|]; [|rewrite Z.ltb_ge in Eid; lia].
        apply beq_true in B. destruct (Ok id eq_refl) as (_ & X & _); [congruence|auto].
      * intros _ Tx. apply (cost_pos n w nb i I0 Tx Nb).
    + destruct id as [id|]; [|rewrite beq_refl in B; discriminate B].
      pose proof (v_find (mkey id d) s w (fun X => proj1 (Ok id eq_refl X))) as Vf.
      pose proof (find_source_spec (sec w) (mkey id d) true s (w_srcs w) (I_srcs _ I0)) as Sp.
      destruct (find_source _ _ _ _ _) as [s0 t] eqn:Ff. cbv beta iota. destruct s0 as [s0|]; [|eapply V_trans; [exact Vf|apply v_fault]].
      cbn [snd] in Vf.
      assert (G : get_src (mkey id d) t = Some s0).
      { destruct (get_src (mkey id d) (w_srcs w)) as [sy|] eqn:Gy; [congruence|]. destruct Sp as (t1 & t2 & Et & Es & So). injection Es as -> ->.
        apply get_src_iff; [exact So|]. split; [apply in_or_app; right; left; reflexivity|reflexivity]. }
      eapply V_then; [exact Vf|apply m_uk|]. intros _ I1 _ _ _.
      apply v_uk; auto.
      * rewrite <- Dr. reflexivity.
      * cbn [w_srcs set_w_srcs]. rewrite G. reflexivity.
      * intros Ek. destruct (Ok id eq_refl Ek) as (X1 & X2 & X3). cbn [w_srcs set_w_srcs]. rewrite <- Ek, G. split; [discriminate|].
        split; [exact Um|]. rewrite Nr. rewrite Ek. split; [exact X2|]. intros Hq L Ir. apply (X3 Hq L r); auto.
      * intros _ Tx. apply (cost_pos n w nb i I0 Tx Nb).
  - destruct (m >=? INFINITY) eqn:Lm; [apply V_refl|]. destruct id as [id|]; [|apply v_fault].
    pose proof (v_find (mkey id d) s w (fun X => proj1 (Ok id eq_refl X))) as Vf.
    pose proof (find_source_spec (sec w) (mkey id d) true s (w_srcs w) (I_srcs _ I0)) as Sp.
    destruct (find_source _ _ _ _ _) as [s0 t] eqn:Ff. cbv beta iota. cbn [snd] in Vf. destruct nh as [nh|]; [|exact Vf].
    assert (G : exists sx, get_src (mkey id d) t = Some sx).
    { destruct (get_src (mkey id d) (w_srcs w)) as [sy|] eqn:Gy; [injection Sp as -> ->; eauto|]. destruct Sp as (t1 & t2 & Et & Es & So). injection Es as -> ->.
      eexists. apply get_src_iff; [exact So|]. split; [apply in_or_app; right; left; reflexivity|reflexivity]. }
    eapply V_trans; [|apply v_consider].
    set (w1 := set_w_srcs t w) in *.
    set (w2 := if update_feasible (sec w) s0 s m then w1 else _).
    assert (V2 : V w w2) by (unfold w2; destruct (update_feasible _ _ _ _); [exact Vf|eapply V_trans; [exact Vf|apply v_unf]]).
    assert (V2' : V w1 w2) by (unfold w2; destruct (update_feasible _ _ _ _); [apply V_refl|apply v_unf]).
    assert (K2 : w_rt w2 = w_rt w /\ w_nbs w2 = w_nbs w).
    { unfold w2. destruct (update_feasible _ _ _ _); [auto|]. match goal with |- context [send_unfeasible_request ?a ?b ?c ?d ?e ?f] => destruct (unf_frame a b c d e f) as (A1 & A2) end.
      rewrite A1, A2. auto. }
    clearbody w2. destruct K2 as (K2 & K4). set (w3 := retain_source (mkey id d) w2) in *.
    eapply V_then'; [exact Vf|eapply mono_trans; [apply V2'|eapply mono_trans; [apply m_retain|]]; eapply mono_trans; [apply m_next|apply m_ins]|].
    intros _ _ (I1 & _).
    eapply V_then'; [eapply V_trans; [exact V2'|apply (v_retain (mkey id d))]|eapply mono_trans; [apply m_next|apply m_ins]|].
    intros _ _ (I3 & Fl & _). fold w3 in I3, Fl |- *.
    assert (A3 : all_routes w3 = all_routes w).
    { unfold w3, retain_source, all_routes. destruct (get_src _ (w_srcs w2)); [destruct (retain_ok _)|]; cbn; congruence. }
    apply v_insert; auto.
    + intros r' Hr' Dr'. rewrite A3 in Hr'. cbn [new_route r_neigh set_r_smoothed]. apply (find_route_None d n w r'); auto; [apply I0|].
      rewrite Dr'. destruct d; reflexivity.
    + cbn [new_route r_src set_r_smoothed r_neigh r_refmetric r_cost r_add_metric r_seqno]. intros Ek.
      destruct (Ok id eq_refl Ek) as (X1 & X2 & X3). split; [|split; [exact Um|split; [apply u16_range|split; [apply u16_range|split; [exact X2|]]]]].
      * apply fd_some. destruct G as (sx & Gx). destruct (Fl (fdp sx)) as (y' & Y & _); [|rewrite Y; discriminate].
        unfold fd, w1. cbn [w_srcs set_w_srcs]. rewrite <- Ek, Gx. reflexivity.
      * intros (_ & Tx & _). apply (cost_pos n w nb i I0); [|exact Nb]. unfold w3 in Tx. rewrite nbs_retain, K4 in Tx. exact Tx.
Qed.
Lemma v_nbr n w : V w (flush_neighbour n w).
Proof.
  unfold flush_neighbour. cbv zeta. eapply V_trans; [apply v_flush_sel|]. unfold flush_neighbour_routes. apply V_nbs. intros I0. 
  pose proof (I_nb _ I0) as A. rewrite !Forall_forall in *. split; [|intros _ B]; intros x Hx; apply filter_In in Hx; [apply A|apply B]; apply Hx.
Qed.
#[local] Hint Resolve v_nbr : vdb.
Lemma get_nb_ok n w nb : Inv w -> get_nb n w = Some nb -> neigh_ok nb /\ In nb (w_nbs w).
Proof.
  intros I0 G. apply find_some in G. pose proof (I_nb _ I0) as A. rewrite Forall_forall in A. split; [apply A|]; apply G.
Qed.
Lemma v_set_nb n nb nb' w : get_nb n w = Some nb -> (tv_ok (w_now w) -> neigh_ok nb -> neigh_ok nb') ->
  (Q -> 1 <= n_txcost nb -> 1 <= n_txcost nb') -> V w (map_nb n (fun _ => nb') w).
Proof.
  intros G A B. apply V_nbs. intros I0. destruct (get_nb_ok _ _ _ I0 G) as (N & Hn). pose proof (I_nb _ I0) as F. pose proof (I_now _ I0) as Tn.
  split; [|intros Hq]; rewrite !Forall_forall in *.
  - intros x Hx. apply in_map_iff in Hx. destruct Hx as (y & <- & Hy). destruct (_ =? _); auto.
  - intros Tx x Hx. apply in_map_iff in Hx. destruct Hx as (y & <- & Hy). destruct (_ =? _); auto.
Qed.
Lemma check_txcost now nb nb' c : check_neigh1 now nb = Some (nb', c) -> 1 <= n_txcost nb -> 1 <= n_txcost nb'.
Proof.
  unfold check_neigh1. destruct (update_hist now (n_hello nb) (-1) 0) as [h c1]. destruct (update_hist now (n_uhello nb) (-1) 0) as [u c2].
  destruct (neigh_dead _ _); [discriminate|]. unfold reset_txcost. cbn [n_txcost set_n_uhello set_n_hello].
  destruct (_ && _); [intros H; injection H as <- _; auto|]. destruct (_ || _); intros H; injection H as <- _; auto.
  intros _. cbn. unfold INFINITY. lia.
Qed.
Lemma v_check1 mw n : V (snd mw) (snd (check_neighbour1 mw n)).
Proof.
  unfold check_neighbour1. destruct mw as [m w]. cbn [snd]. destruct (get_nb n w) as [nb|] eqn:G; [|apply V_refl].
  destruct (check_neigh1 (w_now w) nb) as [[nb' ch]|] eqn:Cn; cbn [snd].
  - eapply V_trans; [|apply v_unm]. apply (v_set_nb n nb nb' w G).
    + intros Tn N. eapply check_neigh1_ok; eauto.
    + intros _. eapply check_txcost; eauto.
  - cbv zeta. cbn [snd]. eapply V_trans; [|apply v_nbr]. apply V_nbs. intros I0. destruct (get_nb_ok _ _ _ I0 G) as (N & Hn).
    pose proof (check_hists_ok (w_now w) nb (I_now _ I0) N) as (H1 & H2 & _). cbn [n_hello n_uhello set_n_hello set_n_uhello] in H1, H2.
    pose proof (I_nb _ I0) as F. split; [|intros _]; rewrite !Forall_forall in *.
    + intros x Hx. apply in_map_iff in Hx. destruct Hx as (y & <- & Hy). specialize (F y Hy). destruct (_ =? _); auto.
      destruct F as (_ & _ & F). split; [exact H1|]. split; [exact H2|exact F].
    + intros Tx x Hx. apply in_map_iff in Hx. destruct Hx as (y & <- & Hy). specialize (Tx y Hy). destruct (_ =? _); auto.
Qed.
Lemma v_check w : V w (snd (check_neighbours w)).
Proof. unfold check_neighbours. eapply V_trans; [|apply (fold_V_snd check_neighbour1); apply v_check1]. apply V_refl. Qed.

(** xroute.c *)
Lemma v_addx d m i p w : V w (snd (add_xroute d m i p w)).
Proof. unfold add_xroute. vv. Qed.
Lemma v_flushx i s w : V w (flush_xroute i s w).
Proof.
  unfold flush_xroute. destruct (nth_error (w_xr w) i) as [x|]; [|apply v_fault]. destruct (w_xr w) as [|x0 l]; [apply v_fault|]. cbv zeta.
  match goal with |- context [find_best_route ?d ?a ?b ?z] => pose proof (v_best d a b z) as V1; destruct (find_best_route d a b z) as [b0 w2] end.
  cbn [snd] in V1. assert (V2 : V w w2) by (eapply V_trans; [|exact V1]; apply v_xr). clear V1.
  destruct b0 as [p|]; [|vv; exact V2]. destruct (find_ptr p w2) as [r|] eqn:F; [|vv; exact V2].
  destruct ((route_metric r <? INFINITY) && feasible r w2) eqn:E; [|vv; exact V2].
  apply andb_true_iff in E. destruct E as (_ & E).
  assert (V3 : V w (install_route p w2)) by (eapply V_trans; [exact V2|]; apply v_install; intros y Y; congruence).
  vv; exact V3.
Qed.
Lemma v_mod i k' u w : V w (modify_xroute i k' u w).
Proof. unfold modify_xroute. vv. Qed.
Lemma v_dup k' w : V w (flush_duplicate_route k' w).
Proof. unfold flush_duplicate_route. vv. Qed.
#[local] Hint Resolve v_addx v_flushx v_mod v_dup : vdb.
Lemma v_notify a k' w : V w (kernel_route_notify a k' w).
Proof. unfold kernel_route_notify. vv. Qed.
Lemma v_merge f s : forall rs j w, V w (merge f rs j s w).
Proof.
  induction f as [|f IH]; intros rs j w; cbn [merge]; [apply v_nofuel|].
  destruct rs; vv; try (eapply V_trans; [|apply IH]); vv.
Qed.
Lemma v_scan a r s w : V w (check_xroutes a r s w).
Proof. apply v_merge. Qed.

(** the daemon *)
Lemma v_on_nb n f w : (forall nb, tv_ok (w_now w) -> neigh_ok nb -> neigh_ok (fst (f nb))) ->
  (Q -> forall nb, 1 <= n_txcost nb -> 1 <= n_txcost (fst (f nb))) -> V w (on_nb n f w).
Proof.
  intros A B. unfold on_nb. destruct (get_nb n w) as [nb|] eqn:G; [|apply v_fault]. specialize (A nb). specialize (fun Hq => B Hq nb).
  destruct (f nb) as [nb' c]. cbn [fst] in *. eapply V_trans; [|apply v_unm]. apply (v_set_nb n nb nb' w G); auto.
Qed.
Lemma v_myseqno w : V w (update_myseqno w).
Proof. triv. Qed.
#[local] Hint Resolve v_myseqno : vdb.
Lemma v_request n d hop s id w : V w (handle_request n d hop s id w).
Proof.
  unfold handle_request. destruct (nb_if n w) as [[nb i]|]; [|apply v_fault]. cbv zeta.
  match goal with |- context [if ?b then if (hop >? 0) && _ && _ then _ else _ else _] => destruct b end; [vv|].
  assert (B : V w (snd (find_best_route d false (Some n) w))) by apply v_best.
  destruct (find_best_route d false (Some n) w) as [b w1]. cbn [snd] in B.
  destruct (find_installed d w); vv; exact B.
Qed.
Lemma v_rtt n a b w : V w (recv_rtt n a b w).
Proof.
  unfold recv_rtt. destruct (nb_if n w) as [[nb i]|] eqn:N; [|apply v_fault]. destruct (rtt_sample nb a b) as [rtt|]; [|apply V_refl]. cbv zeta.
  destruct (nb_if_get _ _ _ _ N) as (G & _).
  eapply V_then; [eapply V_trans; [apply (v_set_nb n nb (set_n_rtt (rtt_update (w_now w) i nb rtt) nb) w G)|apply v_unm]|apply m_map_nb|].
  - intros _ (A1 & A2 & A3 & A4 & A5 & A6 & A7). unfold neigh_ok. cbn. repeat (split; [assumption|]). split; [apply rtt_update_range|assumption].
  - auto.
  - intros I0 _ _ _ _. apply v_map_nb; [|auto]. intros x _ _ _ (A1 & A2 & A3 & A4 & A5 & A6 & A7). unfold neigh_ok. cbn.
    repeat (split; [assumption|]). apply I0.
Qed.

(** ** One event *)
Definition ev_ok (ev : event) (w : world) : Prop :=
  match ev with
  | EvUpdate id d s m iv n nh => upd_ok id d s m n w
  | EvIhu _ c _ => Q -> 1 <= c
  | _ => True
  end.
Definition R' (a b : world) : Prop :=
  Inv b /\ fdle b a /\ (exists l, w_out b = w_out a ++ l /\ Forall (cov b) l) /\ w_cfg b = w_cfg a /\ (finsel b -> J a -> J b).
Lemma R_R' a b : R a b -> R' a b.
Proof. intros (A & B & C & D & E & F). unfold R'. auto. Qed.
Lemma run1_R ev w : allowed ev w -> ev_ok ev w -> good (run1 ev w) -> Inv w ->
  (forall s, get_src k (w_srcs (run1 ev w)) = Some s -> sec (run1 ev w) - 200 <= s_time s) -> R' w (run1 ev w).
Proof.
  intros Al Ok G I0 Fr.
  assert (D : V w (run1 ev w) -> R' w (run1 ev w)) by (intros (_ & H); apply R_R'; auto).
  destruct ev; cbn [run1 allowed ev_ok] in *;
    try (apply D; first [apply v_rnr|apply v_check|apply v_request|apply v_rtt
    |apply v_uim|apply v_flush_sel|apply v_expire|apply v_notify|apply v_scan|apply v_flushupdates|apply v_sua|apply v_self|apply v_retr
    |apply v_smr|apply v_resend|apply v_expire_resend|apply v_fal|apply v_myseqno]; fail).
  - (* clock *) clear D. split; [|split; [exact (fdle_refl w)|split; [exists []; rewrite app_nil_r; auto|auto]]].
    destruct I0. constructor; auto. intros s Hs. split; [apply (I_src0 s Hs)|exact (Fr s Hs)].
  - apply D. eapply V_trans; [apply v_kresp|apply v_rnd].
  - apply D. apply v_update. exact Ok.
  - apply D. unfold recv_request. vv.
  - apply D. destruct Al as (A1 & A2 & A3). apply v_on_nb.
    + intros nb Tn (B1 & B2 & B3). destruct unicast;
        match goal with |- context [update_hist ?a ?b ?c ?d] =>
          pose proof (update_hist_ok a b c d ltac:(assumption) Tn A2 A3) as Hh; destruct (update_hist a b c d) end;
        cbn [fst] in *; (split; [assumption|split; assumption]).
    + intros _ nb. destruct unicast; destruct (update_hist _ _ _ _); auto.
  - apply D. apply v_map_nb; auto.
  - apply D. destruct Al as (A1 & A2 & A3). apply v_on_nb; [|intros Hq nb _; exact (Ok Hq)].
    intros nb Tn (B1 & B2 & B3 & B4 & B5 & B6). unfold u16_ok in *. split; [assumption|]. split; [assumption|].
    split; [cbn; lia|]. split; [exact Tn|]. split; [exact A3|exact B6].
  - apply D. unfold find_neighbour. destruct (existsb _ _); [apply V_refl|]. apply V_nbs. intros _. split; [|intros _].
    + constructor; [|apply I0]. pose proof (I_now _ I0) as Tn. unfold neigh_ok, new_neigh. cbn. pose proof new_hist_ok. unfold tv_ok in *. cbn. unfold INFINITY. intuition lia.
    + intros Tx. constructor; [|exact Tx]. cbn. unfold INFINITY. lia.
  - apply D. apply v_map_nb; auto.
  - apply D. apply v_map_if. intros _ _. apply Al.
  - apply D. apply V_ifs. intros _. apply Forall_app. split; [apply I0|]. constructor; [apply Al|constructor].
  - apply D. apply V_ifs. intros _. pose proof (I_if _ I0) as F. rewrite Forall_forall in *. intros x Hx. apply filter_In in Hx. apply F, Hx.
  - (* garbage collection of sources *)
    apply D. split; [apply m_srcs|]. intros _ _.
    assert (X : forall s, get_src k (w_srcs w) = Some s -> get_src k (expire_sources (sec w) (w_srcs w)) = Some (expire1 (sec w) s)).
    { intros s Hs. rewrite get_expire by apply I0. rewrite Hs. destruct (I_src _ I0 s Hs) as (_ & Ts). unfold expired_src.
      replace ((if s_time s >? sec w then sec w else s_time s) <? sec w - SOURCE_GC_TIME) with false; [rewrite andb_false_r; reflexivity|].
      symmetry. apply Z.ltb_ge. unfold SOURCE_GC_TIME. destruct (_ >? _); lia. }
    apply R_srcs; auto.
    + apply expire_sources_sorted, I0.
    + intros s Hs. split; [|exact (Fr s Hs)]. rewrite get_expire in Hs by apply I0. destruct (get_src k (w_srcs w)) as [s0|] eqn:E; [|discriminate Hs].
      destruct (expired_src _ _); [discriminate Hs|]. injection Hs as <-. exact (proj1 (I_src _ I0 s0 E)).
    + intros s Hs. eexists. split; [apply X, Hs|apply closer_eq_refl].
    + intros (J1 & _) r Hr Hi Hk. destruct (J1 r Hr Hi Hk) as (y & Y & Y'). exists y. split; [|exact Y']. unfold fd in Y.
      destruct (get_src k (w_srcs w)) as [s|]; [|discriminate Y]. rewrite (X s eq_refl). exact Y.
  - apply D. destruct d; vv.
Qed.
End Net.

(** L_Lost.v: the routes of a neighbour whose Hellos are lost keep an infinite metric. *)
From Verif Require Import Base M_Util M_Slot M_Source M_Filter M_Types M_Neigh M_State M_Table M_Msg M_Route M_Xroute M_Daemon.
From Verif Require Import S_Util S_World L_Util L_Msg L_Table L_Step L_Walk L_Update2 L_Daemon.

(** Why the link is not used: too few Hellos whatever the interface, too few if its quality
    is not measured, or no IHU. *)
Inductive mode := MAny | MWired | MTx.
Definition few (m : mode) (nb : neigh) : Prop :=
  match m with
  | MAny => Z.land (h_reach (n_hello nb)) 65520 = 0 /\ Z.land (h_reach (n_uhello nb)) 65520 = 0
  | MWired => two_three (h_reach (n_hello nb)) = false /\ two_three (h_reach (n_uhello nb)) = false
  | MTx => n_txcost nb = 65535
  end.
Lemma few_cost any nb i t : few any nb -> any <> MWired \/ flag i IF_LQ = false -> neighbour_cost t i nb = INFINITY.
Proof.
  intros F A. destruct any.
  3:{ unfold neighbour_cost. cbn [few] in F. rewrite F. destruct (negb (if_up i)); reflexivity. }
  1,2: assert (R : neighbour_rxcost t i nb = INFINITY); [unfold neighbour_rxcost|
    unfold neighbour_cost; rewrite R; destruct (negb (if_up i)); [reflexivity|]; destruct (n_txcost nb >=? INFINITY); reflexivity].
  - destruct F as (-> & ->). reflexivity.
  - destruct A as [A|A]; [contradiction|]. destruct F as (F1 & F2). rewrite A, F1, F2. cbv zeta.
      destruct (_ && _); reflexivity.
Qed.
Definition alike (m : mode) (x y : neigh) : Prop :=
  match m with MTx => n_txcost x = n_txcost y | _ => n_hello x = n_hello y /\ n_uhello x = n_uhello y end.
Lemma few_ext any x y : alike any x y -> few any y -> few any x.
Proof. unfold few, alike. destruct any; [intros (-> & ->)|intros (-> & ->)|intros ->]; auto. Qed.
Lemma alike_refl any x : alike any x x.
Proof. unfold alike. destruct any; auto. Qed.
Lemma alike_sym any x y : alike any x y -> alike any y x.
Proof. unfold alike. destruct any; [intros (-> & ->)|intros (-> & ->)|intros ->]; auto. Qed.
Lemma alike_all any x y : n_hello x = n_hello y -> n_uhello x = n_uhello y -> n_txcost x = n_txcost y -> alike any x y.
Proof. unfold alike. destruct any; auto. Qed.

Section Ref.
Variable any : mode.
Variable n0 : Z.
Variable x0 : option Z.
(** [x0]: a route (pointer) known not to be of the neighbour [n0] *)
Record gone (w : world) : Prop := mkGone {
  gn_low : forall r, In r (all_routes w) -> r_neigh r = n0 -> route_metric r = 65535;
  gn_fun : forall r r', In r (all_routes w) -> In r' (all_routes w) -> r_ptr r = r_ptr r' -> r_neigh r = r_neigh r';
  gn_x : forall r, In r (all_routes w) -> x0 = Some (r_ptr r) -> r_neigh r <> n0;
  gn_next : forall r, In r (all_routes w) -> r_ptr r < w_next w;
  gn_few : forall nb i, nb_if n0 w = Some (nb, i) -> few any nb /\ (any <> MWired \/ flag i IF_LQ = false) }.
Definition mono (a b : world) : Prop := gone a -> gone b.
Lemma mono_refl w : mono w w.
Proof. intros H. exact H. Qed.
Lemma mono_trans a b c : mono a b -> mono b c -> mono a c.
Proof. unfold mono. auto. Qed.
Definition calm (w w' : world) : Prop := w_nbs w' = w_nbs w /\ map ifstat (w_ifs w') = map ifstat (w_ifs w).
Lemma find_if_stat f l l' i : (forall x, f (ifstat x) = f x) -> map ifstat l' = map ifstat l -> find f l' = Some i ->
  exists j, find f l = Some j /\ ifstat j = ifstat i.
Proof.
  intros F. revert l. induction l' as [|x l' IH]; intros l E H; [discriminate|]. destruct l as [|y l]; [discriminate|].
  assert (E1 : ifstat x = ifstat y) by (apply (f_equal (hd_error (A:=_))) in E; cbn [map hd_error] in E; congruence).
  assert (E2 : map ifstat l' = map ifstat l) by (apply (f_equal (tl (A:=_))) in E; exact E). clear E.
  cbn [find] in *. assert (X : f y = f x) by (rewrite <- (F y), <- (F x), E1; reflexivity). rewrite X.
  destruct (f x); [injection H as <-; exists y; auto|]. apply (IH l E2 H).
Qed.
Lemma calm_nb_if n w w' nb i : calm w w' -> nb_if n w' = Some (nb, i) -> exists j, nb_if n w = Some (nb, j) /\ ifstat j = ifstat i.
Proof.
  intros (A & B) H. unfold nb_if, get_nb, get_if in *. rewrite A in H. destruct (find _ (w_nbs w)) as [x|]; [|discriminate].
  destruct (find _ (w_ifs w')) as [y|] eqn:F; [|discriminate]. injection H as -> ->.
  destruct (find_if_stat (fun x : iface => if_id x =? n_if nb) (w_ifs w) _ _ (fun x => eq_refl) B F) as (j & J1 & J2). rewrite J1. exists j. auto.
Qed.
Lemma flag_stat i j b : ifstat i = ifstat j -> flag i b = flag j b.
Proof. intros E. change (flag (ifstat i) b = flag (ifstat j) b). rewrite E. reflexivity. Qed.
Lemma mono_sub w w' : calm w w' -> w_next w <= w_next w' ->
  (forall r', In r' (all_routes w') -> exists r, In r (all_routes w) /\ r_ptr r' = r_ptr r /\ r_neigh r' = r_neigh r /\
     (r_neigh r = n0 -> route_metric r = 65535 -> route_metric r' = 65535)) -> mono w w'.
Proof.
  intros Cm Nx H [A B C D E0]. constructor.
  - intros r' Hr E. destruct (H r' Hr) as (r & H1 & H2 & H3 & H4). apply H4; [congruence|]. apply A; [exact H1|congruence].
  - intros r1 r2 H1 H2 E. destruct (H r1 H1) as (y1 & Y1 & Y2 & Y3 & _). destruct (H r2 H2) as (y2 & Z1 & Z2 & Z3 & _).
    rewrite Y3, Z3. apply B; [exact Y1|exact Z1|congruence].
  - intros r' Hr E. destruct (H r' Hr) as (r & H1 & H2 & H3 & H4). rewrite H3. apply C; [exact H1|congruence].
  - intros r' Hr. destruct (H r' Hr) as (r & H1 & H2 & _). rewrite H2. specialize (D r H1). lia.
  - intros nb i N. destruct (calm_nb_if _ _ _ _ _ Cm N) as (j & J1 & J2). rewrite <- (flag_stat j i _ J2). apply E0, J1.
Qed.
Lemma mono_same w w' : calm w w' -> w_next w' = w_next w -> w_rt w' = w_rt w -> mono w w'.
Proof.
  intros Cm N R. apply mono_sub; [exact Cm|lia|]. intros r H. exists r. unfold all_routes in *. rewrite R in H. auto.
Qed.
Lemma mono_map p f w : (forall r, r_ptr (f r) = r_ptr r /\ r_neigh (f r) = r_neigh r /\ (r_neigh r = n0 -> route_metric r = 65535 -> route_metric (f r) = 65535)) ->
  mono w (map_ptr p f w).
Proof.
  intros F. apply mono_sub; [split; reflexivity|cbn; lia|]. intros r' H. destruct (In_map_ptr _ _ _ _ H) as (r & Hr & ->).
  exists r. split; [exact Hr|]. destruct (is_ptr p r); [apply F|auto].
Qed.
Lemma fold_m {A} (f : world -> A -> world) l : (forall w a, mono w (f w a)) -> forall w, mono w (fold_left f l w).
Proof.
  intros H. induction l as [|a l IH]; intros w; cbn; [apply mono_refl|]. eapply mono_trans; [apply H|apply IH].
Qed.
Lemma fold_m_fst {A B} (f : world * B -> A -> world * B) l : 
  (forall w a, mono (fst w) (fst (f w a))) -> forall x, mono (fst x) (fst (fold_left f l x)).
Proof.
  intros H. induction l as [|a l IH]; intros w; cbn; [apply mono_refl|]. eapply mono_trans; [apply H|apply IH].
Qed.
Lemma fold_m_snd {A B} (f : B * world -> A -> B * world) l :
  (forall w a, mono (snd w) (snd (f w a))) -> forall x, mono (snd x) (snd (fold_left f l x)).
Proof.
  intros H. induction l as [|a l IH]; intros w; cbn; [apply mono_refl|]. eapply mono_trans; [apply H|apply IH].
Qed.

#[local] Ltac mm1 :=
  match goal with
  | |- mono ?x ?x => apply mono_refl
  | |- mono _ (let '(_, _) := ?x in _) => rewrite (surjective_pairing x)
  | |- mono _ (snd (let '(_, _) := ?x in _)) => rewrite (surjective_pairing x)
  | |- mono _ (fst (let '(_, _) := ?x in _)) => rewrite (surjective_pairing x)
  | |- mono _ (if ?c then _ else _) => destruct c
  | |- mono _ (match ?x with _ => _ end) => destruct x
  | |- mono _ (snd (if ?c then _ else _)) => destruct c
  | |- mono _ (fst (if ?c then _ else _)) => destruct c
  | |- mono _ (snd (match ?x with _ => _ end)) => destruct x
  | |- mono _ (fst (match ?x with _ => _ end)) => destruct x
  | |- mono _ _ => eapply mono_trans; [|solve [eauto 2 with mdb nocore]]
  end; cbv beta iota zeta; cbn [fst snd].
#[local] Ltac mm := intros; cbv beta iota zeta; cbn [fst snd]; repeat mm1.
#[local] Ltac mtriv := intros; apply mono_same; [split; reflexivity|reflexivity|reflexivity].
Lemma m_fault w : mono w (fault w). Proof. mtriv. Qed.
Lemma m_nofuel w : mono w (nofuel w). Proof. mtriv. Qed.
Lemma m_map_if i f w : (forall x, ifstat (f x) = ifstat x) -> mono w (map_if i f w).
Proof.
  intros F. apply mono_same; [split; [reflexivity|]|reflexivity|reflexivity]. unfold map_if. cbn [w_ifs set_w_ifs].
  rewrite map_map. apply map_ext. intros x. destruct (if_id x =? i); [apply F|reflexivity].
Qed.
Lemma get_map_nb n f w : (forall x, n_id (f x) = n_id x) ->
  get_nb n0 (map_nb n f w) = match get_nb n0 w with Some x => Some (if n_id x =? n then f x else x) | None => None end.
Proof.
  intros F. unfold get_nb, map_nb. cbn [w_nbs set_w_nbs]. induction (w_nbs w) as [|x l IH]; [reflexivity|]. cbn [map find].
  destruct (n_id x =? n) eqn:E; [rewrite F|]; (destruct (n_id x =? n0); [rewrite E; reflexivity|exact IH]).
Qed.
Lemma m_map_nb n f w : (forall x, n_id (f x) = n_id x) ->
  (n = n0 -> forall x, get_nb n0 w = Some x -> alike any (f x) x /\ n_if (f x) = n_if x) ->
  mono w (map_nb n f w).
Proof.
  intros F H [A B C D E]. constructor; auto. intros nb i N. unfold nb_if in *. rewrite get_map_nb in N by exact F.
  destruct (get_nb n0 w) as [x|] eqn:G; [|discriminate]. change (get_if ?a (map_nb n f w)) with (get_if a w) in N.
  assert (Gx : n_id x = n0) by (apply find_some in G; destruct G as (_ & G); lia).
  destruct (n_id x =? n) eqn:Ex.
  - destruct (H ltac:(lia) x eq_refl) as (H1 & H3). rewrite H3 in N. destruct (get_if (n_if x) w) as [j|]; [|discriminate].
    injection N as <- <-. destruct (E x j eq_refl) as (E1 & E2). split; [|exact E2]. eapply few_ext; [exact H1|exact E1].
  - destruct (get_if (n_if x) w) as [j|]; [|discriminate]. injection N as <- <-. apply E. reflexivity.
Qed.
Lemma m_del n w : mono w (set_w_nbs (filter (fun x => negb (n_id x =? n)) (w_nbs w)) w).
Proof.
  intros [A B C D E]. constructor; auto. intros nb i N. apply E. unfold nb_if in *.
  assert (G : forall y, get_nb n0 (set_w_nbs (filter (fun x => negb (n_id x =? n)) (w_nbs w)) w) = Some y -> get_nb n0 w = Some y).
  { clear. intros y. unfold get_nb. cbn [w_nbs set_w_nbs]. induction (w_nbs w) as [|x l IH]; [discriminate|]. cbn [filter find].
    destruct (n_id x =? n) eqn:Ex; cbn [negb find].
    - intros F. destruct (n_id x =? n0) eqn:Ey; [|exact (IH F)]. exfalso. clear - F Ex Ey. apply find_some in F. destruct F as (F & G).
      apply filter_In in F. destruct F as (_ & F). lia.
    - destruct (n_id x =? n0); auto. }
  destruct (get_nb n0 (set_w_nbs _ w)) as [y|] eqn:Y; [|discriminate]. rewrite (G y eq_refl). exact N.
Qed.
Lemma m_now x w : mono w (set_w_now x w). Proof. mtriv. Qed.
Lemma m_srcs x w : mono w (set_w_srcs x w). Proof. mtriv. Qed.
Lemma m_xr x w : mono w (set_w_xr x w). Proof. mtriv. Qed.
Lemma m_rsd x w : mono w (set_w_rsd x w). Proof. mtriv. Qed.
Lemma m_rsdt x w : mono w (set_w_rsd_time x w). Proof. mtriv. Qed.
Lemma m_rnd x w : mono w (set_w_rnd x w). Proof. mtriv. Qed.
Lemma m_kresp x w : mono w (set_w_kresp x w). Proof. mtriv. Qed.
#[local] Hint Resolve m_fault m_nofuel m_map_if m_del m_now m_srcs
  m_xr m_rsd m_rsdt m_rnd m_kresp : mdb.
#[local] Hint Extern 1 (forall _, ifstat _ = ifstat _) => (intros; repeat match goal with |- context [match ?x with _ => _ end] => destruct x end; reflexivity) : mdb.

Lemma m_rand w : mono w (snd (rand w)). Proof. unfold rand. mm. Qed.
#[local] Hint Resolve m_rand : mdb.
Lemma m_recompute w : mono w (recompute_resend_time w). Proof. mtriv. Qed.
#[local] Hint Resolve m_recompute : mdb.
Lemma m_record k d s i p dl w : mono w (record_resend k d s i p dl w).
Proof. unfold record_resend. mm. Qed.
Lemma m_satisfy d s i p w : mono w (satisfy_request d s i p w).
Proof. unfold satisfy_request. mm. Qed.
Lemma m_expire_resend w : mono w (expire_resend w).
Proof. unfold expire_resend. mm. Qed.
Lemma m_emit b t w : mono w (emit b t w). Proof. mtriv. Qed.
#[local] Hint Resolve m_emit : mdb.
Lemma m_jitter i u w : mono w (snd (update_jitter i u w)).
Proof. unfold update_jitter. mm. Qed.
Lemma m_timeout i w : mono w (snd (set_timeout i w)).
Proof. unfold set_timeout. mm. Qed.
#[local] Hint Resolve m_record m_satisfy m_expire_resend m_jitter m_timeout : mdb.
Lemma m_rbu b i id d s m w : mono w (really_buffer_update b i id d s m w).
Proof. unfold really_buffer_update. mm. Qed.
Lemma m_rsu i id d s m w : mono w (really_send_update i id d s m w).
Proof. unfold really_send_update. mm. apply fold_m. intros; apply m_rbu. Qed.
Lemma mono_retr_fold l : forall w, mono w (fold_left (fun w b => emit b (TWildRetract (w_seqno w)) w) l w).
Proof. apply fold_m. intros w b. apply m_emit. Qed.
#[local] Hint Resolve m_rsu : mdb.
Lemma m_flush1 i wl b : mono (fst wl) (fst (flush1 i wl b)).
Proof. unfold flush1. destruct wl as [w last]. mm. Qed.
Lemma m_flushupdates i w : mono w (flushupdates i w).
Proof. unfold flushupdates. mm. eapply mono_trans; [|apply (fold_m_fst (flush1 i0)); apply m_flush1]. cbn [fst]. mm. Qed.
#[local] Hint Resolve m_flushupdates : mdb.
Lemma m_suf i u w : mono w (schedule_update_flush i u w).
Proof. unfold schedule_update_flush. mm. Qed.
Lemma m_bu i d w : mono w (buffer_update i d w).
Proof. unfold buffer_update. mm. Qed.
#[local] Hint Resolve m_suf m_bu : mdb.
Lemma m_sui i u d w : mono w (send_update_if i u d w).
Proof. unfold send_update_if. mm. Qed.
#[local] Hint Resolve m_sui : mdb.
Lemma m_self i w : mono w (send_self_update_if i w).
Proof. unfold send_self_update_if. apply fold_m. mm. Qed.
#[local] Hint Resolve m_self : mdb.
Lemma m_wild i u s w : mono w (send_update_wild i u s w).
Proof. unfold send_update_wild. mm. eapply mono_trans; [|apply fold_m; mm]. mm. Qed.
#[local] Hint Resolve m_wild : mdb.
Lemma m_full i u w : mono w (send_update_full i u w).
Proof. unfold send_update_full. mm. Qed.
Lemma m_sua u d w : mono w (send_update_all u d w).
Proof.
  assert (H : mono w (fold_left (fun w i => send_update_if i u d w) (map if_id (w_ifs w)) w))
    by (apply fold_m; mm).
  unfold send_update_all. cbv zeta. mm; exact H.
Qed.
#[local] Hint Resolve m_full m_sua : mdb.
Lemma m_sur d w : mono w (send_update_resend d w).
Proof. unfold send_update_resend. mm. Qed.
Lemma m_retr i w : mono w (send_wildcard_retraction i w).
Proof. unfold send_wildcard_retraction. mm. apply mono_retr_fold. Qed.
Lemma m_sr b i d w : mono w (send_request b i d w).
Proof. unfold send_request. mm.  Qed.
#[local] Hint Resolve m_sur m_retr m_sr : mdb.
Lemma m_smr d i w : mono w (send_multicast_request_if d i w).
Proof. unfold send_multicast_request_if. mm. eapply mono_trans; [|apply fold_m; mm]. mm. Qed.
#[local] Hint Resolve m_smr : mdb.
Lemma m_smra d w : mono w (send_multicast_request_all d w).
Proof. unfold send_multicast_request_all. apply fold_m. mm. Qed.
Lemma m_sunr n d w : mono w (send_unicast_request n d w).
Proof. unfold send_unicast_request. mm. Qed.
Lemma m_smh b i d s id h w : mono w (send_multihop_request b i d s id h w).
Proof. unfold send_multihop_request. mm.  Qed.
#[local] Hint Resolve m_smra m_sunr m_smh : mdb.
Lemma m_smmh d s id h i w : mono w (send_multicast_multihop_request_if d s id h i w).
Proof. unfold send_multicast_multihop_request_if. mm. eapply mono_trans; [|apply fold_m; mm]. mm. Qed.
#[local] Hint Resolve m_smmh : mdb.
Lemma m_smm p d s id h w : mono w (send_multicast_multihop_request p d s id h w).
Proof. unfold send_multicast_multihop_request. destruct p; mm. apply fold_m. mm. Qed.
Lemma m_sumh n d s id h w : mono w (send_unicast_multihop_request n d s id h w).
Proof. unfold send_unicast_multihop_request. mm. Qed.
#[local] Hint Resolve m_smm m_sumh : mdb.
Lemma m_resend1 w k : mono w (do_resend1 w k).
Proof. unfold do_resend1. mm. Qed.
Lemma m_resend w : mono w (do_resend w).
Proof. unfold do_resend. eapply mono_trans; [|apply m_recompute]. apply fold_m. apply m_resend1. Qed.
#[local] Hint Resolve m_resend : mdb.

(** route.c *)
Lemma m_kresp1 w : mono w (snd (kresp1 w)). Proof. unfold kresp1. mm. Qed.
Lemma m_ktrace e w : mono w (ktrace e w).
Proof. mtriv. Qed.
#[local] Hint Resolve m_kresp1 m_ktrace : mdb.
Lemma m_kr1 a t d p g i m w : mono w (snd (kernel_route1 a t d p g i m w)).
Proof. unfold kernel_route1. mm. Qed.
#[local] Hint Resolve m_kr1 : mdb.
Lemma m_krm t d p g i m a b c e w : mono w (snd (kernel_route_modify t d p g i m a b c e w)).
Proof. unfold kernel_route_modify. mm. Qed.
#[local] Hint Resolve m_krm : mdb.
Lemma m_cra r i m w : mono w (snd (change_route_add r i m w)).
Proof. unfold change_route_add. destruct (inst_filter r i w) as [[? ?] ?]. mm. Qed.
Lemma m_crf r i m w : mono w (snd (change_route_flush r i m w)).
Proof. unfold change_route_flush. destruct (inst_filter r i w) as [[? ?] ?]. mm. Qed.
Lemma m_crm r i m a b c w : mono w (snd (change_route_modify r i m a b c w)).
Proof. unfold change_route_modify. destruct (inst_filter r i w) as [[? ?] ?]. mm. Qed.
#[local] Hint Resolve m_cra m_crf m_crm : mdb.
Lemma m_mi d p w : mono w (move_installed d p w).
Proof.
  apply mono_sub; [unfold move_installed; destruct (find_route_slot d w); split; reflexivity|unfold move_installed; destruct (find_route_slot d w); cbn; lia|]. intros r H. exists r. split; [eapply In_move; eauto|auto].
Qed.
Lemma m_selected r w o w1 : mono w1 (selected r w o w1).
Proof. mtriv. Qed.
#[local] Hint Resolve m_mi m_selected : mdb.
Lemma m_flag p b w : mono w (map_ptr p (set_r_installed b) w). Proof. apply mono_map. auto. Qed.
Lemma m_hold p b w : mono w (map_ptr p (set_r_hold_time b) w). Proof. apply mono_map. auto. Qed.
Lemma m_seqno p b w : mono w (map_ptr p (set_r_seqno b) w). Proof. apply mono_map. auto. Qed.
Lemma m_smooth p a b w : mono w (map_ptr p (fun r => set_r_smoothed a (set_r_smoothed_time b r)) w). Proof. apply mono_map. auto. Qed.
#[local] Hint Resolve m_flag m_hold m_seqno m_smooth : mdb.
Lemma m_install p w : mono w (install_route p w).
Proof. unfold install_route. mm. Qed.
Lemma m_uninstall p w : mono w (uninstall_route p w).
Proof. unfold uninstall_route. mm. Qed.
#[local] Hint Resolve m_install m_uninstall : mdb.
Lemma m_switch o p w : mono w (switch_routes o p w).
Proof. unfold switch_routes. mm. Qed.
#[local] Hint Resolve m_switch : mdb.
Lemma m_smoothed p w : mono w (snd (smoothed_metric p w)).
Proof. unfold smoothed_metric. mm. Qed.
#[local] Hint Resolve m_smoothed : mdb.
Lemma smoothed_In p w r' : In r' (all_routes (snd (smoothed_metric p w))) -> exists r, In r (all_routes w) /\
    r_ptr r' = r_ptr r /\ r_neigh r' = r_neigh r /\ r_refmetric r' = r_refmetric r.
Proof.
  unfold smoothed_metric. destruct (find_ptr p w) as [y|]; [|intros H; exists r'; auto].
  destruct (smooth _ _ _ _ _ _) as [[[sm t] rnd] ok]. cbn [snd].
  assert (X : forall w1, all_routes (if ok then w1 else fault w1) = all_routes w1) by (intros; destruct ok; reflexivity).
  rewrite X. intros H. destruct (In_map_ptr _ _ _ _ H) as (r & Hr & ->). exists r. split; [exact Hr|]. destruct (is_ptr p r); auto.
Qed.
Lemma u16_nonneg x : 0 <= u16 x. Proof. unfold u16. apply Z.mod_pos_bound. lia. Qed.
Lemma chm_from p a b c w : (gone w -> forall r, In r (all_routes w) -> r_ptr r = p -> r_neigh r = n0 -> u16 a = 65535 \/ u16 b = 65535) ->
  mono w (change_route_metric p a b c w).
Proof.
  intros Ha G. specialize (Ha G). revert G. change (mono w (change_route_metric p a b c w)). unfold change_route_metric.
  destruct (find_ptr p w) as [r|] eqn:F; [|apply m_fault]. destruct (nb_if (r_neigh r) w) as [[nb i]|]; [|apply m_fault].
  cbv zeta. set (x := if r_installed r && _ then _ else _).
  assert (X : mono w (snd x) /\ all_routes (snd x) = all_routes w).
  { unfold x. destruct (r_installed r && _); [|split; [apply mono_refl|reflexivity]]. split; [apply m_crm|].
    destruct (change_route_modify _ _ _ _ _ _ _) as [rc w1] eqn:E. apply change_route_modify_frame in E. destruct E as (y & z & ->). reflexivity. }
  destruct x as [rc w1]. cbn [snd] in X. destruct X as (X1 & X2). destruct (rc <? 0); [exact X1|].
  eapply mono_trans; [exact X1|].
  pose proof (smoothed_In p w1) as S1.
  intros G. assert (G2 := m_smoothed p w1 G). revert G2. generalize (snd (smoothed_metric p w1)) S1. clear - Ha X2. 
  intros w2 S1 G2. revert G2. change (mono w2 (map_ptr p (fun r => let r1 := set_r_refmetric (u16 a) (set_r_cost (u16 b) (set_r_add_metric (u16 c) r)) in
     if c_half_life (w_cfg w) =? 0 then set_r_smoothed (route_metric r1) (set_r_smoothed_time (sec w) r1) else r1) w2)).
  apply mono_sub; [split; reflexivity|cbn; lia|]. intros r' H. destruct (In_map_ptr _ _ _ _ H) as (r & Hr & ->). exists r. split; [exact Hr|].
  destruct (is_ptr p r) eqn:Ip; [|auto].
  assert (Q : r_neigh r = n0 -> u16 a = 65535 \/ u16 b = 65535).
  { intros En. destruct (S1 r Hr) as (y & Y1 & Y2 & Y3 & _). apply (Ha y); [rewrite <- X2; exact Y1| |congruence].
    apply Z.eqb_eq in Ip. congruence. }
  split; [cbv zeta; destruct (c_half_life (w_cfg w) =? 0); reflexivity|]. split; [cbv zeta; destruct (c_half_life (w_cfg w) =? 0); reflexivity|].
  intros En _. specialize (Q En). assert (route_metric (set_r_refmetric (u16 a) (set_r_cost (u16 b) (set_r_add_metric (u16 c) r))) = 65535).
  { unfold route_metric, INFINITY. cbn [r_refmetric r_cost r_add_metric set_r_refmetric set_r_cost set_r_add_metric].
    pose proof (u16_nonneg a). pose proof (u16_nonneg b). pose proof (u16_nonneg c). destruct Q; lia. }
  cbv zeta. destruct (c_half_life (w_cfg w) =? 0); assumption.
Qed.
Lemma m_retract p w : mono w (retract_route p w).
Proof. apply chm_from. left. reflexivity. Qed.
#[local] Hint Resolve m_retract : mdb.
Lemma m_best_step f e bw q : mono (snd bw) (snd (best_step f e bw q)).
Proof. unfold best_step. destruct bw as [b w]. mm. Qed.
Lemma m_best_from f e w l : mono w (snd (best_from f e w l)).
Proof.
  induction l as [|r l IH]; cbn [best_from]; [apply mono_refl|].
  destruct (acceptable r f e w); [|exact IH].
  rewrite (surjective_pairing (fold_left _ _ _)). cbn [snd]. refine (fold_m_snd (best_step f e) (map r_ptr l) _ (r_ptr r, w)). apply m_best_step.
Qed.
Lemma m_best d f e w : mono w (snd (find_best_route d f e w)).
Proof. apply m_best_from. Qed.
#[local] Hint Resolve m_best : mdb.
Lemma m_trig p k m w : mono w (send_triggered_update p k m w).
Proof. unfold send_triggered_update. mm. Qed.
#[local] Hint Resolve m_trig : mdb.
Lemma m_ci p i w : mono w (consider_install p i w).
Proof. unfold consider_install. mm. Qed.
#[local] Hint Resolve m_ci : mdb.
Lemma m_consider p w : mono w (consider_route p w).
Proof. unfold consider_route. mm. Qed.
#[local] Hint Resolve m_consider : mdb.
Lemma m_changed p k m w : mono w (route_changed p k m w).
Proof. unfold route_changed. mm. Qed.
Lemma m_srr d s id w : mono w (send_request_resend d s id w).
Proof. unfold send_request_resend. mm. eapply mono_trans; [|apply fold_m; mm]. mm. Qed.
#[local] Hint Resolve m_changed m_srr : mdb.
Lemma m_lost k m w : mono w (route_lost k m w).
Proof. unfold route_lost. mm. Qed.
Lemma m_retain k w : mono w (retain_source k w).
Proof. unfold retain_source. mm. Qed.
Lemma m_release k w : mono w (release_source k w).
Proof. unfold release_source. mm. Qed.
Lemma m_unlink d p w : mono w (unlink_route d p w).
Proof.
  apply mono_sub; [unfold unlink_route; destruct (find_route_slot d w); split; reflexivity|unfold unlink_route; destruct (find_route_slot d w); cbn; lia|]. intros r H. exists r. split; [eapply In_unlink; eauto|auto].
Qed.
#[local] Hint Resolve m_lost m_retain m_release m_unlink : mdb.
Lemma m_flush p w : mono w (flush_route p w).
Proof. unfold flush_route. mm. Qed.
#[local] Hint Resolve m_flush : mdb.
Lemma m_flush_slot f : forall i w, mono w (flush_slot f i w).
Proof. induction f as [|f IH]; intros i w; cbn [flush_slot]; [apply m_nofuel|]. mm; (eapply mono_trans; [|apply IH]); mm. Qed.
Lemma m_fal n : forall w, mono w (flush_all_loop n w).
Proof. induction n as [|n IH]; intros w; cbn [flush_all_loop]; [apply mono_refl|]. eapply mono_trans; [|apply IH]. apply m_flush_slot. Qed.
Lemma m_flush_sel f s : forall i w, mono w (flush_sel f s i w).
Proof. induction f as [|f IH]; intros i w; cbn [flush_sel]; [apply m_nofuel|]. mm; (eapply mono_trans; [|apply IH]); mm. Qed.
Lemma find_ptr_In p w r : find_ptr p w = Some r -> In r (all_routes w) /\ r_ptr r = p.
Proof.
  intros H. apply find_some in H. destruct H as (H & E). split; [exact H|]. apply Z.eqb_eq in E. exact E.
Qed.
Lemma m_urm p w : mono w (update_route_metric p w).
Proof.
  unfold mono, update_route_metric.
  destruct (find_ptr p w) as [r|] eqn:F; [|apply m_fault]. apply find_ptr_In in F. destruct F as (Hr & Ep).
  pose proof (smoothed_In p w) as S1. pose proof (m_smoothed p w) as M1.
  cbv zeta. destruct (smoothed_metric p w) as [osm w1]. cbn [snd] in S1, M1.
  destruct (route_expired r w).
  { change (mono w (if r_refmetric r <? INFINITY then match src_of r w1 with
      | Some s => if route_metric r <? INFINITY then route_changed p (r_src r) (route_metric r) (retract_route p (map_ptr p (set_r_seqno (seqno_plus (s_seqno s) 1)) w1))
                  else retract_route p (map_ptr p (set_r_seqno (seqno_plus (s_seqno s) 1)) w1)
      | None => fault w1 end else w1)).
    destruct (r_refmetric r <? INFINITY); [|exact M1]. destruct (src_of r w1); [|mm; exact M1].
    destruct (route_metric r <? INFINITY); mm; exact M1. }
  destruct (nb_if (r_neigh r) w1) as [[nb i]|] eqn:Nb; [|intros G; apply m_fault, M1, G].
  set (w2 := change_route_metric _ _ _ _ _). intros G.
  assert (G1 : gone w1) by (apply M1; exact G).
  assert (G2 : gone w2).
  { apply (chm_from p (r_refmetric r)); [|exact G1]. intros _ y Hy Ey En. destruct (S1 y Hy) as (z & Z1 & Z2 & Z3 & _).
    right. assert (En0 : r_neigh r = n0) by (rewrite (gn_fun w G r z Hr Z1) by congruence; congruence).
    rewrite En0 in Nb. destruct (gn_few w1 G1 nb i Nb) as (F1 & F2). rewrite (few_cost any nb i _ F1 F2). reflexivity. }
  revert G2. match goal with |- gone w2 -> gone ?x => change (mono w2 x) end.
  destruct (find_ptr p w2); [|apply m_fault]. destruct (negb _); [apply m_changed|].
  pose proof (m_smoothed p w2) as M2. destruct (smoothed_metric p w2) as [sm w3]. cbn [snd] in M2.
  destruct (negb _); mm; exact M2.
Qed.
#[local] Hint Resolve m_urm : mdb.
Lemma m_walk_slot k s f : (forall p w, mono w (f p w)) ->
  forall p w, mono w (walk_slot k s f p w).
Proof.
  intros H. induction k as [|k IH]; intros p w; cbn [walk_slot]; [apply m_nofuel|].
  mm; try (eapply mono_trans; [|apply IH]); mm; try apply H.
Qed.
Lemma m_walk_slots n k s f : (forall p w, mono w (f p w)) ->
  forall i w, mono w (walk_slots n k s f i w).
Proof.
  intros H. induction n as [|n IH]; intros i w; cbn [walk_slots]; [apply mono_refl|].
  mm; try (eapply mono_trans; [|apply IH]); mm. apply m_walk_slot, H.
Qed.
Lemma m_unm n c w : mono w (update_neighbour_metric n c w).
Proof. unfold update_neighbour_metric. mm. apply m_walk_slots, m_urm. Qed.
Lemma m_uim n w : mono w (update_interface_metric n w).
Proof. apply m_walk_slots, m_urm. Qed.
Lemma m_retract1 p w : mono w (retract1 p w).
Proof. unfold retract1. mm. Qed.
Lemma m_rnr n w : mono w (retract_neighbour_routes n w).
Proof. apply m_walk_slots, m_retract1. Qed.
#[local] Hint Resolve m_unm m_uim m_rnr : mdb.
Lemma m_unf n f s m k w : mono w (send_unfeasible_request n f s m k w).
Proof. unfold send_unfeasible_request. mm. Qed.
#[local] Hint Resolve m_unf : mdb.
Lemma m_uk r k f s a m c d h n w : (gone w -> u16 c = 65535 \/ x0 = Some (r_ptr r)) -> mono w (update_known r k f s a m c d h n w).
Proof.
  intros Ha. unfold update_known. cbv zeta.
  set (w1 := if negb f && _ && _ then uninstall_route _ _ else w). set (w2 := retain_source k w1).
  set (w3 := map_ptr _ _ w2). set (w4 := map_ptr _ _ _). set (w5 := route_changed _ _ _ w4).
  assert (M3 : mono w w3).
  { unfold w3. eapply mono_trans; [|apply mono_map; intros y; cbn; auto]. unfold w2, w1. mm. }
  assert (M4 : mono w w4).
  { intros G. unfold w4. apply m_hold. apply (chm_from (r_ptr r) a); [|apply M3; exact G].
    intros G3 y Hy Ey En. destruct (Ha G) as [X|X]; [right; exact X|]. exfalso. apply (gn_x w3 G3 y Hy); [congruence|exact En]. }
  assert (M5 : mono w w5) by (unfold w5; mm; exact M4).
  eapply mono_trans; [|apply m_release]. destruct (_ || _); [mm; exact M5|]. destruct (negb f); [|exact M5].
  destruct (find_ptr _ w5); mm; exact M5.
Qed.
Lemma m_insert r w : (r_neigh r = n0 -> route_metric r = 65535 /\ x0 = None) -> r_ptr r = w_next w -> mono w (insert_route r (set_w_next (w_next w + 1) w)).
Proof.
  intros Nr Ep [A B C D E0]. set (w' := set_w_next _ _).
  assert (I1 : forall y, In y (all_routes (insert_route r w')) -> y = r \/ In y (all_routes w)).
  { intros y Hy. destruct (In_insert _ _ _ Hy); auto. }
  assert (N1 : w_next (insert_route r w') = w_next w + 1) by (unfold insert_route; destruct (find_route_slot _ _); reflexivity).
  assert (N2 : nb_if n0 (insert_route r w') = nb_if n0 w) by (unfold insert_route; destruct (find_route_slot _ _); reflexivity).
  constructor.
  - intros y Hy En. destruct (I1 y Hy) as [->|Hy']; [apply Nr, En|auto].
  - intros y z Hy Hz E. destruct (I1 y Hy) as [->|Hy'], (I1 z Hz) as [->|Hz']; auto.
    + specialize (D z Hz'). lia.
    + specialize (D y Hy'). lia.
  - intros y Hy E. destruct (I1 y Hy) as [->|Hy']; [|auto]. intros En. rewrite (proj2 (Nr En)) in E. discriminate E.
  - intros y Hy. rewrite N1. destruct (I1 y Hy) as [->|Hy']; [lia|]. specialize (D y Hy'). lia.
  - rewrite N2. exact E0.
Qed.
Lemma m_update id d s m iv n nh w : 0 <= m -> (n = n0 -> x0 = None) -> (n <> n0 -> forall r, find_route d n w = Some r -> x0 = Some (r_ptr r)) ->
  mono w (update_route id d s m iv n nh w).
Proof.
  intros Hm Hx H. intros G. assert (K : forall nb i, nb_if n w = Some (nb, i) -> n = n0 -> neighbour_cost (w_now w) i nb = INFINITY).
  { intros nb i N ->. destruct (gn_few w G nb i N) as (F1 & F2). apply (few_cost any); auto. }
  revert G.
  match goal with |- gone w -> gone ?x => change (mono w x) end. unfold update_route. cbv zeta.
  destruct (match id with None => _ | Some i => _ end); [apply mono_refl|]. destruct (_ || _); [apply mono_refl|].
  destruct (negb (eqb _ _)); [apply mono_refl|]. destruct (nb_if n w) as [[nb i]|]; [|apply m_fault]. specialize (K nb i eq_refl).
  destruct (_ >=? INFINITY); [apply mono_refl|]. destruct (find_route d n w) as [r|] eqn:F.
  - set (x := if beq (k_id (r_src r)) _ then (r_src r, src_of r w, w) else _).
    assert (X : mono w (snd x)).
    { unfold x. destruct (beq _ _); [apply mono_refl|]. destruct (find_source _ _ _ _ _). apply m_srcs. }
    destruct x as [[k so] w1]. cbn [snd] in X. destruct so; [|mm; exact X].
    eapply mono_trans; [exact X|]. apply m_uk. intros _. destruct (Z.eq_dec n n0) as [E|E]; [left; rewrite (K E); reflexivity|right; apply H; auto].
  - destruct (m >=? INFINITY) eqn:Mi; [apply mono_refl|]. destruct id as [j|]; [|apply m_fault].
    destruct (find_source _ _ _ _ _) as [so t]. destruct nh as [a|]; [|apply m_srcs].
    set (w3 := retain_source _ _). assert (M3 : mono w w3).
    { unfold w3. eapply mono_trans; [|apply m_retain]. destruct (update_feasible _ _ _ _); mm. }
    eapply mono_trans; [exact M3|]. eapply mono_trans; [|apply m_consider]. apply m_insert; [|reflexivity].
    intros En. assert (E : n = n0) by exact En. split; [|apply Hx, E].
    rewrite (K E). unfold route_metric, new_route, INFINITY. cbn [r_refmetric r_cost r_add_metric set_r_smoothed].
    match goal with |- context [u16 ?a + u16 ?b] => idtac | |- _ => idtac end.
    change (u16 65535) with 65535. match goal with |- context [m + 65535 + ?z] => assert (0 <= z) by apply u16_nonneg end. lia.
Qed.
Lemma m_expire f : forall i p w, mono w (expire_loop f i p w).
Proof.
  induction f as [|f IH]; intros i p w; cbn [expire_loop]; [apply m_nofuel|].
  destruct p; mm; try (eapply mono_trans; [|apply IH]); mm.
Qed.
Lemma m_nbr n w : mono w (flush_neighbour n w).
Proof. unfold flush_neighbour. mm. apply m_flush_sel. Qed.
#[local] Hint Resolve m_nbr : mdb.
Lemma m_map_other n f w : n <> n0 -> (forall x, get_nb n w = Some x -> n_id (f x) = n_id x) -> NoDup (map n_id (w_nbs w)) -> mono w (map_nb n f w).
Proof.
  intros Ne F Nd [A B C D E]. constructor; auto. intros nb i N. apply E. rewrite <- N. unfold nb_if.
  replace (get_nb n0 (map_nb n f w)) with (get_nb n0 w); [reflexivity|].
  assert (F' : forall x, In x (w_nbs w) -> n_id x = n -> n_id (f x) = n_id x).
  { intros x Hx Ex. apply F. unfold get_nb. destruct (find (fun y => n_id y =? n) (w_nbs w)) as [y|] eqn:Y.
    - apply find_some in Y. destruct Y as (Y1 & Y2). f_equal. eapply NoDup_map_inj; [exact Nd|auto|auto|lia].
    - exfalso. pose proof (find_none _ _ Y x Hx) as X. cbv beta in X. lia. }
  unfold get_nb, map_nb. cbn [w_nbs set_w_nbs]. clear - Ne F'. induction (w_nbs w) as [|x l IH]; [reflexivity|]. cbn [map find].
  destruct (n_id x =? n) eqn:Ex.
  - rewrite (F' x (or_introl eq_refl)) by lia. replace (n_id x =? n0) with false by lia. apply IH. intros; apply F'; [right|]; auto.
  - destruct (n_id x =? n0); [reflexivity|]. apply IH. intros; apply F'; [right|]; auto.
Qed.
Lemma m_check1 ms w n : n <> n0 -> NoDup (map n_id (w_nbs w)) -> mono w (snd (check_neighbour1 (ms, w) n)).
Proof.
  intros Ne Nd. unfold check_neighbour1. destruct (get_nb n w) as [nb|] eqn:G; [|apply mono_refl].
  destruct (check_neigh1 (w_now w) nb) as [[nb' ch]|] eqn:Ck; cbn [snd].
  - eapply mono_trans; [|apply m_unm]. apply m_map_other; auto. intros x Gx. replace x with nb by congruence.
    apply (check_neigh1_keeps _ _ _ _ Ck).
  - eapply mono_trans; [|apply m_nbr]. apply m_map_other; auto.
Qed.

(** xroute.c *)
Lemma m_addx d m i p w : mono w (snd (add_xroute d m i p w)).
Proof. unfold add_xroute. mm. Qed.
Lemma m_flushx i s w : mono w (flush_xroute i s w).
Proof. unfold flush_xroute. mm. Qed.
Lemma m_mod i k u w : mono w (modify_xroute i k u w).
Proof. unfold modify_xroute. mm. Qed.
Lemma m_dup k w : mono w (flush_duplicate_route k w).
Proof. unfold flush_duplicate_route. mm. Qed.
#[local] Hint Resolve m_addx m_flushx m_mod m_dup : mdb.
Lemma m_notify a k w : mono w (kernel_route_notify a k w).
Proof. unfold kernel_route_notify. mm. Qed.
Lemma m_merge f s : forall rs j w, mono w (merge f rs j s w).
Proof.
  induction f as [|f IH]; intros rs j w; cbn [merge]; [apply m_nofuel|].
  destruct rs; mm; try (eapply mono_trans; [|apply IH]); mm.
Qed.
Lemma m_scan a r s w : mono w (check_xroutes a r s w).
Proof. apply m_merge. Qed.

(** the daemon *)
Lemma m_on_nb n f w : NoDup (map n_id (w_nbs w)) -> (forall x, n_id (fst (f x)) = n_id x) -> 
  (n = n0 -> forall x, get_nb n0 w = Some x -> alike any (fst (f x)) x /\ n_if (fst (f x)) = n_if x) ->
  mono w (on_nb n f w).
Proof.
  intros Nd F H. unfold on_nb. destruct (get_nb n w) as [nb|] eqn:G; [|apply m_fault]. rewrite (surjective_pairing (f nb)).
  eapply mono_trans; [|apply m_unm]. destruct (Z.eq_dec n n0) as [->|Ne].
  - assert (Idn : n_id nb = n0) by (apply find_some in G; destruct G as (_ & G); lia).
    intros [A B C D E]. constructor; auto. intros x i N. unfold nb_if in *.
    assert (Gx : get_nb n0 (map_nb n0 (fun _ => fst (f nb)) w) = Some (fst (f nb))).
    { clear - G Idn F. unfold get_nb, map_nb in *. cbn [w_nbs set_w_nbs]. induction (w_nbs w) as [|y l IH]; [discriminate|]. cbn [map find] in *.
      destruct (n_id y =? n0) eqn:Ey; [rewrite F, Idn, Z.eqb_refl; reflexivity|]. rewrite Ey. apply IH, G. }
    rewrite Gx in N. destruct (H eq_refl nb G) as (H1 & H3). change (get_if ?a (map_nb n0 _ w)) with (get_if a w) in N. rewrite H3 in N.
    rewrite G in E. destruct (get_if (n_if nb) w) as [j|]; [|discriminate]. injection N as <- <-. destruct (E nb j eq_refl) as (E1 & E2).
    split; [|exact E2]. eapply few_ext; [exact H1|exact E1].
  - apply m_map_other; auto. intros x Gx. replace x with nb by congruence. apply F.
Qed.
Lemma m_myseqno w : mono w (update_myseqno w). Proof. mtriv. Qed.
#[local] Hint Resolve m_myseqno : mdb.
Lemma m_request n d hop s id w : mono w (handle_request n d hop s id w).
Proof.
  unfold handle_request.
  assert (B : mono w (snd (find_best_route d false (Some n) w))) by apply m_best.
  destruct (find_best_route d false (Some n) w) as [b w1]. cbn [snd] in B.
  destruct (find_installed d w); mm; try exact B. 
Qed.
(** Events that touch no route; those treated apart. *)
Definition plain_ev (ev : event) : bool :=
  match ev with
  | EvClock _ | EvOracle _ _ | EvTimestamp _ _ | EvNeighbour _ _ | EvPc _ _ | EvInterface _ | EvNewInterface _ | EvFlushInterface _ => true
  | _ => false end.
Lemma plain_rt ev w : plain_ev ev = true -> w_rt (run1 ev w) = w_rt w.
Proof. destruct ev; try discriminate; intros _; cbn [run1]; try reflexivity. unfold find_neighbour. destruct (existsb _ _); reflexivity. Qed.
Lemma m_run1 ev w : NoDup (map n_id (w_nbs w)) -> plain_ev ev = false -> ev <> EvCheckNeighbours ->
  (forall n u q iv, ev = EvHello n u q iv -> any <> MTx -> n <> n0) -> (forall n tx iv, ev = EvIhu n tx iv -> any = MTx -> n <> n0) ->
  (forall id d q m iv n nh, ev = EvUpdate id d q m iv n nh -> 0 <= m /\ (n = n0 -> x0 = None) /\ (n <> n0 -> forall r, find_route d n w = Some r -> x0 = Some (r_ptr r))) ->
  mono w (run1 ev w).
Proof.
  intros Nd P Nc Hh Hi Hu. destruct ev; cbn [run1]; try discriminate P.
  - destruct (Hu _ _ _ _ _ _ _ eq_refl) as (A & B & C). apply m_update; auto.
  - apply m_rnr.
  - unfold recv_request. mm.
  - apply m_request.
  - apply m_on_nb; [exact Nd| |].
    + intros x. destruct unicast; destruct (update_hist _ _ _ _); reflexivity.
    + intros E x _. split; [|destruct unicast; destruct (update_hist _ _ _ _); reflexivity].
      destruct any eqn:Ea; [exfalso; apply (Hh _ _ _ _ eq_refl); [discriminate|exact E]..|].
      cbn [alike]. destruct unicast; destruct (update_hist _ _ _ _); reflexivity.
  - apply m_on_nb; [exact Nd|reflexivity|]. intros E x _. split; [|reflexivity].
    destruct any eqn:Ea; [split; reflexivity..|]. exfalso. exact (Hi _ _ _ eq_refl eq_refl E).
  - unfold recv_rtt. destruct (nb_if n w) as [[nb i]|] eqn:N; [|apply m_fault]. destruct (rtt_sample _ _ _); [|apply mono_refl]. cbv zeta.
    eapply mono_trans; [|apply m_map_nb; [reflexivity|intros; split; [apply alike_all|]; reflexivity]].
    change (update_neighbour_metric n ?c (map_nb n (fun _ => ?y) w)) with (update_neighbour_metric n c (map_nb n (fun _ => y) w)).
    assert (G : get_nb n w = Some nb) by (apply nb_if_get in N; apply N).
    pose proof (m_on_nb n (fun x => (set_n_rtt (rtt_update (w_now w) i nb z) x, negb (rttcost (w_now w) i (set_n_rtt (rtt_update (w_now w) i nb z) nb) =? rttcost (w_now w) i nb))) w Nd ltac:(reflexivity) ltac:(intros; split; [apply alike_all|]; reflexivity)) as M.
    unfold on_nb in M. rewrite G in M. exact M.
  - contradiction.
  - apply m_uim.
  - unfold flush_interface_routes. apply m_flush_sel.
  - unfold expire_routes. apply m_expire.
  - apply m_srcs.
  - apply m_notify.
  - apply m_scan.
  - apply m_flushupdates.
  - destruct d; [apply m_sui|apply m_full].
  - apply m_sua.
  - apply m_self.
  - apply m_retr.
  - apply m_smr.
  - apply m_resend.
  - apply m_expire_resend.
  - apply m_myseqno.
  - unfold flush_all_routes. apply m_fal.
Qed.
End Ref.

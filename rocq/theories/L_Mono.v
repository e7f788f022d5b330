(** L_Mono.v: nothing repairs a fault, and the traces of kernel requests and of
    selections only grow. *)
From Verif Require Import Base M_Util M_Slot M_Source M_Filter M_Types M_Neigh M_State M_Table M_Msg M_Route M_Xroute M_Daemon.
From Verif Require Import S_Util S_World L_Util L_Msg L_Daemon.

Definition mono (a b : world) : Prop :=
  (w_bad b = false -> w_bad a = false) /\ (exists l, w_ktr b = w_ktr a ++ l) /\ (exists l, w_sel b = w_sel a ++ l).
Lemma mono_refl w : mono w w.
Proof. split; [auto|]. split; exists []; rewrite app_nil_r; reflexivity. Qed.
Lemma mono_trans a b c : mono a b -> mono b c -> mono a c.
Proof.
  intros (A & (l & B) & (l' & C)) (D & (m & E) & (m' & F)). split; [auto|]. split; [exists (l ++ m)|exists (l' ++ m')]; rewrite app_assoc; congruence.
Qed.
Lemma mono_same w w' : w_bad w' = w_bad w -> w_ktr w' = w_ktr w -> w_sel w' = w_sel w -> mono w w'.
Proof. intros A B C. split; [rewrite A; auto|]. split; exists []; rewrite app_nil_r; assumption. Qed.
Lemma mono_bad w w' : w_bad w' = true -> w_ktr w' = w_ktr w -> w_sel w' = w_sel w -> mono w w'.
Proof. intros A B C. split; [rewrite A; discriminate|]. split; exists []; rewrite app_nil_r; assumption. Qed.
Lemma fold_m {A} (f : world -> A -> world) l : (forall w a, mono w (f w a)) -> forall w, mono w (fold_left f l w).
Proof.
  intros H. induction l as [|a l IH]; intros w; cbn; [apply mono_refl|]. eapply mono_trans; [apply H|apply IH].
Qed.
Lemma fold_m_fst {A B} (f : world * B -> A -> world * B) l : 
  (forall w a, mono (fst w) (fst (f w a))) -> forall x, mono (fst x) (fst (fold_left f l x)).
Proof.
  intros H. induction l as [|a l IH]; intros w; cbn; [apply mono_refl|]. eapply mono_trans; [apply H|apply IH].
Qed.
Lemma fold_m_snd {A B} (f : B * world -> A -> B * world) l :
  (forall w a, mono (snd w) (snd (f w a))) -> forall x, mono (snd x) (snd (fold_left f l x)).
Proof.
  intros H. induction l as [|a l IH]; intros w; cbn; [apply mono_refl|]. eapply mono_trans; [apply H|apply IH].
Qed.

#[local] Ltac mm1 :=
  match goal with
  | |- mono ?x ?x => apply mono_refl
  | |- mono _ (let '(_, _) := ?x in _) => rewrite (surjective_pairing x)
  | |- mono _ (snd (let '(_, _) := ?x in _)) => rewrite (surjective_pairing x)
  | |- mono _ (fst (let '(_, _) := ?x in _)) => rewrite (surjective_pairing x)
  | |- mono _ (if ?c then _ else _) => destruct c
  | |- mono _ (match ?x with _ => _ end) => destruct x
  | |- mono _ (snd (if ?c then _ else _)) => destruct c
  | |- mono _ (fst (if ?c then _ else _)) => destruct c
  | |- mono _ (snd (match ?x with _ => _ end)) => destruct x
  | |- mono _ (fst (match ?x with _ => _ end)) => destruct x
  | |- mono _ _ => eapply mono_trans; [|solve [eauto 2 with mdb nocore]]
  end; cbv beta iota zeta; cbn [fst snd].
#[local] Ltac mm := intros; cbv beta iota zeta; cbn [fst snd]; repeat mm1.
#[local] Ltac mtriv := intros; apply mono_same; reflexivity.
Lemma m_fault w : mono w (fault w). Proof. apply mono_bad; reflexivity. Qed.
Lemma m_nofuel w : mono w (nofuel w). Proof. mtriv. Qed.
Lemma m_map_if i f w : mono w (map_if i f w). Proof. mtriv. Qed.
Lemma m_map_nb i f w : mono w (map_nb i f w). Proof. mtriv. Qed.
Lemma m_map_ptr p f w : mono w (map_ptr p f w). Proof. mtriv. Qed.
Lemma m_rt t w : mono w (set_w_rt t w). Proof. mtriv. Qed.
Lemma m_now x w : mono w (set_w_now x w). Proof. mtriv. Qed.
Lemma m_ifs x w : mono w (set_w_ifs x w). Proof. mtriv. Qed.
Lemma m_nbs x w : mono w (set_w_nbs x w). Proof. mtriv. Qed.
Lemma m_srcs x w : mono w (set_w_srcs x w). Proof. mtriv. Qed.
Lemma m_next x w : mono w (set_w_next x w). Proof. mtriv. Qed.
Lemma m_xr x w : mono w (set_w_xr x w). Proof. mtriv. Qed.
Lemma m_rsd x w : mono w (set_w_rsd x w). Proof. mtriv. Qed.
Lemma m_rsdt x w : mono w (set_w_rsd_time x w). Proof. mtriv. Qed.
Lemma m_rnd x w : mono w (set_w_rnd x w). Proof. mtriv. Qed.
Lemma m_kresp x w : mono w (set_w_kresp x w). Proof. mtriv. Qed.
#[local] Hint Resolve m_map_ptr m_rt m_fault m_nofuel m_map_if m_map_nb m_now m_ifs m_nbs m_srcs
  m_next m_xr m_rsd m_rsdt m_rnd m_kresp : mdb.

Lemma m_rand w : mono w (snd (rand w)). Proof. unfold rand. mm. Qed.
#[local] Hint Resolve m_rand : mdb.
Lemma m_recompute w : mono w (recompute_resend_time w). Proof. mtriv. Qed.
#[local] Hint Resolve m_recompute : mdb.
Lemma m_record k d s i p dl w : mono w (record_resend k d s i p dl w).
Proof. unfold record_resend. mm. Qed.
Lemma m_satisfy d s i p w : mono w (satisfy_request d s i p w).
Proof. unfold satisfy_request. mm. Qed.
Lemma m_expire_resend w : mono w (expire_resend w).
Proof. unfold expire_resend. mm. Qed.
Lemma m_emit b t w : mono w (emit b t w). Proof. mtriv. Qed.
#[local] Hint Resolve m_emit : mdb.
Lemma m_jitter i u w : mono w (snd (update_jitter i u w)).
Proof. unfold update_jitter. mm. Qed.
Lemma m_timeout i w : mono w (snd (set_timeout i w)).
Proof. unfold set_timeout. mm. Qed.
#[local] Hint Resolve m_record m_satisfy m_expire_resend m_jitter m_timeout : mdb.
Lemma m_rbu b i id d s m w : mono w (really_buffer_update b i id d s m w).
Proof. unfold really_buffer_update. mm. Qed.
Lemma m_rsu i id d s m w : mono w (really_send_update i id d s m w).
Proof. unfold really_send_update. mm. apply fold_m. intros; apply m_rbu. Qed.
Lemma mono_retr_fold l : forall w, mono w (fold_left (fun w b => emit b (TWildRetract (w_seqno w)) w) l w).
Proof. apply fold_m. intros w b. apply m_emit. Qed.
#[local] Hint Resolve m_rsu : mdb.
Lemma m_flush1 i wl b : mono (fst wl) (fst (flush1 i wl b)).
Proof. unfold flush1. destruct wl as [w last]. mm. Qed.
Lemma m_flushupdates i w : mono w (flushupdates i w).
Proof. unfold flushupdates. mm. eapply mono_trans; [|apply (fold_m_fst (flush1 i0)); apply m_flush1]. cbn [fst]. mm. Qed.
#[local] Hint Resolve m_flushupdates : mdb.
Lemma m_suf i u w : mono w (schedule_update_flush i u w).
Proof. unfold schedule_update_flush. mm. Qed.
Lemma m_bu i d w : mono w (buffer_update i d w).
Proof. unfold buffer_update. mm. Qed.
#[local] Hint Resolve m_suf m_bu : mdb.
Lemma m_sui i u d w : mono w (send_update_if i u d w).
Proof. unfold send_update_if. mm. Qed.
#[local] Hint Resolve m_sui : mdb.
Lemma m_self i w : mono w (send_self_update_if i w).
Proof. unfold send_self_update_if. apply fold_m. mm. Qed.
#[local] Hint Resolve m_self : mdb.
Lemma m_wild i u s w : mono w (send_update_wild i u s w).
Proof. unfold send_update_wild. mm. eapply mono_trans; [|apply fold_m; mm]. mm. Qed.
#[local] Hint Resolve m_wild : mdb.
Lemma m_full i u w : mono w (send_update_full i u w).
Proof. unfold send_update_full. mm. Qed.
Lemma m_sua u d w : mono w (send_update_all u d w).
Proof.
  assert (H : mono w (fold_left (fun w i => send_update_if i u d w) (map if_id (w_ifs w)) w))
    by (apply fold_m; mm).
  unfold send_update_all. cbv zeta. mm; exact H.
Qed.
#[local] Hint Resolve m_full m_sua : mdb.
Lemma m_sur d w : mono w (send_update_resend d w).
Proof. unfold send_update_resend. mm. Qed.
Lemma m_retr i w : mono w (send_wildcard_retraction i w).
Proof. unfold send_wildcard_retraction. mm. apply mono_retr_fold. Qed.
Lemma m_sr b i d w : mono w (send_request b i d w).
Proof. unfold send_request. mm.  Qed.
#[local] Hint Resolve m_sur m_retr m_sr : mdb.
Lemma m_smr d i w : mono w (send_multicast_request_if d i w).
Proof. unfold send_multicast_request_if. mm. eapply mono_trans; [|apply fold_m; mm]. mm. Qed.
#[local] Hint Resolve m_smr : mdb.
Lemma m_smra d w : mono w (send_multicast_request_all d w).
Proof. unfold send_multicast_request_all. apply fold_m. mm. Qed.
Lemma m_sunr n d w : mono w (send_unicast_request n d w).
Proof. unfold send_unicast_request. mm. Qed.
Lemma m_smh b i d s id h w : mono w (send_multihop_request b i d s id h w).
Proof. unfold send_multihop_request. mm.  Qed.
#[local] Hint Resolve m_smra m_sunr m_smh : mdb.
Lemma m_smmh d s id h i w : mono w (send_multicast_multihop_request_if d s id h i w).
Proof. unfold send_multicast_multihop_request_if. mm. eapply mono_trans; [|apply fold_m; mm]. mm. Qed.
#[local] Hint Resolve m_smmh : mdb.
Lemma m_smm p d s id h w : mono w (send_multicast_multihop_request p d s id h w).
Proof. unfold send_multicast_multihop_request. destruct p; mm. apply fold_m. mm. Qed.
Lemma m_sumh n d s id h w : mono w (send_unicast_multihop_request n d s id h w).
Proof. unfold send_unicast_multihop_request. mm. Qed.
#[local] Hint Resolve m_smm m_sumh : mdb.
Lemma m_resend1 w k : mono w (do_resend1 w k).
Proof. unfold do_resend1. mm. Qed.
Lemma m_resend w : mono w (do_resend w).
Proof. unfold do_resend. eapply mono_trans; [|apply m_recompute]. apply fold_m. apply m_resend1. Qed.
#[local] Hint Resolve m_resend : mdb.

(** route.c *)
Lemma m_kresp1 w : mono w (snd (kresp1 w)). Proof. unfold kresp1. mm. Qed.
Lemma m_ktrace e w : mono w (ktrace e w).
Proof. split; [auto|]. split; [exists [e]|exists []]; [reflexivity|symmetry; apply app_nil_r]. Qed.
#[local] Hint Resolve m_kresp1 m_ktrace : mdb.
Lemma m_kr1 a t d p g i m w : mono w (snd (kernel_route1 a t d p g i m w)).
Proof. unfold kernel_route1. mm. Qed.
#[local] Hint Resolve m_kr1 : mdb.
Lemma m_krm t d p g i m a b c e w : mono w (snd (kernel_route_modify t d p g i m a b c e w)).
Proof. unfold kernel_route_modify. mm. Qed.
#[local] Hint Resolve m_krm : mdb.
Lemma m_cra r i m w : mono w (snd (change_route_add r i m w)).
Proof. unfold change_route_add. destruct (inst_filter r i w) as [[? ?] ?]. mm. Qed.
Lemma m_crf r i m w : mono w (snd (change_route_flush r i m w)).
Proof. unfold change_route_flush. destruct (inst_filter r i w) as [[? ?] ?]. mm. Qed.
Lemma m_crm r i m a b c w : mono w (snd (change_route_modify r i m a b c w)).
Proof. unfold change_route_modify. destruct (inst_filter r i w) as [[? ?] ?]. mm. Qed.
#[local] Hint Resolve m_cra m_crf m_crm : mdb.
Lemma m_mi d p w : mono w (move_installed d p w).
Proof. unfold move_installed. mm. Qed.
Lemma m_ins r w : mono w (insert_route r w).
Proof. unfold insert_route. mm. Qed.
Lemma m_selected r w o w1 : mono w1 (selected r w o w1).
Proof. split; [auto|]. split; [exists []|eexists]; [symmetry; apply app_nil_r|reflexivity]. Qed.
#[local] Hint Resolve m_mi m_ins m_selected : mdb.
Lemma m_install p w : mono w (install_route p w).
Proof. unfold install_route. mm. Qed.
Lemma m_uninstall p w : mono w (uninstall_route p w).
Proof. unfold uninstall_route. mm. Qed.
#[local] Hint Resolve m_install m_uninstall : mdb.
Lemma m_switch o p w : mono w (switch_routes o p w).
Proof. unfold switch_routes. mm. Qed.
#[local] Hint Resolve m_switch : mdb.
Lemma m_smoothed p w : mono w (snd (smoothed_metric p w)).
Proof. unfold smoothed_metric. mm. Qed.
#[local] Hint Resolve m_smoothed : mdb.
Lemma m_chm p a b c w : mono w (change_route_metric p a b c w).
Proof. unfold change_route_metric. mm. Qed.
#[local] Hint Resolve m_chm : mdb.
Lemma m_retract p w : mono w (retract_route p w).
Proof. unfold retract_route. mm. Qed.
#[local] Hint Resolve m_retract : mdb.
Lemma m_best_step f e bw q : mono (snd bw) (snd (best_step f e bw q)).
Proof. unfold best_step. destruct bw as [b w]. mm. Qed.
Lemma m_best_from f e w l : mono w (snd (best_from f e w l)).
Proof.
  induction l as [|r l IH]; cbn [best_from]; [apply mono_refl|].
  destruct (acceptable r f e w); [|exact IH].
  rewrite (surjective_pairing (fold_left _ _ _)). cbn [snd]. refine (fold_m_snd (best_step f e) (map r_ptr l) _ (r_ptr r, w)). apply m_best_step.
Qed.
Lemma m_best d f e w : mono w (snd (find_best_route d f e w)).
Proof. apply m_best_from. Qed.
#[local] Hint Resolve m_best : mdb.
Lemma m_trig p k m w : mono w (send_triggered_update p k m w).
Proof. unfold send_triggered_update. mm. Qed.
#[local] Hint Resolve m_trig : mdb.
Lemma m_ci p i w : mono w (consider_install p i w).
Proof. unfold consider_install. mm. Qed.
#[local] Hint Resolve m_ci : mdb.
Lemma m_consider p w : mono w (consider_route p w).
Proof. unfold consider_route. mm. Qed.
#[local] Hint Resolve m_consider : mdb.
Lemma m_changed p k m w : mono w (route_changed p k m w).
Proof. unfold route_changed. mm. Qed.
Lemma m_srr d s id w : mono w (send_request_resend d s id w).
Proof. unfold send_request_resend. mm. eapply mono_trans; [|apply fold_m; mm]. mm. Qed.
#[local] Hint Resolve m_changed m_srr : mdb.
Lemma m_lost k m w : mono w (route_lost k m w).
Proof. unfold route_lost. mm. Qed.
Lemma m_retain k w : mono w (retain_source k w).
Proof. unfold retain_source. mm. Qed.
Lemma m_release k w : mono w (release_source k w).
Proof. unfold release_source. mm. Qed.
Lemma m_unlink d p w : mono w (unlink_route d p w).
Proof. unfold unlink_route. mm. Qed.
#[local] Hint Resolve m_lost m_retain m_release m_unlink : mdb.
Lemma m_flush p w : mono w (flush_route p w).
Proof. unfold flush_route. mm. Qed.
#[local] Hint Resolve m_flush : mdb.
Lemma m_flush_slot f : forall i w, mono w (flush_slot f i w).
Proof. induction f as [|f IH]; intros i w; cbn [flush_slot]; [apply m_nofuel|]. mm; (eapply mono_trans; [|apply IH]); mm. Qed.
Lemma m_fal n : forall w, mono w (flush_all_loop n w).
Proof. induction n as [|n IH]; intros w; cbn [flush_all_loop]; [apply mono_refl|]. eapply mono_trans; [|apply IH]. apply m_flush_slot. Qed.
Lemma m_flush_sel f s : forall i w, mono w (flush_sel f s i w).
Proof. induction f as [|f IH]; intros i w; cbn [flush_sel]; [apply m_nofuel|]. mm; (eapply mono_trans; [|apply IH]); mm. Qed.
Lemma m_urm p w : mono w (update_route_metric p w).
Proof. unfold update_route_metric. mm. Qed.
#[local] Hint Resolve m_urm : mdb.
Lemma m_walk_slot k s f : (forall p w, mono w (f p w)) ->
  forall p w, mono w (walk_slot k s f p w).
Proof.
  intros H. induction k as [|k IH]; intros p w; cbn [walk_slot]; [apply m_nofuel|].
  mm; try (eapply mono_trans; [|apply IH]); mm; try apply H.
Qed.
Lemma m_walk_slots n k s f : (forall p w, mono w (f p w)) ->
  forall i w, mono w (walk_slots n k s f i w).
Proof.
  intros H. induction n as [|n IH]; intros i w; cbn [walk_slots]; [apply mono_refl|].
  mm; try (eapply mono_trans; [|apply IH]); mm. apply m_walk_slot, H.
Qed.
Lemma m_unm n c w : mono w (update_neighbour_metric n c w).
Proof. unfold update_neighbour_metric. mm. apply m_walk_slots, m_urm. Qed.
Lemma m_uim n w : mono w (update_interface_metric n w).
Proof. apply m_walk_slots, m_urm. Qed.
Lemma m_retract1 p w : mono w (retract1 p w).
Proof. unfold retract1. mm. Qed.
Lemma m_rnr n w : mono w (retract_neighbour_routes n w).
Proof. apply m_walk_slots, m_retract1. Qed.
#[local] Hint Resolve m_unm m_uim m_rnr : mdb.
Lemma m_unf n f s m k w : mono w (send_unfeasible_request n f s m k w).
Proof. unfold send_unfeasible_request. mm. Qed.
#[local] Hint Resolve m_unf : mdb.
Lemma m_uk r k f s a m c d h n w : mono w (update_known r k f s a m c d h n w).
Proof. unfold update_known. mm. Qed.
#[local] Hint Resolve m_uk : mdb.
Lemma m_update id d s m iv n nh w : mono w (update_route id d s m iv n nh w).
Proof. unfold update_route. mm. Qed.
Lemma m_expire f : forall i p w, mono w (expire_loop f i p w).
Proof.
  induction f as [|f IH]; intros i p w; cbn [expire_loop]; [apply m_nofuel|].
  destruct p; mm; try (eapply mono_trans; [|apply IH]); mm.
Qed.
Lemma m_nbr n w : mono w (flush_neighbour n w).
Proof. unfold flush_neighbour. mm. apply m_flush_sel. Qed.
#[local] Hint Resolve m_nbr : mdb.
Lemma m_check1 mw n : mono (snd mw) (snd (check_neighbour1 mw n)).
Proof. unfold check_neighbour1. destruct mw as [m w]. mm. Qed.
Lemma m_check w : mono w (snd (check_neighbours w)).
Proof. unfold check_neighbours. eapply mono_trans; [|apply (fold_m_snd check_neighbour1); apply m_check1]. apply mono_refl. Qed.

(** xroute.c *)
Lemma m_addx d m i p w : mono w (snd (add_xroute d m i p w)).
Proof. unfold add_xroute. mm. Qed.
Lemma m_flushx i s w : mono w (flush_xroute i s w).
Proof. unfold flush_xroute. mm. Qed.
Lemma m_mod i k u w : mono w (modify_xroute i k u w).
Proof. unfold modify_xroute. mm. Qed.
Lemma m_dup k w : mono w (flush_duplicate_route k w).
Proof. unfold flush_duplicate_route. mm. Qed.
#[local] Hint Resolve m_addx m_flushx m_mod m_dup : mdb.
Lemma m_notify a k w : mono w (kernel_route_notify a k w).
Proof. unfold kernel_route_notify. mm. Qed.
Lemma m_merge f s : forall rs j w, mono w (merge f rs j s w).
Proof.
  induction f as [|f IH]; intros rs j w; cbn [merge]; [apply m_nofuel|].
  destruct rs; mm; try (eapply mono_trans; [|apply IH]); mm.
Qed.
Lemma m_scan a r s w : mono w (check_xroutes a r s w).
Proof. apply m_merge. Qed.

(** the daemon *)
Lemma m_on_nb n f w : mono w (on_nb n f w).
Proof. unfold on_nb. destruct (get_nb n w) as [nb|]; [|apply m_fault]. destruct (f nb). mm. Qed.
Lemma m_myseqno w : mono w (update_myseqno w). Proof. mtriv. Qed.
#[local] Hint Resolve m_myseqno : mdb.
Lemma m_request n d hop s id w : mono w (handle_request n d hop s id w).
Proof.
  unfold handle_request.
  assert (B : mono w (snd (find_best_route d false (Some n) w))) by apply m_best.
  destruct (find_best_route d false (Some n) w) as [b w1]. cbn [snd] in B.
  destruct (find_installed d w); mm; try exact B. 
Qed.

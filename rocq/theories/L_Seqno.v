(** L_Seqno.v: which steps of the daemon change its own sequence number. *)
From Verif Require Import Base M_Util M_Slot M_Source M_Filter M_Types M_Neigh M_State M_Table M_Msg M_Route M_Xroute M_Daemon.

Lemma fold_sq {A} (f : world -> A -> world) l : forall w,
  (forall w a, w_seqno (f w a) = w_seqno w) -> w_seqno (fold_left f l w) = w_seqno w.
Proof.
  induction l as [|a l IH]; intros w H; cbn; [reflexivity|]. rewrite IH by exact H. apply H.
Qed.
Lemma fold_sq_fst {A B} (f : world * B -> A -> world * B) l : forall x,
  (forall w a, w_seqno (fst (f w a)) = w_seqno (fst w)) ->
  w_seqno (fst (fold_left f l x)) = w_seqno (fst x).
Proof.
  induction l as [|a l IH]; intros w H; cbn; [reflexivity|]. rewrite IH by exact H. apply H.
Qed.
Lemma fold_sq_snd {A B} (f : B * world -> A -> B * world) l : forall x,
  (forall w a, w_seqno (snd (f w a)) = w_seqno (snd w)) ->
  w_seqno (snd (fold_left f l x)) = w_seqno (snd x).
Proof.
  induction l as [|a l IH]; intros w H; cbn; [reflexivity|]. rewrite IH by exact H. apply H.
Qed.

#[local] Ltac sq1 :=
  match goal with
  | |- ?x = ?x => reflexivity
  | |- _ => progress (autorewrite with sq)
  | |- context [match ?x with (_, _) => _ end] => 
      rewrite (surjective_pairing x)
  | |- context [w_seqno (if ?c then _ else _)] => destruct c
  | |- context [w_seqno (snd (if ?c then _ else _))] => destruct c
  | |- context [w_seqno (fst (if ?c then _ else _))] => destruct c
  | |- context [w_seqno (match ?x with _ => _ end)] => destruct x
  | |- context [w_seqno (snd (match ?x with _ => _ end))] => destruct x
  | |- context [w_seqno (fst (match ?x with _ => _ end))] => destruct x
  end; cbv beta iota zeta; cbn [fst snd].
#[local] Ltac sq := intros; cbv beta iota zeta; cbn [fst snd]; repeat sq1.

#[local] Ltac triv := intros; reflexivity.
Lemma sq_fault w : w_seqno (fault w) = w_seqno w. Proof. triv. Qed.
Lemma sq_nofuel w : w_seqno (nofuel w) = w_seqno w. Proof. triv. Qed.
Lemma sq_map_if i f w : w_seqno (map_if i f w) = w_seqno w. Proof. triv. Qed.
Lemma sq_map_nb i f w : w_seqno (map_nb i f w) = w_seqno w. Proof. triv. Qed.
Lemma sq_map_ptr i f w : w_seqno (map_ptr i f w) = w_seqno w. Proof. triv. Qed.
Lemma sq_now x w : w_seqno (set_w_now x w) = w_seqno w. Proof. triv. Qed.
Lemma sq_ifs x w : w_seqno (set_w_ifs x w) = w_seqno w. Proof. triv. Qed.
Lemma sq_nbs x w : w_seqno (set_w_nbs x w) = w_seqno w. Proof. triv. Qed.
Lemma sq_srcs x w : w_seqno (set_w_srcs x w) = w_seqno w. Proof. triv. Qed.
Lemma sq_rt x w : w_seqno (set_w_rt x w) = w_seqno w. Proof. triv. Qed.
Lemma sq_next x w : w_seqno (set_w_next x w) = w_seqno w. Proof. triv. Qed.
Lemma sq_xr x w : w_seqno (set_w_xr x w) = w_seqno w. Proof. triv. Qed.
Lemma sq_rsd x w : w_seqno (set_w_rsd x w) = w_seqno w. Proof. triv. Qed.
Lemma sq_rsdt x w : w_seqno (set_w_rsd_time x w) = w_seqno w. Proof. triv. Qed.
Lemma sq_rnd x w : w_seqno (set_w_rnd x w) = w_seqno w. Proof. triv. Qed.
Lemma sq_kresp x w : w_seqno (set_w_kresp x w) = w_seqno w. Proof. triv. Qed.
Lemma sq_ktr x w : w_seqno (set_w_ktr x w) = w_seqno w. Proof. triv. Qed.
Lemma sq_out x w : w_seqno (set_w_out x w) = w_seqno w. Proof. triv. Qed.
Lemma sq_sel x w : w_seqno (set_w_sel x w) = w_seqno w. Proof. triv. Qed.
#[local] Hint Rewrite sq_fault sq_nofuel sq_map_if sq_map_nb sq_map_ptr sq_now sq_ifs sq_nbs sq_srcs sq_rt
  sq_next sq_xr sq_rsd sq_rsdt sq_rnd sq_kresp sq_ktr sq_out sq_sel : sq.

Lemma sq_rand w : w_seqno (snd (rand w)) = w_seqno w. Proof. unfold rand. sq. Qed.
#[local] Hint Rewrite sq_rand : sq.
Lemma sq_recompute w : w_seqno (recompute_resend_time w) = w_seqno w. Proof. triv. Qed.
#[local] Hint Rewrite sq_recompute : sq.
Lemma sq_record k d s i p dl w : w_seqno (record_resend k d s i p dl w) = w_seqno w.
Proof. unfold record_resend. sq. Qed.
Lemma sq_satisfy d s i p w : w_seqno (satisfy_request d s i p w) = w_seqno w.
Proof. unfold satisfy_request. sq. Qed.
Lemma sq_expire_resend w : w_seqno (expire_resend w) = w_seqno w.
Proof. unfold expire_resend. sq. Qed.
Lemma sq_emit b t w : w_seqno (emit b t w) = w_seqno w. Proof. triv. Qed.
Lemma sq_jitter i u w : w_seqno (snd (update_jitter i u w)) = w_seqno w.
Proof. unfold update_jitter. sq. Qed.
Lemma sq_timeout i w : w_seqno (snd (set_timeout i w)) = w_seqno w.
Proof. unfold set_timeout. sq. Qed.
#[local] Hint Rewrite sq_record sq_satisfy sq_expire_resend sq_emit sq_jitter sq_timeout : sq.
Lemma sq_rbu b i id d s m w : w_seqno (really_buffer_update b i id d s m w) = w_seqno w.
Proof. unfold really_buffer_update. sq. Qed.
#[local] Hint Rewrite sq_rbu : sq.
Lemma sq_rsu i id d s m w : w_seqno (really_send_update i id d s m w) = w_seqno w.
Proof. unfold really_send_update. sq. apply fold_sq. sq. Qed.
#[local] Hint Rewrite sq_rsu : sq.
Lemma sq_flush1 i wl b : w_seqno (fst (flush1 i wl b)) = w_seqno (fst wl).
Proof. unfold flush1. destruct wl as [w last]. sq. Qed.
Lemma sq_flushupdates i w : w_seqno (flushupdates i w) = w_seqno w.
Proof. unfold flushupdates. sq. rewrite fold_sq_fst; [reflexivity|]. apply sq_flush1. Qed.
#[local] Hint Rewrite sq_flushupdates : sq.
Lemma sq_suf i u w : w_seqno (schedule_update_flush i u w) = w_seqno w.
Proof. unfold schedule_update_flush. sq. Qed.
Lemma sq_bu i d w : w_seqno (buffer_update i d w) = w_seqno w.
Proof. unfold buffer_update. sq. Qed.
#[local] Hint Rewrite sq_suf sq_bu : sq.
Lemma sq_sui i u d w : w_seqno (send_update_if i u d w) = w_seqno w.
Proof. unfold send_update_if. sq. Qed.
#[local] Hint Rewrite sq_sui : sq.
Lemma sq_self i w : w_seqno (send_self_update_if i w) = w_seqno w.
Proof. unfold send_self_update_if. apply fold_sq. sq. Qed.
#[local] Hint Rewrite sq_self : sq.
Lemma sq_wild i u s w : w_seqno (send_update_wild i u s w) = w_seqno w.
Proof. unfold send_update_wild. sq. rewrite fold_sq; sq. Qed.
#[local] Hint Rewrite sq_wild : sq.
Lemma sq_full i u w : w_seqno (send_update_full i u w) = w_seqno w.
Proof. unfold send_update_full. sq. Qed.
Lemma sq_sua u d w : w_seqno (send_update_all u d w) = w_seqno w.
Proof.
  assert (H : w_seqno (fold_left (fun w i => send_update_if i u d w) (map if_id (w_ifs w)) w) = w_seqno w)
    by (apply fold_sq; sq).
  unfold send_update_all. cbv zeta. sq; exact H.
Qed.
#[local] Hint Rewrite sq_full sq_sua : sq.
Lemma sq_sur d w : w_seqno (send_update_resend d w) = w_seqno w.
Proof. unfold send_update_resend. sq. Qed.
Lemma sq_retr i w : w_seqno (send_wildcard_retraction i w) = w_seqno w.
Proof. unfold send_wildcard_retraction. sq. apply fold_sq. sq. Qed.
Lemma sq_sr b i d w : w_seqno (send_request b i d w) = w_seqno w.
Proof. unfold send_request. sq. Qed.
#[local] Hint Rewrite sq_sur sq_retr sq_sr : sq.
Lemma sq_smr d i w : w_seqno (send_multicast_request_if d i w) = w_seqno w.
Proof. unfold send_multicast_request_if. sq. rewrite fold_sq; sq. Qed.
#[local] Hint Rewrite sq_smr : sq.
Lemma sq_smra d w : w_seqno (send_multicast_request_all d w) = w_seqno w.
Proof. unfold send_multicast_request_all. apply fold_sq. sq. Qed.
Lemma sq_sunr n d w : w_seqno (send_unicast_request n d w) = w_seqno w.
Proof. unfold send_unicast_request. sq. Qed.
Lemma sq_smh b i d s id h w : w_seqno (send_multihop_request b i d s id h w) = w_seqno w.
Proof. unfold send_multihop_request. sq. Qed.
#[local] Hint Rewrite sq_smra sq_sunr sq_smh : sq.
Lemma sq_smmh d s id h i w : w_seqno (send_multicast_multihop_request_if d s id h i w) = w_seqno w.
Proof. unfold send_multicast_multihop_request_if. sq. rewrite fold_sq; sq. Qed.
#[local] Hint Rewrite sq_smmh : sq.
Lemma sq_smm p d s id h w : w_seqno (send_multicast_multihop_request p d s id h w) = w_seqno w.
Proof. unfold send_multicast_multihop_request. destruct p; sq. apply fold_sq. sq. Qed.
Lemma sq_sumh n d s id h w : w_seqno (send_unicast_multihop_request n d s id h w) = w_seqno w.
Proof. unfold send_unicast_multihop_request. sq. Qed.
#[local] Hint Rewrite sq_smm sq_sumh : sq.
Lemma sq_resend1 w k : w_seqno (do_resend1 w k) = w_seqno w.
Proof. unfold do_resend1. sq. Qed.
Lemma sq_resend w : w_seqno (do_resend w) = w_seqno w.
Proof. unfold do_resend. rewrite sq_recompute. apply fold_sq. apply sq_resend1. Qed.
#[local] Hint Rewrite sq_resend : sq.

(** route.c *)
Lemma sq_kresp1 w : w_seqno (snd (kresp1 w)) = w_seqno w. Proof. unfold kresp1. sq. Qed.
Lemma sq_ktrace e w : w_seqno (ktrace e w) = w_seqno w. Proof. triv. Qed.
#[local] Hint Rewrite sq_kresp1 sq_ktrace : sq.
Lemma sq_kr1 a t d p g i m w : w_seqno (snd (kernel_route1 a t d p g i m w)) = w_seqno w.
Proof. unfold kernel_route1. sq. Qed.
#[local] Hint Rewrite sq_kr1 : sq.
Lemma sq_krm t d p g i m a b c e w : w_seqno (snd (kernel_route_modify t d p g i m a b c e w)) = w_seqno w.
Proof. unfold kernel_route_modify. sq. Qed.
#[local] Hint Rewrite sq_krm : sq.
Lemma sq_cra r i m w : w_seqno (snd (change_route_add r i m w)) = w_seqno w.
Proof. unfold change_route_add. destruct (inst_filter r i w) as [[? ?] ?]. sq. Qed.
Lemma sq_crf r i m w : w_seqno (snd (change_route_flush r i m w)) = w_seqno w.
Proof. unfold change_route_flush. destruct (inst_filter r i w) as [[? ?] ?]. sq. Qed.
Lemma sq_crm r i m a b c w : w_seqno (snd (change_route_modify r i m a b c w)) = w_seqno w.
Proof. unfold change_route_modify. destruct (inst_filter r i w) as [[? ?] ?]. sq. Qed.
#[local] Hint Rewrite sq_cra sq_crf sq_crm : sq.
Lemma sq_mi d p w : w_seqno (move_installed d p w) = w_seqno w.
Proof. unfold move_installed. sq. Qed.
Lemma sq_ins r w : w_seqno (insert_route r w) = w_seqno w.
Proof. unfold insert_route. sq. Qed.
Lemma sq_selected r w o w1 : w_seqno (selected r w o w1) = w_seqno w1. Proof. triv. Qed.
#[local] Hint Rewrite sq_mi sq_ins sq_selected : sq.
Lemma sq_install p w : w_seqno (install_route p w) = w_seqno w.
Proof. unfold install_route. sq. Qed.
Lemma sq_uninstall p w : w_seqno (uninstall_route p w) = w_seqno w.
Proof. unfold uninstall_route. sq. Qed.
#[local] Hint Rewrite sq_install sq_uninstall : sq.
Lemma sq_switch o p w : w_seqno (switch_routes o p w) = w_seqno w.
Proof. unfold switch_routes. sq. Qed.
#[local] Hint Rewrite sq_switch : sq.
Lemma sq_smoothed p w : w_seqno (snd (smoothed_metric p w)) = w_seqno w.
Proof. unfold smoothed_metric. sq. Qed.
#[local] Hint Rewrite sq_smoothed : sq.
Lemma sq_chm p a b c w : w_seqno (change_route_metric p a b c w) = w_seqno w.
Proof. unfold change_route_metric. sq. Qed.
#[local] Hint Rewrite sq_chm : sq.
Lemma sq_retract p w : w_seqno (retract_route p w) = w_seqno w.
Proof. unfold retract_route. sq. Qed.
#[local] Hint Rewrite sq_retract : sq.
Lemma sq_best_step f e bw q : w_seqno (snd (best_step f e bw q)) = w_seqno (snd bw).
Proof. unfold best_step. destruct bw as [b w]. sq. Qed.
Lemma sq_best_from f e w l : w_seqno (snd (best_from f e w l)) = w_seqno w.
Proof.
  induction l as [|r l IH]; cbn [best_from]; [reflexivity|].
  destruct (acceptable r f e w); [|exact IH].
  rewrite (surjective_pairing (fold_left _ _ _)). cbn [snd]. rewrite fold_sq_snd; [reflexivity|apply sq_best_step].
Qed.
Lemma sq_best d f e w : w_seqno (snd (find_best_route d f e w)) = w_seqno w.
Proof. apply sq_best_from. Qed.
#[local] Hint Rewrite sq_best : sq.
Lemma sq_trig p k m w : w_seqno (send_triggered_update p k m w) = w_seqno w.
Proof. unfold send_triggered_update. sq. Qed.
#[local] Hint Rewrite sq_trig : sq.
Lemma sq_ci p i w : w_seqno (consider_install p i w) = w_seqno w.
Proof. unfold consider_install. sq. Qed.
#[local] Hint Rewrite sq_ci : sq.
Lemma sq_consider p w : w_seqno (consider_route p w) = w_seqno w.
Proof. unfold consider_route. sq. Qed.
#[local] Hint Rewrite sq_consider : sq.
Lemma sq_changed p k m w : w_seqno (route_changed p k m w) = w_seqno w.
Proof. unfold route_changed. sq. Qed.
Lemma sq_srr d s id w : w_seqno (send_request_resend d s id w) = w_seqno w.
Proof. unfold send_request_resend. sq. rewrite fold_sq; sq. Qed.
#[local] Hint Rewrite sq_changed sq_srr : sq.
Lemma sq_lost k m w : w_seqno (route_lost k m w) = w_seqno w.
Proof. unfold route_lost. sq. Qed.
Lemma sq_retain k w : w_seqno (retain_source k w) = w_seqno w.
Proof. unfold retain_source. sq. Qed.
Lemma sq_release k w : w_seqno (release_source k w) = w_seqno w.
Proof. unfold release_source. sq. Qed.
Lemma sq_unlink d p w : w_seqno (unlink_route d p w) = w_seqno w.
Proof. unfold unlink_route. sq. Qed.
#[local] Hint Rewrite sq_lost sq_retain sq_release sq_unlink : sq.
Lemma sq_flush p w : w_seqno (flush_route p w) = w_seqno w.
Proof. unfold flush_route. sq. Qed.
#[local] Hint Rewrite sq_flush : sq.
Lemma sq_flush_slot f : forall i w, w_seqno (flush_slot f i w) = w_seqno w.
Proof. induction f as [|f IH]; intros i w; cbn [flush_slot]; [reflexivity|]. sq; rewrite IH; sq. Qed.
Lemma sq_fal n : forall w, w_seqno (flush_all_loop n w) = w_seqno w.
Proof. induction n as [|n IH]; intros w; cbn [flush_all_loop]; [reflexivity|]. rewrite IH. apply sq_flush_slot. Qed.
Lemma sq_flush_sel f s : forall i w, w_seqno (flush_sel f s i w) = w_seqno w.
Proof. induction f as [|f IH]; intros i w; cbn [flush_sel]; [reflexivity|]. sq; rewrite IH; sq. Qed.
Lemma sq_urm p w : w_seqno (update_route_metric p w) = w_seqno w.
Proof. unfold update_route_metric. sq. Qed.
#[local] Hint Rewrite sq_urm : sq.
Lemma sq_walk_slot k s f : (forall p w, w_seqno (f p w) = w_seqno w) ->
  forall p w, w_seqno (walk_slot k s f p w) = w_seqno w.
Proof.
  intros H. induction k as [|k IH]; intros p w; cbn [walk_slot]; [reflexivity|].
  sq; rewrite ?IH; sq; try apply H.
Qed.
Lemma sq_walk_slots n k s f : (forall p w, w_seqno (f p w) = w_seqno w) ->
  forall i w, w_seqno (walk_slots n k s f i w) = w_seqno w.
Proof.
  intros H. induction n as [|n IH]; intros i w; cbn [walk_slots]; [reflexivity|].
  sq; rewrite ?IH; sq. apply sq_walk_slot, H.
Qed.
Lemma sq_unm n c w : w_seqno (update_neighbour_metric n c w) = w_seqno w.
Proof. unfold update_neighbour_metric. sq. apply sq_walk_slots, sq_urm. Qed.
Lemma sq_uim n w : w_seqno (update_interface_metric n w) = w_seqno w.
Proof. apply sq_walk_slots, sq_urm. Qed.
Lemma sq_retract1 p w : w_seqno (retract1 p w) = w_seqno w.
Proof. unfold retract1. sq. Qed.
Lemma sq_rnr n w : w_seqno (retract_neighbour_routes n w) = w_seqno w.
Proof. apply sq_walk_slots, sq_retract1. Qed.
#[local] Hint Rewrite sq_unm sq_uim sq_rnr : sq.
Lemma sq_unf n f s m k w : w_seqno (send_unfeasible_request n f s m k w) = w_seqno w.
Proof. unfold send_unfeasible_request. sq. Qed.
#[local] Hint Rewrite sq_unf : sq.
Lemma sq_uk r k f s a m c d h n w : w_seqno (update_known r k f s a m c d h n w) = w_seqno w.
Proof. unfold update_known. sq. Qed.
#[local] Hint Rewrite sq_uk : sq.
Lemma sq_update id d s m iv n nh w : w_seqno (update_route id d s m iv n nh w) = w_seqno w.
Proof.
  unfold update_route. cbv zeta.
  repeat match goal with |- w_seqno (if ?c then _ else _) = _ => destruct c; [reflexivity|] end.
  destruct (nb_if n w) as [[nb i]|]; [|reflexivity].
  match goal with |- w_seqno (if ?c then _ else _) = _ => destruct c; [reflexivity|] end.
  destruct (find_route d n w) as [r|].
  - match goal with |- context [if beq (k_id (r_src r)) ?i then _ else _] => destruct (beq (k_id (r_src r)) i) end.
    + destruct (src_of r w); sq.
    + destruct (find_source _ _ _ _ _) as [s0 t]. cbv beta iota. destruct s0; sq.
  - destruct (m >=? INFINITY); [reflexivity|]. destruct id; [|reflexivity].
    destruct (find_source _ _ _ _ _) as [s0 t]. cbv beta iota. destruct nh; sq.
Qed.
Lemma sq_expire f : forall i p w, w_seqno (expire_loop f i p w) = w_seqno w.
Proof.
  induction f as [|f IH]; intros i p w; cbn [expire_loop]; [reflexivity|].
  destruct p; sq; rewrite ?IH; sq.
Qed.
Lemma sq_nbr n w : w_seqno (flush_neighbour n w) = w_seqno w.
Proof. unfold flush_neighbour. sq. apply sq_flush_sel. Qed.
#[local] Hint Rewrite sq_nbr : sq.
Lemma sq_check1 mw n : w_seqno (snd (check_neighbour1 mw n)) = w_seqno (snd mw).
Proof. unfold check_neighbour1. destruct mw as [m w]. sq. Qed.
Lemma sq_check w : w_seqno (snd (check_neighbours w)) = w_seqno w.
Proof. unfold check_neighbours. rewrite fold_sq_snd; [reflexivity|apply sq_check1]. Qed.

(** xroute.c *)
Lemma sq_addx d m i p w : w_seqno (snd (add_xroute d m i p w)) = w_seqno w.
Proof. unfold add_xroute. sq. Qed.
Lemma sq_flushx i s w : w_seqno (flush_xroute i s w) = w_seqno w.
Proof. unfold flush_xroute. sq. Qed.
Lemma sq_mod i k u w : w_seqno (modify_xroute i k u w) = w_seqno w.
Proof. unfold modify_xroute. sq. Qed.
Lemma sq_dup k w : w_seqno (flush_duplicate_route k w) = w_seqno w.
Proof. unfold flush_duplicate_route. sq. Qed.
#[local] Hint Rewrite sq_addx sq_flushx sq_mod sq_dup : sq.
Lemma sq_notify a k w : w_seqno (kernel_route_notify a k w) = w_seqno w.
Proof. unfold kernel_route_notify. sq. Qed.
Lemma sq_merge f s : forall rs j w, w_seqno (merge f rs j s w) = w_seqno w.
Proof.
  induction f as [|f IH]; intros rs j w; cbn [merge]; [reflexivity|].
  destruct rs; sq; rewrite ?IH; sq.
Qed.
Lemma sq_scan a r s w : w_seqno (check_xroutes a r s w) = w_seqno w.
Proof. apply sq_merge. Qed.

(** the daemon *)
Lemma sq_on_nb n f w : w_seqno (on_nb n f w) = w_seqno w.
Proof. unfold on_nb. destruct (get_nb n w) as [nb|]; [|reflexivity]. destruct (f nb). sq. Qed.
Lemma sq_request n d hop s id w : 
  w_seqno (handle_request n d hop s id w) = w_seqno w \/
  w_seqno (handle_request n d hop s id w) = seqno_plus (w_seqno w) 1 /\
    id = c_myid (w_cfg w) /\ 0 < hop /\ seqno_compare s (w_seqno w) > 0 /\
    exists i, handle_request n d hop s id w = send_update_if i true d (update_myseqno w).
Proof.
  unfold handle_request. destruct (nb_if n w) as [[nb i]|]; [|left; reflexivity]. cbv zeta.
  match goal with |- context [if ?b then if (hop >? 0) && _ && _ then _ else _ else _] => destruct b end.
  - destruct ((hop >? 0) && beq id (c_myid (w_cfg w)) && (seqno_compare s (w_seqno w) >? 0)) eqn:E.
    + match goal with |- context [if seqno_minus s (w_seqno w) >? 100 then ?a else ?b] =>
        destruct (seqno_minus s (w_seqno w) >? 100) end; [left; reflexivity|]. right.
      rewrite !andb_true_iff, !Z.gtb_lt in E. destruct E as [[E1 E2] E3].
      split; [rewrite sq_sui; reflexivity|]. split; [apply beq_true; exact E2|]. split; [lia|]. split; [lia|]. eexists. reflexivity.
    + left. sq.
  - left.
    assert (B : w_seqno (snd (find_best_route d false (Some n) w)) = w_seqno w) by apply sq_best.
    destruct (find_best_route d false (Some n) w) as [b w1]. cbn [snd] in B.
    destruct (find_installed d w); sq; exact B.
Qed.

Lemma run1_seqno ev w :
  w_seqno (run1 ev w) = w_seqno w \/
  w_seqno (run1 ev w) = seqno_plus (w_seqno w) 1 /\
  (ev = EvSeqno \/
   exists n d h q, ev = EvSeqnoRequest n d h q (c_myid (w_cfg w)) /\ 0 < h /\ seqno_compare q (w_seqno w) > 0).
Proof.
  destruct ev; cbn [run1].
  all: try (left; reflexivity).
  all: try (left; first [apply sq_update|apply sq_rnr|apply sq_on_nb|apply sq_check|apply sq_uim|apply sq_flush_sel
    |apply sq_expire|apply sq_notify|apply sq_scan|apply sq_flushupdates|apply sq_sua|apply sq_self|apply sq_retr
    |apply sq_smr|apply sq_resend|apply sq_expire_resend|apply sq_fal]).
  - left. unfold recv_request. sq.
  - destruct (sq_request n d hops seqno id w) as [E|(E & -> & H1 & H2 & _)]; [left; exact E|].
    right. split; [exact E|]. right. eauto 10.
  - left. unfold recv_rtt. destruct (nb_if n w) as [[nb i]|]; [|reflexivity]. sq.
  - left. unfold find_neighbour. sq.
  - destruct d; left; sq.
  - right. split; [reflexivity|]. left. reflexivity.
Qed.

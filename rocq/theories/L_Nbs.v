(** L_Nbs.v: the functions which leave the list of neighbours as it is. *)
From Verif Require Import Base M_Util M_Slot M_Source M_Filter M_Types M_Neigh M_State M_Table M_Msg M_Route M_Xroute M_Daemon.

Lemma fold_sq {A} (f : world -> A -> world) l : forall w,
  (forall w a, w_nbs (f w a) = w_nbs w) -> w_nbs (fold_left f l w) = w_nbs w.
Proof.
  induction l as [|a l IH]; intros w H; cbn; [reflexivity|]. rewrite IH by exact H. apply H.
Qed.
Lemma fold_nk_fst {A B} (f : world * B -> A -> world * B) l : forall x,
  (forall w a, w_nbs (fst (f w a)) = w_nbs (fst w)) ->
  w_nbs (fst (fold_left f l x)) = w_nbs (fst x).
Proof.
  induction l as [|a l IH]; intros w H; cbn; [reflexivity|]. rewrite IH by exact H. apply H.
Qed.
Lemma fold_nk_snd {A B} (f : B * world -> A -> B * world) l : forall x,
  (forall w a, w_nbs (snd (f w a)) = w_nbs (snd w)) ->
  w_nbs (snd (fold_left f l x)) = w_nbs (snd x).
Proof.
  induction l as [|a l IH]; intros w H; cbn; [reflexivity|]. rewrite IH by exact H. apply H.
Qed.

#[local] Ltac sq1 :=
  match goal with
  | |- ?x = ?x => reflexivity
  | |- _ => progress (autorewrite with nk)
  | |- context [match ?x with (_, _) => _ end] => 
      rewrite (surjective_pairing x)
  | |- context [w_nbs (if ?c then _ else _)] => destruct c
  | |- context [w_nbs (snd (if ?c then _ else _))] => destruct c
  | |- context [w_nbs (fst (if ?c then _ else _))] => destruct c
  | |- context [w_nbs (match ?x with _ => _ end)] => destruct x
  | |- context [w_nbs (snd (match ?x with _ => _ end))] => destruct x
  | |- context [w_nbs (fst (match ?x with _ => _ end))] => destruct x
  end; cbv beta iota zeta; cbn [fst snd].
#[local] Ltac sq := intros; cbv beta iota zeta; cbn [fst snd]; repeat sq1.

#[local] Ltac triv := intros; reflexivity.
Lemma nk_fault w : w_nbs (fault w) = w_nbs w. Proof. triv. Qed.
Lemma nk_nofuel w : w_nbs (nofuel w) = w_nbs w. Proof. triv. Qed.
Lemma nk_map_if i f w : w_nbs (map_if i f w) = w_nbs w. Proof. triv. Qed.
Lemma nk_map_ptr i f w : w_nbs (map_ptr i f w) = w_nbs w. Proof. triv. Qed.
Lemma nk_now x w : w_nbs (set_w_now x w) = w_nbs w. Proof. triv. Qed.
Lemma nk_ifs x w : w_nbs (set_w_ifs x w) = w_nbs w. Proof. triv. Qed.
Lemma nk_srcs x w : w_nbs (set_w_srcs x w) = w_nbs w. Proof. triv. Qed.
Lemma nk_rt x w : w_nbs (set_w_rt x w) = w_nbs w. Proof. triv. Qed.
Lemma nk_next x w : w_nbs (set_w_next x w) = w_nbs w. Proof. triv. Qed.
Lemma nk_xr x w : w_nbs (set_w_xr x w) = w_nbs w. Proof. triv. Qed.
Lemma nk_rsd x w : w_nbs (set_w_rsd x w) = w_nbs w. Proof. triv. Qed.
Lemma nk_rsdt x w : w_nbs (set_w_rsd_time x w) = w_nbs w. Proof. triv. Qed.
Lemma nk_seqno x w : w_nbs (set_w_seqno x w) = w_nbs w. Proof. triv. Qed.
Lemma nk_seqno_time x w : w_nbs (set_w_seqno_time x w) = w_nbs w. Proof. triv. Qed.
Lemma nk_rnd x w : w_nbs (set_w_rnd x w) = w_nbs w. Proof. triv. Qed.
Lemma nk_kresp x w : w_nbs (set_w_kresp x w) = w_nbs w. Proof. triv. Qed.
Lemma nk_ktr x w : w_nbs (set_w_ktr x w) = w_nbs w. Proof. triv. Qed.
Lemma nk_out x w : w_nbs (set_w_out x w) = w_nbs w. Proof. triv. Qed.
Lemma nk_sel x w : w_nbs (set_w_sel x w) = w_nbs w. Proof. triv. Qed.
#[local] Hint Rewrite nk_fault nk_nofuel nk_map_if nk_map_ptr nk_now nk_ifs nk_srcs nk_rt
  nk_next nk_xr nk_rsd nk_rsdt nk_rnd nk_seqno nk_seqno_time nk_kresp nk_ktr nk_out nk_sel : nk.

Lemma nk_rand w : w_nbs (snd (rand w)) = w_nbs w. Proof. unfold rand. sq. Qed.
#[local] Hint Rewrite nk_rand : nk.
Lemma nk_recompute w : w_nbs (recompute_resend_time w) = w_nbs w. Proof. triv. Qed.
#[local] Hint Rewrite nk_recompute : nk.
Lemma nk_record k d s i p dl w : w_nbs (record_resend k d s i p dl w) = w_nbs w.
Proof. unfold record_resend. sq. Qed.
Lemma nk_satisfy d s i p w : w_nbs (satisfy_request d s i p w) = w_nbs w.
Proof. unfold satisfy_request. sq. Qed.
Lemma nk_expire_resend w : w_nbs (expire_resend w) = w_nbs w.
Proof. unfold expire_resend. sq. Qed.
Lemma nk_emit b t w : w_nbs (emit b t w) = w_nbs w. Proof. triv. Qed.
Lemma nk_jitter i u w : w_nbs (snd (update_jitter i u w)) = w_nbs w.
Proof. unfold update_jitter. sq. Qed.
Lemma nk_timeout i w : w_nbs (snd (set_timeout i w)) = w_nbs w.
Proof. unfold set_timeout. sq. Qed.
#[local] Hint Rewrite nk_record nk_satisfy nk_expire_resend nk_emit nk_jitter nk_timeout : nk.
Lemma nk_rbu b i id d s m w : w_nbs (really_buffer_update b i id d s m w) = w_nbs w.
Proof. unfold really_buffer_update. sq. Qed.
#[local] Hint Rewrite nk_rbu : nk.
Lemma nk_rsu i id d s m w : w_nbs (really_send_update i id d s m w) = w_nbs w.
Proof. unfold really_send_update. sq. apply fold_sq. sq. Qed.
#[local] Hint Rewrite nk_rsu : nk.
Lemma nk_flush1 i wl b : w_nbs (fst (flush1 i wl b)) = w_nbs (fst wl).
Proof. unfold flush1. destruct wl as [w last]. sq. Qed.
Lemma nk_flushupdates i w : w_nbs (flushupdates i w) = w_nbs w.
Proof. unfold flushupdates. sq. rewrite fold_nk_fst; [reflexivity|]. apply nk_flush1. Qed.
#[local] Hint Rewrite nk_flushupdates : nk.
Lemma nk_suf i u w : w_nbs (schedule_update_flush i u w) = w_nbs w.
Proof. unfold schedule_update_flush. sq. Qed.
Lemma nk_bu i d w : w_nbs (buffer_update i d w) = w_nbs w.
Proof. unfold buffer_update. sq. Qed.
#[local] Hint Rewrite nk_suf nk_bu : nk.
Lemma nk_sui i u d w : w_nbs (send_update_if i u d w) = w_nbs w.
Proof. unfold send_update_if. sq. Qed.
#[local] Hint Rewrite nk_sui : nk.
Lemma nk_self i w : w_nbs (send_self_update_if i w) = w_nbs w.
Proof. unfold send_self_update_if. apply fold_sq. sq. Qed.
#[local] Hint Rewrite nk_self : nk.
Lemma nk_wild i u s w : w_nbs (send_update_wild i u s w) = w_nbs w.
Proof. unfold send_update_wild. sq. rewrite fold_sq; sq. Qed.
#[local] Hint Rewrite nk_wild : nk.
Lemma nk_full i u w : w_nbs (send_update_full i u w) = w_nbs w.
Proof. unfold send_update_full. sq. Qed.
Lemma nk_sua u d w : w_nbs (send_update_all u d w) = w_nbs w.
Proof.
  assert (H : w_nbs (fold_left (fun w i => send_update_if i u d w) (map if_id (w_ifs w)) w) = w_nbs w)
    by (apply fold_sq; sq).
  unfold send_update_all. cbv zeta. sq; exact H.
Qed.
#[local] Hint Rewrite nk_full nk_sua : nk.
Lemma nk_sur d w : w_nbs (send_update_resend d w) = w_nbs w.
Proof. unfold send_update_resend. sq. Qed.
Lemma nk_retr i w : w_nbs (send_wildcard_retraction i w) = w_nbs w.
Proof. unfold send_wildcard_retraction. sq. apply fold_sq. sq. Qed.
Lemma nk_sr b i d w : w_nbs (send_request b i d w) = w_nbs w.
Proof. unfold send_request. sq. Qed.
#[local] Hint Rewrite nk_sur nk_retr nk_sr : nk.
Lemma nk_smr d i w : w_nbs (send_multicast_request_if d i w) = w_nbs w.
Proof. unfold send_multicast_request_if. sq. rewrite fold_sq; sq. Qed.
#[local] Hint Rewrite nk_smr : nk.
Lemma nk_smra d w : w_nbs (send_multicast_request_all d w) = w_nbs w.
Proof. unfold send_multicast_request_all. apply fold_sq. sq. Qed.
Lemma nk_sunr n d w : w_nbs (send_unicast_request n d w) = w_nbs w.
Proof. unfold send_unicast_request. sq. Qed.
Lemma nk_smh b i d s id h w : w_nbs (send_multihop_request b i d s id h w) = w_nbs w.
Proof. unfold send_multihop_request. sq. Qed.
#[local] Hint Rewrite nk_smra nk_sunr nk_smh : nk.
Lemma nk_smmh d s id h i w : w_nbs (send_multicast_multihop_request_if d s id h i w) = w_nbs w.
Proof. unfold send_multicast_multihop_request_if. sq. rewrite fold_sq; sq. Qed.
#[local] Hint Rewrite nk_smmh : nk.
Lemma nk_smm p d s id h w : w_nbs (send_multicast_multihop_request p d s id h w) = w_nbs w.
Proof. unfold send_multicast_multihop_request. destruct p; sq. apply fold_sq. sq. Qed.
Lemma nk_sumh n d s id h w : w_nbs (send_unicast_multihop_request n d s id h w) = w_nbs w.
Proof. unfold send_unicast_multihop_request. sq. Qed.
#[local] Hint Rewrite nk_smm nk_sumh : nk.
Lemma nk_resend1 w k : w_nbs (do_resend1 w k) = w_nbs w.
Proof. unfold do_resend1. sq. Qed.
Lemma nk_resend w : w_nbs (do_resend w) = w_nbs w.
Proof. unfold do_resend. rewrite nk_recompute. apply fold_sq. apply nk_resend1. Qed.
#[local] Hint Rewrite nk_resend : nk.

(** route.c *)
Lemma nk_kresp1 w : w_nbs (snd (kresp1 w)) = w_nbs w. Proof. unfold kresp1. sq. Qed.
Lemma nk_ktrace e w : w_nbs (ktrace e w) = w_nbs w. Proof. triv. Qed.
#[local] Hint Rewrite nk_kresp1 nk_ktrace : nk.
Lemma nk_kr1 a t d p g i m w : w_nbs (snd (kernel_route1 a t d p g i m w)) = w_nbs w.
Proof. unfold kernel_route1. sq. Qed.
#[local] Hint Rewrite nk_kr1 : nk.
Lemma nk_krm t d p g i m a b c e w : w_nbs (snd (kernel_route_modify t d p g i m a b c e w)) = w_nbs w.
Proof. unfold kernel_route_modify. sq. Qed.
#[local] Hint Rewrite nk_krm : nk.
Lemma nk_cra r i m w : w_nbs (snd (change_route_add r i m w)) = w_nbs w.
Proof. unfold change_route_add. destruct (inst_filter r i w) as [[? ?] ?]. sq. Qed.
Lemma nk_crf r i m w : w_nbs (snd (change_route_flush r i m w)) = w_nbs w.
Proof. unfold change_route_flush. destruct (inst_filter r i w) as [[? ?] ?]. sq. Qed.
Lemma nk_crm r i m a b c w : w_nbs (snd (change_route_modify r i m a b c w)) = w_nbs w.
Proof. unfold change_route_modify. destruct (inst_filter r i w) as [[? ?] ?]. sq. Qed.
#[local] Hint Rewrite nk_cra nk_crf nk_crm : nk.
Lemma nk_mi d p w : w_nbs (move_installed d p w) = w_nbs w.
Proof. unfold move_installed. sq. Qed.
Lemma nk_ins r w : w_nbs (insert_route r w) = w_nbs w.
Proof. unfold insert_route. sq. Qed.
Lemma nk_selected r w o w1 : w_nbs (selected r w o w1) = w_nbs w1. Proof. triv. Qed.
#[local] Hint Rewrite nk_mi nk_ins nk_selected : nk.
Lemma nk_install p w : w_nbs (install_route p w) = w_nbs w.
Proof. unfold install_route. sq. Qed.
Lemma nk_uninstall p w : w_nbs (uninstall_route p w) = w_nbs w.
Proof. unfold uninstall_route. sq. Qed.
#[local] Hint Rewrite nk_install nk_uninstall : nk.
Lemma nk_switch o p w : w_nbs (switch_routes o p w) = w_nbs w.
Proof. unfold switch_routes. sq. Qed.
#[local] Hint Rewrite nk_switch : nk.
Lemma nk_smoothed p w : w_nbs (snd (smoothed_metric p w)) = w_nbs w.
Proof. unfold smoothed_metric. sq. Qed.
#[local] Hint Rewrite nk_smoothed : nk.
Lemma nk_chm p a b c w : w_nbs (change_route_metric p a b c w) = w_nbs w.
Proof. unfold change_route_metric. sq. Qed.
#[local] Hint Rewrite nk_chm : nk.
Lemma nk_retract p w : w_nbs (retract_route p w) = w_nbs w.
Proof. unfold retract_route. sq. Qed.
#[local] Hint Rewrite nk_retract : nk.
Lemma nk_best_step f e bw q : w_nbs (snd (best_step f e bw q)) = w_nbs (snd bw).
Proof. unfold best_step. destruct bw as [b w]. sq. Qed.
Lemma nk_best_from f e w l : w_nbs (snd (best_from f e w l)) = w_nbs w.
Proof.
  induction l as [|r l IH]; cbn [best_from]; [reflexivity|].
  destruct (acceptable r f e w); [|exact IH].
  rewrite (surjective_pairing (fold_left _ _ _)). cbn [snd]. rewrite fold_nk_snd; [reflexivity|apply nk_best_step].
Qed.
Lemma nk_best d f e w : w_nbs (snd (find_best_route d f e w)) = w_nbs w.
Proof. apply nk_best_from. Qed.
#[local] Hint Rewrite nk_best : nk.
Lemma nk_trig p k m w : w_nbs (send_triggered_update p k m w) = w_nbs w.
Proof. unfold send_triggered_update. sq. Qed.
#[local] Hint Rewrite nk_trig : nk.
Lemma nk_ci p i w : w_nbs (consider_install p i w) = w_nbs w.
Proof. unfold consider_install. sq. Qed.
#[local] Hint Rewrite nk_ci : nk.
Lemma nk_consider p w : w_nbs (consider_route p w) = w_nbs w.
Proof. unfold consider_route. sq. Qed.
#[local] Hint Rewrite nk_consider : nk.
Lemma nk_changed p k m w : w_nbs (route_changed p k m w) = w_nbs w.
Proof. unfold route_changed. sq. Qed.
Lemma nk_srr d s id w : w_nbs (send_request_resend d s id w) = w_nbs w.
Proof. unfold send_request_resend. sq. rewrite fold_sq; sq. Qed.
#[local] Hint Rewrite nk_changed nk_srr : nk.
Lemma nk_lost k m w : w_nbs (route_lost k m w) = w_nbs w.
Proof. unfold route_lost. sq. Qed.
Lemma nk_retain k w : w_nbs (retain_source k w) = w_nbs w.
Proof. unfold retain_source. sq. Qed.
Lemma nk_release k w : w_nbs (release_source k w) = w_nbs w.
Proof. unfold release_source. sq. Qed.
Lemma nk_unlink d p w : w_nbs (unlink_route d p w) = w_nbs w.
Proof. unfold unlink_route. sq. Qed.
#[local] Hint Rewrite nk_lost nk_retain nk_release nk_unlink : nk.
Lemma nk_flush p w : w_nbs (flush_route p w) = w_nbs w.
Proof. unfold flush_route. sq. Qed.
#[local] Hint Rewrite nk_flush : nk.
Lemma nk_flush_slot f : forall i w, w_nbs (flush_slot f i w) = w_nbs w.
Proof. induction f as [|f IH]; intros i w; cbn [flush_slot]; [reflexivity|]. sq; rewrite IH; sq. Qed.
Lemma nk_fal n : forall w, w_nbs (flush_all_loop n w) = w_nbs w.
Proof. induction n as [|n IH]; intros w; cbn [flush_all_loop]; [reflexivity|]. rewrite IH. apply nk_flush_slot. Qed.
Lemma nk_flush_sel f s : forall i w, w_nbs (flush_sel f s i w) = w_nbs w.
Proof. induction f as [|f IH]; intros i w; cbn [flush_sel]; [reflexivity|]. sq; rewrite IH; sq. Qed.
Lemma nk_urm p w : w_nbs (update_route_metric p w) = w_nbs w.
Proof. unfold update_route_metric. sq. Qed.
#[local] Hint Rewrite nk_urm : nk.
Lemma nk_walk_slot k s f : (forall p w, w_nbs (f p w) = w_nbs w) ->
  forall p w, w_nbs (walk_slot k s f p w) = w_nbs w.
Proof.
  intros H. induction k as [|k IH]; intros p w; cbn [walk_slot]; [reflexivity|].
  sq; rewrite ?IH; sq; try apply H.
Qed.
Lemma nk_walk_slots n k s f : (forall p w, w_nbs (f p w) = w_nbs w) ->
  forall i w, w_nbs (walk_slots n k s f i w) = w_nbs w.
Proof.
  intros H. induction n as [|n IH]; intros i w; cbn [walk_slots]; [reflexivity|].
  sq; rewrite ?IH; sq. apply nk_walk_slot, H.
Qed.
Lemma nk_unm n c w : w_nbs (update_neighbour_metric n c w) = w_nbs w.
Proof. unfold update_neighbour_metric. sq. apply nk_walk_slots, nk_urm. Qed.
Lemma nk_uim n w : w_nbs (update_interface_metric n w) = w_nbs w.
Proof. apply nk_walk_slots, nk_urm. Qed.
Lemma nk_retract1 p w : w_nbs (retract1 p w) = w_nbs w.
Proof. unfold retract1. sq. Qed.
Lemma nk_rnr n w : w_nbs (retract_neighbour_routes n w) = w_nbs w.
Proof. apply nk_walk_slots, nk_retract1. Qed.
#[local] Hint Rewrite nk_unm nk_uim nk_rnr : nk.
Lemma nk_unf n f s m k w : w_nbs (send_unfeasible_request n f s m k w) = w_nbs w.
Proof. unfold send_unfeasible_request. sq. Qed.
#[local] Hint Rewrite nk_unf : nk.
Lemma nk_uk r k f s a m c d h n w : w_nbs (update_known r k f s a m c d h n w) = w_nbs w.
Proof. unfold update_known. sq. Qed.
#[local] Hint Rewrite nk_uk : nk.
Lemma nk_update id d s m iv n nh w : w_nbs (update_route id d s m iv n nh w) = w_nbs w.
Proof.
  unfold update_route. cbv zeta.
  repeat match goal with |- w_nbs (if ?c then _ else _) = _ => destruct c; [reflexivity|] end.
  destruct (nb_if n w) as [[nb i]|]; [|reflexivity].
  match goal with |- w_nbs (if ?c then _ else _) = _ => destruct c; [reflexivity|] end.
  destruct (find_route d n w) as [r|].
  - match goal with |- context [if beq (k_id (r_src r)) ?i then _ else _] => destruct (beq (k_id (r_src r)) i) end.
    + destruct (src_of r w); sq.
    + destruct (find_source _ _ _ _ _) as [s0 t]. cbv beta iota. destruct s0; sq.
  - destruct (m >=? INFINITY); [reflexivity|]. destruct id; [|reflexivity].
    destruct (find_source _ _ _ _ _) as [s0 t]. cbv beta iota. destruct nh; sq.
Qed.
Lemma nk_expire f : forall i p w, w_nbs (expire_loop f i p w) = w_nbs w.
Proof.
  induction f as [|f IH]; intros i p w; cbn [expire_loop]; [reflexivity|].
  destruct p; sq; rewrite ?IH; sq.
Qed.
(** xroute.c *)
Lemma nk_addx d m i p w : w_nbs (snd (add_xroute d m i p w)) = w_nbs w.
Proof. unfold add_xroute. sq. Qed.
Lemma nk_flushx i s w : w_nbs (flush_xroute i s w) = w_nbs w.
Proof. unfold flush_xroute. sq. Qed.
Lemma nk_mod i k u w : w_nbs (modify_xroute i k u w) = w_nbs w.
Proof. unfold modify_xroute. sq. Qed.
Lemma nk_dup k w : w_nbs (flush_duplicate_route k w) = w_nbs w.
Proof. unfold flush_duplicate_route. sq. Qed.
#[local] Hint Rewrite nk_addx nk_flushx nk_mod nk_dup : nk.
Lemma nk_notify a k w : w_nbs (kernel_route_notify a k w) = w_nbs w.
Proof. unfold kernel_route_notify. sq. Qed.
Lemma nk_merge f s : forall rs j w, w_nbs (merge f rs j s w) = w_nbs w.
Proof.
  induction f as [|f IH]; intros rs j w; cbn [merge]; [reflexivity|].
  destruct rs; sq; rewrite ?IH; sq.
Qed.
Lemma nk_scan a r s w : w_nbs (check_xroutes a r s w) = w_nbs w.
Proof. apply nk_merge. Qed.

(** the daemon *)
Lemma nk_myseqno w : w_nbs (update_myseqno w) = w_nbs w. Proof. triv. Qed.
#[local] Hint Rewrite nk_myseqno : nk.
Lemma nk_request n d hop s id w : w_nbs (handle_request n d hop s id w) = w_nbs w.
Proof.
  unfold handle_request. destruct (nb_if n w) as [[nb i]|]; [|reflexivity]. cbv zeta.
  match goal with |- context [if ?b then if (hop >? 0) && _ && _ then _ else _ else _] => destruct b end.
  - sq.
  - assert (B : w_nbs (snd (find_best_route d false (Some n) w)) = w_nbs w) by apply nk_best.
    destruct (find_best_route d false (Some n) w) as [b w1]. cbn [snd] in B.
    destruct (find_installed d w); sq; exact B.
Qed.
Lemma nk_recv_request n d w : w_nbs (recv_request n d w) = w_nbs w.
Proof. unfold recv_request. sq. Qed.

(** What a packet from a neighbour changes: nothing but the entry of that neighbour. *)
Definition nbk (w : world) : list (Z * list Z * Z) := map (fun x => (n_id x, n_addr x, n_if x)) (w_nbs w).
Lemma nbk_map n f w : (forall x, In x (w_nbs w) -> n_id x = n -> n_id (f x) = n_id x /\ n_addr (f x) = n_addr x /\ n_if (f x) = n_if x) -> nbk (map_nb n f w) = nbk w.
Proof.
  intros H. unfold nbk, map_nb. cbn [w_nbs set_w_nbs]. rewrite map_map. apply map_ext_in. intros x Hx.
  destruct (n_id x =? n) eqn:E; [|reflexivity]. destruct (H x Hx ltac:(lia)) as (-> & -> & ->). reflexivity.
Qed.

(** L_Seqno2.v: the number carried by what the daemon announces under its own router-id. *)
From Verif Require Import Base M_Util M_Slot M_Source M_Filter M_Types M_Neigh M_State M_Table M_Msg M_Route M_Xroute M_Daemon.
From Verif Require Import S_Util S_World L_Util L_Msg L_Daemon L_Seqno.

(** No route has the daemon's own router-id. *)
Definition noown (w : world) : Prop :=
  forall r, In r (concat (w_rt w)) -> k_id (r_src r) <> c_myid (w_cfg w).
(** A message announces under router-id [id] with number [s] only. *)
Definition numbered (id : list Z) (s : Z) (e : obuf * tlv) : Prop :=
  match snd e with
  | TUpdate i _ q _ _ => i = id -> q = s
  | TWildRetract q => q = s
  | _ => True
  end.
Definition V (w w' : world) : Prop := noown w ->
  w_seqno w' = w_seqno w /\ w_cfg w' = w_cfg w /\ noown w' /\
  exists l, w_out w' = w_out w ++ l /\ Forall (numbered (c_myid (w_cfg w)) (w_seqno w)) l.
Lemma V_refl w : V w w.
Proof. intros N. split; [|split; [|split]]; auto. exists []. rewrite app_nil_r. auto. Qed.
Lemma V_trans a b c : V a b -> V b c -> V a c.
Proof.
  intros H K N. destruct (H N) as (S1 & C1 & N1 & l & O1 & F1). destruct (K N1) as (S2 & C2 & N2 & l' & O2 & F2).
  split; [congruence|split; [congruence|split; [exact N2|]]]. exists (l ++ l'). rewrite O2, O1, app_assoc. split; [auto|].
  apply Forall_app. split; [exact F1|]. rewrite C1, S1 in F2. exact F2.
Qed.
Lemma V_assume w w' : (noown w -> V w w') -> V w w'. Proof. intros H N. exact (H N N). Qed.
Lemma V_then a b c : V a b -> (noown a -> noown b -> w_cfg b = w_cfg a -> w_seqno b = w_seqno a -> V b c) -> V a c.
Proof.
  intros H K. apply V_assume. intros N. destruct (H N) as (S1 & C1 & N1 & _).
  exact (V_trans a b c H (K N N1 C1 S1)).
Qed.
Lemma V_same w w' : w_seqno w' = w_seqno w -> w_cfg w' = w_cfg w -> w_rt w' = w_rt w -> w_out w' = w_out w -> V w w'.
Proof.
  intros A B C D N. split; [|split; [|split]]; auto.
  - intros r. rewrite B, C. apply N.
  - exists []. rewrite app_nil_r. auto.
Qed.
Lemma V_rt w t : (noown w -> forall r, In r (concat t) -> k_id (r_src r) <> c_myid (w_cfg w)) -> V w (set_w_rt t w).
Proof.
  intros H N. split; [|split; [|split]]; auto.
  - intros r. apply (H N).
  - exists []. cbn. rewrite app_nil_r. auto.
Qed.
Lemma fold_V {A} (f : world -> A -> world) l : (forall w a, V w (f w a)) -> forall w, V w (fold_left f l w).
Proof.
  intros H. induction l as [|a l IH]; intros w; cbn; [apply V_refl|]. eapply V_trans; [apply H|apply IH].
Qed.
Lemma fold_V_fst {A B} (f : world * B -> A -> world * B) l : 
  (forall w a, V (fst w) (fst (f w a))) -> forall x, V (fst x) (fst (fold_left f l x)).
Proof.
  intros H. induction l as [|a l IH]; intros w; cbn; [apply V_refl|]. eapply V_trans; [apply H|apply IH].
Qed.
Lemma fold_V_snd {A B} (f : B * world -> A -> B * world) l :
  (forall w a, V (snd w) (snd (f w a))) -> forall x, V (snd x) (snd (fold_left f l x)).
Proof.
  intros H. induction l as [|a l IH]; intros w; cbn; [apply V_refl|]. eapply V_trans; [apply H|apply IH].
Qed.

#[local] Ltac vv1 :=
  match goal with
  | |- V ?x ?x => apply V_refl
  | |- V _ (let '(_, _) := ?x in _) => rewrite (surjective_pairing x)
  | |- V _ (snd (let '(_, _) := ?x in _)) => rewrite (surjective_pairing x)
  | |- V _ (fst (let '(_, _) := ?x in _)) => rewrite (surjective_pairing x)
  | |- V _ (if ?c then _ else _) => destruct c
  | |- V _ (match ?x with _ => _ end) => destruct x
  | |- V _ (snd (if ?c then _ else _)) => destruct c
  | |- V _ (fst (if ?c then _ else _)) => destruct c
  | |- V _ (snd (match ?x with _ => _ end)) => destruct x
  | |- V _ (fst (match ?x with _ => _ end)) => destruct x
  | |- V _ _ => eapply V_trans; [|solve [eauto 2 with vdb nocore]]
  end; cbv beta iota zeta; cbn [fst snd].
#[local] Ltac vv := intros; cbv beta iota zeta; cbn [fst snd]; repeat vv1.
#[local] Ltac triv := intros; apply V_same; reflexivity.
Lemma v_fault w : V w (fault w). Proof. triv. Qed.
Lemma v_nofuel w : V w (nofuel w). Proof. triv. Qed.
Lemma v_map_if i f w : V w (map_if i f w). Proof. triv. Qed.
Lemma v_map_nb i f w : V w (map_nb i f w). Proof. triv. Qed.
Lemma v_map_ptr p f w : (forall r, k_id (r_src (f r)) = k_id (r_src r) \/ k_id (r_src (f r)) <> c_myid (w_cfg w)) -> V w (map_ptr p f w).
Proof.
  intros H. unfold map_ptr. apply V_rt. intros N r K.
  rewrite <- concat_map in K. apply in_map_iff in K. destruct K as (x & <- & K).
  destruct (is_ptr p x); [|exact (N x K)]. destruct (H x) as [E|E]; [rewrite E; exact (N x K)|exact E].
Qed.
Lemma v_map_ptr_s p f w : (forall r, r_src (f r) = r_src r) -> V w (map_ptr p f w).
Proof. intros H. apply v_map_ptr. intros r. left. rewrite H. reflexivity. Qed.

Lemma v_now x w : V w (set_w_now x w). Proof. triv. Qed.
Lemma v_ifs x w : V w (set_w_ifs x w). Proof. triv. Qed.
Lemma v_nbs x w : V w (set_w_nbs x w). Proof. triv. Qed.
Lemma v_srcs x w : V w (set_w_srcs x w). Proof. triv. Qed.
Lemma v_next x w : V w (set_w_next x w). Proof. triv. Qed.
Lemma v_xr x w : V w (set_w_xr x w). Proof. triv. Qed.
Lemma v_rsd x w : V w (set_w_rsd x w). Proof. triv. Qed.
Lemma v_rsdt x w : V w (set_w_rsd_time x w). Proof. triv. Qed.
Lemma v_rnd x w : V w (set_w_rnd x w). Proof. triv. Qed.
Lemma v_kresp x w : V w (set_w_kresp x w). Proof. triv. Qed.
Lemma v_ktr x w : V w (set_w_ktr x w). Proof. triv. Qed.
Lemma v_sel x w : V w (set_w_sel x w). Proof. triv. Qed.
#[local] Hint Resolve v_fault v_nofuel v_map_if v_map_nb v_now v_ifs v_nbs v_srcs
  v_next v_xr v_rsd v_rsdt v_rnd v_kresp v_ktr v_sel : vdb.
#[local] Hint Extern 1 (V _ (map_ptr _ _ _)) => (apply v_map_ptr_s; intros ?; try reflexivity; cbv beta; repeat match goal with |- context [if ?c then _ else _] => destruct c end; reflexivity) : vdb.

Lemma v_rand w : V w (snd (rand w)). Proof. unfold rand. vv. Qed.
#[local] Hint Resolve v_rand : vdb.
Lemma v_recompute w : V w (recompute_resend_time w). Proof. triv. Qed.
#[local] Hint Resolve v_recompute : vdb.
Lemma v_record k d s i p dl w : V w (record_resend k d s i p dl w).
Proof. unfold record_resend. vv. Qed.
Lemma v_satisfy d s i p w : V w (satisfy_request d s i p w).
Proof. unfold satisfy_request. vv. Qed.
Lemma v_expire_resend w : V w (expire_resend w).
Proof. unfold expire_resend. vv. Qed.
Lemma v_emit b t w : numbered (c_myid (w_cfg w)) (w_seqno w) (b, t) -> V w (emit b t w).
Proof.
  intros H N. split; [|split; [|split]]; auto. exists [(b, t)]. split; auto.
Qed.
Lemma v_jitter i u w : V w (snd (update_jitter i u w)).
Proof. unfold update_jitter. vv. Qed.
Lemma v_timeout i w : V w (snd (set_timeout i w)).
Proof. unfold set_timeout. vv. Qed.
#[local] Hint Resolve v_record v_satisfy v_expire_resend v_jitter v_timeout : vdb.
Lemma v_rbu b i id d s m w : (id = c_myid (w_cfg w) -> s = w_seqno w) -> V w (really_buffer_update b i id d s m w).
Proof. intros H. unfold really_buffer_update. vv. apply v_emit. exact H. Qed.
Lemma v_rsu i id d s m w : (id = c_myid (w_cfg w) -> s = w_seqno w) -> V w (really_send_update i id d s m w).
Proof.
  intros H. unfold really_send_update. vv. generalize (buffers i w). intros l. revert w H.
  induction l as [|b l IH]; intros w H; cbn [fold_left]; [apply V_refl|].
  eapply V_then; [apply v_rbu, H|]. intros _ _ C S1. apply IH. rewrite C, S1. exact H.
Qed.
Lemma V_retr_fold l : forall w, V w (fold_left (fun w b => emit b (TWildRetract (w_seqno w)) w) l w).
Proof. apply fold_V. intros w b. apply v_emit. reflexivity. Qed.
Lemma v_flush1_rt i r (last : option dest) w1 : k_id (r_src r) <> c_myid (w_cfg w1) ->
  V w1 (fst (match nb_if (r_neigh r) w1 with
          | None => (fault w1, last)
          | Some (_, ri) =>
              if flag i IF_SPLIT_HORIZON && (if_id ri =? if_id i) then (w1, last)
              else
                let w2 := really_send_update i (k_id (r_src r)) (rdest r) (r_seqno r) (route_metric r) w1 in
                (set_w_srcs (update_source (sec w2) (r_src r) (r_seqno r) (route_metric r) (w_srcs w2)) w2,
                 Some (rdest r))
          end)).
Proof.
  intros H. destruct (nb_if (r_neigh r) w1) as [[nb ri]|]; cbn [fst]; [|apply v_fault].
  destruct (_ && _); cbn [fst]; [apply V_refl|]. eapply V_trans; [|apply v_srcs]. apply v_rsu. intros E. destruct (H E).
Qed.
Lemma v_flush1 i wl b : V (fst wl) (fst (flush1 i wl b)).
Proof.
  unfold flush1. destruct wl as [w last]. cbn [fst]. cbv zeta.
  match goal with |- V _ (fst (if ?c then _ else _)) => destruct c end; [apply V_refl|].
  destruct (find_xroute (snd b) w) as [x|], (find_installed (snd b) w) as [r|] eqn:E; cbn [fst];
    try (apply v_rsu; intros _; reflexivity).
  all: assert (R : In r (concat (w_rt w))) by exact (proj1 (find_installed_In _ _ _ E)).
  - destruct (x_metric x <=? c_kernel_metric (w_cfg w)); [apply v_rsu; intros _; reflexivity|]. 
    eapply V_then; [|intros N N1 C1 S1]. 2: apply (v_flush1_rt i r last _ (fun X => N r R (eq_trans X (f_equal c_myid C1)))).
    destruct (_ <? _); [apply v_satisfy|apply V_refl].
  - eapply V_then; [|intros N N1 C1 S1]. 2: apply (v_flush1_rt i r last _ (fun X => N r R (eq_trans X (f_equal c_myid C1)))).
    destruct (_ <? _); [apply v_satisfy|apply V_refl].
Qed.
Lemma v_flushupdates i w : V w (flushupdates i w).
Proof. unfold flushupdates. vv. eapply V_trans; [|apply (fold_V_fst (flush1 i0)); apply v_flush1]. cbn [fst]. vv. Qed.
#[local] Hint Resolve v_flushupdates : vdb.
Lemma v_suf i u w : V w (schedule_update_flush i u w).
Proof. unfold schedule_update_flush. vv. Qed.
Lemma v_bu i d w : V w (buffer_update i d w).
Proof. unfold buffer_update. vv. Qed.
#[local] Hint Resolve v_suf v_bu : vdb.
Lemma v_sui i u d w : V w (send_update_if i u d w).
Proof. unfold send_update_if. vv. Qed.
#[local] Hint Resolve v_sui : vdb.
Lemma v_self i w : V w (send_self_update_if i w).
Proof. unfold send_self_update_if. apply fold_V. vv. Qed.
#[local] Hint Resolve v_self : vdb.
Lemma v_wild i u s w : V w (send_update_wild i u s w).
Proof. unfold send_update_wild. vv. eapply V_trans; [|apply fold_V; vv]. vv. Qed.
#[local] Hint Resolve v_wild : vdb.
Lemma v_full i u w : V w (send_update_full i u w).
Proof. unfold send_update_full. vv. Qed.
Lemma v_sua u d w : V w (send_update_all u d w).
Proof.
  assert (H : V w (fold_left (fun w i => send_update_if i u d w) (map if_id (w_ifs w)) w))
    by (apply fold_V; vv).
  unfold send_update_all. cbv zeta. vv; exact H.
Qed.
#[local] Hint Resolve v_full v_sua : vdb.
Lemma v_sur d w : V w (send_update_resend d w).
Proof. unfold send_update_resend. vv. Qed.
Lemma v_retr i w : V w (send_wildcard_retraction i w).
Proof. unfold send_wildcard_retraction. vv. apply V_retr_fold. Qed.
Lemma v_sr b i d w : V w (send_request b i d w).
Proof. unfold send_request. vv. apply v_emit. exact I. Qed.
#[local] Hint Resolve v_sur v_retr v_sr : vdb.
Lemma v_smr d i w : V w (send_multicast_request_if d i w).
Proof. unfold send_multicast_request_if. vv. eapply V_trans; [|apply fold_V; vv]. vv. Qed.
#[local] Hint Resolve v_smr : vdb.
Lemma v_smra d w : V w (send_multicast_request_all d w).
Proof. unfold send_multicast_request_all. apply fold_V. vv. Qed.
Lemma v_sunr n d w : V w (send_unicast_request n d w).
Proof. unfold send_unicast_request. vv. Qed.
Lemma v_smh b i d s id h w : V w (send_multihop_request b i d s id h w).
Proof. unfold send_multihop_request. vv. apply v_emit. exact I. Qed.
#[local] Hint Resolve v_smra v_sunr v_smh : vdb.
Lemma v_smmh d s id h i w : V w (send_multicast_multihop_request_if d s id h i w).
Proof. unfold send_multicast_multihop_request_if. vv. eapply V_trans; [|apply fold_V; vv]. vv. Qed.
#[local] Hint Resolve v_smmh : vdb.
Lemma v_smm p d s id h w : V w (send_multicast_multihop_request p d s id h w).
Proof. unfold send_multicast_multihop_request. destruct p; vv. apply fold_V. vv. Qed.
Lemma v_sumh n d s id h w : V w (send_unicast_multihop_request n d s id h w).
Proof. unfold send_unicast_multihop_request. vv. Qed.
#[local] Hint Resolve v_smm v_sumh : vdb.
Lemma v_resend1 w k : V w (do_resend1 w k).
Proof. unfold do_resend1. vv. Qed.
Lemma v_resend w : V w (do_resend w).
Proof. unfold do_resend. eapply V_trans; [|apply v_recompute]. apply fold_V. apply v_resend1. Qed.
#[local] Hint Resolve v_resend : vdb.

Lemma land_succ a : seqno_plus a 1 <> a.
Proof.
  unfold seqno_plus. change 65535 with (Z.ones 16). rewrite Z.land_ones by lia. intros H.
  assert (0 <= a < 2 ^ 16) by (rewrite <- H; apply Z.mod_pos_bound; lia).
  destruct (Z.eq_dec a 65535) as [->|N]; [vm_compute in H; discriminate H|]. rewrite Z.mod_small in H; [lia|]. change (2 ^ 16) with 65536 in *. lia.
Qed.
Lemma find_route_In0 d n w r : find_route d n w = Some r -> In r (concat (w_rt w)).
Proof.
  unfold find_route, slot_of. destruct (find_route_slot d w); intros H; apply find_some in H; destruct H as [H _]; [|destruct H].
  eapply In_nth_concat; eauto.
Qed.

(** route.c *)
Lemma v_kresp1 w : V w (snd (kresp1 w)). Proof. unfold kresp1. vv. Qed.
Lemma v_ktrace e w : V w (ktrace e w). Proof. triv. Qed.
#[local] Hint Resolve v_kresp1 v_ktrace : vdb.
Lemma v_kr1 a t d p g i m w : V w (snd (kernel_route1 a t d p g i m w)).
Proof. unfold kernel_route1. vv. Qed.
#[local] Hint Resolve v_kr1 : vdb.
Lemma v_krm t d p g i m a b c e w : V w (snd (kernel_route_modify t d p g i m a b c e w)).
Proof. unfold kernel_route_modify. vv. Qed.
#[local] Hint Resolve v_krm : vdb.
Lemma v_cra r i m w : V w (snd (change_route_add r i m w)).
Proof. unfold change_route_add. destruct (inst_filter r i w) as [[? ?] ?]. vv. Qed.
Lemma v_crf r i m w : V w (snd (change_route_flush r i m w)).
Proof. unfold change_route_flush. destruct (inst_filter r i w) as [[? ?] ?]. vv. Qed.
Lemma v_crm r i m a b c w : V w (snd (change_route_modify r i m a b c w)).
Proof. unfold change_route_modify. destruct (inst_filter r i w) as [[? ?] ?]. vv. Qed.
#[local] Hint Resolve v_cra v_crf v_crm : vdb.
Lemma v_mi d p w : V w (move_installed d p w).
Proof.
  pose proof (In_move d p w) as H. revert H. unfold move_installed, all_routes. destruct (find_route_slot d w) as [i|i]; [|intros; apply v_fault].
  intros H. apply V_rt. intros N r K. apply N, H, K.
Qed.
Lemma v_ins r w : k_id (r_src r) <> c_myid (w_cfg w) -> V w (insert_route r w).
Proof.
  intros H. pose proof (In_insert r w) as J. revert J. unfold insert_route, all_routes.
  destruct (find_route_slot (rdest r) w) as [i|i]; intros J; apply V_rt; intros N r' K; destruct (J r' K) as [->|L]; auto.
Qed.
Lemma v_selected r w o w1 : V w1 (selected r w o w1). Proof. triv. Qed.
#[local] Hint Resolve v_mi v_selected : vdb.
Lemma v_install p w : V w (install_route p w).
Proof. unfold install_route. vv. Qed.
Lemma v_uninstall p w : V w (uninstall_route p w).
Proof. unfold uninstall_route. vv. Qed.
#[local] Hint Resolve v_install v_uninstall : vdb.
Lemma v_switch o p w : V w (switch_routes o p w).
Proof. unfold switch_routes. vv. Qed.
#[local] Hint Resolve v_switch : vdb.
Lemma v_smoothed p w : V w (snd (smoothed_metric p w)).
Proof. unfold smoothed_metric. vv. Qed.
#[local] Hint Resolve v_smoothed : vdb.
Lemma v_chm p a b c w : V w (change_route_metric p a b c w).
Proof. unfold change_route_metric. vv. Qed.
#[local] Hint Resolve v_chm : vdb.
Lemma v_retract p w : V w (retract_route p w).
Proof. unfold retract_route. vv. Qed.
#[local] Hint Resolve v_retract : vdb.
Lemma v_best_step f e bw q : V (snd bw) (snd (best_step f e bw q)).
Proof. unfold best_step. destruct bw as [b w]. vv. Qed.
Lemma v_best_from f e w l : V w (snd (best_from f e w l)).
Proof.
  induction l as [|r l IH]; cbn [best_from]; [apply V_refl|].
  destruct (acceptable r f e w); [|exact IH].
  rewrite (surjective_pairing (fold_left _ _ _)). cbn [snd]. refine (fold_V_snd (best_step f e) (map r_ptr l) _ (r_ptr r, w)). apply v_best_step.
Qed.
Lemma v_best d f e w : V w (snd (find_best_route d f e w)).
Proof. apply v_best_from. Qed.
#[local] Hint Resolve v_best : vdb.
Lemma v_trig p k m w : V w (send_triggered_update p k m w).
Proof. unfold send_triggered_update. vv. Qed.
#[local] Hint Resolve v_trig : vdb.
Lemma v_ci p i w : V w (consider_install p i w).
Proof. unfold consider_install. vv. Qed.
#[local] Hint Resolve v_ci : vdb.
Lemma v_consider p w : V w (consider_route p w).
Proof. unfold consider_route. vv. Qed.
#[local] Hint Resolve v_consider : vdb.
Lemma v_changed p k m w : V w (route_changed p k m w).
Proof. unfold route_changed. vv. Qed.
Lemma v_srr d s id w : V w (send_request_resend d s id w).
Proof. unfold send_request_resend. vv. eapply V_trans; [|apply fold_V; vv]. vv. Qed.
#[local] Hint Resolve v_changed v_srr : vdb.
Lemma v_lost k m w : V w (route_lost k m w).
Proof. unfold route_lost. vv. Qed.
Lemma v_retain k w : V w (retain_source k w).
Proof. unfold retain_source. vv. Qed.
Lemma v_release k w : V w (release_source k w).
Proof. unfold release_source. vv. Qed.
Lemma v_unlink d p w : V w (unlink_route d p w).
Proof.
  pose proof (In_unlink d p w) as H. revert H. unfold unlink_route, all_routes. destruct (find_route_slot d w) as [i|i]; [|intros; apply v_fault].
  intros H. apply V_rt. intros N r K. apply N, H, K.
Qed.
#[local] Hint Resolve v_lost v_retain v_release v_unlink : vdb.
Lemma v_flush p w : V w (flush_route p w).
Proof. unfold flush_route. vv. Qed.
#[local] Hint Resolve v_flush : vdb.
Lemma v_flush_slot f : forall i w, V w (flush_slot f i w).
Proof. induction f as [|f IH]; intros i w; cbn [flush_slot]; [apply v_nofuel|]. vv; (eapply V_trans; [|apply IH]); vv. Qed.
Lemma v_fal n : forall w, V w (flush_all_loop n w).
Proof. induction n as [|n IH]; intros w; cbn [flush_all_loop]; [apply V_refl|]. eapply V_trans; [|apply IH]. apply v_flush_slot. Qed.
Lemma v_flush_sel f s : forall i w, V w (flush_sel f s i w).
Proof. induction f as [|f IH]; intros i w; cbn [flush_sel]; [apply v_nofuel|]. vv; (eapply V_trans; [|apply IH]); vv. Qed.
Lemma v_urm p w : V w (update_route_metric p w).
Proof. unfold update_route_metric. vv. Qed.
#[local] Hint Resolve v_urm : vdb.
Lemma v_walk_slot k s f : (forall p w, V w (f p w)) ->
  forall p w, V w (walk_slot k s f p w).
Proof.
  intros H. induction k as [|k IH]; intros p w; cbn [walk_slot]; [apply v_nofuel|].
  vv; try (eapply V_trans; [|apply IH]); vv; try apply H.
Qed.
Lemma v_walk_slots n k s f : (forall p w, V w (f p w)) ->
  forall i w, V w (walk_slots n k s f i w).
Proof.
  intros H. induction n as [|n IH]; intros i w; cbn [walk_slots]; [apply V_refl|].
  vv; try (eapply V_trans; [|apply IH]); vv. apply v_walk_slot, H.
Qed.
Lemma v_unm n c w : V w (update_neighbour_metric n c w).
Proof. unfold update_neighbour_metric. vv. apply v_walk_slots, v_urm. Qed.
Lemma v_uim n w : V w (update_interface_metric n w).
Proof. apply v_walk_slots, v_urm. Qed.
Lemma v_retract1 p w : V w (retract1 p w).
Proof. unfold retract1. vv. Qed.
Lemma v_rnr n w : V w (retract_neighbour_routes n w).
Proof. apply v_walk_slots, v_retract1. Qed.
#[local] Hint Resolve v_unm v_uim v_rnr : vdb.
Lemma v_unf n f s m k w : V w (send_unfeasible_request n f s m k w).
Proof. unfold send_unfeasible_request. vv. Qed.
#[local] Hint Resolve v_unf : vdb.
Lemma v_uk r k f s a m c d h n w : k_id k <> c_myid (w_cfg w) -> V w (update_known r k f s a m c d h n w).
Proof.
  intros K. unfold update_known. cbv zeta.
  match goal with |- V _ (release_source _ ?x) => eapply (V_trans _ x); [|apply v_release] end.
  match goal with |- context [change_route_metric _ _ _ _ ?z] => set (w3 := z) end.
  assert (T : V w w3).
  { unfold w3. eapply V_then; [|intros _ _ C _; apply v_map_ptr; intros x; right; cbn [r_src set_r_seqno set_r_time set_r_src]; rewrite C; exact K].
    vv. }
  clearbody w3. vv; exact T.
Qed.
#[local] Hint Resolve v_uk : vdb.
Lemma v_update id d s m iv n nh w : V w (update_route id d s m iv n nh w).
Proof.
  unfold update_route. cbv zeta.
  destruct (match id with None => m <? INFINITY | Some i => beq i (c_myid (w_cfg w)) end) eqn:Eid; [apply V_refl|].
  repeat match goal with |- V _ (if ?c then _ else _) => destruct c; [apply V_refl|] end.
  destruct (nb_if n w) as [[nb i]|]; [|apply V_same; reflexivity].
  match goal with |- V _ (if ?c then _ else _) => destruct c; [apply V_refl|] end.
  destruct (find_route d n w) as [r|] eqn:E.
  - match goal with |- context [if beq (k_id (r_src r)) ?i then _ else _] => destruct (beq (k_id (r_src r)) i) end.
    + destruct (src_of r w); [|apply v_fault]. apply V_assume. intros N. apply v_uk. apply N. apply (find_route_In0 _ _ _ _ E).
    + destruct (find_source _ _ _ _ _) as [s0 t]. cbv beta iota. destruct s0; [|apply V_same; reflexivity].
      eapply V_then; [apply v_srcs|]. intros N _ C _. apply v_uk. rewrite C. cbn [mkey k_id].
      destruct id as [id|]; [|apply N; apply (find_route_In0 _ _ _ _ E)]. intros X. apply beq_true in X. congruence.
  - destruct (m >=? INFINITY); [apply V_refl|]. destruct id; [|apply V_same; reflexivity].
    destruct (find_source _ _ _ _ _) as [s0 t]. cbv beta iota. destruct nh; [|apply V_same; reflexivity].
    eapply V_trans; [|apply v_consider].
    match goal with |- V _ (insert_route ?r ?x) => eapply (V_then _ x); [|intros _ _ C _; apply v_ins; rewrite C] end.
    + vv.
    + cbn [new_route r_src set_r_smoothed mkey k_id]. intros X. apply beq_true in X. congruence.
Qed.
Lemma v_expire f : forall i p w, V w (expire_loop f i p w).
Proof.
  induction f as [|f IH]; intros i p w; cbn [expire_loop]; [apply v_nofuel|].
  destruct p; vv; try (eapply V_trans; [|apply IH]); vv.
Qed.
Lemma v_nbr n w : V w (flush_neighbour n w).
Proof. unfold flush_neighbour. vv. apply v_flush_sel. Qed.
#[local] Hint Resolve v_nbr : vdb.
Lemma v_check1 mw n : V (snd mw) (snd (check_neighbour1 mw n)).
Proof. unfold check_neighbour1. destruct mw as [m w]. vv. Qed.
Lemma v_check w : V w (snd (check_neighbours w)).
Proof. unfold check_neighbours. eapply V_trans; [|apply (fold_V_snd check_neighbour1); apply v_check1]. apply V_refl. Qed.

(** xroute.c *)
Lemma v_addx d m i p w : V w (snd (add_xroute d m i p w)).
Proof. unfold add_xroute. vv. Qed.
Lemma v_flushx i s w : V w (flush_xroute i s w).
Proof. unfold flush_xroute. vv. Qed.
Lemma v_mod i k u w : V w (modify_xroute i k u w).
Proof. unfold modify_xroute. vv. Qed.
Lemma v_dup k w : V w (flush_duplicate_route k w).
Proof. unfold flush_duplicate_route. vv. Qed.
#[local] Hint Resolve v_addx v_flushx v_mod v_dup : vdb.
Lemma v_notify a k w : V w (kernel_route_notify a k w).
Proof. unfold kernel_route_notify. vv. Qed.
Lemma v_merge f s : forall rs j w, V w (merge f rs j s w).
Proof.
  induction f as [|f IH]; intros rs j w; cbn [merge]; [apply v_nofuel|].
  destruct rs; vv; try (eapply V_trans; [|apply IH]); vv.
Qed.
Lemma v_scan a r s w : V w (check_xroutes a r s w).
Proof. apply v_merge. Qed.

(** the daemon *)
Lemma v_on_nb n f w : V w (on_nb n f w).
Proof. unfold on_nb. destruct (get_nb n w) as [nb|]; [|apply V_same; reflexivity]. destruct (f nb). vv. Qed.
Lemma v_request n d hop s id w : w_seqno (handle_request n d hop s id w) = w_seqno w -> V w (handle_request n d hop s id w).
Proof.
  unfold handle_request. destruct (nb_if n w) as [[nb i]|]; [|intros; apply v_fault]. cbv zeta.
  match goal with |- context [if ?b then if (hop >? 0) && _ && _ then _ else _ else _] => destruct b end.
  - destruct ((hop >? 0) && beq id (c_myid (w_cfg w)) && (seqno_compare s (w_seqno w) >? 0)) eqn:E.
    + match goal with |- context [if seqno_minus s (w_seqno w) >? 100 then ?a else ?b] =>
        destruct (seqno_minus s (w_seqno w) >? 100) end; [intros; apply V_refl|].
      intros X. rewrite sq_sui in X. cbn [update_myseqno w_seqno set_w_seqno_time set_w_seqno] in X. apply land_succ in X. destruct X.
    + intros _. vv.
  - intros _.
    assert (B : V w (snd (find_best_route d false (Some n) w))) by apply v_best.
    destruct (find_best_route d false (Some n) w) as [b w1]. cbn [snd] in B.
    destruct (find_installed d w); vv; exact B.
Qed.

(** One step: what it announces under the daemon's own router-id carries the number held
    after the step. *)
Lemma run1_own ev w : noown w ->
  w_cfg (run1 ev w) = w_cfg w /\ noown (run1 ev w) /\
  exists l, w_out (run1 ev w) = w_out w ++ l /\ Forall (numbered (c_myid (w_cfg w)) (w_seqno (run1 ev w))) l.
Proof.
  intros N.
  assert (D : V w (run1 ev w) -> w_cfg (run1 ev w) = w_cfg w /\ noown (run1 ev w) /\
    exists l, w_out (run1 ev w) = w_out w ++ l /\ Forall (numbered (c_myid (w_cfg w)) (w_seqno (run1 ev w))) l).
  { intros H. destruct (H N) as (A & B & C & E). rewrite A. auto. }
  destruct ev; try (apply D; cbn [run1]; first [apply V_same; reflexivity|apply v_update|apply v_rnr|apply v_on_nb|apply v_check
    |apply v_uim|apply v_flush_sel|apply v_expire|apply v_notify|apply v_scan|apply v_flushupdates|apply v_sua|apply v_self|apply v_retr
    |apply v_smr|apply v_resend|apply v_expire_resend|apply v_fal]).
  - apply D. cbn [run1]. unfold recv_request. vv.
  - destruct (sq_request n d hops seqno id w) as [E|(E & -> & H1 & H2 & i & Ei)].
    + apply D. apply v_request. exact E.
    + cbn [run1]. rewrite Ei. assert (N' : noown (update_myseqno w)) by exact N.
      destruct (v_sui i true d _ N') as (A & B & C & l & O & F). rewrite B, A. split; [reflexivity|]. split; [exact C|].
      exists l. split; [exact O|exact F].
  - apply D. cbn [run1]. unfold recv_rtt. destruct (nb_if n w) as [[nb i]|]; [|apply v_fault]. vv.
  - apply D. cbn [run1]. unfold find_neighbour. vv.
  - apply D. cbn [run1]. destruct d; vv.
  - split; [reflexivity|]. split; [exact N|]. exists []. split; [|constructor]. cbn. rewrite app_nil_r. reflexivity.
Qed.

(** Events after which the daemon may have incremented its number. *)
Definition asks (me : list Z) (ev : event) : bool :=
  match ev with EvSeqno => true | EvSeqnoRequest _ _ _ _ id => beq id me | _ => false end.
Definition asked (me : list Z) (evs : list event) : Z := Z.of_nat (length (filter (asks me) evs)).

Lemma seqno_plus_mod s n : seqno_plus s n = (s + n) mod 65536.
Proof. unfold seqno_plus. apply land_65535. Qed.
Lemma run_own evs : forall w, noown w ->
  exists k, 0 <= k <= asked (c_myid (w_cfg w)) evs /\
    (w_seqno (run evs w) = w_seqno w /\ k = 0 \/ w_seqno (run evs w) = seqno_plus (w_seqno w) k) /\
    w_cfg (run evs w) = w_cfg w /\ 
    exists l, w_out (run evs w) = w_out w ++ l /\
      Forall (fun e => exists j, 0 <= j <= k /\ (j = 0 /\ numbered (c_myid (w_cfg w)) (w_seqno w) e \/ numbered (c_myid (w_cfg w)) (seqno_plus (w_seqno w) j) e)) l.
Proof.
  induction evs as [|ev evs IH]; intros w N.
  - exists 0. unfold asked. cbn. split; [lia|]. split; [auto|]. split; [auto|]. exists []. rewrite app_nil_r. auto.
  - destruct (run1_own ev w N) as (C & N' & l & O & F). destruct (IH _ N') as (k & K & S1 & C' & l' & O' & F').
    assert (G : asked (c_myid (w_cfg w)) (ev :: evs) = (if asks (c_myid (w_cfg w)) ev then 1 else 0) + asked (c_myid (w_cfg w)) evs).
    { unfold asked. cbn [filter]. destruct (asks _ ev); cbn [length]; lia. }
    rewrite C in *. cbn [run fold_left]. fold (run evs (run1 ev w)).
    destruct (run1_seqno ev w) as [E|(E & A)].
    + rewrite E in *. exists k. split; [destruct (asks _ ev); lia|]. split; [exact S1|]. split; [congruence|].
      exists (l ++ l'). rewrite O', O, app_assoc. split; [auto|]. apply Forall_app. split; [|exact F'].
      eapply Forall_impl; [|exact F]. intros e H. exists 0. split; [lia|]. auto.
    + assert (A' : asks (c_myid (w_cfg w)) ev = true).
      { destruct A as [->|(n & d & h & q & -> & _)]; [reflexivity|]. cbn. apply beq_refl. }
      rewrite A' in G. rewrite E in *. exists (k + 1). split; [lia|].
      assert (P : forall j, seqno_plus (seqno_plus (w_seqno w) 1) j = seqno_plus (w_seqno w) (j + 1)).
      { intros j. rewrite !seqno_plus_mod. rewrite Zplus_mod_idemp_l. f_equal. lia. }
      split; [|split; [congruence|]].
      * right. destruct S1 as [(S1 & ->)|S1]; rewrite S1; [reflexivity|apply P].
      * exists (l ++ l'). rewrite O', O, app_assoc. split; [auto|]. apply Forall_app. split.
        -- eapply Forall_impl; [|exact F]. intros e H. exists 1. split; [lia|]. auto.
        -- eapply Forall_impl; [|exact F']. intros e (j & J & [(-> & H)|H]).
           ++ exists 1. split; [lia|]. auto.
           ++ exists (j + 1). split; [lia|]. right. rewrite <- P. exact H.
Qed.

(** Of the numbers of a run in which the daemon was asked fewer than 32767 times to
    increment, the successor of the last is newer than all. *)
Lemma last_newest s n j k : seqno_ok s -> 0 <= j <= k -> k <= 32766 -> n = seqno_plus s j -> 
  seqno_compare (seqno_plus (seqno_plus s k) 1) n = 1.
Proof.
  intros H J K ->.
  replace (seqno_plus (seqno_plus s k) 1) with (seqno_plus (seqno_plus s j) (k - j + 1)).
  - apply seqno_newer_after_increment; [apply seqno_plus_ok|lia].
  - rewrite !seqno_plus_mod, !Zplus_mod_idemp_l. f_equal. lia.
Qed.
Lemma plus_0 s : seqno_ok s -> seqno_plus s 0 = s.
Proof. unfold seqno_ok. intros H. rewrite seqno_plus_mod, Z.mod_small by lia. lia. Qed.

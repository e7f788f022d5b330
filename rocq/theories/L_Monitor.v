(** L_Monitor.v: notifications and the state, function by function. *)
From Verif Require Import Base M_Util M_Slot M_Source M_Filter M_Types M_Neigh M_State M_Table M_Msg M_Route M_Xroute M_Daemon.
From Verif Require Import S_Util S_World L_Util L_Step L_World4 M_Monitor S_Monitor.

(** ** What a client can know of a state *)
Definition vw (w : world) (p : Z) : option shown := option_map show (find_ptr p w).
Definition xw (w : world) (d : dest) : option Z :=
  option_map x_metric (find (fun x => if dest_dec (x_dest x) d then true else false) (w_xr w)).

(** Steps that change nothing of it. *)
Definition calm (a b : world) : Prop :=
  (forall p, vw b p = vw a p) /\ w_xr b = w_xr a /\ w_ktr b = w_ktr a /\ w_next b = w_next a.
Lemma calm_refl w : calm w w. Proof. repeat split. Qed.
Lemma calm_trans a b c : calm a b -> calm b c -> calm a c.
Proof. intros (A & B & C & D) (E & F & G & H). split; [intros p; rewrite E; apply A|repeat split; congruence]. Qed.
Lemma calm_same w w' : w_rt w' = w_rt w -> w_xr w' = w_xr w -> w_ktr w' = w_ktr w -> w_next w' = w_next w -> calm w w'.
Proof. intros A B C D. repeat split; auto. intros p. unfold vw, find_ptr. rewrite A. reflexivity. Qed.
Lemma fold_q {A} (f : world -> A -> world) l : (forall w a, calm w (f w a)) -> forall w, calm w (fold_left f l w).
Proof.
  intros H. induction l as [|a l IH]; intros w; cbn; [apply calm_refl|]. eapply calm_trans; [apply H|apply IH].
Qed.
Lemma fold_q_fst {A B} (f : world * B -> A -> world * B) l : 
  (forall w a, calm (fst w) (fst (f w a))) -> forall x, calm (fst x) (fst (fold_left f l x)).
Proof.
  intros H. induction l as [|a l IH]; intros w; cbn; [apply calm_refl|]. eapply calm_trans; [apply H|apply IH].
Qed.
Lemma fold_q_snd {A B} (f : B * world -> A -> B * world) l :
  (forall w a, calm (snd w) (snd (f w a))) -> forall x, calm (snd x) (snd (fold_left f l x)).
Proof.
  intros H. induction l as [|a l IH]; intros w; cbn; [apply calm_refl|]. eapply calm_trans; [apply H|apply IH].
Qed.

Ltac cm1 :=
  match goal with
  | |- calm ?x ?x => apply calm_refl
  | |- calm _ (let '(_, _) := ?x in _) => rewrite (surjective_pairing x)
  | |- calm _ (snd (let '(_, _) := ?x in _)) => rewrite (surjective_pairing x)
  | |- calm _ (fst (let '(_, _) := ?x in _)) => rewrite (surjective_pairing x)
  | |- calm _ (if ?c then _ else _) => destruct c
  | |- calm _ (match ?x with _ => _ end) => destruct x
  | |- calm _ (snd (if ?c then _ else _)) => destruct c
  | |- calm _ (fst (if ?c then _ else _)) => destruct c
  | |- calm _ (snd (match ?x with _ => _ end)) => destruct x
  | |- calm _ (fst (match ?x with _ => _ end)) => destruct x
  | |- calm _ _ => eapply calm_trans; [|solve [eauto 2 with cdb nocore]]
  end; cbv beta iota zeta; cbn [fst snd].
Ltac cm := intros; cbv beta iota zeta; cbn [fst snd]; repeat cm1.
Ltac ctriv := intros; apply calm_same; reflexivity.
Lemma q_fault w : calm w (fault w). Proof. ctriv. Qed.
Lemma q_nofuel w : calm w (nofuel w). Proof. ctriv. Qed.
Lemma q_map_if i f w : calm w (map_if i f w). Proof. ctriv. Qed.
Lemma q_map_nb i f w : calm w (map_nb i f w). Proof. ctriv. Qed.
Lemma q_now x w : calm w (set_w_now x w). Proof. ctriv. Qed.
Lemma q_ifs x w : calm w (set_w_ifs x w). Proof. ctriv. Qed.
Lemma q_nbs x w : calm w (set_w_nbs x w). Proof. ctriv. Qed.
Lemma q_srcs x w : calm w (set_w_srcs x w). Proof. ctriv. Qed.
Lemma q_rsd x w : calm w (set_w_rsd x w). Proof. ctriv. Qed.
Lemma q_rsdt x w : calm w (set_w_rsd_time x w). Proof. ctriv. Qed.
Lemma q_rnd x w : calm w (set_w_rnd x w). Proof. ctriv. Qed.
Lemma q_kresp x w : calm w (set_w_kresp x w). Proof. ctriv. Qed.
#[export] Hint Resolve q_fault q_nofuel q_map_if q_map_nb q_now q_ifs q_nbs q_srcs
  q_rsd q_rsdt q_rnd q_kresp : cdb.

Lemma q_rand w : calm w (snd (rand w)). Proof. unfold rand. cm. Qed.
#[export] Hint Resolve q_rand : cdb.
Lemma q_recompute w : calm w (recompute_resend_time w). Proof. ctriv. Qed.
#[export] Hint Resolve q_recompute : cdb.
Lemma q_record k d s i p dl w : calm w (record_resend k d s i p dl w).
Proof. unfold record_resend. cm. Qed.
Lemma q_satisfy d s i p w : calm w (satisfy_request d s i p w).
Proof. unfold satisfy_request. cm. Qed.
Lemma q_expire_resend w : calm w (expire_resend w).
Proof. unfold expire_resend. cm. Qed.
Lemma q_emit b t w : calm w (emit b t w). Proof. ctriv. Qed.
#[export] Hint Resolve q_emit : cdb.
Lemma q_jitter i u w : calm w (snd (update_jitter i u w)).
Proof. unfold update_jitter. cm. Qed.
Lemma q_timeout i w : calm w (snd (set_timeout i w)).
Proof. unfold set_timeout. cm. Qed.
#[export] Hint Resolve q_record q_satisfy q_expire_resend q_jitter q_timeout : cdb.
Lemma q_rbu b i id d s m w : calm w (really_buffer_update b i id d s m w).
Proof. unfold really_buffer_update. cm. Qed.
Lemma q_rsu i id d s m w : calm w (really_send_update i id d s m w).
Proof. unfold really_send_update. cm. apply fold_q. intros; apply q_rbu. Qed.
Lemma calm_retr_fold l : forall w, calm w (fold_left (fun w b => emit b (TWildRetract (w_seqno w)) w) l w).
Proof. apply fold_q. intros w b. apply q_emit. Qed.
#[export] Hint Resolve q_rsu : cdb.
Lemma q_flush1 i wl b : calm (fst wl) (fst (flush1 i wl b)).
Proof. unfold flush1. destruct wl as [w last]. cm. Qed.
Lemma q_flushupdates i w : calm w (flushupdates i w).
Proof. unfold flushupdates. cm. eapply calm_trans; [|apply (fold_q_fst (flush1 i0)); apply q_flush1]. cbn [fst]. cm. Qed.
#[export] Hint Resolve q_flushupdates : cdb.
Lemma q_suf i u w : calm w (schedule_update_flush i u w).
Proof. unfold schedule_update_flush. cm. Qed.
Lemma q_bu i d w : calm w (buffer_update i d w).
Proof. unfold buffer_update. cm. Qed.
#[export] Hint Resolve q_suf q_bu : cdb.
Lemma q_sui i u d w : calm w (send_update_if i u d w).
Proof. unfold send_update_if. cm. Qed.
#[export] Hint Resolve q_sui : cdb.
Lemma q_self i w : calm w (send_self_update_if i w).
Proof. unfold send_self_update_if. apply fold_q. cm. Qed.
#[export] Hint Resolve q_self : cdb.
Lemma q_wild i u s w : calm w (send_update_wild i u s w).
Proof. unfold send_update_wild. cm. eapply calm_trans; [|apply fold_q; cm]. cm. Qed.
#[export] Hint Resolve q_wild : cdb.
Lemma q_full i u w : calm w (send_update_full i u w).
Proof. unfold send_update_full. cm. Qed.
Lemma q_sua u d w : calm w (send_update_all u d w).
Proof.
  assert (H : calm w (fold_left (fun w i => send_update_if i u d w) (map if_id (w_ifs w)) w))
    by (apply fold_q; cm).
  unfold send_update_all. cbv zeta. cm; exact H.
Qed.
#[export] Hint Resolve q_full q_sua : cdb.
Lemma q_sur d w : calm w (send_update_resend d w).
Proof. unfold send_update_resend. cm. Qed.
Lemma q_retr i w : calm w (send_wildcard_retraction i w).
Proof. unfold send_wildcard_retraction. cm. apply calm_retr_fold. Qed.
Lemma q_sr b i d w : calm w (send_request b i d w).
Proof. unfold send_request. cm.  Qed.
#[export] Hint Resolve q_sur q_retr q_sr : cdb.
Lemma q_smr d i w : calm w (send_multicast_request_if d i w).
Proof. unfold send_multicast_request_if. cm. eapply calm_trans; [|apply fold_q; cm]. cm. Qed.
#[export] Hint Resolve q_smr : cdb.
Lemma q_smra d w : calm w (send_multicast_request_all d w).
Proof. unfold send_multicast_request_all. apply fold_q. cm. Qed.
Lemma q_sunr n d w : calm w (send_unicast_request n d w).
Proof. unfold send_unicast_request. cm. Qed.
Lemma q_smh b i d s id h w : calm w (send_multihop_request b i d s id h w).
Proof. unfold send_multihop_request. cm.  Qed.
#[export] Hint Resolve q_smra q_sunr q_smh : cdb.
Lemma q_smmh d s id h i w : calm w (send_multicast_multihop_request_if d s id h i w).
Proof. unfold send_multicast_multihop_request_if. cm. eapply calm_trans; [|apply fold_q; cm]. cm. Qed.
#[export] Hint Resolve q_smmh : cdb.
Lemma q_smm p d s id h w : calm w (send_multicast_multihop_request p d s id h w).
Proof. unfold send_multicast_multihop_request. destruct p; cm. apply fold_q. cm. Qed.
Lemma q_sumh n d s id h w : calm w (send_unicast_multihop_request n d s id h w).
Proof. unfold send_unicast_multihop_request. cm. Qed.
#[export] Hint Resolve q_smm q_sumh : cdb.
Lemma q_resend1 w k : calm w (do_resend1 w k).
Proof. unfold do_resend1. cm. Qed.
Lemma q_resend w : calm w (do_resend w).
Proof. unfold do_resend. eapply calm_trans; [|apply q_recompute]. apply fold_q. apply q_resend1. Qed.
#[export] Hint Resolve q_resend : cdb.


Lemma find_map_ptr p q f w : (forall r, r_ptr (f r) = r_ptr r) ->
  find_ptr q (map_ptr p f w) = if Z.eq_dec q p then option_map f (find_ptr q w) else find_ptr q w.
Proof.
  intros H. unfold find_ptr, map_ptr. cbn [w_rt set_w_rt]. rewrite <- concat_map.
  induction (concat (w_rt w)) as [|r l IH]; cbn; [destruct (Z.eq_dec q p); auto|].
  unfold is_ptr in *. destruct (r_ptr r =? p) eqn:Ep.
  - rewrite H. apply Z.eqb_eq in Ep. destruct (r_ptr r =? q) eqn:Eq.
    + apply Z.eqb_eq in Eq. destruct (Z.eq_dec q p); [reflexivity|congruence].
    + exact IH.
  - destruct (r_ptr r =? q) eqn:Eq; [|exact IH].
    apply Z.eqb_eq in Eq. apply Z.eqb_neq in Ep. destruct (Z.eq_dec q p); [congruence|reflexivity].
Qed.
Lemma q_map_ptr p f w : (forall r, r_ptr (f r) = r_ptr r /\ show (f r) = show r) -> calm w (map_ptr p f w).
Proof.
  intros H. repeat split; auto. intros q. unfold vw. rewrite find_map_ptr by (intros; apply H).
  destruct (Z.eq_dec q p); [|reflexivity]. destruct (find_ptr q w); cbn; [|reflexivity]. f_equal. apply H.
Qed.
Lemma q_smoothed p w : calm w (snd (smoothed_metric p w)).
Proof.
  unfold smoothed_metric. destruct (find_ptr p w) as [r|]; [|apply q_fault].
  destruct (smooth _ _ _ _ _ _) as [[[sm t] rnd] ok]. cbn [snd].
  assert (C : calm w (map_ptr p (fun r => set_r_smoothed sm (set_r_smoothed_time t r)) (set_w_rnd rnd w))).
  { eapply calm_trans; [apply q_rnd|]. apply q_map_ptr. intros x. split; reflexivity. }
  destruct ok; [exact C|]. eapply calm_trans; [exact C|apply q_fault].
Qed.
#[export] Hint Resolve q_smoothed : cdb.
Lemma q_selected r w o w1 : calm w1 (selected r w o w1). Proof. ctriv. Qed.
#[export] Hint Resolve q_selected : cdb.
Lemma q_best_step f e bw q : calm (snd bw) (snd (best_step f e bw q)).
Proof. unfold best_step. destruct bw as [b w]. cm. Qed.
Lemma q_best_from f e w l : calm w (snd (best_from f e w l)).
Proof.
  induction l as [|r l IH]; cbn [best_from]; [apply calm_refl|].
  destruct (acceptable r f e w); [|exact IH].
  rewrite (surjective_pairing (fold_left _ _ _)). cbn [snd]. refine (fold_q_snd (best_step f e) (map r_ptr l) _ (r_ptr r, w)). apply q_best_step.
Qed.
Lemma q_best d f e w : calm w (snd (find_best_route d f e w)).
Proof. apply q_best_from. Qed.
#[export] Hint Resolve q_best : cdb.
Lemma q_trig p k m w : calm w (send_triggered_update p k m w).
Proof. unfold send_triggered_update. cm. Qed.
#[export] Hint Resolve q_trig : cdb.
Lemma q_srr d s id w : calm w (send_request_resend d s id w).
Proof. unfold send_request_resend. cm. eapply calm_trans; [|apply fold_q; cm]. cm. Qed.
Lemma q_retain k w : calm w (retain_source k w).
Proof. unfold retain_source. cm. Qed.
Lemma q_release k w : calm w (release_source k w).
Proof. unfold release_source. cm. Qed.
Lemma q_unf n f s m k w : calm w (send_unfeasible_request n f s m k w).
Proof. unfold send_unfeasible_request. cm. Qed.
#[export] Hint Resolve q_srr q_retain q_release q_unf : cdb.
Lemma q_myseqno w : calm w (update_myseqno w). Proof. ctriv. Qed.
#[export] Hint Resolve q_myseqno : cdb.
Lemma q_request n d hop s id w : calm w (handle_request n d hop s id w).
Proof.
  unfold handle_request.
  assert (B : calm w (snd (find_best_route d false (Some n) w))) by apply q_best.
  destruct (find_best_route d false (Some n) w) as [b w1]. cbn [snd] in B.
  destruct (find_installed d w); cm; try exact B. 
Qed.

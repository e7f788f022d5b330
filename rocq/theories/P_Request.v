(** P_Request.v: requests for a new sequence number (C38, C39). *)
From Verif Require Import Base M_Util S_Util L_Util M_Slot M_Source S_Source M_Filter M_Types M_Neigh M_State M_Table
  M_Msg M_Route M_Xroute S_World L_World L_Table L_Resend L_Step L_Msg L_Quiet L_Chain L_Update2 M_Daemon L_Daemon L_Inv S_Resend L_Resend2
  L_Resend3 S_Send L_Out L_Resend4 L_Send S_Request L_Request X_Run X_Run2 X_Run3 X_Run4 X_Run5.

Lemma upd_only : forall w w', outq isupd w w' -> exists l, w_out w' = w_out w ++ l /\ only_updates l.
Proof.
  intros w w' (l & E & F). exists l. split; auto. intros b t H. rewrite Forall_forall in F. specialize (F _ H). unfold isupd in F.
  cbn in F. destruct t; try contradiction. eauto 10.
Qed.
Lemma quiet_seqno : forall e w w', quiet e w w' -> w_seqno w' = w_seqno w.
Proof. intros e w w' Q. apply (q_seqno _ _ (quiet_same _ _ _ Q)). Qed.

(** What happens to the forwarded request *)
Lemma forward_frame : forall c w n i d hop q id w', c_half_life c <> 2 -> reach c w -> heard_on w n i ->
  forward n i d hop q id w w' -> quiet [] w w'.
Proof.
  intros c w n i d hop q id w' Hc R Ho (w1 & Q & O & _ & [(-> & _)|(s & Ns & Nh & _ & ->)]); auto.
  destruct (reach_W c w Hc R) as (Hw & _). eapply quiet_trans; [exact Q|]. pose proof (quiet_W _ _ _ Q Hw) as Hw1. apply quiet_frame.
  pose proof (quiet_same _ _ _ Q) as Sa.
  assert (F1 : frame w1 (send_unicast_multihop_request s d q id (hop - 1) w1)).
  { apply unicast_multihop_frame; [eapply W_refs; eauto|eapply W_get_nb; eauto]. rewrite (q_nbs _ _ Sa).
    destruct Nh as (r & Hr & _ & _ & <- & _). apply (W_nb _ _ Hw). auto. }
  eapply frame_trans; [exact F1|]. apply record_frame. eapply frame_has_if; [exact F1|].
  unfold has_if. pose proof (q_ifs _ _ Sa) as Ei. apply (f_equal (map if_id)) in Ei. rewrite !map_map in Ei.
  replace (map if_id (w_ifs w1)) with (map if_id (w_ifs w)) by (symmetry; exact Ei). apply in_map. apply Ho.
Qed.

(** C38: our own sequence number is increased by one exactly when the request is for our
    router-id and for a destination that we redistribute, still has hops to go, and names a
    number that is newer than ours, but not by 101 to 32767; otherwise it stays. *)
Theorem C38_own_seqno : forall c w n i d hop q id, c_half_life c <> 2 -> reach c w -> heard_on w n i -> dvalid d ->
  let inc := ours_first w d /\ id = c_myid (w_cfg w) /\ 0 < hop /\ newer q (w_seqno w) /\ ~ way_ahead q (w_seqno w) in
  let w' := run1 (EvSeqnoRequest n d hop q id) w in
  (inc -> w_seqno w' = (w_seqno w + 1) mod 65536) /\ (~ inc -> w_seqno w' = w_seqno w).
Proof.
  intros c w n i d hop q id Hc R Ho V inc w'. unfold w'. clear w'. cbn [run1].
  destruct (reach_W c w Hc R) as (Hw & _). pose proof (W_refs _ _ Hw) as Rf.
  assert (Hi : has_if (if_id i) w) by (destruct Ho as (Hi & _); apply in_map; auto).
  assert (E1 : w_seqno (send_update_if (if_id i) true d w) = w_seqno w) by (apply (f_seqno w), send_update_if_frame; auto).
  assert (E2 : w_seqno (send_update_if (if_id i) true d (update_myseqno w)) = (w_seqno w + 1) mod 65536).
  { rewrite (f_seqno (update_myseqno w)) by (apply send_update_if_frame; auto). cbn. unfold seqno_plus. apply land_65535. }
  destruct (handle_cases c w n i d hop q id Hc R Ho V) as [(O & [(H1 & H2 & H3 & [(Wa & ->)|(Wa & ->)])|(H & ->)])|[(O & _ & ->)|(O & _ & [(_ & ->)|(_ & _ & _ & F)])]];
    unfold inc; (split; [intros (I1 & I2 & I3 & I4 & I5)|intros N]); try contradiction; auto.
  - exfalso. apply N. auto.
  - exfalso. apply H. auto.
  - eapply quiet_seqno. eapply forward_frame; eauto.
Qed.
Print Assumptions C38_own_seqno.
Example C38_own_seqno_ex : reach x_conf t_w /\ w_seqno t_w = 17 /\
  map (fun q => w_seqno (run1 (EvSeqnoRequest 3 (xd 9) 10 q [1;1;1;1;1;1;1;1]) t_w)) [17; 18; 117; 118; 32784; 32785; 16] =
    [17; 18; 18; 17; 17; 18; 17] /\
  w_seqno (run1 (EvSeqnoRequest 3 (xd 9) 10 18 (x_id 7)) t_w) = 17.
Proof. split; [exact t_reach|]. split; [|split]; vm_compute; reflexivity. Qed.

(** C38: when we redistribute the destination (and the number asked for is not way ahead), or
    the selected route meets the request, an update for the destination is scheduled on the
    interface of the requester, to be sent within 200 ms, and the request is not forwarded. *)
Theorem C38_answered : forall c w n i d hop q id, c_half_life c <> 2 -> reach c w -> heard_on w n i -> dvalid d ->
  if_up i = true -> 1 <= now_s w -> tv_ok (if_flush_timeout i) -> 0 <= if_hello_interval i ->
  (ours_first w d /\ ~ (0 < hop /\ id = c_myid (w_cfg w) /\ way_ahead q (w_seqno w))) \/
  (~ ours_first w d /\ exists r, is_selected w d r /\ meets q id r) ->
  let w' := run1 (EvSeqnoRequest n d hop q id) w in
  soon w i d w' /\ exists l, w_out w' = w_out w ++ l /\ only_updates l.
Proof.
  intros c w n i d hop q id Hc R Ho V U P T Hh C w'. unfold w'. clear w'. cbn [run1].
  destruct (reach_W c w Hc R) as (Hw & _). pose proof (W_refs _ _ Hw) as Rf. pose proof (rg_now _ (reach_rng c w Hc R)) as Tn.
  assert (G : get_if (if_id i) w = Some i) by (apply get_if_In; [apply (W_ifs _ _ Hw)|apply Ho]).
  assert (X : soon w i d (send_update_if (if_id i) true d w) /\ exists l, w_out (send_update_if (if_id i) true d w) = w_out w ++ l /\ only_updates l).
  { split; [apply send_update_if_soon; auto|]. apply upd_only, send_update_if_outq. auto. }
  destruct (handle_cases c w n i d hop q id Hc R Ho V) as [(O & [(H1 & H2 & H3 & [(Wa & ->)|(Wa & ->)])|(H & ->)])|[(O & _ & ->)|(O & M & _)]];
    auto.
  - exfalso. destruct C as [(_ & C)|(C & _)]; auto.
  - split; [apply (send_update_if_soon (if_id i) d (update_myseqno w) i); auto|].
    apply (upd_only (update_myseqno w)), send_update_if_outq. auto.
  - exfalso. destruct C as [(C & _)|(_ & r & C1 & C2)]; [auto|]. apply (M r); auto.
Qed.
Print Assumptions C38_answered.
Example C38_answered_ex : reach x_conf t_w /\ forallb if_up (w_ifs t_w) = true /\
  map (fun i => length (if_pend i)) (w_ifs (run1 (EvSeqnoRequest 2 (xd 2) 10 45 (x_id 8)) t_w)) =
    [length (if_pend (nth 0 (w_ifs t_w) (x_if 1))); S (length (if_pend (nth 1 (w_ifs t_w) (x_if 1))))] /\
  existsb (fun r => r_installed r && dest_eqb (rdest r) (xd 2) && (r_seqno r =? 50) && beq (k_id (r_src r)) (x_id 8)) (all_routes t_w) = true.
Proof. split; [exact t_reach|]. split; [|split]; vm_compute; reflexivity. Qed.

(** C38: dropped without any effect: the number is way ahead of ours or of the selected route,
    or we cannot answer and the hop count is exhausted, or a request is already pending. *)
Theorem C38_dropped : forall c w n i d hop q id, c_half_life c <> 2 -> reach c w -> heard_on w n i -> dvalid d ->
  (ours_first w d /\ 0 < hop /\ id = c_myid (w_cfg w) /\ way_ahead q (w_seqno w)) \/
  (~ ours_first w d /\ (forall r, is_selected w d r -> ~ meets q id r) /\
   (hop <= 1 \/ (exists r, is_selected w d r /\ way_ahead q (r_seqno r)) \/ exists r, suppressing w i d q id r)) ->
  run1 (EvSeqnoRequest n d hop q id) w = w.
Proof.
  intros c w n i d hop q id Hc R Ho V C. cbn [run1].
  destruct (handle_cases c w n i d hop q id Hc R Ho V) as [(O & [(H1 & H2 & H3 & [(Wa & ->)|(Wa & ->)])|(H & ->)])|[(O & (r & M1 & M2) & ->)|(O & M & [(_ & ->)|(A1 & A2 & A3 & F)])]]; auto; exfalso.
  - destruct C as [(_ & _ & _ & C)|(C & _)]; auto.
  - destruct C as [(_ & C1 & C2 & C3)|(C & _)]; auto. apply H. split; auto. split; auto. unfold way_ahead, newer in *. lia.
  - destruct C as [(C & _)|(_ & C & _)]; auto. apply (C r); auto.
  - destruct C as [(C & _)|(_ & _ & [C|[(r & C1 & C2)|(r & C)]])]; auto; [lia|apply (A2 r); auto|apply (A3 r); auto].
Qed.
Print Assumptions C38_dropped.

(** C38: otherwise, the request goes to one next hop of an unexpired (or the selected) finite
    route, other than the requester, with one hop less, and is recorded as pending; or nothing
    is sent, which is only possible if the selected route (if any) is through the requester or
    retracted, and the routes through other neighbours have expired or some are retracted. *)
Theorem C38_forwarded : forall c w n i d hop q id, c_half_life c <> 2 -> reach c w -> heard_on w n i -> dvalid d ->
  ~ ours_first w d -> (forall r, is_selected w d r -> ~ meets q id r /\ ~ way_ahead q (r_seqno r)) -> 1 < hop <= 255 ->
  (forall r, ~ suppressing w i d q id r) ->
  let w' := run1 (EvSeqnoRequest n d hop q id) w in
  (exists s ups req, s <> n /\ next_hop_for w d s /\
     (forall r, is_selected w d r -> finite r -> r_neigh r <> n -> s = r_neigh r) /\
     w_out w' = w_out w ++ ups ++ req /\ only_updates ups /\
     (forall j, heard_on w s j ->
        (any_source d \/ flag j IF_RFC6126 = false -> req = [(BNb s, TMhRequest d q (hop - 1) id)]) /\
        (~ any_source d /\ flag j IF_RFC6126 = true -> req = [])) /\
     (input_filter (c_infs (w_cfg w)) None d None (if_ifindex i) < 65535 ->
        exists r, pending 1 d w' r /\ rs_time r = w_now w /\ rs_id r = id /\ (rs_seqno r = q \/ newer (rs_seqno r) q))) \/
  (w_out w' = w_out w /\ w_rsd w' = w_rsd w /\
   (forall r, is_selected w d r -> finite r -> r_neigh r = n) /\
   ((exists r, In r (all_routes w) /\ dest_of r = d /\ eligible w false (Some n) r) ->
    exists r, In r (all_routes w) /\ dest_of r = d /\ eligible w false (Some n) r /\ ~ finite r)).
Proof.
  intros c w n i d hop q id Hc R Ho V No Ms Hh Ns w'. unfold w'. clear w'. cbn [run1].
  destruct (reach_W c w Hc R) as (Hw & _).
  destruct (handle_cases c w n i d hop q id Hc R Ho V) as [(O & _)|[(O & (r & M1 & M2) & ->)|(O & M & [(C & ->)|(A1 & A2 & A3 & F)])]];
    [contradiction|exfalso; apply (proj1 (Ms r M1)); auto| |].
  { exfalso. destruct C as [C|[(r & C1 & C2)|(r & C)]]; [lia|apply (proj2 (Ms r C1)); auto|apply (Ns r); auto]. }
  destruct F as (w1 & Q & O1 & O2 & [(-> & B1 & B2)|(s & Sn & Nh & Sel & ->)]); [right; auto|left].
  pose proof (quiet_W _ _ _ Q Hw) as Hw1. pose proof (quiet_same _ _ _ Q) as Sa.
  assert (Kn : In s (map n_id (w_nbs w1))).
  { rewrite (q_nbs _ _ Sa). destruct Nh as (r & Hr & _ & _ & <- & _). apply (W_nb _ _ Hw). auto. }
  pose proof (W_get_nb _ _ _ Hw1 Kn) as Hs. unfold has_nb in Hs. destruct (nb_if s w1) as [[nb j]|] eqn:Nb; [|contradiction].
  set (w2 := send_unicast_multihop_request s d q id (hop - 1) w1).
  destruct (upd_only w1 (flushupdates (if_id j) w1)) as (ups & Eu & Hu); [apply flushupdates_outq; auto|].
  set (blocked := negb (is_default (d_src d) (d_splen d)) && flag j IF_RFC6126).
  exists s, ups, (if blocked then [] else [(BNb s, TMhRequest d q (hop - 1) id)]).
  assert (Out : w_out w2 = w_out w ++ ups ++ (if blocked then [] else [(BNb s, TMhRequest d q (hop - 1) id)])).
  { unfold w2, send_unicast_multihop_request. rewrite Nb. unfold send_multihop_request. fold blocked.
    destruct blocked; [rewrite app_nil_r, <- O1; exact Eu|]. unfold emit. cbn [w_out set_w_out]. rewrite Eu, O1.
    unfold u8. rewrite Z.mod_small by lia. rewrite app_assoc. reflexivity. }
  split; auto. split; auto. split; auto. split; [|split; [auto|split]].
  - unfold RESEND_REQUEST. rewrite record_out. exact Out.
  - intros k Hk.
    assert (Fk : flag k IF_RFC6126 = flag j IF_RFC6126).
    { assert (Hk1 : nb_if s w = Some (nb, k) \/ exists nb', nb_if s w = Some (nb', k)).
      { right. apply (heard_nb_if _ _ _ _ Hw Hk). }
      assert (Ek : exists nb', nb_if s w = Some (nb', k)) by (destruct Hk1; eauto). clear Hk1. destruct Ek as (nb' & Ek).
      unfold nb_if in Ek, Nb. unfold get_nb in Ek, Nb. rewrite (q_nbs _ _ Sa) in Nb.
      destruct (find _ (w_nbs w)) as [y|]; [|discriminate].
      destruct (get_if (n_if y) w) as [k'|] eqn:G1; [|discriminate]. injection Ek as _ ->.
      destruct (get_if (n_if y) w1) as [j'|] eqn:G2; [|discriminate]. injection Nb as _ ->.
      destruct (get_if_static (n_if y) w w1 k) as (j2 & Gj & Es); auto; [apply (q_ifs _ _ Sa)|].
      rewrite G2 in Gj. injection Gj as <-. destruct (static_flags _ _ Es) as (Ef & _). unfold flag. rewrite Ef. reflexivity. }
    rewrite Fk. pose proof (is_default_any d) as Da. unfold blocked. split.
    + intros [A|A]; [apply Da in A; rewrite A; reflexivity|rewrite A, andb_false_r; reflexivity].
    + intros (A & B). destruct (is_default (d_src d) (d_splen d)) eqn:E; [exfalso; apply A, Da; auto|]. rewrite B. reflexivity.
  - intros Fi. assert (F2 : frame w1 w2).
    { apply unicast_multihop_frame; [eapply W_refs; eauto|eapply W_get_nb; eauto]. }
    destruct (record_pending 1 d q id (Some (if_id i)) 0 w2) as (r & P & T & _ & E1 & E2).
    + intros (_ & X). rewrite (f_cfg _ _ F2), (q_cfg _ _ Sa) in X. cbn [if_index] in X.
      assert (Gi : get_if (if_id i) w = Some i) by (apply get_if_In; [apply (W_ifs _ _ Hw)|apply Ho]).
      destruct (get_if_static (if_id i) w w2 i) as (j2 & Gj & Es); auto.
      { rewrite (f_ifs _ _ F2). apply (q_ifs _ _ Sa). }
      rewrite Gj in X. assert (Ex : if_ifindex j2 = if_ifindex i) by (apply (f_equal if_ifindex) in Es; cbn in Es; auto). rewrite Ex in X. lia.
    + intros (X & _). discriminate.
    + exists r. split; [exact P|]. split; auto. rewrite T, (f_now _ _ F2), (q_now _ _ Sa). auto.
Qed.
Print Assumptions C38_forwarded.
Example C38_forwarded_ex : reach x_conf t_w /\
  existsb (fun r => r_installed r && dest_eqb (rdest r) (xd 1)) (all_routes t_w) = false /\
  existsb (fun x => dest_eqb (x_dest x) (xd 1)) (w_xr t_w) = false /\
  map rs_ifp (w_rsd t_w) = [Some 1; None] /\ map (fun r => rs_kind r) (w_rsd t_w) = [1; 2] /\
  map (fun n => (n_id n, n_if n)) (w_nbs t_w) = [(3, 1); (2, 2); (1, 1)] /\
  skipn (length (w_out t_w)) (w_out (run1 (EvSeqnoRequest 2 (xd 1) 10 50 (x_id 7)) t_w)) = [(BNb 1, TMhRequest (xd 1) 50 9 (x_id 7))] /\
  skipn (length (w_out t_w)) (w_out (run1 (EvSeqnoRequest 2 (xd 1) 1 50 (x_id 7)) t_w)) = [].
Proof. split; [exact t_reach|]. repeat (split; [vm_compute; reflexivity|]). vm_compute; reflexivity. Qed.

(** C39: a request that we cannot answer, for which there is a next hop, is not forwarded only
    if a request for the same destination is pending on its interface or on all of them:
    unexpired, not a newer one for the same router-id, and to be retransmitted or less than a
    hello interval (at most 1 s) old.  And in that case it is not forwarded. *)
Theorem C39_suppressed_only : forall c w n i d hop q id l, c_half_life c <> 2 -> reach c w -> heard_on w n i -> dvalid d ->
  ~ ours_first w d -> (forall r, is_selected w d r -> ~ meets q id r /\ ~ way_ahead q (r_seqno r)) -> 1 < hop <= 255 -> any_source d ->
  (exists r, is_selected w d r /\ finite r /\ r_neigh r <> n) \/
  ((exists r, In r (all_routes w) /\ dest_of r = d /\ eligible w false (Some n) r) /\
   forall r, In r (all_routes w) -> dest_of r = d -> eligible w false (Some n) r -> finite r) ->
  w_out (run1 (EvSeqnoRequest n d hop q id) w) = w_out w ++ l ->
  ((forall s, ~ In (BNb s, TMhRequest d q (hop - 1) id) l) <-> exists r, suppressing w i d q id r).
Proof.
  intros c w n i d hop q id l Hc R Ho V No Ms Hh Da Nh El. pose proof (reach_rinv c w Hc R) as (Nd & _). destruct (reach_W c w Hc R) as (Hw & _).
  pose proof (redundant_iff w i d q id Nd) as Re. split.
  - intros N. apply Re. destruct (request_redundant i d q id w); auto. exfalso.
    assert (Ns : forall r, ~ suppressing w i d q id r) by (intros r Hr; assert (X : false = true) by (apply Re; eauto); discriminate).
    destruct (C38_forwarded c w n i d hop q id Hc R Ho V No Ms Hh Ns) as [(s & ups & req & S1 & S2 & S3 & S4 & S5 & S6 & _)|(O & _ & B1 & B2)].
    + rewrite S4 in El. apply app_inv_head in El. destruct S2 as (r & Hr & _ & _ & En & _).
      pose proof (W_nb _ _ Hw r Hr) as Kn. rewrite En in Kn. apply in_map_iff in Kn. destruct Kn as (nb & Eb & Hb).
      pose proof (W_nbif _ _ Hw nb Hb) as Hj. apply in_map_iff in Hj. destruct Hj as (j & Ej & Hj).
      destruct (S6 j) as (S7 & _); [split; auto; exists nb; auto|]. rewrite (S7 (or_introl Da)) in El.
      apply (N s). rewrite <- El. apply in_app_iff. right. left. auto.
    + destruct Nh as [(r & H1 & H2 & H3)|(H1 & H2)]; [apply H3; auto|]. destruct (B2 H1) as (r & X1 & X2 & X3 & X4). apply X4. auto.
  - intros Hr s Hs. rewrite (C38_dropped c w n i d hop q id Hc R Ho V) in El.
    + rewrite <- (app_nil_r (w_out w)) in El at 1. apply app_inv_head in El. subst l. destruct Hs.
    + right. split; auto. split; [intros r X; apply (Ms r X)|]. auto.
Qed.
Print Assumptions C39_suppressed_only.

(** The property as stated is false: a pending request for an older number, or for another
    router-id, suppresses the request.  In [t_w], neighbour 3 asks for number 50 of router 7 (or
    for router 9), and is not heard, because a request for number 41 of router 7 is pending;
    without it the request would go to neighbour 1. *)
Theorem C39_refuted : exists c w n i d q id, reach c w /\ heard_on w n i /\ 
  run1 (EvSeqnoRequest n d 10 q id) w = w /\
  w_out (run1 (EvSeqnoRequest n d 10 q id) (set_w_rsd [] w)) = w_out w ++ [(BNb 1, TMhRequest d q 9 id)] /\
  exists r, suppressing w i d q id r /\ rs_id r = id /\ newer q (rs_seqno r) /\ forall r', In r' (w_rsd w) -> rs_kind r' = 1 -> r' = r.
Proof.
  assert (Q : rs_seqno (nth 0 (w_rsd t_w) (mkRsd 0 0 0 tv0 (xd 1) 0 [] None)) = 41) by (vm_compute; reflexivity).
  assert (Q1 : rs_kind (nth 1 (w_rsd t_w) (mkRsd 0 0 0 tv0 (xd 1) 0 [] None)) = 2) by (vm_compute; reflexivity).
  exists x_conf, t_w, 3, (nth 0 (w_ifs t_w) (x_if 1)), (xd 1), 50, (x_id 7). split; [exact t_reach|]. split; [|split; [|split]].
  - split; [vm_compute; left; reflexivity|]. assert (E : existsb (fun nb => (n_id nb =? 3) && (n_if nb =? if_id (nth 0 (w_ifs t_w) (x_if 1)))) (w_nbs t_w) = true) by (vm_compute; reflexivity).
    apply existsb_exists in E. destruct E as (nb & H1 & H2). apply andb_prop in H2. destruct H2 as (H2 & H3). exists nb.
    split; [exact H1|]. split; [apply Z.eqb_eq; exact H2|apply Z.eqb_eq; exact H3].
  - vm_compute. reflexivity.
  - vm_compute. reflexivity.
  - exists (nth 0 (w_rsd t_w) (mkRsd 0 0 0 tv0 (xd 1) 0 [] None)). split; [|split; [vm_compute; reflexivity|split]].
    + split; [split; [vm_compute; left; reflexivity|split; vm_compute; reflexivity]|]. split; [vm_compute; reflexivity|].
      split; [intros (_ & X); rewrite Q in X; unfold newer, ahead in X; lia|].
      split; [right; vm_compute; reflexivity|]. left. vm_compute. reflexivity.
    + rewrite Q. unfold newer, ahead. lia.
    + intros r' Hr K. assert (E : w_rsd t_w = [nth 0 (w_rsd t_w) (mkRsd 0 0 0 tv0 (xd 1) 0 [] None); nth 1 (w_rsd t_w) (mkRsd 0 0 0 tv0 (xd 1) 0 [] None)]) by (vm_compute; reflexivity).
      rewrite E in Hr. destruct Hr as [<-|[<-|[]]]; [reflexivity|]. rewrite Q1 in K. discriminate K.
Qed.
Print Assumptions C39_refuted.
Theorem C39_router_refuted : exists c w n d q id, reach c w /\ 
  run1 (EvSeqnoRequest n d 10 q id) w = w /\
  w_out (run1 (EvSeqnoRequest n d 10 q id) (set_w_rsd [] w)) = w_out w ++ [(BNb 1, TMhRequest d q 9 id)] /\
  (forall r, In r (w_rsd w) -> rs_kind r = 1 -> rs_id r <> id).
Proof.
  exists x_conf, t_w, 3, (xd 1), 50, (x_id 9). split; [exact t_reach|]. split; [vm_compute; reflexivity|]. split; [vm_compute; reflexivity|].
  assert (E : forallb (fun r => negb (rs_kind r =? 1) || negb (beq (rs_id r) (x_id 9))) (w_rsd t_w) = true) by (vm_compute; reflexivity).
  intros r Hr K E2. rewrite forallb_forall in E. specialize (E r Hr). rewrite K, E2, beq_refl in E. discriminate E.
Qed.
Print Assumptions C39_router_refuted.

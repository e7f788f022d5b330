(** L_Monitor3.v: a picture that was right stays right, events. *)
From Verif Require Import Base M_Util M_Slot M_Source M_Filter M_Types M_Neigh M_State M_Table M_Msg M_Route M_Xroute M_Daemon.
From Verif Require Import S_Util S_World L_Util L_Slot L_Table L_Step L_Msg L_Quiet L_Select L_Select2 L_Chain L_Chain2 L_Chain3
  L_Flush L_Update L_Update2 L_Xroute L_Daemon L_World4 M_Monitor S_Monitor L_Monitor L_Monitor2.

(** ** Removing and adding routes *)
Lemma obs_flush1 w w' p : vw w p <> None -> (forall q, vw w' q = if Z.eq_dec q p then None else vw w q) ->
  w_xr w' = w_xr w -> w_ktr w' = w_ktr w -> obs w (rnote Flush p w) w'.
Proof.
  intros N V X K. split; [unfold nerr; rewrite K; auto|]. rewrite rnote_vw.
  destruct (vw w p) as [a|] eqn:E; [|contradiction]. split; [intros _ P (G & H)|intros P (G & H)].
  - cbn. rewrite G, E. eexists. split; [reflexivity|]. split.
    + intros q. cbn. rewrite V. destruct (Z.eq_dec q p); auto.
    + intros d. cbn. rewrite H. unfold xw. rewrite X. reflexivity.
  - cbn. pose proof (G p) as Gp. rewrite E in Gp. destruct (pr P p); [|contradiction]. eexists. split; [reflexivity|]. split.
    + intros q. cbn. rewrite V. destruct (Z.eq_dec q p); auto. exact I.
    + intros d. cbn. rewrite H. unfold xw. rewrite X. reflexivity.
Qed.
Lemma obs_add1 w w' p a : vw w p = None -> (forall q, vw w' q = if Z.eq_dec q p then Some a else vw w q) ->
  w_xr w' = w_xr w -> w_ktr w' = w_ktr w -> obs w (rnote Add p w') w'.
Proof.
  intros N V X K. split; [unfold nerr; rewrite K; auto|]. rewrite rnote_vw, V.
  destruct (Z.eq_dec p p); [|contradiction]. split; [intros _ P (G & H)|intros P (G & H)].
  - cbn. rewrite G, N. eexists. split; [reflexivity|]. split.
    + intros q. cbn. rewrite V. destruct (Z.eq_dec q p); auto.
    + intros d. cbn. rewrite H. unfold xw. rewrite X. reflexivity.
  - cbn. pose proof (G p) as Gp. rewrite N in Gp. destruct (pr P p); [contradiction|]. eexists. split; [reflexivity|]. split.
    + intros q. cbn. rewrite V. destruct (Z.eq_dec q p); auto. apply sim_refl.
    + intros d. cbn. rewrite H. unfold xw. rewrite X. reflexivity.
Qed.

Lemma find_mid {A} (g : A -> bool) a x b : find g (a ++ x :: b) =
  match find g a with Some y => Some y | None => if g x then Some x else find g b end.
Proof. induction a as [|y a IH]; cbn; [reflexivity|]. destruct (g y); auto. Qed.
Lemma find_two {A} (g : A -> bool) a b : find g (a ++ b) = match find g a with Some y => Some y | None => find g b end.
Proof. induction a as [|y a IH]; cbn; [reflexivity|]. destruct (g y); auto. Qed.
Lemma find_none_all {A} (g : A -> bool) l : (forall x, In x l -> g x = false) -> find g l = None.
Proof. induction l as [|x l IH]; cbn; [reflexivity|]. intros H. rewrite (H x) by auto. apply IH. auto. Qed.

Lemma o_unlink e w p r : W e w -> find_ptr p w = Some r ->
  obs w (rnote Flush p w) (unlink_route (rdest r) p w).
Proof.
  intros Hw F. destruct (unlink_spec w p r (W_rt _ _ Hw) F) as (A & l1 & l2 & B & E & ->).
  apply obs_flush1; [unfold vw; rewrite F; discriminate| |reflexivity|reflexivity].
  intros q. unfold vw, find_ptr. cbn [w_rt set_w_rt]. rewrite E.
  assert (C1 : concat (A ++ (l1 ++ r :: l2) :: B) = (concat A ++ l1) ++ r :: (l2 ++ concat B)).
  { rewrite concat_app. cbn [concat]. rewrite <- !app_assoc. reflexivity. }
  assert (C2 : concat (A ++ match l1 ++ l2 with [] => [] | _ => [l1 ++ l2] end ++ B) = (concat A ++ l1) ++ (l2 ++ concat B)).
  { rewrite !concat_app. rewrite <- app_assoc. f_equal. rewrite (app_assoc l1). f_equal.
    destruct (l1 ++ l2) as [|x l]; [reflexivity|]. cbn [concat]. apply app_nil_r. }
  rewrite C1, C2. pose proof (wf_ptrs _ (W_rt _ _ Hw)) as N. rewrite E, C1, map_app in N. cbn [map] in N.
  pose proof (find_ptr_ptr _ _ _ F) as Hp. apply NoDup_remove_2 in N. rewrite <- map_app in N.
  rewrite find_mid, find_two. destruct (Z.eq_dec q p) as [-> |Ne].
  - assert (Z0 : forall x, In x ((concat A ++ l1) ++ l2 ++ concat B) -> is_ptr p x = false).
    { intros x Hx. unfold is_ptr. apply Z.eqb_neq. intros Hpx. apply N. rewrite Hp, <- Hpx. apply in_map. exact Hx. }
    rewrite !find_none_all; [reflexivity| |]; intros x Hx; apply Z0; apply in_or_app; auto.
  - destruct (find (is_ptr q) (concat A ++ l1)); [reflexivity|]. unfold is_ptr at 2. rewrite Hp.
    destruct (p =? q) eqn:Eq; [lia|reflexivity].
Qed.
Lemma o_flush e p w r : W e w -> find_ptr p w = Some r -> obs w (n_flush p w) (flush_route p w).
Proof.
  intros Hw F. unfold n_flush, flush_route. rewrite F. cbv zeta.
  set (w1 := if r_installed r then uninstall_route p w else w).
  assert (Q : quiet e w w1) by (unfold w1; destruct (r_installed r); [eapply uninstall_chain; eauto|apply quiet_refl]).
  assert (F1 : exists r1, find_ptr p w1 = Some r1 /\ rdest r1 = rdest r).
  { unfold w1. destruct (r_installed r) eqn:I; [|eauto]. rewrite (uninstall_find e w p r Hw F). eauto. }
  destruct F1 as (r1 & F1 & D1). rewrite <- D1.
  eapply obs_trans with (w1 := w1). { unfold w1. destruct (r_installed r); [apply o_uninstall|apply obs_refl]. }
  eapply obs_trans; [eapply o_unlink; [eapply quiet_W; eauto|exact F1]|].
  eapply obs_r; [|apply q_release]. destruct (r_installed r); [apply o_lost|apply obs_refl].
Qed.
Lemma slot_ptr e w i l r : W e w -> nth_error (w_rt w) i = Some l -> In r l -> find_ptr (r_ptr r) w = Some r.
Proof.
  intros Hw E H. apply find_ptr_iff; [apply (W_rt _ _ Hw)|]. split; auto. apply in_concat.
  apply nth_error_In in E. exists l. auto.
Qed.
Lemma o_flush_slot e f : forall i w, W e w -> obs w (n_flush_slot f i w) (flush_slot f i w).
Proof.
  induction f as [|f IH]; intros i w Hw; cbn [flush_slot n_flush_slot]; [apply obs_calm, q_nofuel|].
  destruct (nth_error (w_rt w) i) as [[|r l]|] eqn:E; [apply obs_calm, q_fault| |apply obs_refl]. cbv zeta.
  pose proof (slot_ptr _ _ _ _ r Hw E (or_introl eq_refl)) as F.
  set (w1 := if r_installed r then uninstall_route (r_ptr r) w else w).
  assert (Q : quiet e w w1) by (unfold w1; destruct (r_installed r); [eapply uninstall_chain; eauto|apply quiet_refl]).
  pose proof (quiet_W _ _ _ Q Hw) as Hw1. destruct (quiet_find _ _ _ _ _ Hw Q F) as (r1 & F1 & _).
  eapply obs_trans with (w1 := w1). { unfold w1. destruct (r_installed r); [apply o_uninstall|apply obs_refl]. }
  eapply obs_trans; [eapply o_flush; eauto|]. apply IH. eapply chain_W; [eapply flush_chain; eauto|exact Hw1].
Qed.
Lemma o_flush_all e n : forall w, W e w -> obs w (n_flush_all_loop n w) (flush_all_loop n w).
Proof.
  induction n as [|n IH]; intros w Hw; cbn [flush_all_loop n_flush_all_loop]; [apply obs_refl|].
  eapply obs_trans; [apply (o_flush_slot e); exact Hw|]. apply IH. eapply chain_W; [apply flush_slot_chain, Hw|exact Hw].
Qed.
Lemma o_flush_sel e f s : forall i w, W e w -> obs w (n_flush_sel f s i w) (flush_sel f s i w).
Proof.
  induction f as [|f IH]; intros i w Hw; cbn [flush_sel n_flush_sel]; [apply obs_calm, q_nofuel|].
  destruct (nth_error (w_rt w) i) as [l|] eqn:E; [|apply obs_refl].
  destruct (find (s w) l) as [r|] eqn:Fs; [|apply IH, Hw]. apply find_some in Fs. destruct Fs as (Fs & _).
  pose proof (slot_ptr _ _ _ _ r Hw E Fs) as F.
  eapply obs_trans; [eapply o_flush; eauto|]. apply IH. eapply chain_W; [eapply flush_chain; eauto|exact Hw].
Qed.
Lemma o_expire e f : forall i p w, W e w -> match p with Some p => find_ptr p w <> None | None => True end ->
  obs w (n_expire_loop f i p w) (expire_loop f i p w).
Proof.
  induction f as [|f IH]; intros i p w Hw P; cbn [expire_loop n_expire_loop]; [apply obs_calm, q_nofuel|].
  destruct p as [p|].
  - destruct (find_ptr p w) as [r|] eqn:F; [|contradiction]. destruct (_ || _).
    + eapply obs_trans; [eapply o_flush; eauto|]. apply IH; auto. eapply chain_W; [eapply flush_chain; eauto|exact Hw].
    + cbv zeta. eapply obs_trans; [apply o_urm|].
      destruct (urm_spec e w p r Hw F) as (O & r1 & F1 & _). rewrite F1.
      set (w1 := update_route_metric p w) in *. pose proof (only_W _ _ _ _ O Hw) as Hw1.
      set (w2 := if r_installed r1 && (r_refmetric r1 <? INFINITY) && route_old r1 w1 then send_unicast_request (r_neigh r1) (rdest r1) w1 else w1).
      assert (Fr : frame w1 w2).
      { unfold w2. destruct (_ && _); [|apply frame_refl]. apply unicast_request_frame.
        - apply (W_refs _ _ Hw1).
        - unfold has_nb. destruct (W_nbif_ _ _ _ Hw1 (find_In _ _ _ F1)) as (? & ? & ->). discriminate. }
      pose proof (W_frame _ _ _ Fr Hw1) as Hw2.
      eapply obs_l with (w1 := w2). { apply calm_same; apply Fr. }
      destruct (next_ptr p w2) as [q|] eqn:N; apply IH; auto.
      destruct (next_ptr_find _ _ _ (W_rt _ _ Hw2) N) as (rq & ->). discriminate.
  - destruct (nth_error (w_rt w) i) as [[|r l]|] eqn:E; [apply obs_calm, q_fault| |apply obs_refl].
    apply IH; [exact Hw|]. rewrite (slot_ptr _ _ _ _ r Hw E (or_introl eq_refl)). discriminate.
Qed.
Lemma o_flush_neighbour e n w : W e w -> obs w (n_flush_neighbour n w) (flush_neighbour n w).
Proof.
  intros Hw. unfold flush_neighbour. cbv zeta. eapply obs_r; [eapply o_flush_sel; eauto|]. apply q_nbs.
Qed.
Lemma chk_W e w ms n : W e w -> W e (snd (check_neighbour1 (ms, w) n)).
Proof. intros Hw. eapply chain_W; [apply check_neighbour1_chain, Hw|exact Hw]. Qed.
Lemma o_check1 e ms w n : W e w -> obs w (n_check1 (ms, w) n) (snd (check_neighbour1 (ms, w) n)).
Proof.
  intros Hw. unfold n_check1, check_neighbour1. destruct (get_nb n w) as [nb|] eqn:G; [|apply obs_refl].
  destruct (check_neigh1 (w_now w) nb) as [[nb' ch]|] eqn:Cn; cbn [snd].
  - eapply obs_l; [apply q_map_nb|]. apply o_unm.
  - cbv zeta. match goal with |- obs w _ (flush_neighbour n ?x) => assert (Hx : W e x) end.
    { eapply chain_W; [|exact Hw]. eapply chain_step. apply S_nb; [intros x; auto|]. intros x Hx Ex T N.
      assert (x = nb).
      { unfold get_nb in G. apply find_some in G. destruct G as (Gi & Ge).
        eapply NoDup_map_inj; [apply (W_nbs _ _ Hw)| | |]; auto. lia. }
      subst x. apply (check_hists_ok _ _ T N). }
    eapply obs_l; [apply (q_map_nb n)|]. eapply o_flush_neighbour; eauto.
Qed.
Lemma o_checks e l : forall ms w, W e w -> obs w (n_checks l (ms, w)) (snd (fold_left check_neighbour1 l (ms, w))).
Proof.
  induction l as [|n l IH]; intros ms w Hw; cbn [n_checks fold_left]; [apply obs_refl|].
  eapply obs_trans; [apply (o_check1 e), Hw|]. pose proof (chk_W e w ms n Hw) as H1.
  destruct (check_neighbour1 (ms, w) n) as [ms' w']. apply IH. exact H1.
Qed.

(** ** Updates *)
Lemma bs_range f cmp : forall p g m, 0 <= p -> p <= g -> bs_loop f cmp p g = Found m -> 0 <= m <= g.
Proof.
  induction f as [|f IH]; intros p g m H0 L; cbn [bs_loop]; [discriminate|].
  assert (p <= (p + g) / 2 <= g) by (split; [apply Z.div_le_lower_bound; lia|apply Z.div_le_upper_bound; lia]).
  destruct (cmp _ =? 0). { intros E. inversion E. lia. }
  destruct (_ <? 0).
  - destruct (_ <=? _) eqn:Le; [|discriminate]. intros E. apply IH in E; lia.
  - destruct (_ <=? _) eqn:Le; [|discriminate]. intros E. apply IH in E; lia.
Qed.
Lemma slot_range d w i : find_route_slot d w = Found i -> (Z.to_nat i < length (w_rt w))%nat.
Proof.
  unfold find_route_slot, find_slot. destruct (_ <? 1) eqn:L; [discriminate|]. intros E. apply bs_range in E; lia.
Qed.
Lemma vw_insert r w q : vw w (r_ptr r) = None ->
  vw (insert_route r w) q = if Z.eq_dec q (r_ptr r) then Some (show r) else vw w q.
Proof.
  intros N.
  assert (K : forall a b, concat (w_rt w) = a ++ b -> option_map show (find (is_ptr q) (a ++ r :: b)) =
     if Z.eq_dec q (r_ptr r) then Some (show r) else vw w q).
  { intros a b E. rewrite find_mid. unfold vw, find_ptr in *. rewrite E, find_two in *.
    destruct (Z.eq_dec q (r_ptr r)) as [-> |Ne].
    - destruct (find (is_ptr (r_ptr r)) a); [discriminate|]. unfold is_ptr. rewrite Z.eqb_refl. reflexivity.
    - destruct (find (is_ptr q) a); [reflexivity|]. unfold is_ptr at 1. destruct (r_ptr r =? q) eqn:Eq; [lia|reflexivity]. }
  unfold insert_route. destruct (find_route_slot (rdest r) w) as [i|n] eqn:F; unfold vw at 1, find_ptr; cbn [w_rt set_w_rt].
  - apply slot_range in F. apply nth_error_Some in F. destruct (nth_error (w_rt w) (Z.to_nat i)) as [l|] eqn:El; [|contradiction].
    apply nth_error_split in El. destruct El as (A & B & E & L). rewrite <- L, E, nth_middle', upd_middle.
    rewrite concat_app. cbn [concat]. replace (concat A ++ (l ++ [r]) ++ concat B) with ((concat A ++ l) ++ r :: concat B)
      by (rewrite <- !app_assoc; reflexivity).
    apply K. rewrite E, concat_app. cbn [concat]. rewrite app_assoc. reflexivity.
  - unfold insert_at. rewrite concat_app. cbn [concat app]. apply K. rewrite <- concat_app, firstn_skipn. reflexivity.
Qed.
Lemma uninstall_nbif p w n : nb_if n (uninstall_route p w) = nb_if n w.
Proof.
  unfold uninstall_route. destruct (find_ptr p w) as [r|]; [|reflexivity]. destruct (negb _); [reflexivity|].
  destruct (nb_if _ w) as [[? i]|]; [|reflexivity]. cbv zeta. destruct (change_route_flush _ _ _ _) as [rc w1] eqn:E.
  apply change_route_flush_frame in E. destruct E as (a & b & ->). reflexivity.
Qed.
Lemma retain_nbif k w n : nb_if n (retain_source k w) = nb_if n w.
Proof. unfold retain_source. destruct (get_src k (w_srcs w)); [|reflexivity]. destruct (retain_ok s); reflexivity. Qed.

Lemma o_update_known e r k f s a m c d h n w n0 i0 : W e w -> find_ptr (r_ptr r) w = Some r ->
  nb_if (r_neigh r) w = Some (n0, i0) -> kdest k = rdest r ->
  obs w (n_update_known r k f s a c d h w) (update_known r k f s a m c d h n w).
Proof.
  intros Hw F N Dk. unfold n_update_known, update_known. cbv zeta. set (p := r_ptr r) in *.
  set (lost0 := negb f && r_installed r && negb (skey_eqb k (r_src r))).
  set (w1 := if lost0 then uninstall_route p w else w).
  eapply obs_trans with (w1 := w1). { unfold w1. destruct lost0; [apply o_uninstall|apply obs_refl]. }
  assert (F1 : exists r1, find_ptr p w1 = Some r1 /\ r_neigh r1 = r_neigh r /\ rdest r1 = rdest r).
  { unfold w1. destruct lost0; [|eauto]. rewrite (uninstall_find e w p r Hw F). eauto. }
  destruct F1 as (r1 & F1 & Nr & Dr).
  assert (N1 : nb_if (r_neigh r) w1 = Some (n0, i0)).
  { unfold w1. destruct lost0; [rewrite uninstall_nbif|]; exact N. }
  set (w2 := retain_source k w1). set (g := fun r => set_r_seqno s _).
  set (w3 := map_ptr p g w2).
  assert (Hg : forall x, r_ptr (g x) = r_ptr x) by reflexivity.
  assert (F3 : find_ptr p w3 = Some (g r1)).
  { unfold w3. rewrite find_map_ptr by exact Hg. destruct (Z.eq_dec p p); [|contradiction].
    unfold w2. rewrite (rt_find w1 _ p (retain_rt k w1)), F1. reflexivity. }
  assert (N3 : nb_if (r_neigh (g r1)) w3 = Some (n0, i0)).
  { change (nb_if (r_neigh r1) w2 = Some (n0, i0)). unfold w2. rewrite retain_nbif, Nr. exact N1. }
  assert (C2 : calm w1 w2) by apply q_retain.
  assert (E23 : nerr w3 = nerr w1).
  { destruct C2 as (_ & _ & K & _). unfold nerr. change (w_ktr w3) with (w_ktr w2). rewrite K. reflexivity. }
  eapply obs_trans with (w1 := change_route_metric p a c d w3).
  { split; [rewrite <- E23; apply (metric_but p a c d w3 _ _ _ blank F3 N3)|]. split; [intros Z0 P G|intros P G].
    - apply (metric_but p a c d w3 _ _ _ P F3 N3); [lia|].
      apply but_map; [exact Hg|]. eapply but_calm; [exact C2|]. apply agrees_but, G.
    - apply (metric_but p a c d w3 _ _ _ P F3 N3). apply near_map; [exact Hg| |eapply near_calm; [exact C2|exact G]].
      intros x Hx. unfold w2 in Hx. rewrite (rt_find w1 _ p (retain_rt k w1)), F1 in Hx. injection Hx as <-.
      split; [|repeat split]. cbn. rewrite Dr, <- Dk. reflexivity. }
  eapply obs_l; [apply (q_map_ptr p (set_r_hold_time h)); intros x; split; reflexivity|].
  eapply obs_trans; [apply o_changed|].
  set (w5 := route_changed _ _ _ _). clearbody w5. eapply obs_r; [|apply q_release].
  destruct (lost0 || _); [apply o_lost|]. apply obs_calm. cm.
Qed.

Lemma o_update id d q m iv n nh w : W [] w -> allowed (EvUpdate id d q m iv n nh) w ->
  obs w (n_update id d q m iv n nh w) (update_route id d q m iv n nh w).
Proof.
  intros Hw (A1 & A2 & _). unfold n_update, update_route. cbv zeta.
  destruct (match id with None => _ | Some _ => _ end); [apply obs_refl|].
  destruct (_ || _); [apply obs_refl|]. destruct (negb _); [apply obs_refl|].
  destruct (nb_if n w) as [[nb i]|] eqn:N; [|apply obs_calm, q_fault].
  destruct (_ >=? _); [apply obs_refl|]. destruct (find_route d n w) as [r|] eqn:Fr.
  - destruct (find_route_In d n w r (W_rt _ _ Hw) A2 Fr) as (Hr & Hd & Hn).
    assert (F : find_ptr (r_ptr r) w = Some r) by (apply find_ptr_iff; [apply (W_rt _ _ Hw)|auto]).
    destruct (beq (k_id (r_src r)) _).
    + destruct (src_of r w); [|apply obs_calm, q_fault]. eapply o_update_known; eauto. rewrite Hn. exact N.
    + destruct (find_source _ _ _ _ _) as [so t] eqn:Es. eapply obs_l; [apply (q_srcs t)|].
      destruct so as [so|]; [|apply obs_calm, q_fault].
      eapply (o_update_known []); [| |cbn; rewrite Hn; exact N|].
      * replace t with (snd (find_source (sec w) (mkey (match id with Some i => i | None => k_id (r_src r) end) d) true q (w_srcs w)))
          by (rewrite Es; reflexivity). apply W_find. exact Hw.
      * exact F.
      * symmetry. destruct d. exact Hd.
  - destruct (_ >=? _); [apply obs_refl|]. destruct id as [id|]; [|apply obs_calm, q_fault].
    destruct (find_source _ _ _ _ _) as [so t] eqn:Es. destruct nh as [nh|]; [|apply obs_calm, q_srcs].
    set (w1 := set_w_srcs t w). set (w2 := if update_feasible _ _ _ _ then w1 else _).
    assert (C2 : calm w w2).
    { eapply calm_trans; [apply (q_srcs t)|]. fold w1. unfold w2. destruct (update_feasible _ _ _ _); [apply calm_refl|apply q_unf]. }
    set (w3 := retain_source _ w2). assert (C3 : calm w w3) by (eapply calm_trans; [exact C2|apply q_retain]).
    set (r := new_route _ _ _ _ _ _ _ _ _ _). set (w4 := set_w_next _ w3).
    assert (Fresh : vw w3 (r_ptr r) = None).
    { destruct C3 as (V & _ & _ & Nx). change (r_ptr r) with (w_next w3). rewrite V, Nx. unfold vw.
      destruct (find_ptr (w_next w) w) as [x|] eqn:Fx; [|reflexivity]. exfalso.
      pose proof (W_next _ _ Hw x (find_In _ _ _ Fx)) as L. apply find_ptr_ptr in Fx. lia. }
    eapply obs_l; [exact C3|]. eapply obs_trans; [|apply o_consider].
    apply (obs_add1 w3 (insert_route r w4) (r_ptr r) (show r)).
    + exact Fresh.
    + intros x. rewrite (vw_insert r w4); [reflexivity|exact Fresh].
    + unfold insert_route. destruct (find_route_slot _ _); reflexivity.
    + unfold insert_route. destruct (find_route_slot _ _); reflexivity.
Qed.

(** ** Redistributed routes *)
Definition isd (d : dest) (x : xroute) : bool := if dest_dec (x_dest x) d then true else false.
Lemma isd_iff d x : isd d x = true <-> x_dest x = d.
Proof. unfold isd. destruct (dest_dec _ _); split; intros; (assumption || discriminate || contradiction || reflexivity). Qed.
Lemma isd_not d x : x_dest x <> d -> isd d x = false.
Proof. unfold isd. destruct (dest_dec _ _); [contradiction|reflexivity]. Qed.
Lemma xw_isd w d : xw w d = option_map x_metric (find (isd d) (w_xr w)).
Proof. reflexivity. Qed.
Lemma obs_x w w' n d m o : (forall p, vw w' p = vw w p) -> w_ktr w' = w_ktr w ->
  (forall e, xw w' e = if dest_dec e d then o else xw w e) ->
  n = match xw w d, o with
      | None, Some m => NXroute Add d m | Some _, Some m => NXroute Change d m | _, None => NXroute Flush d m end ->
  (xw w d <> None \/ o <> None) -> obs w [n] w'.
Proof.
  intros V K X -> Hn. split; [unfold nerr; rewrite K; auto|]. split; [intros _ P (G & H)|intros P (G & H)]; cbn.
  - assert (Ax : agrees (put_x d o P) w').
    { split; [intros p; rewrite V; apply G|]. intros e. cbn. rewrite X. destruct (dest_dec e d); auto. }
    destruct (xw w d) as [z|] eqn:E; destruct o as [y|]; cbn; rewrite H, E; eauto. tauto.
  - assert (Ax : near (put_x d o P) w').
    { split; [intros p; rewrite V; apply G|]. intros e. cbn. rewrite X. destruct (dest_dec e d); auto. }
    destruct (xw w d) as [z|] eqn:E; destruct o as [y|]; cbn; rewrite H, E; eauto. tauto.
Qed.
Lemma o_addx e d m i p w : W e w -> obs w (n_add_xroute d m i p w) (snd (add_xroute d m i p w)).
Proof.
  intros Hw. unfold n_add_xroute, add_xroute. destruct (find_xroute_slot d w) as [j|j] eqn:F; [apply obs_refl|].
  destruct (xslot_notfound _ _ _ (W_xr _ _ Hw) F) as (_ & Nd & _). cbn [snd].
  assert (X0 : xw w d = None).
  { rewrite xw_isd, find_none_all; [reflexivity|]. intros x Hx. apply isd_not. auto. }
  eapply (obs_x _ _ _ d 0 (Some (u16 m))); [reflexivity|reflexivity| |rewrite X0; reflexivity|right; discriminate].
  intros e0. rewrite !xw_isd. cbn [w_xr set_w_xr]. unfold insert_at. rewrite find_mid.
  replace (find (isd e0) (w_xr w)) with (find (isd e0) (firstn (Z.to_nat j) (w_xr w) ++ skipn (Z.to_nat j) (w_xr w)))
    by (rewrite firstn_skipn; reflexivity).
  rewrite find_two.
  destruct (dest_dec e0 d) as [-> |Ne].
  - rewrite find_none_all. 2:{ intros x Hx. apply isd_not. apply Nd. rewrite <- (firstn_skipn (Z.to_nat j)). apply in_or_app. auto. }
    unfold isd. cbn [x_dest]. destruct (dest_dec d d); [reflexivity|contradiction].
  - destruct (find (isd e0) (firstn _ _)); [reflexivity|]. rewrite isd_not by (cbn; congruence). reflexivity.
Qed.
Lemma split_x e w i x : W e w -> nth_error (w_xr w) i = Some x ->
  exists A B, w_xr w = A ++ x :: B /\ length A = i /\ (forall y, In y (A ++ B) -> x_dest y <> x_dest x).
Proof.
  intros Hw N. apply nth_error_split in N. destruct N as (A & B & E & L). exists A, B. split; [exact E|]. split; [exact L|].
  pose proof (W_xr _ _ Hw) as Sx. rewrite E in Sx.
  assert (Nd : NoDup (map x_dest (A ++ x :: B))) by (eapply sorted_NoDup_key; [|exact Sx]; auto using dest_compare_refl).
  rewrite map_app in Nd. cbn [map] in Nd. apply NoDup_remove_2 in Nd. rewrite <- map_app in Nd.
  intros y Hy Ey. apply Nd. rewrite <- Ey. apply in_map, Hy.
Qed.
Lemma o_flushx e i s w : W e w -> (i < length (w_xr w))%nat -> obs w (n_flush_xroute i w) (flush_xroute i s w).
Proof.
  intros Hw L. unfold n_flush_xroute, flush_xroute. destruct (nth_error (w_xr w) i) as [x|] eqn:N.
  2:{ apply nth_error_None in N. lia. }
  destruct (split_x e w i x Hw N) as (A & B & E & Li & Nd).
  destruct (w_xr w) as [|x0 xs] eqn:Ex; [cbn in L; lia|]. rewrite <- Ex in *. clear Ex. cbv zeta.
  set (d := mkDest _ _ _ _). set (w1 := set_w_xr _ w).
  pose proof (q_best d true None w1) as C. destruct (find_best_route d true None w1) as [q w2]. cbn [snd] in C.
  assert (X0 : xw w (x_dest x) = Some (x_metric x)).
  { rewrite xw_isd, E, find_mid, find_none_all by (intros y Hy; apply isd_not, Nd, in_or_app; auto).
    unfold isd. destruct (dest_dec _ _); [reflexivity|contradiction]. }
  eapply obs_trans with (w1 := w1).
  { eapply (obs_x _ _ _ (x_dest x) (x_metric x) None); [reflexivity|reflexivity| |rewrite X0; reflexivity|left; congruence].
    intros e0. rewrite !xw_isd. cbn [w_xr set_w_xr w1]. rewrite E, <- Li, remove_at_split, find_mid, find_two.
    destruct (dest_dec e0 (x_dest x)) as [-> |Ne].
    - rewrite !find_none_all; [reflexivity| |]; intros y Hy; apply isd_not, Nd, in_or_app; auto.
    - destruct (find (isd e0) A); [reflexivity|]. rewrite isd_not by congruence. reflexivity. }
  eapply obs_l; [exact C|]. destruct (match q with Some _ => _ | None => _ end) as [q'|].
  - destruct s; [|apply o_install]. eapply obs_r; [apply o_install|apply q_sua].
  - destruct s; [apply obs_calm, q_sur|apply obs_refl].
Qed.
Lemma o_modx e i k s w : W e w -> obs w (n_modify_xroute i k w) (modify_xroute i k s w).
Proof.
  intros Hw. unfold n_modify_xroute, modify_xroute. destruct (nth_error (w_xr w) i) as [x|] eqn:N; [|apply obs_calm, q_fault].
  destruct (_ || _); [|apply obs_refl]. cbv zeta. set (x' := set_x_metric _ _).
  destruct (split_x e w i x Hw N) as (A & B & E & Li & Nd).
  assert (X0 : xw w (x_dest x) = Some (x_metric x)).
  { rewrite xw_isd, E, find_mid, find_none_all by (intros y Hy; apply isd_not, Nd, in_or_app; auto).
    unfold isd. destruct (dest_dec _ _); [reflexivity|contradiction]. }
  assert (O : obs w (xnote Change x') (set_w_xr (upd i x' (w_xr w)) w)).
  { eapply (obs_x _ _ _ (x_dest x) 0 (Some (x_metric x'))); [reflexivity|reflexivity| |rewrite X0; reflexivity|left; congruence].
    intros e0. rewrite !xw_isd. cbn [w_xr set_w_xr]. rewrite E, <- Li, upd_middle, !find_mid.
    destruct (dest_dec e0 (x_dest x)) as [-> |Ne].
    - rewrite find_none_all by (intros y Hy; apply isd_not, Nd, in_or_app; auto).
      unfold isd. change (x_dest x') with (x_dest x). destruct (dest_dec _ _); [reflexivity|contradiction].
    - destruct (find (isd e0) A); [reflexivity|]. rewrite !isd_not by (cbn; congruence). reflexivity. }
  destruct s; [|exact O]. eapply obs_r; [exact O|apply q_sua].
Qed.
Lemma o_dup k w : obs w (n_duplicate k w) (flush_duplicate_route k w).
Proof.
  unfold n_duplicate, flush_duplicate_route. destruct (find_installed _ w); [|apply obs_refl].
  destruct (_ || _); [apply o_uninstall|apply obs_refl].
Qed.
Lemma o_notify e b k w : W e w -> obs w (n_notify b k w) (kernel_route_notify b k w).
Proof.
  intros Hw. unfold n_notify, kernel_route_notify. cbv zeta. set (k1 := filter_kroute w k).
  destruct (_ >=? _); [apply obs_refl|]. destruct (find_xroute_slot (kr_dest k1) w) as [i|j] eqn:F.
  - destruct (xslot_found _ _ _ (W_xr _ _ Hw) F) as (A & x & B & E & -> & _). rewrite Nat2Z.id.
    destruct b; [eapply o_modx; eauto|]. eapply o_flushx; eauto. rewrite E, app_length. cbn. lia.
  - destruct (negb b); [apply obs_refl|]. destruct (martian_prefix _ _); [apply obs_refl|].
    pose proof (o_addx e (kr_dest k1) (kr_metric k1) (kr_ifindex k1) (kr_proto k1) w Hw) as O.
    destruct (add_xroute _ _ _ _ w) as [ok w1]. cbn [snd] in O. eapply obs_trans; [exact O|].
    destruct ok; [|apply obs_refl]. eapply obs_r; [apply o_dup|apply q_sua].
Qed.
Lemma o_merge e f s : forall rs j w, W e w -> obs w (n_merge f rs j s w) (merge f rs j s w).
Proof.
  induction f as [|f IH]; intros rs j w Hw; cbn [merge n_merge]; [apply obs_calm, q_nofuel|].
  assert (Fl : forall rs, (j < length (w_xr w))%nat ->
    obs w (n_flush_xroute j w ++ n_merge f rs j s (flush_xroute j s w)) (merge f rs j s (flush_xroute j s w))).
  { intros rs' L. eapply obs_trans; [eapply o_flushx; eauto|]. apply IH. eapply chain_W; [apply flush_xroute_chain; eauto|exact Hw]. }
  destruct rs as [|k rs].
  { destruct (j <? length (w_xr w))%nat eqn:L; [|apply obs_refl]. apply Fl. apply Nat.ltb_lt in L. exact L. }
  destruct (_ >=? _); [apply IH, Hw|].
  match goal with |- context [match nth_error (w_xr w) j with Some x => _ | None => ?a end] =>
    match goal with |- obs w ?l ?r => match l with context [match nth_error (w_xr w) j with Some x => _ | None => ?na end] =>
      match r with context [match nth_error (w_xr w) j with Some x => _ | None => ?b end] => assert (Ad : obs w na b) end end end end.
  { destruct (martian_prefix _ _) eqn:Hm; cbn [negb]; [apply IH, Hw|].
    pose proof (o_addx e (kr_dest k) (kr_metric k) (kr_ifindex k) (kr_proto k) w Hw) as O.
    destruct (add_xroute _ _ _ _ w) as [ok w1] eqn:A. pose proof (add_xroute_chain _ _ _ _ _ _ _ _ Hw Hm A) as C.
    pose proof (chain_W _ _ _ C Hw) as Hw1. cbn [snd] in O. eapply obs_trans; [exact O|].
    destruct ok; [|apply IH, Hw1]. cbv zeta. eapply obs_trans; [apply o_dup|].
    pose proof (quiet_W _ _ _ (flush_dup_chain e w1 k Hw1) Hw1) as Hw2. set (w2 := flush_duplicate_route k w1) in *.
    destruct s; [|apply IH, Hw2]. eapply obs_l; [apply q_sua|]. apply IH.
    eapply W_frame; [apply send_update_all_frame; eapply W_refs; eauto|exact Hw2]. }
  destruct (nth_error (w_xr w) j) as [x|] eqn:N; [|exact Ad].
  assert (L : (j < length (w_xr w))%nat) by (apply nth_error_Some; congruence).
  cbv zeta. destruct (_ <? 0); [exact Ad|]. destruct (_ >? 0); [apply Fl, L|].
  eapply obs_trans; [eapply o_modx; eauto|]. apply IH. eapply chain_W; [apply modify_xroute_chain; eauto|exact Hw].
Qed.

(** ** Events *)
Lemma o_on_nb n f w : obs w (n_on_nb n f w) (on_nb n f w).
Proof.
  unfold n_on_nb, on_nb. destruct (get_nb n w) as [nb|]; [|apply obs_calm, q_fault]. destruct (f nb) as [nb' c].
  eapply obs_l; [apply q_map_nb|apply o_unm].
Qed.
Lemma o_run1 ev w : W [] w -> allowed ev w -> obs w (n_run1 ev w) (run1 ev w).
Proof.
  intros Hw A. destruct ev; cbn [n_run1 run1]; try (apply obs_calm; cm; fail).
  - eapply o_update; eauto.
  - apply o_rnr.
  - apply obs_calm. unfold recv_request. cm.
  - apply obs_calm, q_request.
  - apply o_on_nb.
  - apply o_on_nb.
  - unfold n_recv_rtt, recv_rtt. destruct (nb_if n w) as [[nb i]|]; [|apply obs_calm, q_fault].
    destruct (rtt_sample _ _ _); [|apply obs_refl]. cbv zeta.
    eapply obs_r; [|apply q_map_nb]. eapply obs_l; [apply q_map_nb|apply o_unm].
  - apply obs_calm. unfold find_neighbour. cm.
  - eapply o_checks; eauto.
  - apply o_uim.
  - eapply o_flush_sel; eauto.
  - eapply o_expire; eauto.
  - eapply o_notify; eauto.
  - eapply o_merge; eauto.
  - eapply o_flush_all; eauto.
Qed.

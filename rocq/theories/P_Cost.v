(** P_Cost.v: C60, when Hellos and RTT samples reach the metrics of routes. *)
From Verif Require Import Base M_Util S_Util L_Util M_Slot L_Slot M_Source S_Source L_Source
  M_Filter M_Types M_Neigh S_Neigh L_Neigh M_State M_Table M_Msg M_Route S_World M_Xroute M_Daemon L_Table L_Step L_Msg L_Smooth L_Quiet L_Trace
  L_Select L_Select2 L_Chain L_Chain2 L_Chain3 L_Flush L_Update L_Update2 L_Daemon L_Inv L_World L_World2 L_World3 L_World4 L_Nbs L_Walk X_Run.

(** update_neighbour_metric with a new state of the neighbour *)
Lemma nb_applied w n nb nb1 : W [] w -> get_nb n w = Some nb ->
  n_id nb1 = n_id nb -> n_if nb1 = n_if nb -> n_addr nb1 = n_addr nb -> (tv_ok (w_now w) -> neigh_ok nb -> neigh_ok nb1) ->
  let w' := update_neighbour_metric n true (map_nb n (fun _ => nb1) w) in
  w_now w' = w_now w /\ W [] w' /\ (forall x, In x (w_nbs w') -> n_id x = n -> x = nb1) /\ kmono w w' /\
  forall i r, In i (w_ifs w') -> if_id i = n_if nb1 -> iface_in i -> neigh_ok nb1 ->
    In r (all_routes w') -> r_neigh r = n -> now_s w' <= r_time r + r_hold_time r ->
    r_cost r = neighbour_cost (w_now w') i nb1 \/ krefused w w'.
Proof.
  intros Hw G I1 I2 I3 Ok. set (w1 := map_nb n (fun _ => nb1) w). cbv zeta.
  assert (Gn : In nb (w_nbs w) /\ n_id nb = n) by (unfold get_nb in G; apply find_some in G; destruct G; split; [auto|lia]). destruct Gn as (Gi & Ge).
  assert (C1 : chain [] w w1) by (eapply set_nb_chain; eauto).
  pose proof (chain_W _ _ _ C1 Hw) as Hw1. destruct (cost_applied w1 n Hw1) as (Hw' & K & _ & B).
  set (w' := update_neighbour_metric n true w1) in *.
  assert (Only : forall x, In x (w_nbs w') -> n_id x = n -> x = nb1).
  { intros x Hx Ex. rewrite (kp_nbs _ _ K) in Hx. unfold w1, map_nb in Hx. cbn [w_nbs set_w_nbs] in Hx. apply in_map_iff in Hx.
    destruct Hx as (y & Ey & Hy). destruct (n_id y =? n) eqn:Yn; [auto|]. subst y. lia. }
  assert (In1 : In nb1 (w_nbs w')).
  { rewrite (kp_nbs _ _ K). unfold w1, map_nb. cbn [w_nbs set_w_nbs]. apply in_map_iff. exists nb. split; [|exact Gi]. rewrite Ge, Z.eqb_refl. reflexivity. }
  split; [rewrite (kp_now _ _ K); reflexivity|]. split; [exact Hw'|]. split; [exact Only|].
  split; [eapply kmono_trans; [apply (star_log _ _ _ C1)|apply (star_log _ _ _ (update_neighbour_metric_chain [] w1 n true Hw1))]|].
  intros i r' Hi Ii Fi No Hr' Nr' Ti.
  assert (X : nb_if n w' = Some (nb1, i)) by (apply (nb_if_iff _ _ _ _ _ Hw'); split; [exact In1|]; split; [congruence|auto]).
  destruct (keeps_nb_if _ _ _ _ _ K X) as (i0 & X0 & St).
  destruct (keeps_In' _ _ _ K Hr') as (r & Hr & E). destruct (stay_ident r' r (eq_sym (eq_sym E))) as (J1' & J2' & J3' & J4' & J5' & J6').
  destruct (B r nb1 i0 Hr) as (r2 & Hr2 & (J1 & _) & P); [congruence|auto|].
  assert (r2 = r') by (eapply NoDup_map_inj; [apply (wf_ptrs _ (W_rt _ _ Hw'))| | |]; auto; congruence). subst r2.
  destruct P as [P|P]; [left|right; eapply refused_l; [apply (star_log _ _ _ C1)|exact P]].
  unfold now_s in Ti. rewrite (kp_now _ _ K) in Ti. unfold sec in P. rewrite J5', J6' in P.
  destruct (r_time r' <? _) eqn:Y; [lia|]. destruct P as (_ & _ & P & _). rewrite P.
  destruct (cost_stat (w_now w1) i0 i nb1 St) as (E1 & _). rewrite E1, (kp_now _ _ K).
  pose proof (cost_in (w_now w1) i nb1 Fi No) as (Cr & _). apply u16_same. unfold u16_ok, INFINITY in *. lia.
Qed.
Lemma hist_reports now h q iv : 0 <= q -> Z.land (h_reach (fst (update_hist now h q iv))) 64512 <> 64512 -> snd (update_hist now h q iv) = true.
Proof.
  intros Hq. unfold update_hist. replace (q <? 0) with false by lia.
  destruct (if (h_seqno h >=? 0) && (h_reach h >? 0) then _ else _) as [[r1 m] c1].
  destruct (if negb (iv =? 0) then _ else _) as [t1 iv1]. destruct (if m >? 0 then _ else _) as [r2 c2].
  cbn [fst snd h_reach]. intros N. replace (Z.land _ 64512 =? 64512) with false by lia. apply orb_true_r.
Qed.

(** After a Hello, unless the last six Hellos of its kind have all been received, every
    unexpired route learned from the neighbour carries the present cost of the link
    (unless the kernel refused a change). *)
Theorem C60_hello_cost_applied : forall c w n u q iv nb' i, c_half_life c <> 2 -> reach c w -> allowed (EvHello n u q iv) w ->
  let w' := run1 (EvHello n u q iv) w in
  In nb' (w_nbs w') -> n_id nb' = n -> In i (w_ifs w') -> if_id i = n_if nb' ->
  Z.land (h_reach (if u then n_uhello nb' else n_hello nb')) 64512 <> 64512 ->
  forall r, In r (all_routes w') -> r_neigh r = n -> now_s w' <= r_time r + r_hold_time r ->
    r_cost r = neighbour_cost (w_now w') i nb' \/ krefused w w'.
Proof.
  intros c w n u q iv nb' i H R A. pose proof (reach_run c w (EvHello n u q iv) R A) as R'.
  destruct (reach_W c w H R) as (Hw & _). destruct A as (A1 & A2 & A3). cbn [run1] in *. unfold recv_hello, on_nb in *.
  destruct (known_has _ _ _ Hw A1) as (nb & ix & N). destruct (nb_if_get _ _ _ _ N) as (G & _). rewrite G in *.
  assert (Sp : (if u then let '(h, ch) := update_hist (w_now w) (n_uhello nb) q iv in (set_n_uhello h nb, ch)
     else let '(h, ch) := update_hist (w_now w) (n_hello nb) q iv in (set_n_hello h nb, ch)) =
     ((if u then set_n_uhello (fst (update_hist (w_now w) (n_uhello nb) q iv)) nb else set_n_hello (fst (update_hist (w_now w) (n_hello nb) q iv)) nb),
      snd (update_hist (w_now w) (if u then n_uhello nb else n_hello nb) q iv))).
  { destruct u; destruct (update_hist _ _ _ _); reflexivity. }
  rewrite Sp in *. clear Sp. set (nb1 := if u then set_n_uhello _ nb else _) in *. cbv zeta.
  assert (Id : n_id nb1 = n_id nb /\ n_if nb1 = n_if nb /\ n_addr nb1 = n_addr nb) by (unfold nb1; destruct u; auto). destruct Id as (Id1 & Id2 & Id3).
  assert (Re : h_reach (if u then n_uhello nb1 else n_hello nb1) = h_reach (fst (update_hist (w_now w) (if u then n_uhello nb else n_hello nb) q iv))) by (unfold nb1; destruct u; reflexivity).
  intros Hn' Ni' Hi Ii Six.
  assert (Nb : nb' = nb1).
  { rewrite L_Nbs.nk_unm in Hn'. unfold map_nb in Hn'. cbn [w_nbs set_w_nbs] in Hn'. apply in_map_iff in Hn'.
    destruct Hn' as (y & Ey & Hy). destruct (n_id y =? n) eqn:Yn; [auto|]. subst y. lia. }
  subst nb'. rewrite Re in Six. rewrite (hist_reports _ _ _ _ (proj1 A2) Six) in *.
  destruct (nb_applied w n nb nb1 Hw G Id1 Id2 Id3) as (_ & _ & _ & _ & P).
  { intros T (N1 & N2 & N3). unfold nb1. destruct u; (split; [|split]); auto; apply update_hist_ok; auto. }
  pose proof (reach_rng c _ H R') as Rg. intros r Hr Nr Ti. apply P; auto; [apply (rg_ifs _ Rg i Hi)|apply (rg_nbs _ Rg nb1 Hn')].
Qed.
Print Assumptions C60_hello_cost_applied.

Lemma valid_now t x : valid_rtt t (set_n_rtt_time t x) = true.
Proof.
  unfold valid_rtt. cbn [n_rtt_time set_n_rtt_time]. unfold timeval_minus_msec. rewrite !Z.sub_diag.
  replace (tv_sec t >? tv_sec t) with false by lia. replace (tv_sec t <? tv_sec t) with false by lia. destruct (tv_usec t <=? tv_usec t); reflexivity.
Qed.

(** After a RTT sample that changes the penalty of a neighbour whose RTT was valid before,
    every unexpired route learned from it carries the present cost of the link. *)
Theorem C60_rtt_cost_applied : forall c w n t1 t2 nb nb' i, c_half_life c <> 2 -> reach c w -> allowed (EvRtt n t1 t2) w ->
  In nb (w_nbs w) -> n_id nb = n -> valid_rtt (w_now w) nb = true ->
  let w' := run1 (EvRtt n t1 t2) w in
  In nb' (w_nbs w') -> n_id nb' = n -> In i (w_ifs w') -> if_id i = n_if nb' ->
  rttcost (w_now w') i nb' <> rttcost (w_now w) i nb ->
  forall r, In r (all_routes w') -> r_neigh r = n -> now_s w' <= r_time r + r_hold_time r ->
    r_cost r = neighbour_cost (w_now w') i nb' \/ krefused w w'.
Proof.
  intros c w n t1 t2 nb nb' i H R A Hnb Nid V. pose proof (reach_run c w (EvRtt n t1 t2) R A) as R'. pose proof (reach_rng c _ H R') as Rg. pose proof (reach_rng c _ H R) as Rg0.
  destruct (reach_W c w H R) as (Hw & _). cbn [run1] in *. unfold recv_rtt in *.
  destruct (known_has _ _ _ Hw A) as (x & i0 & N). destruct (nb_if_get _ _ _ _ N) as (G & _).
  assert (x = nb).
  { unfold get_nb in G. apply find_some in G. destruct G as (Gi & Ge). eapply NoDup_map_inj; [apply (W_nbs _ _ Hw)| | |]; auto. lia. }
  subst x. rewrite N in *. apply (nb_if_iff _ _ _ _ _ Hw) in N. destruct N as (_ & _ & Hi0 & Ii0).
  destruct (rtt_sample nb t1 t2) as [rtt|].
  2:{ cbv zeta. intros Hn' Ni' Hi Ii D. exfalso. apply D. f_equal. eapply NoDup_map_inj; [apply (W_nbs _ _ Hw)| | |]; auto. congruence. }
  set (nb1 := set_n_rtt (rtt_update (w_now w) i0 nb rtt) nb) in *. set (ch := negb _) in *. set (w1 := map_nb n (fun _ => nb1) w) in *.
  cbv zeta. set (w2 := update_neighbour_metric n ch w1) in *. intros Hn' Ni' Hi Ii D r Hr Nr Ti.
  assert (Ok : tv_ok (w_now w) -> neigh_ok nb -> neigh_ok nb1).
  { intros T (A1 & A2 & A3 & A4 & A5 & A6 & A7). unfold neigh_ok, nb1. cbn. repeat (split; [assumption|]). split; [apply rtt_update_range|assumption]. }
  assert (C1 : chain [] w w1) by (eapply set_nb_chain; eauto; reflexivity).
  pose proof (chain_W _ _ _ C1 Hw) as Hw1. pose proof (update_neighbour_metric_chain [] w1 n ch Hw1) as C2. fold w2 in C2.
  assert (En : w_now w2 = w_now w) by (apply chain_now in C2; rewrite C2; reflexivity).
  assert (Nb : nb' = set_n_rtt_time (w_now w) nb1).
  { unfold map_nb in Hn' at 1. cbn [w_nbs set_w_nbs] in Hn'. unfold w2 in Hn'. rewrite L_Nbs.nk_unm in Hn'. unfold w1, map_nb in Hn'. cbn [w_nbs set_w_nbs] in Hn'. rewrite map_map in Hn'.
    apply in_map_iff in Hn'. destruct Hn' as (y & Ey & Hy). destruct (n_id y =? n) eqn:Yn; [replace (n_id nb1 =? n) with true in Ey by (change (n_id nb1) with (n_id nb); lia); auto|].
    rewrite Yn in Ey. subst y. lia. }
  assert (V1 : valid_rtt (w_now w) (set_n_rtt_time (w_now w) nb1) = true).
  { apply valid_now. }
  assert (V0 : valid_rtt (w_now w) nb1 = true) by exact V.
  assert (Rc : forall j, rttcost (w_now w) j (set_n_rtt_time (w_now w) nb1) = rttcost (w_now w) j nb1) by (intros j; unfold rttcost, neighbour_rttcost; rewrite V1, V0; reflexivity).
  assert (Nc : forall j, neighbour_cost (w_now w) j (set_n_rtt_time (w_now w) nb1) = neighbour_cost (w_now w) j nb1) by (intros j; unfold neighbour_cost; rewrite Rc; reflexivity).
  change (w_now (map_nb n (set_n_rtt_time (w_now w)) w2)) with (w_now w2) in *. subst nb'. rewrite En in *. rewrite Nc. rewrite Rc in D.
  change (w_ifs (map_nb n (set_n_rtt_time (w_now w)) w2)) with (w_ifs w2) in *.
  assert (Fs : ifstat i0 = ifstat i).
  { assert (Fs : map ifstat (w_ifs w2) = map ifstat (w_ifs w)) by (apply (star_menv _ _ _ (chain_trans _ _ _ _ C1 C2))).
    pose proof (in_map ifstat _ _ Hi) as Hm. rewrite Fs in Hm. apply in_map_iff in Hm. destruct Hm as (j & Ej & Hj). rewrite <- Ej. f_equal.
    eapply NoDup_map_inj; [apply (W_ifs _ _ Hw)| | |]; auto. apply (f_equal if_id) in Ej. cbn in Ej. cbn in Ii. congruence. }
  assert (Rs : forall x, rttcost (w_now w) i0 x = rttcost (w_now w) i x).
  { intros x. change (rttcost (w_now w) i0 x) with (rttcost (w_now w) (ifstat i0) x). rewrite Fs. reflexivity. }
  assert (Ch : ch = true) by (unfold ch; rewrite !Rs; apply negb_true_iff; lia).
  unfold w2 in *. rewrite Ch in *. destruct (nb_applied w n nb nb1 Hw G eq_refl eq_refl eq_refl Ok) as (_ & _ & _ & _ & P). fold w1 in P.
  assert (Nok : neigh_ok nb1) by (apply Ok; [apply (rg_now _ Rg0)|apply (rg_nbs _ Rg0 nb Hnb)]).
  destruct (P i r Hi Ii (rg_ifs _ Rg i Hi) Nok Hr Nr Ti) as [E|E]; [left; rewrite En in E; exact E|right; exact E].
Qed.
Print Assumptions C60_rtt_cost_applied.

(** ** Examples *)
(** Eight Hellos of neighbour 1 have been lost. *)
Example C60_hello_ex : reach x_conf x_w2 /\ allowed (EvHello 1 false 110 400) x_w2 /\
  map (fun n => (n_id n, h_reach (n_hello n))) (w_nbs (run1 (EvHello 1 false 110 400) x_w2)) = [(2, 49152); (1, 32864)] /\
  map (fun r => (r_neigh r, r_cost r)) (all_routes x_w2) = [(2, 128); (1, 96); (1, 96)] /\
  map (fun r => (r_neigh r, r_cost r)) (all_routes (run1 (EvHello 1 false 110 400) x_w2)) = [(2, 128); (1, 65535); (1, 65535)].
Proof.
  split; [apply x_reach2|]. split; [apply allowedb_ok; vm_compute; reflexivity|]. split; [vm_compute; reflexivity|]. split; vm_compute; reflexivity.
Qed.
(** A second sample of 0.1 s after one of 0.02 s. *)
Definition rtt_w : world := run1 (EvTimestamp 1 6000) (run1 (EvRtt 1 1059980000 5000) (run1 (EvTimestamp 1 5000) x_w2)).
Example C60_rtt_ex : reach x_conf rtt_w /\ allowed (EvRtt 1 1059900000 6000) rtt_w /\
  map (fun n => (n_id n, valid_rtt (w_now rtt_w) n, n_rtt n)) (w_nbs rtt_w) = [(2, false, 0); (1, true, 40000)] /\
  map (fun r => (r_neigh r, r_cost r)) (all_routes (run1 (EvRtt 1 1059900000 6000) rtt_w)) = [(2, 128); (1, 150); (1, 150)].
Proof.
  split; [|split; [apply knownb_In; vm_compute; reflexivity|split; vm_compute; reflexivity]].
  apply reach_run; [|exact Logic.I]. apply reach_run; [|apply knownb_In; vm_compute; reflexivity]. apply reach_run; [apply x_reach2|exact Logic.I].
Qed.

(** After the sixth Hello in a row a link that measures quality has become better, but its routes
    keep the old cost (neighbour.c:190-194). *)
Definition q_if : iface := mkIf 1 101 9 256 tv0 tv0 tv0 (Some [10;0;1;1]) [x_addr 1] 200 [] 1400 0 400 1600 42 10000 120000 150.
Definition q_w : world := run [EvClock (mkTv 1001 0); EvNeighbour (x_addr 51) 1; EvHello 1 false 100 400; EvHello 1 false 101 400; EvHello 1 false 102 400;
    EvHello 1 false 103 400; EvHello 1 false 104 400; EvIhu 1 256 1200; EvUpdate (Some (x_id 7)) (xd 1) 40 300 1600 1 (x_nh 51)] (boot x_conf (mkTv 1000 0) [q_if] 17).
Lemma q_reach : reach x_conf q_w.
Proof.
  apply reach_list; [|vm_compute; reflexivity]. apply reach_boot; [repeat constructor; simpl; lia| |unfold tv_ok; simpl; lia|unfold u16_ok; simpl; lia].
  repeat constructor; simpl; lia.
Qed.
Theorem C60_hello_refuted : exists c w n q iv x i r, c_half_life c <> 2 /\ reach c w /\ allowed (EvHello n false q iv) w /\
  let w' := run1 (EvHello n false q iv) w in
  In x (w_nbs w') /\ n_id x = n /\ In i (w_ifs w') /\ if_id i = n_if x /\ neighbour_cost (w_now w') i x = 264 /\
  In r (all_routes w') /\ r_neigh r = n /\ now_s w' <= r_time r + r_hold_time r /\ r_cost r = 273 /\ w_ktr w' = w_ktr w.
Proof.
  set (ev := EvHello 1 false 105 400). assert (Al : allowed ev q_w) by (apply allowedb_ok; vm_compute; reflexivity).
  assert (Q : match nb_if 1 (run1 ev q_w) with Some (x, i) => neighbour_cost (w_now (run1 ev q_w)) i x | None => 0 end = 264) by (vm_compute; reflexivity).
  destruct (nb_if 1 (run1 ev q_w)) as [(x, i)|] eqn:N; [|discriminate].
  assert (Hw : W [] (run1 ev q_w)) by (apply (reach_W x_conf _ x_hl); apply reach_run; [apply q_reach|exact Al]).
  apply (nb_if_iff _ _ _ _ _ Hw) in N. destruct N as (N1 & N2 & N3 & N4).
  assert (Hr : existsb (fun r => (r_neigh r =? 1) && (now_s (run1 ev q_w) <=? r_time r + r_hold_time r) && (r_cost r =? 273)) (all_routes (run1 ev q_w)) = true) by (vm_compute; reflexivity).
  apply existsb_exists in Hr. destruct Hr as (r & Hr & E). apply andb_prop in E. destruct E as (E & E3). apply andb_prop in E. destruct E as (E1 & E2).
  exists x_conf, q_w, 1, 105, 400, x, i, r. split; [apply x_hl|]. split; [apply q_reach|]. split; [exact Al|]. cbv zeta. fold ev.
  split; [exact N1|]. split; [exact N2|]. split; [exact N3|]. split; [exact N4|]. split; [exact Q|]. split; [exact Hr|].
  split; [apply Z.eqb_eq, E1|]. split; [apply Z.leb_le, E2|]. split; [apply Z.eqb_eq, E3|]. vm_compute. reflexivity.
Qed.
Print Assumptions C60_hello_refuted.

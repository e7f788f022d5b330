(** P_Dump.v: C73, what the control socket prints. *)
From Coq Require Import String.
From Verif Require Import Base M_Config M_Util S_Util L_Util M_Filter S_Filter L_Filter M_Source M_Types M_Neigh S_Neigh L_Neigh M_State M_Table M_Daemon S_World
  L_Step L_Inv L_Daemon L_World M_Dump S_Dump L_Dump X_Run.
Close Scope string_scope.
Open Scope Z_scope.

(** The values in the tables are of their types: addresses have 16 bytes, router-ids 8,
    IPv4 addresses of interfaces 4, pointers 64 bits; prefix lengths are at most 128, metrics
    have 16 bits; the names of interfaces are as the system allows them, and the interfaces
    where neighbours are have parameters in the documented ranges. *)
Definition tables_ok (nm : Z -> list Z) (w : world) : Prop :=
  (forall i, In i (w_ifs w) -> name_ok (nm (if_id i)) /\ (forall a, In a (if_ll i) -> addr_ok a) /\
    (forall a, if_ipv4 i = Some a -> length a = 4%nat /\ bytes_ok a)) /\
  (forall n, In n (w_nbs w) -> addr_ok (n_addr n) /\ 0 <= n_id n < 18446744073709551616 /\
    (forall i, In i (w_ifs w) -> if_id i = n_if n -> iface_ok i)) /\
  (forall x, In x (w_xr w) -> dest_ok (x_dest x) /\ 0 <= x_metric x < 65536) /\
  (forall r, In r (all_routes w) -> dest_ok (dest_of r) /\ id_ok (k_id (r_src r)) /\ 0 <= r_ptr r < 18446744073709551616).

(** What the lines are to say. *)
Definition if_item (nm : Z -> list Z) (i : iface) : item :=
  IIf (nm (if_id i)) (if if_up i then Some (match if_ll i with [] => None | a :: _ => Some a end, if_ipv4 i) else None).
Definition nb_item (nm : Z -> list Z) (w : world) (n : neigh) (i : iface) : item :=
  INb (n_id n) (n_addr n) (nm (if_id i)) (h_reach (n_hello n)) (h_reach (n_uhello n)) (neighbour_rxcost (w_now w) i n) (n_txcost n)
    (if timeval_minus_msec (w_now w) (n_rtt_time n) <? 180000 then Some (n_rtt n, rttcost (w_now w) i n) else None)
    (neighbour_cost (w_now w) i n).
Definition rt_item (nm : Z -> list Z) (r : route) (n : neigh) (i : iface) : item :=
  IRt (r_ptr r) (dest_of r) (r_installed r) (k_id (r_src r)) (metric_of r) (r_refmetric r) (n_addr n) (nm (if_id i)).

(** [lines] lists the tables: one line for each interface, each neighbour, each redistributed
    route and each route, in this order, and nothing else. *)
Definition lists_tables (nt : list Z -> list Z) (nm : Z -> list Z) (w : world) (lines : list (list Z)) : Prop :=
  exists li ln lx lr, lines = li ++ ln ++ lx ++ lr /\
  Forall2 (fun i l => says nt (str "add") l (if_item nm i)) (w_ifs w) li /\
  Forall2 (fun n l => exists i, In i (w_ifs w) /\ if_id i = n_if n /\ says nt (str "add") l (nb_item nm w n i)) (w_nbs w) ln /\
  Forall2 (fun x l => says nt (str "add") l (IXr (x_dest x) (x_metric x))) (w_xr w) lx /\
  Forall2 (fun r l => exists n i, In n (w_nbs w) /\ n_id n = r_neigh r /\ In i (w_ifs w) /\ if_id i = n_if n /\
    says nt (str "add") l (rt_item nm r n i)) (all_routes w) lr.

Section Dump.
Variable nt : list Z -> list Z.
Variable nm : Z -> list Z.
Variable c : conf.
Variable w : world.
Hypothesis Hn : ntop_ok nt.
Hypothesis Hl : c_half_life c <> 2.
Hypothesis R : reach c w.
Hypothesis T : tables_ok nm w.

Lemma map_read : forall A (f : A -> list Z) (Q : A -> list Z -> Prop) (l : list A),
  (forall a, In a l -> exists b, f a = b ++ [10] /\ Q a b /\ ~ In 10 b /\ (length (f a) < 512)%nat) ->
  exists bs, map f l = map (fun b => b ++ [10]) bs /\ Forall2 Q l bs /\ Forall (fun b => ~ In 10 b) bs /\ Forall (fun x => (length x < 512)%nat) (map f l).
Proof.
  intros A f Q. induction l as [|a l IH]; intros H; [exists []; cbn; repeat split; constructor|].
  destruct (H a (or_introl eq_refl)) as (b & E & Hq & N & L). destruct IH as (bs & Em & F1 & F2 & F3); [intros; apply H; simpl; auto|].
  exists (b :: bs). cbn [map]. rewrite <- Em, <- E. repeat split; constructor; auto.
Qed.
Lemma flat_one : forall A B (f : A -> option B) (g : A -> B -> list Z) (h : A -> list Z) l,
  (forall a, In a l -> exists b, f a = Some b /\ h a = g a b) ->
  flat_map (fun a => match f a with Some b => [g a b] | None => [] end) l = map h l.
Proof.
  induction l as [|a l IH]; intros H; [reflexivity|]. cbn [flat_map map]. destruct (H a (or_introl eq_refl)) as (b & -> & ->).
  cbn [app]. f_equal. apply IH. intros; apply H; simpl; auto.
Qed.
Lemma dump_read : exists bs, dump_lines nt nm w = map (fun b => b ++ [10]) bs /\ lists_tables nt nm w bs /\
  Forall (fun b => ~ In 10 b) bs /\ Forall (fun l => (length l < 512)%nat) (dump_lines nt nm w).
Proof.
  destruct (reach_W c w Hl R) as (Hw & _). pose proof (reach_rng c w Hl R) as G. destruct T as (T1 & T2 & T3 & T4).
  assert (K : local_kind LOCAL_ADD = str "add") by reflexivity.
  destruct (map_read _ (fun i => if_line nt nm i LOCAL_ADD) (fun i l => says nt (str "add") l (if_item nm i)) (w_ifs w)) as (b1 & E1 & F1 & N1 & L1).
  { intros i Hi. destruct (T1 i Hi) as (A & B & C). destruct (if_line_ok nt nm i LOCAL_ADD Hn A B C) as (b & X). rewrite K in X. exists b. exact X. }
  set (fn := fun n => match get_if (n_if n) w with Some i => nb_line nt nm (w_now w) i n LOCAL_ADD | None => [] end).
  assert (Gn : forall n, In n (w_nbs w) -> exists i, get_if (n_if n) w = Some i /\ In i (w_ifs w) /\ if_id i = n_if n).
  { intros n Hn'. pose proof (W_nbif _ _ Hw n Hn') as X. apply in_map_iff in X. destruct X as (i & Ei & Hi).
    unfold get_if. destruct (find (fun x => if_id x =? n_if n) (w_ifs w)) as [j|] eqn:F.
    - apply find_some in F. exists j. split; [reflexivity|]. split; [tauto|lia].
    - apply find_none with (x := i) in F; auto. lia. }
  destruct (map_read _ fn (fun n l => exists i, In i (w_ifs w) /\ if_id i = n_if n /\ says nt (str "add") l (nb_item nm w n i)) (w_nbs w)) as (b2 & E2 & F2 & N2 & L2).
  { intros n Hn'. destruct (Gn n Hn') as (i & Gi & Hi & Ei). unfold fn. rewrite Gi. destruct (T2 n Hn') as (A & B & C).
    destruct (nb_line_ok nt nm (w_now w) i n LOCAL_ADD Hn (proj1 (T1 i Hi)) A B (C i Hi Ei) (rg_nbs _ G n Hn')) as (b & X1 & X2 & X3).
    rewrite K in X2. exists b. split; [exact X1|]. split; [|exact X3]. exists i. auto. }
  destruct (map_read _ (fun x => xr_line nt x LOCAL_ADD) (fun x l => says nt (str "add") l (IXr (x_dest x) (x_metric x))) (w_xr w)) as (b3 & E3 & F3 & N3 & L3).
  { intros x Hx. destruct (T3 x Hx) as (A & B). destruct (xr_line_ok nt x LOCAL_ADD Hn A B) as (b & X). rewrite K in X. exists b. exact X. }
  set (fr := fun r => match nb_if (r_neigh r) w with Some (n, i) => rt_line nt nm i n r LOCAL_ADD | None => [] end).
  assert (Gr : forall r, In r (all_routes w) -> exists n i, nb_if (r_neigh r) w = Some (n, i) /\ In n (w_nbs w) /\ n_id n = r_neigh r /\ In i (w_ifs w) /\ if_id i = n_if n).
  { intros r Hr. pose proof (W_nb _ _ Hw r Hr) as X. apply in_map_iff in X. destruct X as (n0 & En & Hn0).
    unfold nb_if, get_nb. destruct (find (fun x => n_id x =? r_neigh r) (w_nbs w)) as [n|] eqn:F.
    - apply find_some in F. destruct F as (Hn' & Ni). destruct (Gn n Hn') as (i & Gi & Hi & Ei). rewrite Gi. exists n, i.
      split; [reflexivity|]. split; [auto|]. split; [lia|]. auto.
    - apply find_none with (x := n0) in F; auto. lia. }
  destruct (map_read _ fr (fun r l => exists n i, In n (w_nbs w) /\ n_id n = r_neigh r /\ In i (w_ifs w) /\ if_id i = n_if n /\
    says nt (str "add") l (rt_item nm r n i)) (all_routes w)) as (b4 & E4 & F4 & N4 & L4).
  { intros r Hr. destruct (Gr r Hr) as (n & i & Gi & Hn' & En & Hi & Ei). unfold fr. rewrite Gi. destruct (T4 r Hr) as (A & B & C).
    destruct (rt_line_ok nt nm i n r LOCAL_ADD Hn (proj1 (T1 i Hi)) (proj1 (T2 n Hn')) A B C (W_rng _ _ Hw r Hr)) as (b & X1 & X2 & X3).
    rewrite K in X2. exists b. split; [exact X1|]. split; [|exact X3]. exists n, i. auto 6. }
  assert (D : dump_lines nt nm w = map (fun b => b ++ [10]) (b1 ++ b2 ++ b3 ++ b4)).
  { unfold dump_lines. rewrite !map_app, <- E1, <- E2, <- E3, <- E4. f_equal. f_equal; [|f_equal].
    - apply flat_one. intros n Hn'. destruct (Gn n Hn') as (i & Gi & _). exists i. unfold fn. rewrite Gi. auto.
    - rewrite (flat_map_ext _ (fun r => match nb_if (r_neigh r) w with Some p => [rt_line nt nm (snd p) (fst p) r LOCAL_ADD] | None => [] end))
        by (intros r; destruct (nb_if (r_neigh r) w) as [(n & i)|]; reflexivity).
      apply (flat_one _ _ (fun r => nb_if (r_neigh r) w) (fun r p => rt_line nt nm (snd p) (fst p) r LOCAL_ADD)).
      intros r Hr. destruct (Gr r Hr) as (n & i & Gi & _). exists (n, i). unfold fr. rewrite Gi. auto. }
  exists (b1 ++ b2 ++ b3 ++ b4). split; [exact D|]. split; [exists b1, b2, b3, b4; auto 8|]. split.
  - repeat (apply Forall_app; split; auto).
  - rewrite D, !map_app, <- E1, <- E2, <- E3, <- E4. repeat (apply Forall_app; split; auto).
Qed.
End Dump.

(** ** The whole dump *)
Theorem C73_dump : forall nt nm c w ws t, ntop_ok nt -> c_half_life c <> 2 -> reach c w -> tables_ok nm w ->
  (forall k, 0 < ws k) -> t_shut t = false ->
  exists text lines, t_sent (dump nt nm ws w t) = t_sent t ++ text /\ t_shut (dump nt nm ws w t) = false /\
    split 10 text = lines ++ [[]] /\ lists_tables nt nm w lines.
Proof.
  intros nt nm c w ws t Hn Hl R T Hw Hs. destruct (dump_read nt nm c w Hn Hl R T) as (bs & E & L & N & F).
  exists (concat (dump_lines nt nm w)), bs. destruct (puts_spec ws (dump_lines nt nm w) t Hs F) as (m & Es & A & _). cbv zeta in *.
  pose proof (puts_all ws (dump_lines nt nm w) t Hw Hs F) as Sh. split; [|split; [exact Sh|split; [|exact L]]].
  - unfold dump. rewrite Es. f_equal. apply firstn_all2. apply A. exact Sh.
  - rewrite E. apply split_lines. exact N.
Qed.
Print Assumptions C73_dump.

(** ** Writing fails at some point *)
Theorem C73_prefix : forall nt nm c w ws t, ntop_ok nt -> c_half_life c <> 2 -> reach c w -> tables_ok nm w ->
  t_shut t = false ->
  exists text lines sent rest, split 10 text = lines ++ [[]] /\ lists_tables nt nm w lines /\ text = sent ++ rest /\
    t_sent (dump nt nm ws w t) = t_sent t ++ sent /\ (t_shut (dump nt nm ws w t) = true <-> rest <> []).
Proof.
  intros nt nm c w ws t Hn Hl R T Hs. destruct (dump_read nt nm c w Hn Hl R T) as (bs & E & L & N & F).
  destruct (puts_spec ws (dump_lines nt nm w) t Hs F) as (m & Es & A & B). cbv zeta in *.
  exists (concat (dump_lines nt nm w)), bs, (firstn m (concat (dump_lines nt nm w))), (skipn m (concat (dump_lines nt nm w))).
  split; [rewrite E; apply split_lines; exact N|]. split; [exact L|]. split; [symmetry; apply firstn_skipn|]. split; [exact Es|].
  fold (dump nt nm ws w t) in A, B. split; intros X.
  - apply B in X. intros Z0. apply (f_equal (@length Z)) in Z0. rewrite skipn_length in Z0. cbn [length] in Z0. lia.
  - destruct (t_shut (dump nt nm ws w t)) eqn:Sh; auto. exfalso. apply X. apply skipn_all2. apply A. reflexivity.
Qed.
Print Assumptions C73_prefix.

(** ** A line means one thing *)
Theorem C73_unambiguous : forall nt kind kind' line it it', ntop_ok nt -> item_ok it -> item_ok it' ->
  says nt kind line it -> says nt kind' line it' -> kind = kind' /\ it = it'.
Proof. exact says_det. Qed.
Print Assumptions C73_unambiguous.

(** ** Notifications: the same lines with the kind of the change *)
Theorem C73_notify : forall nt nm c w k, ntop_ok nt -> c_half_life c <> 2 -> reach c w -> tables_ok nm w ->
  let fits line kind it := exists body, line = body ++ [10] /\ says nt kind body it /\ ~ In 10 body /\ (length line < 512)%nat in
  let kind := local_kind k in
  (k = LOCAL_FLUSH -> kind = str "flush") /\ (k = LOCAL_CHANGE -> kind = str "change") /\ (k = LOCAL_ADD -> kind = str "add") /\
  (forall i, In i (w_ifs w) -> fits (if_line nt nm i k) kind (if_item nm i)) /\
  (forall n i, In n (w_nbs w) -> In i (w_ifs w) -> if_id i = n_if n -> fits (nb_line nt nm (w_now w) i n k) kind (nb_item nm w n i)) /\
  (forall x, In x (w_xr w) -> fits (xr_line nt x k) kind (IXr (x_dest x) (x_metric x))) /\
  (forall r n i, In r (all_routes w) -> In n (w_nbs w) -> In i (w_ifs w) -> fits (rt_line nt nm i n r k) kind (rt_item nm r n i)).
Proof.
  intros nt nm c w k Hn Hl R T. cbv zeta. destruct (reach_W c w Hl R) as (Hw & _). pose proof (reach_rng c w Hl R) as G.
  destruct T as (T1 & T2 & T3 & T4).
  split; [intros ->; reflexivity|]. split; [intros ->; reflexivity|]. split; [intros ->; reflexivity|]. repeat split.
  - intros i Hi. destruct (T1 i Hi) as (A & B & C). exact (if_line_ok nt nm i k Hn A B C).
  - intros n i Hn' Hi Ei. destruct (T2 n Hn') as (A & B & C).
    exact (nb_line_ok nt nm (w_now w) i n k Hn (proj1 (T1 i Hi)) A B (C i Hi Ei) (rg_nbs _ G n Hn')).
  - intros x Hx. destruct (T3 x Hx) as (A & B). exact (xr_line_ok nt x k Hn A B).
  - intros r n i Hr Hn' Hi. destruct (T4 r Hr) as (A & B & C).
    exact (rt_line_ok nt nm i n r k Hn (proj1 (T1 i Hi)) (proj1 (T2 n Hn')) A B C (W_rng _ _ Hw r Hr)).
Qed.
Print Assumptions C73_notify.

(** ** Examples *)
(** An inet_ntop that writes all the digits. *)
Fixpoint nt_full (a : list Z) : list Z :=
  match a with
  | x :: y :: a' => hex2 x ++ hex2 y ++ match a' with [] => [] | _ => 58 :: nt_full a' end
  | _ => []
  end.
Lemma hex2_inj : forall b b', byte_ok b -> byte_ok b' -> hex2 b = hex2 b' -> b = b'.
Proof.
  intros b b' H H' E. destruct (hex2_text b H) as (N & _). destruct (hex2_text b' H') as (N' & _). rewrite E in N.
  exact (number_det _ _ _ _ N N').
Qed.
Lemma nt_full_inj : forall n a b, length a = (2 * n)%nat -> length b = (2 * n)%nat -> bytes_ok a -> bytes_ok b -> nt_full a = nt_full b -> a = b.
Proof.
  induction n as [|n IH]; intros a b La Lb Ba Bb E.
  - destruct a, b; try discriminate; auto.
  - destruct a as [|x [|y a]]; try (cbn in La; lia). destruct b as [|x' [|y' b]]; try (cbn in Lb; lia).
    unfold bytes_ok in Ba, Bb. rewrite !Forall_cons_iff in Ba, Bb. destruct Ba as (B1 & B2 & Ba), Bb as (B1' & B2' & Bb).
    change (nt_full (x :: y :: a)) with (hex2 x ++ hex2 y ++ match a with [] => [] | _ => 58 :: nt_full a end) in E.
    change (nt_full (x' :: y' :: b)) with (hex2 x' ++ hex2 y' ++ match b with [] => [] | _ => 58 :: nt_full b end) in E.
    unfold hex2 at 1 2 3 4 in E. cbn [app] in E. injection E as E1 E2 E3 E4 E5.
    assert (x = x') by (apply hex2_inj; auto; unfold hex2; congruence). assert (y = y') by (apply hex2_inj; auto; unfold hex2; congruence).
    subst. f_equal. f_equal. destruct a, b; try discriminate; auto. injection E5 as E5. apply IH; auto; cbn [length] in *; lia.
Qed.
Lemma nt_full_ok : ntop_ok nt_full.
Proof.
  intros a (L & B). split; [|split; [|split]].
  - do 16 (destruct a as [|? a]; [discriminate L|]). destruct a; [|discriminate L]. cbn. lia.
  - do 16 (destruct a as [|? a]; [discriminate L|]). destruct a; [|discriminate L]. cbn. auto 10.
  - assert (H : forall n a, (length a <= n)%nat -> bytes_ok a -> forall c, In c (nt_full a) -> c = 58 \/ 48 <= c <= 57 \/ 97 <= c <= 102).
    { clear. induction n as [|n IH]; intros a Hl B c Hc; [destruct a; [destruct Hc|cbn in Hl; lia]|].
      destruct a as [|x [|y a]]; try (destruct Hc; fail). unfold bytes_ok in B. rewrite !Forall_cons_iff in B. destruct B as (B1 & B2 & B).
      change (nt_full (x :: y :: a)) with (hex2 x ++ hex2 y ++ match a with [] => [] | _ => 58 :: nt_full a end) in Hc.
      apply in_app_or in Hc. destruct Hc as [Hc|Hc]; [right; exact (number_chars _ _ _ _ (proj1 (hex2_text x B1)) Hc)|].
      apply in_app_or in Hc. destruct Hc as [Hc|Hc]; [right; exact (number_chars _ _ _ _ (proj1 (hex2_text y B2)) Hc)|].
      destruct a as [|z a]; [destruct Hc|]. destruct Hc as [Hc|Hc]; [auto|]. apply (IH (z :: a)); auto. cbn [length] in *. lia. }
    intros c Hc. pose proof (H 16%nat a ltac:(lia) B c Hc). lia.
  - intros b (Lb & Bb) E. apply (nt_full_inj 8); auto.
Qed.

(** "eth1", "eth2" *)
Definition x_nm (i : Z) : list Z := str "eth" ++ [48 + i].
Definition name_okb (s : list Z) : bool :=
  negb (beq s []) && Nat.leb (length s) 15 && forallb (fun c => negb (c =? 10) && negb (c =? 32)) s.
Definition bytesb (l : list Z) : bool := forallb (fun b => (0 <=? b) && (b <=? 255)) l.
Definition addrb (a : list Z) : bool := Nat.eqb (length a) 16 && bytesb a.
Definition plenb (l : Z) : bool := (0 <=? l) && (l <=? 128).
Definition destb (d : dest) : bool := addrb (d_prefix d) && plenb (d_plen d) && addrb (d_src d) && plenb (d_splen d).
Definition ifaceb (i : iface) : bool :=
  (1 <=? if_cost i) && (if_cost i <=? 65535) && (1 <=? if_rtt_decay i) && (if_rtt_decay i <=? 256) &&
  (1 <=? if_rtt_min i) && (if_rtt_min i <? if_rtt_max i) && (if_rtt_max i <? 4294967296) &&
  (0 <=? if_max_rtt_penalty i) && (if_max_rtt_penalty i <=? 65535).
Definition ptrb (p : Z) : bool := (0 <=? p) && (p <? 18446744073709551616).
Definition tablesb (nm : Z -> list Z) (w : world) : bool :=
  forallb (fun i => name_okb (nm (if_id i)) && forallb addrb (if_ll i) && ifaceb i &&
    match if_ipv4 i with Some a => Nat.eqb (length a) 4 && bytesb a | None => true end) (w_ifs w) &&
  forallb (fun n => addrb (n_addr n) && ptrb (n_id n)) (w_nbs w) &&
  forallb (fun x => destb (x_dest x) && (0 <=? x_metric x) && (x_metric x <? 65536)) (w_xr w) &&
  forallb (fun r => destb (dest_of r) && (Nat.eqb (length (k_id (r_src r))) 8 && bytesb (k_id (r_src r))) && ptrb (r_ptr r)) (concat (w_rt w)).
Lemma bytesb_ok : forall l, bytesb l = true -> bytes_ok l.
Proof. intros l H. apply Forall_forall. intros b Hb. unfold bytesb in H. rewrite forallb_forall in H. specialize (H b Hb). unfold byte_ok. lia. Qed.
Lemma addrb_ok : forall a, addrb a = true -> addr_ok a.
Proof. intros a H. apply andb_prop in H. destruct H as (A & B). split; [apply Nat.eqb_eq; exact A|apply bytesb_ok; exact B]. Qed.
Lemma destb_ok : forall d, destb d = true -> dest_ok d.
Proof.
  intros d H. unfold destb, plenb in H. repeat match goal with H : _ && _ = true |- _ => apply andb_prop in H; destruct H end.
  split; [apply addrb_ok; auto|]. split; [lia|]. split; [apply addrb_ok; auto|lia].
Qed.
Lemma tablesb_ok : forall nm w, tablesb nm w = true -> tables_ok nm w.
Proof.
  intros nm w H. unfold tablesb in H. apply andb_prop in H. destruct H as (H & H4). apply andb_prop in H. destruct H as (H & H3).
  apply andb_prop in H. destruct H as (H1 & H2). rewrite forallb_forall in H1, H2, H3, H4. split; [|split; [|split]].
  - intros i Hi. specialize (H1 i Hi). apply andb_prop in H1. destruct H1 as (H1 & V). apply andb_prop in H1. destruct H1 as (H1 & _).
    apply andb_prop in H1. destruct H1 as (H1 & Al). split; [|split].
    + unfold name_okb in H1. apply andb_prop in H1. destruct H1 as (H1 & C). apply andb_prop in H1. destruct H1 as (N & L).
      split; [intros E; rewrite E in N; discriminate N|]. split; [apply Nat.leb_le; exact L|]. intros c Hc. rewrite forallb_forall in C. specialize (C c Hc). lia.
    + intros a Ha. apply addrb_ok. rewrite forallb_forall in Al. auto.
    + intros a Ea. rewrite Ea in V. apply andb_prop in V. destruct V as (V1 & V2). split; [apply Nat.eqb_eq; exact V1|apply bytesb_ok; exact V2].
  - intros n Hn. specialize (H2 n Hn). apply andb_prop in H2. destruct H2 as (A & B). split; [apply addrb_ok; auto|]. split; [unfold ptrb in B; lia|].
    intros i Hi _. specialize (H1 i Hi). apply andb_prop in H1. destruct H1 as (H1 & _). apply andb_prop in H1. destruct H1 as (_ & H1).
    unfold ifaceb in H1. unfold iface_ok. lia.
  - intros x Hx. specialize (H3 x Hx). apply andb_prop in H3. destruct H3 as (H3 & B). apply andb_prop in H3. destruct H3 as (A & C).
    split; [apply destb_ok; auto|lia].
  - intros r Hr. specialize (H4 r Hr). apply andb_prop in H4. destruct H4 as (H4 & B). apply andb_prop in H4. destruct H4 as (A & C).
    split; [apply destb_ok; auto|]. split; [|unfold ptrb in B; lia]. apply andb_prop in C. destruct C as (C1 & C2).
    split; [apply Nat.eqb_eq; exact C1|apply bytesb_ok; exact C2].
Qed.

(** Two interfaces, two neighbours, one redistributed route and three routes; the socket
    takes seven bytes at a time. *)
Example C73_ex_dump : ntop_ok nt_full /\ c_half_life x_conf <> 2 /\ reach x_conf x_w2 /\ tables_ok x_nm x_w2 /\
  (length (w_ifs x_w2), length (w_nbs x_w2), length (w_xr x_w2), length (all_routes x_w2)) = (2%nat, 2%nat, 1%nat, 3%nat) /\
  split 10 (t_sent (dump nt_full x_nm (fun _ => 7) x_w2 (mkTx [] false 0))) =
  [str "add interface eth1 up true ipv6 fe80:0000:0000:0000:0000:0000:0000:0001 ipv4 10.0.1.1";
   str "add interface eth2 up true ipv6 fe80:0000:0000:0000:0000:0000:0000:0002 ipv4 10.0.2.1";
   str "add neighbour 2 address fe80:0000:0000:0000:0000:0000:0000:0034 if eth2 reach c000 ureach 0000 rxcost 96 txcost 128 cost 128";
   str "add neighbour 1 address fe80:0000:0000:0000:0000:0000:0000:0033 if eth1 reach c000 ureach 0000 rxcost 96 txcost 96 cost 96";
   str "add xroute 10.9.0.0/16-0.0.0.0/0 prefix 10.9.0.0/16 from 0.0.0.0/0 metric 128";
   str "add route 3 prefix 10.1.0.0/16 from 0.0.0.0/0 installed yes id 07:00:00:00:00:00:00:07 metric 228 refmetric 100 via fe80:0000:0000:0000:0000:0000:0000:0034 if eth2";
   str "add route 1 prefix 10.1.0.0/16 from 0.0.0.0/0 installed no id 07:00:00:00:00:00:00:07 metric 396 refmetric 300 via fe80:0000:0000:0000:0000:0000:0000:0033 if eth1";
   str "add route 2 prefix 10.2.0.0/16 from 0.0.0.0/0 installed yes id 08:00:00:00:00:00:00:08 metric 96 refmetric 0 via fe80:0000:0000:0000:0000:0000:0000:0033 if eth1";
   []].
Proof.
  split; [apply nt_full_ok|]. split; [apply x_hl|]. split; [apply x_reach2|].
  split; [apply tablesb_ok; vm_compute; reflexivity|]. split; vm_compute; reflexivity.
Qed.
(** The socket takes a hundred bytes at a time and fails at the third attempt. *)
Example C73_ex_prefix : let t := dump nt_full x_nm (fun k => if Nat.ltb k 2 then 100 else -1) x_w2 (mkTx [] false 0) in
  t_shut t = true /\ t_sent t = str "add interface eth1 up true ipv6 fe80:0000:0000:0000:0000:0000:0000:0001 ipv4 10.0.1.1" ++ [10] ++
    str "add interface eth2 up true ipv6 fe80:0000:0000:0000:0000:0000:0000:0002 ipv4 10.0.2.1" ++ [10].
Proof. split; vm_compute; reflexivity. Qed.
Example C73_ex_unambiguous :
  says nt_full (str "flush") (str "flush xroute 10.9.0.0/16-0.0.0.0/0 prefix 10.9.0.0/16 from 0.0.0.0/0 metric 128") (IXr (xd 9) 128) /\
  item_ok (IXr (xd 9) 128).
Proof.
  split.
  - destruct (xr_line_ok nt_full (mkXr (xd 9) 128 0 0) LOCAL_FLUSH nt_full_ok) as (b & E & S & _).
    + apply destb_ok. reflexivity.
    + cbn. lia.
    + assert (Eb : b = str "flush xroute 10.9.0.0/16-0.0.0.0/0 prefix 10.9.0.0/16 from 0.0.0.0/0 metric 128").
      { apply (app_inv_tail [10]). rewrite <- E. vm_compute. reflexivity. }
      rewrite Eb in S. exact S.
  - split; apply addrb_ok; reflexivity.
Qed.

(** ** What a client is greeted with *)
Theorem C73_header : forall version host myid, ~ In 10 version -> ~ In 10 host -> id_ok myid ->
  exists e, split 10 (header version host myid) =
    [str "BABEL 1.0"; str "version " ++ version; str "host " ++ host; str "my-id " ++ e; str "ok"; []] /\ eui_text e myid.
Proof.
  intros version host myid Nv Nh (Il & Ib). destruct (eui_txt myid) as (T & (_ & C)); [intros E; rewrite E in Il; discriminate|exact Ib|].
  exists (format_eui64 myid). split; [|exact T]. unfold header.
  assert (P : forall a b, forallb (fun c => negb (c =? 10)) a = true -> ~ In 10 b -> ~ In 10 (a ++ b)).
  { intros a b F N X. apply in_app_or in X. destruct X as [X|X]; [rewrite forallb_forall in F; specialize (F _ X); lia|auto]. }
  cbn [app]. rewrite (split_cons 10 (str "BABEL 1.0")) by (intros X; cbn in X; lia). f_equal.
  rewrite (app_assoc (str "version ")). cbn [app]. rewrite (split_cons 10 (str "version " ++ version)) by (apply P; auto). f_equal.
  rewrite (app_assoc (str "host ")). cbn [app]. rewrite (split_cons 10 (str "host " ++ host)) by (apply P; auto). f_equal.
  rewrite (app_assoc (str "my-id ")). cbn [app]. rewrite (split_cons 10 (str "my-id " ++ format_eui64 myid)).
  2:{ apply P; auto. intros X. destruct (C _ X). congruence. }
  f_equal.
Qed.
Print Assumptions C73_header.
Example C73_ex_header : split 10 (header (str "babeld-1.13") (str "alamanni") (x_id 7)) =
  [str "BABEL 1.0"; str "version babeld-1.13"; str "host alamanni"; str "my-id 07:00:00:00:00:00:00:07"; str "ok"; []].
Proof. vm_compute. reflexivity. Qed.

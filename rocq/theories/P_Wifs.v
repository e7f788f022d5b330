(** P_Wifs.v: a monitoring client knows the interfaces. *)
From Coq Require Import String.
From Verif Require Import Base M_Util S_Util L_Util M_Slot L_Slot M_Source S_Source L_Source
  M_Filter S_Filter M_Types M_Neigh M_State M_Table M_Msg M_Route M_Xroute S_World L_Table L_Step L_Msg
  S_Neigh L_Neigh L_Request S_Send L_Send M_Daemon L_Inv L_Daemon L_World L_World3 L_Resend4 L_Kern M_Config S_Config L_Config
  P_Config P_Send P_Expire P_Kern M_Ifup S_Ifup L_Ifup L_Ifup2 L_Ifup3 X_Run X_Run3 P_Ifup M_Wifs S_Wifs L_Wifs.
Close Scope string_scope.
Open Scope Z_scope.
Import M_Daemon.

(** ** C88: interfaces of clients *)
(** Whatever the kernel answers, for however many interfaces: a client whose table is right
    can read all the lines which a check of the interfaces sends, in their order, and its
    table is right afterwards. *)
Theorem C88_interfaces : forall c w cf df ans P, c_half_life c <> 2 -> reach c w ->
  (forall id, conf_valid (cf id)) -> opts_ok df -> iright P w ->
  exists P', iread (checks_lines cf df ans (map if_id (w_ifs w)) w) P = Some P' /\
    iright P' (check_interfaces cf df ans w).
Proof.
  intros c w cf df ans P Hc R V D H. exact (checks_right c Hc cf df ans (map if_id (w_ifs w)) P w R V D (fun id K => K) H).
Qed.

(** What the table then says, in terms of the answers of the kernel: an interface which is
    running, and could be set up or needed not be, has the first link-local address and the
    IPv4 address of the last answers; any other is down. *)
Theorem C88_kernel : forall c w cf df ans P id i, c_half_life c <> 2 -> reach c w ->
  (forall id, conf_valid (cf id)) -> opts_ok df -> iright P w -> get_if id w = Some i ->
  let runs := 0 < ka_index (ans id) /\ 0 < ka_oper (ans id) /\ (stays (ans id) i \/ can_start (ans id)) in
  exists P', iread (checks_lines cf df ans (map if_id (w_ifs w)) w) P = Some P' /\
    (runs -> P' id = Some (Some (match ka_ll2 (ans id) with Some (a :: _) => Some a | _ => None end, ka_ipv42 (ans id)))) /\
    (~ runs -> P' id = Some None).
Proof.
  intros c w cf df ans P id i Hc R V D H G. cbv zeta.
  destruct (C88_interfaces c w cf df ans P Hc R V D H) as (P' & Rd & Ri). exists P'. split; auto.
  destruct (checks c Hc cf df ans w R V D) as (_ & _ & _ & Q). destruct (Q id i G) as (i' & Gi & Ck & _).
  pose proof (Ri id) as Rid. cbv zeta in Gi. rewrite Gi in Rid. rewrite Rid. unfold ishow. destruct (ck_up _ _ _ _ _ Ck) as (U1 & U2).
  split.
  - intros Hr. specialize (U2 Hr). rewrite U2, (ck_ll _ _ _ _ _ Ck U2), (ck_ipv4 _ _ _ _ _ Ck U2).
    destruct (ka_ll2 (ans id)) as [[|a l]|]; reflexivity.
  - intros Hn. destruct (if_up i'); [|reflexivity]. exfalso. apply Hn, U1. reflexivity.
Qed.

(** Between checks nothing changes what a line says of an interface: any other event of the
    daemon that does not itself add, remove or reconfigure an interface leaves the table right. *)
Definition other_event (ev : event) : bool :=
  match ev with EvInterface _ | EvNewInterface _ | EvFlushInterface _ => false | _ => true end.
Lemma same_ifs : forall w ev, W [] w -> allowed ev w -> other_event ev = true ->
  map ifstat (w_ifs (run1 ev w)) = map ifstat (w_ifs w).
Proof.
  intros w ev Hw A O. destruct (run1_cases_ev w ev Hw A) as [(Q & _) | [C | (id & d & q & m & iv & n & nh & _ & U)]].
  - destruct ev; try discriminate O; try discriminate Q; try reflexivity.
    cbn [run1]. unfold find_neighbour. destruct (existsb _ _); reflexivity.
  - apply (chain_menv _ _ _ C).
  - destruct U as [C | w1 r w2 S I E C _ _ _ Ir]; [apply (chain_menv _ _ _ C)|].
    apply star_menv in S. apply star_menv in C. cbn [snd] in *. destruct S as (_ & _ & S). destruct C as (_ & _ & C).
    rewrite C, E, <- S. unfold insert_route. repeat match goal with |- context [match ?x with _ => _ end] => destruct x end; reflexivity.
Qed.
Theorem C88_between : forall c w ev P, c_half_life c <> 2 -> reach c w -> allowed ev w -> other_event ev = true ->
  iright P w -> iright P (run1 ev w).
Proof.
  intros c w ev P Hc R A O H n. destruct (reach_W c w Hc R) as (Hw & _). pose proof (same_ifs w ev Hw A O) as E.
  rewrite H. destruct (get_if n w) as [i|] eqn:G.
  - destruct (get_if_static n w (run1 ev w) i E G) as (j & Gj & Ej). rewrite Gj. f_equal. symmetry.
    apply ishow_par. unfold ifpar. rewrite Ej. reflexivity.
  - destruct (get_if n (run1 ev w)) as [j|] eqn:Gj; [|reflexivity].
    destruct (get_if_static n (run1 ev w) w j (eq_sym E) Gj) as (i & Gi & _). congruence.
Qed.

(** A life of the daemon after the client connected: events and checks in any order, with
    the lines that were sent. *)
Inductive life (w0 : world) : world -> list inote -> Prop :=
| life_start : life w0 w0 []
| life_event : forall w l ev, life w0 w l -> allowed ev w -> other_event ev = true -> life w0 (run1 ev w) l
| life_check : forall w l cf df ans, life w0 w l -> (forall id, conf_valid (cf id)) -> opts_ok df ->
    life w0 (check_interfaces cf df ans w) (l ++ checks_lines cf df ans (map if_id (w_ifs w)) w).
Theorem C88_life : forall c w0 w l P, c_half_life c <> 2 -> reach c w0 -> iright P w0 -> life w0 w l ->
  exists P', iread l P = Some P' /\ iright P' w.
Proof.
  intros c w0 w l P Hc R H L. cut (reach c w /\ exists P', iread l P = Some P' /\ iright P' w); [tauto|].
  induction L as [|w l ev L (Rw & P1 & Rd & H1) A O|w l cf df ans L (Rw & P1 & Rd & H1) V D].
  - split; auto. exists P. auto.
  - split; [exact (reach_run c w ev Rw A)|]. exists P1. split; auto. exact (C88_between c w ev P1 Hc Rw A O H1).
  - split; [apply (checks c Hc cf df ans w Rw V D)|].
    destruct (C88_interfaces c w cf df ans P1 Hc Rw V D H1) as (P2 & Rd2 & H2). exists P2. split; auto.
    rewrite iread_app, Rd. exact Rd2.
Qed.

(** Two interfaces: the first comes up with both addresses (told thrice: the link-local
    address, the IPv4 address, that all is done); the second has no link-local address and
    is given up at once (told thrice, up and then twice down).  At the next check the IPv4
    address of the first is another one (told once), and the second is tried again. *)
Definition u_lines : list inote := checks_lines (fun _ => u_conf 4000 2) u_defs u_ans [1; 2] u_boot.
Example C88_ex_up : u_lines =
  [(1, Some (Some u_ll, None)); (1, Some (Some u_ll, Some [10;0;0;1])); (1, Some (Some u_ll, Some [10;0;0;1]));
   (2, Some (None, None)); (2, None); (2, None)].
Proof. vm_compute. reflexivity. Qed.
Example C88_ex_move : checks_lines (fun _ => u_conf 4000 2) u_defs u_ans2 [1] u_route = [(1, Some (Some u_ll, Some [10;0;0;2]))].
Proof. vm_compute. reflexivity. Qed.
(** A second check with the same answers says nothing of the first interface. *)
Example C88_ex_quiet : checks_lines (fun _ => u_conf 4000 2) u_defs u_ans [1] u_up = [].
Proof. vm_compute. reflexivity. Qed.
Definition u_P : itable := fun n => if (n =? 1) || (n =? 2) then Some None else None.
Example C88_ex_start : iright u_P u_boot.
Proof.
  intros n. unfold u_P, get_if. change (w_ifs u_boot) with [fresh_iface 1; fresh_iface 2]. cbn [find].
  change (if_id (fresh_iface 1)) with 1. change (if_id (fresh_iface 2)) with 2. rewrite (Z.eqb_sym n 1), (Z.eqb_sym n 2).
  destruct (1 =? n); [reflexivity|]. destruct (2 =? n); reflexivity.
Qed.

Print Assumptions C88_interfaces.
Print Assumptions C88_kernel.
Print Assumptions C88_between.
Print Assumptions C88_life.

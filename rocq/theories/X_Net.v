(** X_Net.v: a concrete network of three routers: S (3) originates 10.9.0.0/16, A (1) is
    a neighbour of both others, B (2) of A only. *)
From Verif Require Import Base M_Util M_Filter M_Source M_Types M_Neigh M_State M_Table M_Msg M_Route
  M_Xroute S_Util S_Filter S_Neigh S_World M_Daemon M_Net S_Net L_Filter L_Source L_Net2 X_Run.
From Coq Require Import Relations.

(** A test for the conditions of a step, and executions as lists *)
Definition peerb (who : Z -> list Z -> Z -> Z) (N : net) (i n : Z) : option Z :=
  match get_nb n (N i) with Some x => Some (who i (n_addr x) (n_if x)) | None => None end.
Definition sameb (id : list Z) (d : dest) (s m : Z) (e : obuf * tlv) : bool :=
  match snd e with
  | TUpdate id' d' s' m' _ => beq id id' && beq (d_prefix d) (d_prefix d') && (d_plen d =? d_plen d') &&
      beq (d_src d) (d_src d') && (d_splen d =? d_splen d') && (s =? s') && (m =? m')
  | _ => false
  end.
Definition deliveredb (who : Z -> list Z -> Z -> Z) (N : net) (i : Z) (ev : event) : bool :=
  match ev with
  | EvUpdate (Some id) d s m _ n _ =>
      match peerb who N i n with Some j => existsb (sameb id d s m) (w_out (N j)) | None => false end
  | EvUpdate None _ _ _ _ _ _ => false
  | _ => true
  end.
Lemma deliveredb_ok who N i ev : deliveredb who N i ev = true -> delivered who N i ev.
Proof.
  destruct ev; cbn; auto. destruct id as [id|]; [|discriminate]. unfold peerb, peer. destruct (get_nb n (N i)) as [x|] eqn:G; [|discriminate].
  intros H. apply existsb_exists in H. destruct H as ((b & t) & Hi & E). unfold sameb in E. cbn in E. destruct t; try discriminate E.
  repeat (apply andb_true_iff in E; let E' := fresh "E" in destruct E as (E & E')).
  repeat match goal with H : beq _ _ = true |- _ => apply beq_true in H | H : (_ =? _) = true |- _ => apply Z.eqb_eq in H end.
  eexists _, b, _. split; [exists x; split; reflexivity|]. destruct d as [p1 l1 s1 m1], d0 as [p2 l2 s2 m2]. cbn in *. subst. exact Hi.
Qed.
Definition stepb (who : Z -> list Z -> Z -> Z) (q : Z) (N : net) (i : Z) (ev : event) : bool :=
  let w' := run1 ev (N i) in
  allowedb ev (N i) && deliveredb who N i ev &&
  forallb (fun s => sec w' - 200 <=? s_time s) (w_srcs w') &&
  match ev with
  | EvUpdate _ _ s _ _ _ _ => (0 <=? s) && (s <? 65536) && (ahead s q <? 32768)
  | EvIhu _ c _ => 1 <=? c
  | _ => true end &&
  forallb (fun e => match e with KAdd _ rc => (rc =? 0) || (rc =? EEXIST) | KDel _ _ => true | KFail add _ => negb add end) (w_ktr w').
(** Conditions of the refutation: all but those on retracted routes *)
Definition c_loop who k q N i ev N' : Prop :=
  c_genuine who N i ev N' /\ c_fresh k N i ev N' /\ c_half k q N i ev N' /\ c_kernel N i ev N' /\ c_cost N i ev N'.
Lemma stepb_ok who k q N i ev : stepb who q N i ev = true ->
  allowed ev (N i) /\ c_loop who k q N i ev (put i (run1 ev (N i)) N).
Proof.
  unfold stepb. cbv zeta. intros H. repeat (apply andb_true_iff in H; let H' := fresh "H" in destruct H as (H & H')).
  apply allowedb_ok in H. apply deliveredb_ok in H3. rewrite forallb_forall in H2, H0. split; [exact H|]. split; [exact H3|].
  assert (Ep : put i (run1 ev (N i)) N i = run1 ev (N i)) by (unfold put; rewrite Z.eqb_refl; reflexivity).
  split; [|split; [|split]].
  - intros s Hs _. rewrite Ep in *. specialize (H2 s Hs). lia.
  - intros id d s m iv n nh -> _. unfold in_half. lia.
  - unfold c_kernel. rewrite Ep. apply Forall_forall. intros e He. specialize (H0 e He). destruct e as [? rc|? rc|add ?]; auto; [lia|destruct add; auto; discriminate H0].
  - intros n c iv ->. lia.
Qed.
Fixpoint nrun (l : list (Z * event)) (N : net) : net :=
  match l with [] => N | (i, ev) :: l' => nrun l' (put i (run1 ev (N i)) N) end.
Fixpoint nrunb who q (l : list (Z * event)) (N : net) : bool :=
  match l with [] => true | (i, ev) :: l' => stepb who q N i ev && nrunb who q l' (put i (run1 ev (N i)) N) end.
Lemma nrunb_ok who k q l : forall N, nrunb who q l N = true -> nexec (c_loop who k q) N -> nexec (c_loop who k q) (nrun l N).
Proof.
  induction l as [|(i & ev) l IH]; intros N H E; [exact E|]. cbn [nrunb nrun] in *. apply andb_true_iff in H. destruct H as (H & H').
  apply IH; [exact H'|]. destruct (stepb_ok who k q N i ev H) as (A & B). eapply nexec_step; [exact E|split; [exact A|reflexivity]|exact B].
Qed.

(** The network *)
Definition n_conf (me : Z) : conf := set_c_infs [] (set_c_myid (x_id me) x_conf).
Definition n_boot : net := fun i => boot (n_conf (i + 4)) (mkTv 1000 0) [x_if 1; x_if 2] 40.
Definition n_who (i : Z) (a : list Z) (f : Z) : Z :=
  if i =? 1 then (if f =? 1 then 2 else 3) else 1.
Definition n_k : skey := mkey (x_id 7) (xd 9).
Lemma n_boot_ok : nboot n_boot.
Proof.
  intros i. exists (n_conf (i + 4)), (mkTv 1000 0), [x_if 1; x_if 2], 40. split; [reflexivity|]. split; [cbn; lia|].
  split; [repeat constructor; simpl; lia|]. split; [repeat constructor; simpl; lia|]. unfold tv_ok, u16_ok. cbn. lia.
Qed.

Definition at_ (i : Z) (l : list event) : list (Z * event) := map (pair i) l.
Definition up (n : Z) : list event := [EvHello n false 100 400; EvHello n false 101 400; EvIhu n 96 1200].
(** S originates the prefix; A selects the route through S, B the one through A; A also
    hears B's announcement. *)
Definition n_start : list (Z * event) :=
  at_ 3 [EvClock (mkTv 1001 0); EvKernel true (mkKr (xd 9) 0 3 4); EvFlushUpdates 1] ++
  at_ 1 ([EvClock (mkTv 1001 0); EvNeighbour (x_addr 51) 1; EvNeighbour (x_addr 52) 2] ++ up 1 ++ up 2 ++
     [EvUpdate (Some (x_id 7)) (xd 9) 40 128 1600 2 (x_nh 52); EvFlushUpdates 1]) ++
  at_ 2 ([EvClock (mkTv 1001 0); EvNeighbour (x_addr 50) 1] ++ up 1 ++
     [EvUpdate (Some (x_id 7)) (xd 9) 40 224 1600 1 (x_nh 50); EvFlushUpdates 1]) ++
  at_ 1 [EvUpdate (Some (x_id 7)) (xd 9) 40 320 1600 1 (x_nh 51)].
Definition n_net1 : net := nrun n_start n_boot.
(** A loses its link to S; its retraction does not reach B.  B's link to A is down for a
    moment, so that B retracts its route and announces it again. *)
Definition n_trouble : list (Z * event) :=
  at_ 1 [EvFlushInterfaceRoutes 2 false] ++
  at_ 2 [EvIhu 1 65535 1200; EvFlushUpdates 1] ++
  at_ 1 [EvUpdate (Some (x_id 7)) (xd 9) 40 65535 1600 1 (x_nh 51)] ++
  at_ 2 [EvIhu 1 96 1200; EvFlushUpdates 1] ++
  at_ 1 [EvUpdate (Some (x_id 7)) (xd 9) 40 320 1600 1 (x_nh 51); EvFlushUpdates 1] ++
  at_ 2 [EvUpdate (Some (x_id 7)) (xd 9) 40 416 1600 1 (x_nh 50)].
Definition n_net2 : net := nrun n_trouble n_net1.

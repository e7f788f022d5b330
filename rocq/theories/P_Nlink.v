(** P_Nlink.v: requests to the kernel and its messages (C68, C69). *)
From Verif Require Import Base M_Util M_Source M_Filter M_Types M_Neigh M_State M_Table M_Msg M_Route M_Xroute M_Nlink S_Util S_Nlink L_Nlink L_Nlink2 L_Nlink3 L_Nlink4.

(** ** C68 *)
(** Addresses have 16 bytes; IPv4 ones are mapped, with lengths from 96 on; the preferred source address is of the
    destination's family. *)
Definition route_args (d : dest) (pref_src : option (list Z)) (gate : list Z) (ifindex metric : Z) : Prop :=
  addr_ok (d_prefix d) /\ addr_ok (d_src d) /\ addr_ok gate /\
  0 <= d_plen d <= 128 /\ (v4mapped (d_prefix d) = true -> 96 <= d_plen d) /\ 0 <= d_splen d <= 128 /\
  (forall a, pref_src = Some a -> addr_ok a /\ v4mapped a = v4mapped (d_prefix d)) /\
  0 <= ifindex < 2147483648 /\ 0 <= metric < 2147483648.
(** When a route is added or removed, either nothing is sent to the kernel (because the request makes no sense, because
    it is about an unreachable default route), or the message fits its buffer and the kernel reads in it the request that the rest of the
    model records: same operation, destination, source, priority, interface, gateway and preferred source;
    of the table, the last eight bits. *)
Theorem C68_request : forall add seq table d pref_src gate ifindex metric w rc w',
  route_args d pref_src gate ifindex metric -> 0 <= seq < 65536 ->
  kernel_route1 add table d pref_src gate ifindex metric w = (rc, w') ->
  w_ktr w' = w_ktr w \/ (exists e, w_ktr w' = w_ktr w ++ [KFail add e]) \/
  exists q resp b, w_ktr w' = w_ktr w ++ [if add then KAdd q resp else KDel q resp] /\
    nl_request add seq table d pref_src gate ifindex metric = Some b /\ Z.of_nat (length b) <= 1024 /\
    kernel_reads b = Some (add, seq, q) /\
    q = mkKreq (table mod 256) (d_prefix d) (d_plen d)
          (if is_default (d_src d) (d_splen d) then None else Some (d_src d, d_splen d))
          (if metric <? 65535 then metric else -1)
          (if metric <? 65535 then Some (ifindex, gate, pref_src) else None).
Proof.
  intros add seq table d pref gate ifindex metric w rc w' (A1 & A2 & A3 & A4 & A5 & A6 & A7 & A8 & A9) S E. unfold kernel_route1 in E.
  destruct (family_ok d gate) eqn:Fa; cbn [negb] in E.
  2:{ injection E as <- <-. right. left. eexists. reflexivity. }
  destruct (negb (is_default (d_src d) (d_splen d)) && _) eqn:Su.
  { injection E as <- <-. right. left. eexists. reflexivity. }
  destruct ((metric >=? KERNEL_INFINITY) && _) eqn:Un.
  { injection E as <- <-. now left. }
  right. right. assert (K : askable d pref gate ifindex metric).
  { constructor; try assumption; try (split; assumption).
    destruct (is_default (d_src d) (d_splen d)); [now left|right]. cbn [negb andb] in Su. apply orb_false_iff in Su. apply Su. }
  destruct (request_read add seq table _ _ _ _ _ K S) as (b & B1 & B2 & B3).
  destruct (kresp1 w) as (e, w1) eqn:Er. assert (T : w_ktr w1 = w_ktr w). { unfold kresp1 in Er. destruct (w_kresp w); injection Er as <- <-; reflexivity. }
  injection E as <- <-. eexists _, _, b. split; [cbn [ktrace w_ktr set_w_ktr]; rewrite T; reflexivity|].
  split; [exact B1|]. split; [exact B2|]. split; [exact B3|]. reflexivity.
Qed.
Print Assumptions C68_request.

Definition n4 (a b c d : Z) : list Z := mapped4 [a; b; c; d].
Definition n6 (x : Z) : list Z := [32; 1; 13; 184; 0; 0; 0; 0; 0; 0; 0; 0; 0; 0; 0; x].
Definition nll (x : Z) : list Z := [254; 128; 0; 0; 0; 0; 0; 0; 0; 0; 0; 0; 0; 0; 0; x].
(** 192.168.7.0/24 through fe80::9 on interface 3, from 10.0.0.1; then unreachable 2001:db8::40/122 from 2001:db8::80/121 *)
Example C68_ex :
  let d := mkDest (n4 192 168 7 0) 120 (n4 0 0 0 0) 96 in let d' := mkDest (n6 64) 122 (n6 128) 121 in
  route_args d (Some (n4 10 0 0 1)) (nll 9) 3 1024 /\ route_args d' None (nll 9) 3 65535 /\
  match nl_request true 77 254 d (Some (n4 10 0 0 1)) (nll 9) 3 1024, nl_request false 78 254 d' None (nll 9) 3 65535 with
  | Some b, Some b' => length b = 84%nat /\ length b' = 76%nat /\
      kernel_reads b = Some (true, 77, mkKreq 254 (n4 192 168 7 0) 120 None 1024 (Some (3, nll 9, Some (n4 10 0 0 1)))) /\
      kernel_reads b' = Some (false, 78, mkKreq 254 (n6 64) 122 (Some (n6 128, 121)) (-1) None)
  | _, _ => False
  end.
Proof.
  cbv zeta. split; [|split]; [| |vm_compute; repeat split; reflexivity];
  (repeat split; try (vm_compute; reflexivity); try (cbn; lia); try (intros; discriminate);
   try (repeat constructor; unfold byte_ok; lia);
   match goal with H : Some _ = Some _ |- _ => injection H as <- end; try reflexivity; repeat constructor; unfold byte_ok; lia).
Qed.
(** The table asked for is not always the one configured: table 1000 is read as table 232. *)
Theorem C68_table_refuted : exists table b q, 0 < table < 65536 /\
  nl_request true 77 table (mkDest (n6 64) 122 (zeroes 16) 0) None (nll 9) 3 1024 = Some b /\
  kernel_reads b = Some (true, 77, q) /\ q_table q <> table.
Proof. exists 1000. eexists _, _. split; [lia|]. split; [vm_compute; reflexivity|]. split; [vm_compute; reflexivity|]. vm_compute. discriminate. Qed.
Print Assumptions C68_table_refuted.

(** ** C69 *)
(** A datagram of notifications: whatever messages the kernel puts in it about routes, addresses and links, with attributes
    in any order and others between them, exactly those count that the daemon did not cause, and of each the daemon reports what the
    kernel said. *)
Theorem C69_notifications : forall own pid seq tables ms, Forall kmessage_ok ms -> ms <> [] ->
  exists ls, Forall2 (heard_note own tables) ms ls /\
    nl_datagram (mkNlp (Some own) false pid seq tables) (concat (map kbytes ms)) = Some (EndRc 0, concat ls).
Proof.
  intros own pid seq tables ms F N. destruct (datagram_msgs (mkNlp (Some own) false pid seq tables) ms F) as (ls & H & E).
  exists ls. split.
  - eapply Forall2_mono; [|exact H]. intros (((fl, s), p), x) l. unfold heard1, skipped, heard_note. cbn [np_ignore np_answer np_tables]. cbn [andb]. rewrite orb_false_r. auto.
  - rewrite E. destruct ms; [contradiction|reflexivity].
Qed.
Print Assumptions C69_notifications.
(** The answer to a dump, in any number of datagrams, up to the message of type 3 that ends it: exactly the messages
    that answer the request count. *)
Theorem C69_dump : forall own seq tables dss ms fin junk rest,
  Forall (Forall kmessage_ok) dss -> Forall kmessage_ok ms ->
  msg_ok fin -> m_type fin = 3 -> m_pid fin = own -> m_seq fin = seq ->
  exists lss ls, Forall2 (Forall2 (heard_answer own seq tables)) dss lss /\ Forall2 (heard_answer own seq tables) ms ls /\
    netlink_read (mkNlp None true own seq tables)
      (map (fun ms => concat (map kbytes ms)) dss ++ (concat (map kbytes ms) ++ msg_bytes fin ++ junk) :: rest) =
    Some (0, concat (map (@concat notif) lss) ++ concat ls, rest).
Proof.
  intros own seq tables dss ms fin junk rest F1 F2 M T P S. set (p := mkNlp None true own seq tables).
  assert (Hh : forall m l, heard1 p m l -> heard_answer own seq tables m l).
  { intros (((fl, s), q), x) l. unfold heard1, skipped, heard_answer. cbn [np_ignore np_answer np_pid np_seq np_tables p]. cbn [orb andb].
    destruct (q =? own), (s =? seq); cbn [negb orb andb]; auto. }
  destruct (read_more p eq_refl dss ((concat (map kbytes ms) ++ msg_bytes fin ++ junk) :: rest) F1) as (lss & H1 & E1).
  destruct (nl_ended p ms fin junk 0 F2 M) as (ls & H2 & E2).
  { unfold skipped. cbn [np_ignore np_answer np_pid np_seq p]. rewrite P, S, !Z.eqb_refl. reflexivity. }
  { left. auto. }
  exists lss, ls. split; [|split].
  - eapply Forall2_mono; [|exact H1]. intros a b Hab. eapply Forall2_mono; [|exact Hab]. exact Hh.
  - eapply Forall2_mono; [|exact H2]. exact Hh.
  - rewrite E1. cbn [netlink_read]. rewrite E2. reflexivity.
Qed.
Print Assumptions C69_dump.
(** The result of a request is what the kernel's answer says: 0, or minus an errno; whatever else comes before it in the
    datagram. *)
Theorem C69_verdict : forall own seq tables ms ans rc more junk rest,
  Forall kmessage_ok ms -> msg_ok ans -> m_type ans = 2 -> m_pid ans = own -> m_seq ans = seq ->
  m_body ans = le 4 (rc mod 4294967296) ++ more -> -2147483648 <= rc < 2147483648 ->
  exists l, netlink_read (mkNlp None true own seq tables) ((concat (map kbytes ms) ++ msg_bytes ans ++ junk) :: rest) = Some (rc, l, rest).
Proof.
  intros own seq tables ms ans rc more junk rest F M T P S B R. set (p := mkNlp None true own seq tables).
  destruct (nl_ended p ms ans junk rc F M) as (ls & H2 & E2).
  { unfold skipped. cbn [np_ignore np_answer np_pid np_seq p]. rewrite P, S, !Z.eqb_refl. reflexivity. }
  { right. eauto. }
  eexists. cbn [netlink_read]. rewrite E2. reflexivity.
Qed.
Print Assumptions C69_verdict.
(** The daemon's own routes are never taken for routes to redistribute, whoever caused the message. *)
Theorem C69_own_routes : forall own pid seq tables ms e l, Forall kmessage_ok ms ->
  nl_datagram (mkNlp (Some own) false pid seq tables) (concat (map kbytes ms)) = Some (e, l) ->
  forall new r, In (NRoute new r) l -> kr_proto r <> 42.
Proof.
  intros own pid seq tables ms e l F E new r I. destruct (datagram_msgs (mkNlp (Some own) false pid seq tables) ms F) as (ls & H & E'). rewrite E in E'. injection E' as -> ->. clear E F.
  apply in_concat in I. destruct I as (l & Il & Ir).
  induction H as [|(((fl, s), p), x) l0 ms ls Hh H IH]; [destruct Il|]. destruct Il as [->|Il]; [|now apply IH].
  unfold heard1 in Hh. destruct (skipped _ s p); [subst; destruct Ir|]. destruct Hh as [? ? ? ? ? ? ? ? ? ? ? C| | |]; cbn [In] in Ir;
  [|destruct Ir|destruct Ir as [Ir|[]]; discriminate Ir|destruct Ir as [Ir|[]]; discriminate Ir].
  destruct Ir as [Ir|[]]. injection Ir as <- <-. destruct C as (C & _). exact C.
Qed.
Print Assumptions C69_own_routes.

(** Five notifications in a datagram: an IPv4 route with its attributes in an unusual order and one that is unknown; one of the daemon's; one it caused;
    an address; an unreachable route in a table above 255. *)
Definition nx : list kmessage :=
  [(0, 0, 0, IRoute true 2 24 0 0 254 3 0 1 0 [(4, le 4 7); (6, le 4 300); (30, [1; 2; 3]); (15, le 4 254); (1, [10; 1; 2; 0])]);
   (0, 0, 0, IRoute true 10 64 0 0 254 42 0 1 0 [(1, n6 0); (15, le 4 254)]);
   (0, 9, 4242, IRoute true 10 64 0 0 254 3 0 1 0 [(1, n6 0)]);
   (0, 0, 0, IAddr false 2 24 0 0 7 [(1, [10; 1; 2; 9]); (2, [10; 1; 2; 1]); (3, [101])]);
   (0, 0, 0, IRoute false 10 64 0 0 252 3 0 7 0 [(1, n6 0); (15, le 4 1000); (6, le 4 4294967295)])].
Example C69_ex : Forall kmessage_ok nx /\
  nl_datagram (mkNlp (Some 4242) false 1 0 [254; 1000]) (concat (map kbytes nx)) =
  Some (EndRc 0, [NRoute true (mkKr (mkDest (n4 10 1 2 0) 120 (n4 0 0 0 0) 96) 300 7 3); NAddr false (Some (n4 10 1 2 1)) 7;
                  NRoute false (mkKr (mkDest (n6 0) 64 (zeroes 16) 0) 65535 0 3)]).
Proof.
  split; [|vm_compute; reflexivity].
  repeat (apply Forall_cons; [split; [cbn [info_ok]; repeat split; try (left; reflexivity); try (right; reflexivity); try lia|
    unfold msg_ok; cbn [to_msg m_type m_seq m_pid m_body m_attrs]; repeat split; try lia; try (vm_compute; reflexivity); repeat constructor; cbn [fst snd]; try lia; vm_compute; reflexivity]|]); try apply Forall_nil;
  cbn [In] in *; repeat match goal with H : _ \/ _ |- _ => destruct H end; try contradiction;
  try match goal with H : (_, _) = (_, _) |- _ => injection H as <- <- end; try lia; try reflexivity; repeat constructor; unfold byte_ok; try (vm_compute; congruence).
  intros t d I H. cbn [In] in I. destruct I as [I|[I|[I|[]]]]; injection I as <- <-; [reflexivity|reflexivity|lia].
Qed.
(** An unreachable IPv4 default route is reported, although an unreachable IPv6 one is not. *)
Theorem C69_default_refuted : exists m4 m6, kmessage_ok m4 /\ kmessage_ok m6 /\
  (exists tos s f l, m4 = (0, 0, 0, IRoute true 2 0 0 tos 254 3 s 7 f l)) /\ (exists tos s f l, m6 = (0, 0, 0, IRoute true 10 0 0 tos 254 3 s 7 f l)) /\
  exists r, nl_datagram (mkNlp (Some 4242) false 1 0 [254]) (kbytes m6 ++ kbytes m4) = Some (EndRc 0, [NRoute true r]) /\
    d_plen (kr_dest r) = 96 /\ kr_metric r = 65535.
Proof.
  exists (0, 0, 0, IRoute true 2 0 0 0 254 3 0 7 0 [(6, le 4 4294967295)]), (0, 0, 0, IRoute true 10 0 0 0 254 3 0 7 0 [(6, le 4 4294967295)]).
  assert (O : forall f, f = 2 \/ f = 10 -> kmessage_ok (0, 0, 0, IRoute true f 0 0 0 254 3 0 7 0 [(6, le 4 4294967295)])).
  { intros f Hf. split.
    - split; [exact Hf|]. split; [lia|]. intros t d [E|[]]. injection E as <- <-. split; [intros; lia|]. intros _. split; [reflexivity|]. change (le 4 4294967295) with [255; 255; 255; 255]. repeat (apply Forall_cons; [unfold byte_ok; lia|]). apply Forall_nil.
    - unfold msg_ok. cbn [to_msg m_type m_seq m_pid m_body m_attrs]. repeat split; try lia; repeat constructor; cbn [fst snd]; try lia; vm_compute; reflexivity. }
  split; [apply O; auto|]. split; [apply O; auto|]. split; [eexists _, _, _, _; reflexivity|]. split; [eexists _, _, _, _; reflexivity|].
  eexists. split; [vm_compute; reflexivity|]. split; reflexivity.
Qed.
Print Assumptions C69_default_refuted.

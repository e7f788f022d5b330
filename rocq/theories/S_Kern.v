(** S_Kern.v: the kernel's routing table as the daemon's requests make it, and the
    entry that a selected route should have in it. *)
From Verif Require Import Base M_Util M_Filter M_Source M_Types M_State S_Util S_Neigh S_World M_Daemon.

(** Kernel priority of a route of metric [m]; 65535 stands for unreachable. *)
Definition prio_of (c : conf) (m : Z) : Z :=
  if m >=? 65535 then 65535
  else if c_reflect c then Z.min (c_kernel_metric c + m) 65535 else c_kernel_metric c.

(** The entry for route [r] through interface number [ifindex].  Unreachable routes
    have no next hop; there are no unreachable default routes.  Table numbers are
    8 bits. *)
Definition kent (c : conf) (ifindex : Z) (r : route) : option kreq :=
  let d := dest_of r in
  let act := snd (install_filter (c_instfs c) (Some (k_id (r_src r))) d ifindex) in
  let table := (if fr_table act =? 0 then c_export_table c else fr_table act) mod 256 in
  let src := if is_default (d_src d) (d_splen d) then None else Some (d_src d, d_splen d) in
  let p := prio_of c (metric_of r) in
  if p <? 65535 then
    Some (mkKreq table (d_prefix d) (d_plen d) src p (Some (ifindex, r_nexthop r, fr_pref_src act)))
  else if (d_plen d =? 0) || (v4mapped (d_prefix d) && (d_plen d =? 96)) then None
  else Some (mkKreq table (d_prefix d) (d_plen d) src (-1) None).

(** What the kernel identifies a route by, as far as the daemon's requests differ,
    priorities aside. *)
Definition kkey (q : kreq) := (q_table q, q_prefix q, q_plen q, q_src q).
Definition kreq_dec : forall a b : kreq, {a = b} + {a <> b}.
Proof. repeat decide equality. Defined.
Definition kkey_dec : forall a b : Z * list Z * Z * option (list Z * Z), {a = b} + {a <> b}.
Proof. repeat decide equality. Defined.

(** The table after one request; None if something is added that is already there
    (for the same destination) or removed that is not there.  Requests that were
    refused have no effect. *)
Definition fib1 (F : list kreq) (e : kev) : option (list kreq) :=
  match e with
  | KAdd q 0 => if existsb (fun q' => if kkey_dec (kkey q') (kkey q) then true else false) F
                then None else Some (q :: F)
  | KDel q 0 => if in_dec kreq_dec q F then Some (remove kreq_dec q F) else None
  | _ => Some F
  end.
Definition fibs (F : option (list kreq)) (tr : list kev) : option (list kreq) :=
  fold_left (fun o e => match o with Some F => fib1 F e | None => None end) tr F.
Definition kernel_table (tr : list kev) : option (list kreq) := fibs (Some []) tr.

(** Executions in which the kernel carries out what it is asked: it answers 0, no
    IPv6 destination is announced with an IPv4 next hop, IPv4 prefixes have at least
    96 bits (the parser makes no others), and an
    interface does not change its number while selected routes go through it
    (interface.c:557-566 takes it down first). *)
Definition kgood (ev : event) (w : world) : Prop :=
  match ev with
  | EvOracle _ k => Forall (fun x => x = 0) k
  | EvUpdate _ d _ _ _ _ (Some nh) =>
      (v4mapped (d_prefix d) = true -> 96 <= d_plen d) /\ (v4mapped nh = true -> v4mapped (d_prefix d) = true)
  | EvInterface i =>
      (forall i', In i' (w_ifs w) -> if_id i' = if_id i -> if_ifindex i' = if_ifindex i) \/
      (forall r, In r (all_routes w) -> r_installed r = true -> ~ via_if w (if_id i) r)
  | _ => True
  end.
Inductive kreach (c : conf) : world -> Prop :=
| kreach_boot : forall now ifs seqno, NoDup (map if_id ifs) -> Forall iface_in ifs -> tv_ok now -> u16_ok seqno ->
    kreach c (boot c now ifs seqno)
| kreach_run : forall w ev, kreach c w -> allowed ev w -> kgood ev w -> kreach c (run1 ev w).

(** No install rule mentions a router-id or an interface (so that it decides in the
    same way for all routes to a destination); no input rule adds a cost above
    65535. *)
Definition static_install (c : conf) : Prop := forall f, In f (c_instfs c) -> f_id f = None /\ f_if f = None.
Definition filters_ok (c : conf) : Prop := forall f, In f (c_infs c) -> 0 <= fr_add_metric (f_action f) <= 65535.

(** S_Xroute.v: what the kernel says should be redistributed. *)
From Verif Require Import Base M_Util M_Filter M_Types M_State M_Xroute S_World.

Definition martian (d : dest) : Prop := martian_prefix (d_prefix d) (d_plen d) = true.
(** fe80::/10 *)
Definition link_local (a : list Z) : Prop :=
  at_ a 0 = 254 /\ Z.testbit (at_ a 1) 7 = true /\ Z.testbit (at_ a 1) 6 = false.

(** The routes of a dump: a host route for each address that is not link-local, and
    the kernel's routes with neither prefix martian. *)
Inductive offered (addrs : list (list Z * Z)) (routes : list kroute) : kroute -> Prop :=
| off_addr6 : forall a ifx, In (a, ifx) addrs -> ~ link_local a -> v4mapped a = false ->
    offered addrs routes (mkKr (mkDest a 128 (zeroes 16) 0) 0 ifx RTPROT_BABEL_LOCAL)
| off_addr4 : forall a ifx, In (a, ifx) addrs -> ~ link_local a -> v4mapped a = true ->
    offered addrs routes (mkKr (mkDest a 128 v4prefix 96) 0 ifx RTPROT_BABEL_LOCAL)
| off_route : forall k, In k routes -> ~ martian (kr_dest k) ->
    martian_prefix (d_src (kr_dest k)) (d_splen (kr_dest k)) = false -> offered addrs routes k.

(** The redistribute rules accept the kernel route: it is redistributed as [d] with
    metric [m].  A rule may give another source prefix. *)
Definition accepted (c : conf) (k : kroute) (d : dest) (m : Z) : Prop :=
  exists res, redistribute_filter (c_redistfs c) (kr_dest k) (kr_ifindex k) (kr_proto k) = (m, res) /\
    m < 65535 /\ d_prefix d = d_prefix (kr_dest k) /\ d_plen d = d_plen (kr_dest k) /\
    match fr_src res with
    | Some (p, l) => d_src d = p /\ d_splen d = l
    | None => d_src d = d_src (kr_dest k) /\ d_splen d = d_splen (kr_dest k)
    end.

(** Strictly sorted: by prefix length, prefix, source prefix length, source prefix *)
Definition xr_before (a b : dest) : Prop :=
  d_plen a < d_plen b \/ (d_plen a = d_plen b /\
  (bytes_lt (d_prefix a) (d_prefix b) \/ (d_prefix a = d_prefix b /\
  (d_splen a < d_splen b \/ (d_splen a = d_splen b /\ bytes_lt (d_src a) (d_src b)))))).

(** S_Filter.v: what a filter rule means, in terms of the conditions of the
    manual page (babeld.man, section "filtering rules"). *)
From Verif Require Import Base M_Util S_Util M_Filter.

Definition is_ipv4 (d : dest) : Prop := d_plen d >= 96 /\ same_bits 96 (d_prefix d) v4prefix.

(** prefix/length [q]/[m] is inside [p]/[l] *)
Definition inside (q : list Z) (m : Z) (p : list Z) (l : Z) : Prop := l <= m /\ same_bits l q p.

(** The conditions of a rule, all of which must hold. *)
Record rule_holds (f : filt) (id : option (list Z)) (d : dest) (neigh : option (list Z))
    (ifindex proto : Z) : Prop := {
  h_af : (f_af f = AF_INET -> is_ipv4 d) /\ (f_af f = AF_INET6 -> ~ is_ipv4 d);
  h_id : forall i, f_id f = Some i -> id = Some i;
  h_ip : forall p l, f_prefix f = Some (p, l) -> inside (d_prefix d) (d_plen d) p l;
  h_src : forall p l, f_src f = Some (p, l) -> inside (d_src d) (d_splen d) p l;
  h_len : f_plen_ge f <= d_plen d <= f_plen_le f;
  h_slen : f_splen_ge f <= d_splen d <= f_splen_le f;
  h_neigh : forall n, f_neigh f = Some n -> neigh = Some n;
  h_if : forall i, f_if f = Some i -> i <> 0 /\ ifindex = i;
  h_proto : f_proto f <> 0 -> proto = f_proto f;
  (* local addresses and boot-time routes must be asked for explicitly *)
  h_noproto : f_proto f = 0 -> proto <> -2 /\ proto <> 3
}.

(** Well-formed destinations and rules. *)
Definition dest_ok (d : dest) : Prop :=
  addr_ok (d_prefix d) /\ 0 <= d_plen d <= 128 /\ addr_ok (d_src d) /\ 0 <= d_splen d <= 128.
Definition filt_ok (f : filt) : Prop :=
  (f_af f = 0 \/ f_af f = AF_INET \/ f_af f = AF_INET6) /\
  (forall p l, f_prefix f = Some (p, l) -> addr_ok p /\ 0 <= l <= 128) /\
  (forall p l, f_src f = Some (p, l) -> addr_ok p /\ 0 <= l <= 128) /\
  0 <= f_plen_ge f /\ 0 <= f_splen_ge f /\ 0 <= f_plen_le f /\ 0 <= f_splen_le f /\
  0 <= fr_add_metric (f_action f) <= 65535.

(** The action of the first rule that holds. *)
Inductive first_match (fs : list filt) id d neigh ifindex proto : option filter_result -> Prop :=
| fm_none : (forall f, In f fs -> ~ rule_holds f id d neigh ifindex proto) ->
    first_match fs id d neigh ifindex proto None
| fm_some : forall fs1 f fs2, fs = fs1 ++ f :: fs2 ->
    (forall g, In g fs1 -> ~ rule_holds g id d neigh ifindex proto) ->
    rule_holds f id d neigh ifindex proto ->
    first_match fs id d neigh ifindex proto (Some (f_action f)).

(** The verdict [res] and action [r] of a chain whose default is [dflt]. *)
Definition chain_spec (dflt : Z) fs id d neigh ifindex proto (res : Z) (r : filter_result) : Prop :=
  (exists a, first_match fs id d neigh ifindex proto (Some a) /\ res = fr_add_metric a /\ r = a) \/
  (first_match fs id d neigh ifindex proto None /\ res = dflt /\ r = res0).

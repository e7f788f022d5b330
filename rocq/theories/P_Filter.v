(** P_Filter.v: property theorems C43 and C44. *)
From Verif Require Import Base M_Util S_Util M_Filter S_Filter L_Filter.

(** C43: for every chain of rules and every route, the input filter gives the
    action of the first rule all of whose conditions hold, and 0 (accept) if none. *)
Theorem C43_input_first_match : forall fs id d neigh ifindex,
  Forall filt_ok fs -> dest_ok d ->
  exists r, chain_spec 0 fs id d neigh ifindex 0 (input_filter fs id d neigh ifindex) r.
Proof. exact input_chain. Qed.
Print Assumptions C43_input_first_match.

Theorem C43_output_first_match : forall fs id d ifindex,
  Forall filt_ok fs -> dest_ok d ->
  exists r, chain_spec 0 fs id d None ifindex 0 (output_filter fs id d ifindex) r.
Proof. exact output_chain. Qed.
Print Assumptions C43_output_first_match.

(** Redistribute and install filters default to deny within the chain itself. *)
Theorem C43_redistribute_first_match : forall fs d ifindex proto,
  Forall filt_ok fs -> dest_ok d ->
  let '(res, r) := redistribute_filter fs d ifindex proto in
  chain_spec INFINITY fs None d None ifindex proto res r.
Proof. exact redistribute_chain. Qed.
Print Assumptions C43_redistribute_first_match.

Theorem C43_install_first_match : forall fs id d ifindex,
  Forall filt_ok fs -> dest_ok d ->
  let '(res, r) := install_filter fs id d ifindex in
  chain_spec INFINITY fs id d None ifindex 0 res r.
Proof. exact install_chain. Qed.
Print Assumptions C43_install_first_match.

(** The first match is unique. *)
Theorem C43_first_match_unique : forall fs id d neigh ifindex proto o1 o2,
  first_match fs id d neigh ifindex proto o1 -> first_match fs id d neigh ifindex proto o2 -> o1 = o2.
Proof. exact first_match_det. Qed.
Print Assumptions C43_first_match_unique.

(** Documented defaults after the configuration is finalised: a route no rule
    speaks about is installed; redistributed only if it is a local address. *)
Theorem C43_default_install : forall fs id d ifindex,
  Forall filt_ok fs -> dest_ok d ->
  (forall f, In f fs -> ~ rule_holds f id d None ifindex 0) ->
  install_filter (finalise_install fs) id d ifindex = (0, res0).
Proof. exact install_default. Qed.
Print Assumptions C43_default_install.

Theorem C43_default_redistribute : forall fs d ifindex proto,
  Forall filt_ok fs -> dest_ok d ->
  (forall f, In f fs -> ~ rule_holds f None d None ifindex proto) ->
  redistribute_filter (finalise_redistribute fs) d ifindex proto =
  (if proto =? RTPROT_BABEL_LOCAL then 0 else INFINITY, res0).
Proof. exact redistribute_default. Qed.
Print Assumptions C43_default_redistribute.

(** C44: what an input or output filter adds is between 0 and infinity. *)
Theorem C44_input_never_improves : forall fs id d neigh ifindex,
  Forall filt_ok fs -> dest_ok d ->
  0 <= input_filter fs id d neigh ifindex <= INFINITY.
Proof. exact input_filter_range. Qed.
Print Assumptions C44_input_never_improves.

Theorem C44_output_never_improves : forall fs id d ifindex,
  Forall filt_ok fs -> dest_ok d ->
  0 <= output_filter fs id d ifindex <= INFINITY.
Proof. exact output_filter_range. Qed.
Print Assumptions C44_output_never_improves.

(** Non-trivial instance: "in ip 10.0.0.0/8 le 16 deny" then "in metric 96", on
    10.1.0.0/16 (denied) and on 10.1.2.0/24 (the second rule applies). *)
Definition ex_rules : list filt :=
  [ mkFilt AF_INET None None (Some (mapped 10 0 0 0, 104)) 0 112 None 0 128 None 0 (mkRes INFINITY None 0 None);
    mkFilt 0 None None None 0 128 None 0 128 None 0 (mkRes 96 None 0 None) ].
Definition ex_dest (l : Z) : dest := mkDest (mapped 10 1 0 0) l (repeat 0 16) 0.
Example C43_ex_ok : Forall filt_ok ex_rules /\ dest_ok (ex_dest 112) /\ dest_ok (ex_dest 120) /\
  input_filter ex_rules None (ex_dest 112) None 1 = INFINITY /\
  input_filter ex_rules None (ex_dest 120) None 1 = 96.
Proof.
  assert (B : forall l, Forall (fun b => 0 <= b < 256) l -> bytes_ok l) by auto.
  assert (D : forall l, 0 <= l <= 128 -> dest_ok (ex_dest l)).
  { intros l Hl. repeat split; simpl; try lia; apply B; repeat constructor; lia. }
  split; [|split; [apply D; lia|split; [apply D; lia|split; vm_compute; reflexivity]]].
  assert (R : 0 <= INFINITY <= 65535) by (unfold INFINITY; lia).
  constructor; [|constructor; [|constructor]]; unfold filt_ok; cbn; unfold AF_INET, AF_INET6;
    (split; [auto|split; [intros p l E; try discriminate|split; [discriminate|lia]]]).
  injection E; intros; subst. split; [split|lia]; [reflexivity|].
  apply B; repeat constructor; lia.
Qed.

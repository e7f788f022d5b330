(** P_Wire.v: reading packets. *)
From Verif Require Import Base M_Util M_Filter M_Wire S_Wire L_Wire L_Wire2.

(** ** C07: no read outside the packet, termination, framing *)

(** Whatever the bytes, parsing finishes without reading outside the packet. *)
Theorem C07_parse_total : forall c pkt, addr_ok (r_from c) -> bytes_ok pkt -> 4 <= zlen pkt ->
  exists acts, parse_packet c pkt = Ret acts.
Proof.
  intros c pkt A B L.
  destruct (frames_total (body pkt) ltac:(apply bytes_ok_firstn, bytes_ok_skipn; auto)) as (fs & full & Fr).
  eexists. exact (proj1 (parse_packet_frames c pkt fs full A B L Fr)).
Qed.
Print Assumptions C07_parse_total.

(** The TLVs are those which the length bytes delimit; each one is parsed from its
    own bytes alone, from the state the previous ones left. *)
Theorem C07_framing : forall c pkt fs full,
  addr_ok (r_from c) -> bytes_ok pkt -> 4 <= zlen pkt -> frames (body pkt) fs full ->
  parse_packet c pkt =
    Ret (if babel_header c pkt then snd (tlvs c p0 fs) ++ rtt_action (fst (tlvs c p0 fs)) else []).
Proof. intros. eapply parse_packet_frames; eauto. Qed.
Print Assumptions C07_framing.

(** ** C61: what the parser hands over is well formed *)
Theorem C61_actions_ok : forall c pkt acts, addr_ok (r_from c) -> bytes_ok pkt -> 4 <= zlen pkt ->
  parse_packet c pkt = Ret acts -> Forall act_ok acts.
Proof. exact parse_actions_ok. Qed.
Print Assumptions C61_actions_ok.

(** ** C08: unknown extensions *)

(** A TLV with an unknown mandatory sub-TLV is not acted upon; and an Update
    leaves the parser in the state it would have left without it. *)
Theorem C08_mandatory : forall c p t h u fs full s v, pst_ok p -> bytes_ok h -> bytes_ok u ->
  fixed t h = Some (zlen h) -> frames u fs full ->
  In (s, v) fs -> known_sub t s = false -> mandatory s = true ->
  snd (one c p t (h ++ u)) = [] /\ (t <> 8 -> fst (one c p t (h ++ u)) = p) /\
  (t = 8 -> fst (one c p t (h ++ u)) = fst (one c p t h)).
Proof. exact mandatory_sub. Qed.
Print Assumptions C08_mandatory.

(** Unknown sub-TLVs which are not mandatory, and padding, can be added or removed
    anywhere. *)
Theorem C08_optional : forall c p t h u u' fs fs' full, pst_ok p -> bytes_ok h -> bytes_ok u -> bytes_ok u' ->
  fixed t h = Some (zlen h) -> frames u fs full -> frames u' fs' full ->
  filter (fun f => known_sub t (fst f) || mandatory (fst f)) fs =
  filter (fun f => known_sub t (fst f) || mandatory (fst f)) fs' ->
  one c p t (h ++ u) = one c p t (h ++ u').
Proof. exact optional_sub. Qed.
Print Assumptions C08_optional.

(** Unknown TLVs and padding can be added or removed anywhere in a packet. *)
Theorem C08_unknown_tlv : forall c pkt pkt' fs fs' full full', addr_ok (r_from c) ->
  bytes_ok pkt -> 4 <= zlen pkt -> bytes_ok pkt' -> 4 <= zlen pkt' -> firstn 2 pkt = firstn 2 pkt' ->
  frames (body pkt) fs full -> frames (body pkt') fs' full' ->
  filter (fun f => (2 <=? fst f) && (fst f <=? 10)) fs =
  filter (fun f => (2 <=? fst f) && (fst f <=? 10)) fs' ->
  parse_packet c pkt = parse_packet c pkt'.
Proof. exact parse_unknown_tlv. Qed.
Print Assumptions C08_unknown_tlv.

(** *** A packet *)

(** A Hello with a timestamp, padding, a router-id, an Update for 2001:db8::/32 with an
    unknown optional sub-TLV, the same with an unknown mandatory one, a TLV of unknown
    type, and a truncated one. *)
Definition x_ctx : rctx := mkR [254;128;0;0;0;0;0;0;0;0;0;0;0;0;0;1] [] true.
Definition x_hello : list Z := [0;0; 0;7; 1;144; 3;4;0;0;1;0].
Definition x_head : list Z := [2;0;32;0; 4;176; 0;9; 1;0; 32;1;13;184].
Definition x_pkt : list Z :=
  [42;2; 0;70] ++ ([4;12] ++ x_hello) ++ [0] ++ [6;10; 0;0;1;2;3;4;5;6;7;8]
    ++ ([8;17] ++ x_head ++ [60;1;9]) ++ ([8;16] ++ x_head ++ [200;0]) ++ [99;1;0] ++ [8;30;1].
Definition x_frames : list (Z * list Z) :=
  [(4, x_hello); (6, [0;0;1;2;3;4;5;6;7;8]); (8, x_head ++ [60;1;9]); (8, x_head ++ [200;0]); (99, [0])].

Example x_frames_ok : frames (body x_pkt) x_frames false.
Proof.
  change (body x_pkt) with
    (4 :: 12 :: x_hello ++ 0 :: 6 :: 10 :: [0;0;1;2;3;4;5;6;7;8] ++ 8 :: 17 :: (x_head ++ [60;1;9]) ++
     8 :: 16 :: (x_head ++ [200;0]) ++ 99 :: 1 :: [0] ++ [8;30;1]).
  repeat (first [apply fr_tlv; [lia|reflexivity|] | apply fr_pad1]). apply fr_short2; [lia|reflexivity].
Qed.
Example x_pkt_ok : addr_ok (r_from x_ctx) /\ bytes_ok x_pkt /\ 4 <= zlen x_pkt /\ babel_header x_ctx x_pkt = true.
Proof.
  split; [|split; [|split; [|reflexivity]]].
  - split; [reflexivity|]. repeat constructor; try lia.
  - repeat constructor; try lia.
  - vm_compute. discriminate.
Qed.
Example x_parse : parse_packet x_ctx x_pkt =
  Ret [AHello false 7 400 (Some 256);
       AUpdate (Some [1;2;3;4;5;6;7;8]) (mkDest [32;1;13;184;0;0;0;0;0;0;0;0;0;0;0;0] 32 (zeroes 16) 0)
         9 256 1200 (Some (r_from x_ctx))].
Proof. vm_compute. reflexivity. Qed.
(** The hypotheses of C08_mandatory and C08_optional for the two Updates *)
Example x_mandatory : fixed 8 x_head = Some (zlen x_head) /\ frames [200; 0] [(200, [])] true /\
  known_sub 8 200 = false /\ mandatory 200 = true /\
  snd (one x_ctx (set_p_id (Some [1;2;3;4;5;6;7;8]) p0) 8 (x_head ++ [200;0])) = [] /\
  snd (one x_ctx (set_p_id (Some [1;2;3;4;5;6;7;8]) p0) 8 x_head) <> [].
Proof.
  split; [reflexivity|]. split; [exact (fr_tlv 200 0 [] [] [] true ltac:(lia) eq_refl fr_end)|].
  split; [reflexivity|]. split; [reflexivity|]. split; [vm_compute; reflexivity|]. vm_compute. discriminate.
Qed.
Example x_optional : frames [60;1;9] [(60, [9])] true /\ frames [] [] true /\
  filter (fun f : Z * list Z => known_sub 8 (fst f) || mandatory (fst f)) [(60, [9])] = [].
Proof.
  split; [exact (fr_tlv 60 1 [9] [] [] true ltac:(lia) eq_refl fr_end)|]. split; [constructor|reflexivity].
Qed.

(** ** C61: a mapped prefix in the IPv6 encoding *)

(** The parser accepts ::ffff:10.0.0.0/104 as an IPv6 prefix and hands over the same
    prefix as for 10.0.0.0/8, but with the IPv6 "no source prefix": two destinations
    which compare different for one prefix. *)
Definition x_mapped6 : list Z :=
  [42;2; 0;41] ++ [6;10; 0;0;1;2;3;4;5;6;7;8]
    ++ [8;23; 2;0;104;0; 4;176; 0;9; 1;0; 0;0;0;0;0;0;0;0;0;0;255;255;10] ++ [0;0;0;0].
Definition x_mapped4 : list Z :=
  [42;2; 0;35] ++ [6;10; 0;0;1;2;3;4;5;6;7;8] ++ [7;6; 1;0;10;0;0;1]
    ++ [8;11; 1;0;8;0; 4;176; 0;9; 1;0; 10] ++ [0;0].
Theorem C61_mapped_refuted : exists c pkt4 pkt6 id d4 d6 q m i nh4 nh6,
  bytes_ok pkt4 /\ bytes_ok pkt6 /\
  parse_packet c pkt4 = Ret [AUpdate id d4 q m i nh4] /\
  parse_packet c pkt6 = Ret [AUpdate id d6 q m i nh6] /\
  d_prefix d4 = d_prefix d6 /\ d_plen d4 = d_plen d6 /\
  is_default (d_src d4) (d_splen d4) = true /\ is_default (d_src d6) (d_splen d6) = true /\ d4 <> d6.
Proof.
  exists x_ctx, x_mapped4, x_mapped6, (Some [1;2;3;4;5;6;7;8]),
    (mkDest [0;0;0;0;0;0;0;0;0;0;255;255;10;0;0;0] 104 v4prefix 96),
    (mkDest [0;0;0;0;0;0;0;0;0;0;255;255;10;0;0;0] 104 (zeroes 16) 0), 9, 256, 1200,
    (Some [0;0;0;0;0;0;0;0;0;0;255;255;10;0;0;1]), (Some (r_from x_ctx)).
  split; [repeat constructor; try lia|]. split; [repeat constructor; try lia|].
  split; [vm_compute; reflexivity|]. split; [vm_compute; reflexivity|].
  repeat split; try reflexivity. discriminate.
Qed.
Print Assumptions C61_mapped_refuted.

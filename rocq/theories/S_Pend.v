(** S_Pend.v: vocabulary for announcements of changes. *)
From Verif Require Import Base M_Util S_Util M_Filter M_Source S_Source M_Types M_Neigh M_State M_Table S_World S_Send.

(** An update for [d] waits on interface [ifp]. *)
Definition pending (w : world) (ifp : Z) (d : dest) : Prop :=
  exists i, In i (w_ifs w) /\ if_id i = ifp /\ In d (if_pend i).
(** It waits on every interface that is up. *)
Definition pending_all (w : world) (d : dest) : Prop :=
  forall i, In i (w_ifs w) -> if_up i = true -> In d (if_pend i).
(** Between [w] and [w'] each interface that is up was told about [d] as it is in
    [w'], or is about to be. *)
Definition announced (w w' : world) (d : dest) : Prop :=
  forall i, In i (w_ifs w) -> if_up i = true ->
    pending w' (if_id i) d \/
    exists X A Y, told w' i d A /\ w_out w' = w_out w ++ X ++ A ++ Y.
(** The install rules deny the route. *)
Definition install_denied (w : world) (r : route) : Prop :=
  exists nb i, In nb (w_nbs w) /\ n_id nb = r_neigh r /\ In i (w_ifs w) /\ if_id i = n_if nb /\
    65535 <= fst (install_filter (c_instfs (w_cfg w)) (Some (k_id (r_src r))) (dest_of r) (if_ifindex i)).
(** Nothing but [d] started to wait anywhere. *)
Definition only_pending (w w' : world) (d : dest) : Prop :=
  forall ifp d', d' <> d -> pending w' ifp d' -> pending w ifp d'.
(** The routes to destinations other than [d] are the same, as is their selection. *)
Definition untouched (w w' : world) (d : dest) : Prop :=
  (forall r, In r (all_routes w) -> dest_of r <> d ->
     exists r', In r' (all_routes w') /\ same_entry r r' /\ r_installed r' = r_installed r) /\
  (forall r', In r' (all_routes w') -> dest_of r' <> d ->
     exists r, In r (all_routes w) /\ same_entry r r' /\ r_installed r' = r_installed r).
(** The message [m] was sent between [w] and [w']. *)
Definition new_out (w w' : world) (m : obuf * tlv) : Prop := exists X Y, w_out w' = w_out w ++ X ++ m :: Y.
(** A request for sequence number [q] of router [id] was sent: to the neighbour of some
    unexpired route to [d] if there is one, else to the group on each interface that is up. *)
Definition request_sent (w w' : world) (d : dest) (q : Z) (id : list Z) : Prop :=
  let fits i := any_source d \/ flag i IF_RFC6126 = false in
  (exists r nb i, In r (all_routes w') /\ dest_of r = d /\ eligible w' false None r /\ In nb (w_nbs w') /\
     n_id nb = r_neigh r /\ In i (w_ifs w) /\ if_id i = n_if nb /\
     (fits i -> new_out w w' (BNb (r_neigh r), TMhRequest d q 127 id))) \/
  ((forall r, In r (all_routes w') -> dest_of r = d -> ~ eligible w' false None r) /\
   forall i, In i (w_ifs w) -> if_up i = true -> fits i -> new_out w w' (BIf (if_id i), TMhRequest d q 127 id)).
(** The sequence number to ask for: the one of the feasibility distance, or the next one
    if that is finite. *)
Definition next_seqno (s : source) : Z := if 65535 <=? s_metric s then s_seqno s else (s_seqno s + 1) mod 65536.
(** What follows when the selected route [r] became infinite between [w] and [w'],
    unless the kernel refused a change: the neighbours are told, and the route selected
    is finite, or it is [r] itself and every finite eligible alternative counts as
    infinite after smoothing. *)
Definition taken_over (w w' : world) (r : route) : Prop :=
  let d := dest_of r in
  krefused w w' \/
  (announced w w' d /\
   exists r', is_selected w' d r' /\
     (finite r' \/
      (r_ptr r' = r_ptr r /\
       forall r1 r1', In r1 (all_routes w) -> dest_of r1 = d -> r_ptr r1 <> r_ptr r ->
         eligible w true None r1 -> finite r1 ->
         In r1' (all_routes w') -> r_ptr r1' = r_ptr r1 -> 65535 <= r_smoothed r1'))).

(** M_Table.v: look-ups in the tables of the daemon. *)
From Verif Require Import Base M_Util M_Slot M_Source M_Filter M_Types M_Neigh M_State.

(** interface.h:88 *)
Definition IF_RFC6126 : Z := 128.
(** kernel.h:26 *)
Definition KERNEL_INFINITY : Z := 65535.

(** A failed assertion or an access to a freed object. *)
Definition fault (w : world) : world := set_w_bad true w.
(** A loop of the model ran out of fuel. *)
Definition nofuel (w : world) : world := set_w_fuel true w.

(** random(): 0 <= r < 2^31 *)
Definition rand (w : world) : Z * world :=
  match w_rnd w with
  | [] => (0, w)
  | x :: l => (x mod 2147483648, set_w_rnd l w)
  end.

Definition sec (w : world) : Z := tv_sec (w_now w).

(** Dereferencing interface and neighbour pointers. *)
Definition get_if (i : Z) (w : world) : option iface := find (fun x => if_id x =? i) (w_ifs w).
Definition get_nb (n : Z) (w : world) : option neigh := find (fun x => n_id x =? n) (w_nbs w).
Definition map_if (i : Z) (f : iface -> iface) (w : world) : world :=
  set_w_ifs (map (fun x => if if_id x =? i then f x else x) (w_ifs w)) w.
Definition map_nb (n : Z) (f : neigh -> neigh) (w : world) : world :=
  set_w_nbs (map (fun x => if n_id x =? n then f x else x) (w_nbs w)) w.
(** neigh and neigh->ifp *)
Definition nb_if (n : Z) (w : world) : option (neigh * iface) :=
  match get_nb n w with
  | Some nb => match get_if (n_if nb) w with Some i => Some (nb, i) | None => None end
  | None => None
  end.

(** The destination of a source entry. *)
Definition kdest (k : skey) : dest := mkDest (k_prefix k) (k_plen k) (k_src k) (k_splen k).
Definition rdest (r : route) : dest := kdest (r_src r).
Definition mkey (id : list Z) (d : dest) : skey :=
  mkKey id (d_prefix d) (d_plen d) (d_src d) (d_splen d).

(** route.h:47-52 route_metric *)
Definition route_metric (r : route) : Z :=
  Z.min (r_refmetric r + r_cost r + r_add_metric r) INFINITY.

(** route.c:57-93 route_compare *)
Definition route_compare (d : dest) (r : route) : Z :=
  let is_ss := negb (is_default (d_src d) (d_splen d)) in
  let is_ss_rt := negb (is_default (k_src (r_src r)) (k_splen (r_src r))) in
  if negb is_ss && is_ss_rt then 1
  else if is_ss && negb is_ss_rt then -1
  else
    andthen (memcmp (d_prefix d) (k_prefix (r_src r)))
    (andthen (zcmp (d_plen d) (k_plen (r_src r)))
      (if is_ss then
         andthen (memcmp (d_src d) (k_src (r_src r))) (zcmp (d_splen d) (k_splen (r_src r)))
       else 0)).

(** route.c:98-128 find_route_slot.  The table is the list of slots, each slot
    being the list of its routes, head first; no slot is empty (an invariant). *)
Definition r0 : route := mkRoute (-1) (mkKey [] [] 0 [] 0) 0 0 0 0 0 [] 0 0 0 0 false.
Definition slot_compare (d : dest) (l : list route) : Z := route_compare d (hd r0 l).
Definition find_route_slot (d : dest) (w : world) : slot :=
  find_slot (slot_compare d) [] (w_rt w).
Definition slot_of (d : dest) (w : world) : list route :=
  match find_route_slot d w with
  | Found i => nth (Z.to_nat i) (w_rt w) []
  | NotFound _ => []
  end.

(** route.c:130-150 find_route *)
Definition find_route (d : dest) (n : Z) (w : world) : option route :=
  find (fun r => r_neigh r =? n) (slot_of d w).

(** route.c:152-162 find_installed_route *)
Definition find_installed (d : dest) (w : world) : option route :=
  match slot_of d w with
  | r :: _ => if r_installed r then Some r else None
  | [] => None
  end.

(** Dereferencing a route pointer; writing through it. *)
Definition is_ptr (p : Z) (r : route) : bool := r_ptr r =? p.
Definition find_ptr (p : Z) (w : world) : option route := find (is_ptr p) (concat (w_rt w)).
Definition map_ptr (p : Z) (f : route -> route) (w : world) : world :=
  set_w_rt (map (map (fun r => if is_ptr p r then f r else r)) (w_rt w)) w.

(** route->next *)
Fixpoint next_in (p : Z) (l : list route) : option Z :=
  match l with
  | [] => None
  | r :: l' =>
      if is_ptr p r then match l' with [] => None | r' :: _ => Some (r_ptr r') end
      else next_in p l'
  end.
Fixpoint next_rt (p : Z) (t : list (list route)) : option Z :=
  match t with
  | [] => None
  | l :: t' => if existsb (is_ptr p) l then next_in p l else next_rt p t'
  end.
Definition next_ptr (p : Z) (w : world) : option Z := next_rt p (w_rt w).

(** route->src *)
Definition src_of (r : route) (w : world) : option source := get_src (r_src r) (w_srcs w).

(** route.c:615-619 route_feasible *)
Definition feasible (r : route) (w : world) : bool :=
  update_feasible (sec w) (src_of r w) (r_seqno r) (r_refmetric r).
(** route.c:621-625 route_old, 627-631 route_expired; C division *)
Definition route_old (r : route) (w : world) : bool :=
  r_time r <? sec w - Z.quot (r_hold_time r * 7) 8.
Definition route_expired (r : route) (w : world) : bool :=
  r_time r <? sec w - r_hold_time r.

(** xroute.c:46-72 xroute_compare *)
Definition dest_compare (a b : dest) : Z :=
  andthen (zcmp (d_plen a) (d_plen b))
  (andthen (memcmp (d_prefix a) (d_prefix b))
  (andthen (zcmp (d_splen a) (d_splen b))
           (memcmp (d_src a) (d_src b)))).
Definition xr0 : xroute := mkXr (mkDest [] 0 [] 0) 0 0 0.
(** xroute.c:74-104 find_xroute_slot, 107-116 find_xroute *)
Definition find_xroute_slot (d : dest) (w : world) : slot :=
  find_slot (fun x => dest_compare d (x_dest x)) xr0 (w_xr w).
Definition find_xroute (d : dest) (w : world) : option xroute :=
  match find_xroute_slot d w with
  | Found i => nth_error (w_xr w) (Z.to_nat i)
  | NotFound _ => None
  end.

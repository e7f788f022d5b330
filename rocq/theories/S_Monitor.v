(** S_Monitor.v: what a client makes of the notifications it gets, and when its picture is right. *)
From Verif Require Import Base M_Util M_Filter M_Source M_Types M_State S_World L_World4 M_Monitor.

(** What the client knows: routes by identifier, redistributed routes by destination. *)
Record picture := mkPic { pr : Z -> option shown; px : dest -> option Z }.
Definition blank : picture := mkPic (fun _ => None) (fun _ => None).
Definition put_r (p : Z) (a : option shown) (P : picture) : picture :=
  mkPic (fun q => if Z.eq_dec q p then a else pr P q) (px P).
Definition put_x (d : dest) (m : option Z) (P : picture) : picture :=
  mkPic (pr P) (fun e => if dest_dec e d then m else px P e).

(** "add" is for something new, "change" and "flush" for something known; anything else is an
    error of the sender. *)
Definition see (P : picture) (n : note) : option picture :=
  match n with
  | NRoute Add p a => match pr P p with None => Some (put_r p (Some a) P) | Some _ => None end
  | NRoute Change p a => match pr P p with None => None | Some _ => Some (put_r p (Some a) P) end
  | NRoute Flush p _ => match pr P p with None => None | Some _ => Some (put_r p None P) end
  | NXroute Add d m => match px P d with None => Some (put_x d (Some m) P) | Some _ => None end
  | NXroute Change d m => match px P d with None => None | Some _ => Some (put_x d (Some m) P) end
  | NXroute Flush d _ => match px P d with None => None | Some _ => Some (put_x d None P) end
  end.
Fixpoint see_all (ns : list note) (P : picture) : option picture :=
  match ns with
  | [] => Some P
  | n :: ns' => match see P n with Some P' => see_all ns' P' | None => None end
  end.

(** The attributes of a route in a line. *)
Definition shown_as (r : route) (a : shown) : Prop :=
  sh_dest a = dest_of r /\ sh_installed a = r_installed r /\ sh_id a = k_id (r_src r) /\
  sh_metric a = metric_of r /\ sh_refmetric a = r_refmetric r /\ sh_neigh a = r_neigh r.

(** The picture is that of the tables: nothing missing, nothing else, nothing out of date. *)
Definition right_picture (P : picture) (w : world) : Prop :=
  (forall r, In r (all_routes w) -> exists a, pr P (r_ptr r) = Some a /\ shown_as r a) /\
  (forall p a, pr P p = Some a -> exists r, In r (all_routes w) /\ r_ptr r = p) /\
  (forall d m, px P d = Some m <-> exists x, In x (w_xr w) /\ x_dest x = d /\ x_metric x = m).

(** Right but perhaps for which routes are installed and what their router-ids are. *)
Definition close_picture (P : picture) (w : world) : Prop :=
  (forall r, In r (all_routes w) -> exists a, pr P (r_ptr r) = Some a /\
     sh_dest a = dest_of r /\ sh_metric a = metric_of r /\ sh_refmetric a = r_refmetric r /\ sh_neigh a = r_neigh r) /\
  (forall p a, pr P p = Some a -> exists r, In r (all_routes w) /\ r_ptr r = p) /\
  (forall d m, px P d = Some m <-> exists x, In x (w_xr w) /\ x_dest x = d /\ x_metric x = m).

(** Requests refused by the kernel or by kernel_route; that a route to be added exists already
    (EEXIST) is not a refusal. *)
Definition refused (e : kev) : Prop :=
  match e with KAdd _ x => x <> 0 /\ x <> 17 | KDel _ x => x <> 0 | KFail _ _ => True end.
Definition none_refused (w w' : world) : Prop :=
  exists l, w_ktr w' = w_ktr w ++ l /\ Forall (fun e => ~ refused e) l.

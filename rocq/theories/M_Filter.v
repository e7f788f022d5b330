(** M_Filter.v: model of the filters of configuration.c. *)
From Verif Require Import Base M_Util.

(** Address families *)
Definition AF_INET : Z := 2.
Definition AF_INET6 : Z := 10.
(** babeld.h:29, configuration.c:34 *)
Definition RTPROT_BABEL_LOCAL : Z := -2.
Definition RTPROT_BOOT : Z := 3.

(** configuration.h:41-47; a NULL pointer is None.  add_metric is an unsigned int
    written only by parse_filter, configuration.c:479-489: 0..INFINITY. *)
Record filter_result := mkRes {
  fr_add_metric : Z; fr_src : option (list Z * Z); fr_table : Z; fr_pref_src : option (list Z) }.
Definition res0 : filter_result := mkRes 0 None 0 None.

(** configuration.h:49-64.  [f_if]: None when no ifname, else the ifindex (0 for
    "no such interface"). *)
Record filt := mkFilt {
  f_af : Z; f_if : option Z; f_id : option (list Z);
  f_prefix : option (list Z * Z); f_plen_ge : Z; f_plen_le : Z;
  f_src : option (list Z * Z); f_splen_ge : Z; f_splen_le : Z;
  f_neigh : option (list Z); f_proto : Z; f_action : filter_result }.

(** A destination: prefix and source prefix, with lengths. *)
Record dest := mkDest { d_prefix : list Z; d_plen : Z; d_src : list Z; d_splen : Z }.

(** configuration.c:1374-1438 filter_match.  Every caller passes non-NULL
    prefixes, so these are not optional; id and neigh may be NULL. *)
Definition filter_match (f : filt) (id : option (list Z)) (d : dest)
    (neigh : option (list Z)) (ifindex proto : Z) : bool :=
  let v4 := (d_plen d >=? 96) && v4mapped (d_prefix d) in
  if negb (f_af f =? 0) && (if v4 then f_af f =? AF_INET6 else f_af f =? AF_INET) then false
  else if match f_id f with
          | Some fi => match id with Some i => negb (beq fi i) | None => true end
          | None => false end then false
  else if match f_prefix f with
          | Some (p, l) => (d_plen d <? l) || negb (in_prefix (d_prefix d) p l)
          | None => false end then false
  else if match f_src f with
          | Some (p, l) => (d_splen d <? l) || negb (in_prefix (d_src d) p l)
          | None => false end then false
  else if ((f_plen_ge f >? 0) || (f_plen_le f <? 128)) &&
          ((d_plen d >? f_plen_le f) || (d_plen d <? f_plen_ge f)) then false
  else if ((f_splen_ge f >? 0) || (f_splen_le f <? 128)) &&
          ((d_splen d >? f_splen_le f) || (d_splen d <? f_splen_ge f)) then false
  else if match f_neigh f with
          | Some fn => match neigh with Some n => negb (beq fn n) | None => true end
          | None => false end then false
  else if match f_if f with
          | Some i => (i =? 0) || (ifindex =? 0) || negb (i =? ifindex)
          | None => false end then false
  else if negb (f_proto f =? 0) then
    if (proto =? 0) || negb (f_proto f =? proto) then false else true
  else if proto =? RTPROT_BABEL_LOCAL then false
  else if proto =? RTPROT_BOOT then false
  else true.

(** configuration.c:1440-1461 do_filter: the returned value and *result *)
Fixpoint do_filter (fs : list filt) (id : option (list Z)) (d : dest)
    (neigh : option (list Z)) (ifindex proto : Z) : Z * filter_result :=
  match fs with
  | [] => (-1, res0)
  | f :: fs' =>
      if filter_match f id d neigh ifindex proto
      then (s32 (fr_add_metric (f_action f)), f_action f)
      else do_filter fs' id d neigh ifindex proto
  end.

(** configuration.c:1463-1475 input_filter; 1477-1489 output_filter *)
Definition input_filter (fs : list filt) id d neigh ifindex : Z :=
  let res := fst (do_filter fs id d neigh ifindex 0) in if res <? 0 then 0 else res.
Definition output_filter (fs : list filt) id d ifindex : Z :=
  let res := fst (do_filter fs id d None ifindex 0) in if res <? 0 then 0 else res.
(** configuration.c:1491-1503 redistribute_filter; 1505-1518 install_filter *)
Definition redistribute_filter (fs : list filt) d ifindex proto : Z * filter_result :=
  let '(res, r) := do_filter fs None d None ifindex proto in
  (if res <? 0 then INFINITY else res, r).
Definition install_filter (fs : list filt) id d ifindex : Z * filter_result :=
  let '(res, r) := do_filter fs id d None ifindex 0 in
  (if res <? 0 then INFINITY else res, r).

(** configuration.c:1520-1540 finalise_config: the rules appended at the end of
    the redistribute and install lists. *)
Definition rule0 (proto : Z) : filt := mkFilt 0 None None None 0 128 None 0 128 None proto res0.
Definition finalise_redistribute (fs : list filt) := fs ++ [rule0 RTPROT_BABEL_LOCAL].
Definition finalise_install (fs : list filt) := fs ++ [rule0 0].

(** M_Source.v: model of source.c, the table of feasibility distances. *)
From Verif Require Import Base M_Util M_Slot.

(** source.h:25-30: the key of a source entry. *)
Record skey := mkKey { k_id : list Z; k_prefix : list Z; k_plen : Z;
                       k_src : list Z; k_splen : Z }.

(** source.h:25-35.  Pointers to entries are represented by the key. *)
Record source := mkSrc { s_key : skey; s_seqno : Z; s_metric : Z;
                         s_count : Z; s_time : Z }.

(** source.h:23 *)
Definition SOURCE_GC_TIME : Z := 200.

(** [first nonzero]: if(rc != 0) return rc; ... *)
Definition andthen (a b : Z) : Z := if a =? 0 then b else a.
(** if(x < y) return -1; if(x > y) return 1; *)
Definition zcmp (x y : Z) : Z := if x <? y then -1 else if x >? y then 1 else 0.

(** source.c:40-71 source_compare *)
Definition skey_compare (a b : skey) : Z :=
  andthen (memcmp (k_id a) (k_id b))
  (andthen (zcmp (k_plen a) (k_plen b))
  (andthen (memcmp (k_prefix a) (k_prefix b))
  (andthen (zcmp (k_splen a) (k_splen b))
           (memcmp (k_src a) (k_src b))))).

Definition src0 : source := mkSrc (mkKey [] [] 0 [] 0) 0 0 0 0.

(** source.c:73-104 find_source_slot *)
Definition find_source_slot (k : skey) (t : list source) : slot :=
  find_slot (fun s => skey_compare k (s_key s)) src0 t.

(** source.c:126-170 find_source.  [now] is now.tv_sec.  Allocation never fails. *)
Definition find_source (now : Z) (k : skey) (create : bool) (seqno : Z) (t : list source)
  : option source * list source :=
  match find_source_slot k t with
  | Found i => (nth_error t (Z.to_nat i), t)
  | NotFound n =>
      if create then
        let s := mkSrc k seqno INFINITY 0 now in
        (Some s, insert_at n s t)
      else (None, t)
  end.

(** Dereferencing a pointer to a source entry; None: the entry has been freed. *)
Definition skey_eqb (a b : skey) : bool := skey_compare a b =? 0.
Definition get_src (k : skey) (t : list source) : option source :=
  find (fun s => skey_eqb k (s_key s)) t.
(** Writing through a pointer. *)
Definition map_src (k : skey) (f : source -> source) (t : list source) : list source :=
  map (fun s => if skey_eqb k (s_key s) then f s else s) t.

(** source.c:172-178 retain_source, 180-185 release_source: the assertion, and
    the new entry. *)
Definition retain_ok (s : source) : bool := s_count s <? 65535.
Definition retain1 (s : source) : source :=
  mkSrc (s_key s) (s_seqno s) (s_metric s) (s_count s + 1) (s_time s).
Definition release_ok (s : source) : bool := s_count s >? 0.
Definition release1 (s : source) : source :=
  mkSrc (s_key s) (s_seqno s) (s_metric s) (s_count s - 1) (s_time s).

(** source.c:187-205 update_source *)
Definition update_source1 (now seqno metric : Z) (s : source) : source :=
  if metric >=? INFINITY then s
  else
    let upd := (s_time s <? now - SOURCE_GC_TIME) ||
               (seqno_compare (s_seqno s) seqno <? 0) ||
               ((s_seqno s =? seqno) && (s_metric s >? metric)) in
    mkSrc (s_key s) (if upd then seqno else s_seqno s)
          (if upd then metric else s_metric s) (s_count s) now.
Definition update_source (now : Z) (k : skey) (seqno metric : Z) (t : list source) :=
  map_src k (update_source1 now seqno metric) t.

(** source.c:207-232 expire_sources *)
Fixpoint expire_sources (now : Z) (t : list source) : list source :=
  match t with
  | [] => []
  | s :: t' =>
      let s' := mkSrc (s_key s) (s_seqno s) (s_metric s) (s_count s)
                      (if s_time s >? now then now else s_time s) in
      if (s_count s' =? 0) && (s_time s' <? now - SOURCE_GC_TIME)
      then expire_sources now t' else s' :: expire_sources now t'
  end.

(** route.c:633-650 update_feasible *)
Definition update_feasible (now : Z) (s : option source) (seqno refmetric : Z) : bool :=
  match s with
  | None => true
  | Some s =>
      if s_time s <? now - SOURCE_GC_TIME then true
      else if refmetric >=? INFINITY then true
      else (seqno_compare seqno (s_seqno s) >? 0) ||
           ((s_seqno s =? seqno) && (refmetric <? s_metric s))
  end.

(** The operations of the module, for histories. *)
Inductive sop :=
| OFind (now : Z) (k : skey) (create : bool) (seqno : Z)
| ORetain (k : skey)
| ORelease (k : skey)
| OUpdate (now : Z) (k : skey) (seqno metric : Z)
| OExpire (now : Z).

Definition sstep (t : list source) (o : sop) : list source :=
  match o with
  | OFind now k c q => snd (find_source now k c q t)
  | ORetain k => map_src k (fun s => if retain_ok s then retain1 s else s) t
  | ORelease k => map_src k (fun s => if release_ok s then release1 s else s) t
  | OUpdate now k q m => update_source now k q m t
  | OExpire now => expire_sources now t
  end.

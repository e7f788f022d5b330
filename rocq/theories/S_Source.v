(** S_Source.v: what the source table should be: a finite map. *)
From Verif Require Import Base M_Util M_Source.

(** The information kept per key. *)
Record sinfo := mkInfo { i_seqno : Z; i_metric : Z; i_count : Z; i_time : Z }.

Definition smap := skey -> option sinfo.

Definition skey_dec : forall a b : skey, {a = b} + {a <> b}.
Proof. repeat decide equality. Defined.

Definition set (m : smap) (k : skey) (v : option sinfo) : smap :=
  fun k' => if skey_dec k k' then v else m k'.

(** Abstract operations. *)
Definition spec_step (m : smap) (o : sop) : smap :=
  match o with
  | OFind now k create q =>
      match m k with
      | Some _ => m
      | None => if create then set m k (Some (mkInfo q 65535 0 now)) else m
      end
  | ORetain k =>
      match m k with
      | Some i => if i_count i <? 65535
                  then set m k (Some (mkInfo (i_seqno i) (i_metric i) (i_count i + 1) (i_time i)))
                  else m
      | None => m
      end
  | ORelease k =>
      match m k with
      | Some i => if 0 <? i_count i
                  then set m k (Some (mkInfo (i_seqno i) (i_metric i) (i_count i - 1) (i_time i)))
                  else m
      | None => m
      end
  | OUpdate now k q me =>
      match m k with
      | Some i =>
          if me >=? 65535 then m
          else if (i_time i <? now - 200) || (let d := (q - i_seqno i) mod 65536 in (1 <=? d) && (d <=? 32767))
                  || ((i_seqno i =? q) && (me <? i_metric i))
               then set m k (Some (mkInfo q me (i_count i) now))
               else set m k (Some (mkInfo (i_seqno i) (i_metric i) (i_count i) now))
      | None => m
      end
  | OExpire now =>
      fun k => match m k with
               | Some i =>
                   let t := Z.min (i_time i) now in
                   if (i_count i =? 0) && (t <? now - 200) then None
                   else Some (mkInfo (i_seqno i) (i_metric i) (i_count i) t)
               | None => None
               end
  end.

(** Operations with 16-bit sequence numbers. *)
Definition sop_ok (o : sop) : Prop :=
  match o with
  | OFind _ _ _ q | OUpdate _ _ q _ => 0 <= q < 65536
  | _ => True
  end.

(** Reading the concrete table: the unique entry with the key. *)
Definition info (s : source) : sinfo := mkInfo (s_seqno s) (s_metric s) (s_count s) (s_time s).
Definition holds (t : list source) (k : skey) (i : sinfo) : Prop :=
  exists s, In s t /\ s_key s = k /\ info s = i.

(** Lexicographic order on (seqno, metric) pairs whose sequence numbers are
    unwrapped integers: newer first, then smaller metric. *)
Definition better_eq (a b : Z * Z) : Prop :=
  fst a > fst b \/ (fst a = fst b /\ snd a <= snd b).
Definition better (a b : Z * Z) : Prop :=
  fst a > fst b \/ (fst a = fst b /\ snd a < snd b).

(** A history of announcements (clock, unwrapped seqno, metric) in which the
    entry, last used at [t], is never left unused for more than 200 s. *)
Fixpoint fresh (t : Z) (l : list (Z * Z * Z)) : Prop :=
  match l with
  | [] => True
  | (now, _, m) :: l' => now - 200 <= t /\ (if m <? 65535 then fresh now l' else fresh t l')
  end.
Definition announce (s : source) (a : Z * Z * Z) : source :=
  let '(now, q, m) := a in update_source1 now (q mod 65536) m s.
(** [s] represents the unwrapped pair [p]. *)
Definition is_fd (s : source) (p : Z * Z) : Prop :=
  s_seqno s = fst p mod 65536 /\ s_metric s = snd p.

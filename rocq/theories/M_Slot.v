(** M_Slot.v: the binary search shared by the source, route and xroute tables,
    and insertion into a sorted array. *)
From Verif Require Import Base.

(** Result of find_*_slot: index of the match, or (with result -1) the position
    stored in new_return. *)
Inductive slot := Found (i : Z) | NotFound (n : Z).

(** The do/while loop of source.c:89-98, route.c:113-122 and xroute.c:89-98.
    [cmp m] is the comparison of the searched key with entry [m].  [fuel] bounds
    the number of iterations; L_Slot shows that the table size is enough. *)
Fixpoint bs_loop (fuel : nat) (cmp : Z -> Z) (p g : Z) : slot :=
  match fuel with
  | O => NotFound p
  | S f =>
      let m := (p + g) / 2 in
      let c := cmp m in
      if c =? 0 then Found m
      else
        let p' := if c <? 0 then p else m + 1 in
        let g' := if c <? 0 then m - 1 else g in
        if p' <=? g' then bs_loop f cmp p' g' else NotFound p'
  end.

(** source.c:73-104, route.c:98-128, xroute.c:74-104, for a table represented by
    the list [l], where [c x] compares the searched key with entry [x].
    Simplification: indices are unbounded integers (no overflow of p + g, which
    needs a table of 2^30 entries). *)
Definition find_slot {A} (c : A -> Z) (d : A) (l : list A) : slot :=
  let n := Z.of_nat (length l) in
  if n <? 1 then NotFound 0
  else bs_loop (length l) (fun m => c (nth (Z.to_nat m) l d)) 0 (n - 1).

(** memmove + store: source.c:163-167, route.c:209-213, xroute.c:139-150 *)
Definition insert_at {A} (n : Z) (x : A) (l : list A) : list A :=
  firstn (Z.to_nat n) l ++ x :: skipn (Z.to_nat n) l.

(** memmove down over entry i: route.c:260-264, xroute.c:174-177 *)
Definition remove_at {A} (i : Z) (l : list A) : list A :=
  firstn (Z.to_nat i) l ++ skipn (S (Z.to_nat i)) l.

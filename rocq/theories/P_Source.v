(** P_Source.v: property theorems about the source table: C17, C18, C19
    (feasibility test), C55. *)
From Verif Require Import Base M_Util S_Util M_Slot M_Source S_Source L_Source.
From Coq Require Import Sorting.Sorted.

Definition kA : skey := mkKey [1;1;1;1;1;1;1;1] (repeat 32 16) 128 (repeat 0 16) 0.
Definition kB : skey := mkKey [2;1;1;1;1;1;1;1] (repeat 32 16) 128 (repeat 0 16) 0.

(** C17 *)
Theorem C17_table_is_finite_map : forall ops, Forall sop_ok ops ->
  StronglySorted (fun a b => skey_compare (s_key a) (s_key b) < 0) (srun ops) /\
  NoDup (map s_key (srun ops)) /\
  (forall k i, holds (srun ops) k i <-> spec_run ops k = Some i) /\
  (forall now k q, match fst (find_source now k false q (srun ops)) with
                   | Some s => s_key s = k /\ spec_run ops k = Some (info s)
                   | None => spec_run ops k = None
                   end).
Proof. exact source_table_is_map. Qed.
Print Assumptions C17_table_is_finite_map.
Definition ops17 : list sop :=
  [OFind 100 kB true 7; OFind 100 kA true 3; ORetain kB; OUpdate 150 kB 8 256;
   OUpdate 160 kA 3 96; OExpire 400].
Example C17_ex1 : Forall sop_ok ops17 /\
  map s_key (srun ops17) = [kB] /\ spec_run ops17 kB = Some (mkInfo 8 256 1 150) /\
  spec_run ops17 kA = None.
Proof. split; [repeat constructor; simpl; lia|]. repeat split; vm_compute; reflexivity. Qed.

Theorem C17_find_or_create : forall ops now k q, Forall sop_ok ops ->
  exists s, fst (find_source now k true q (srun ops)) = Some s /\ s_key s = k /\
    In s (snd (find_source now k true q (srun ops))) /\
    (spec_run ops k = Some (info s) \/
     (spec_run ops k = None /\ info s = mkInfo q 65535 0 now)).
Proof. exact find_source_create. Qed.
Print Assumptions C17_find_or_create.
Example C17_ex2 : map s_key (srun (ops17 ++ [OFind 500 kA true 9])) = [kA; kB].
Proof. vm_compute. reflexivity. Qed.

(** C18 *)
Theorem C18_distance_is_best_announced : forall l s p B, is_fd s p -> B <= fst p <= B + 32767 ->
  (forall now q m, In (now, q, m) l -> B <= q <= B + 32767) ->
  fresh (s_time s) l ->
  exists p', is_fd (fold_left announce l s) p' /\ B <= fst p' <= B + 32767 /\
    (p' = p \/ exists now q m, In (now, q, m) l /\ m < 65535 /\ p' = (q, m)) /\
    better_eq p' p /\
    (forall now q m, In (now, q, m) l -> m < 65535 -> better_eq p' (q, m)).
Proof. exact fd_history. Qed.
Print Assumptions C18_distance_is_best_announced.
(** seqnos 65530 .. 65540 cross the wrap *)
Definition s18 : source := mkSrc kA 65530 300 0 1000.
Definition l18 : list (Z * Z * Z) :=
  [(1010, 65530, 400); (1100, 65540, 700); (1250, 65540, 65535); (1290, 65540, 650); (1300, 65531, 10)].
Example C18_ex1 : is_fd s18 (65530, 300) /\ fresh (s_time s18) l18 /\
  is_fd (fold_left announce l18 s18) (65540, 650).
Proof. vm_compute. repeat split; discriminate. Qed.

Theorem C18_infeasible_stays_infeasible : forall now now' s s' p p' q m B,
  is_fd s p -> is_fd s' p' -> better_eq p' p ->
  B <= fst p <= B + 32767 -> B <= fst p' <= B + 32767 -> B <= q <= B + 32767 ->
  now - 200 <= s_time s -> now' - 200 <= s_time s' ->
  update_feasible now (Some s) (q mod 65536) m = false ->
  update_feasible now' (Some s') (q mod 65536) m = false.
Proof. exact feasible_antitone. Qed.
Print Assumptions C18_infeasible_stays_infeasible.
Example C18_ex2 : update_feasible 1100 (Some s18) 65530 300 = false /\
  update_feasible 1350 (Some (fold_left announce l18 s18)) 65530 300 = false.
Proof. split; vm_compute; reflexivity. Qed.

(** C19, the feasibility test *)
Theorem C19_feasible_iff : forall now s seqno refmetric, seqno_ok (s_seqno s) -> seqno_ok seqno ->
  (update_feasible now (Some s) seqno refmetric = true <->
   s_time s < now - 200 \/ refmetric >= 65535 \/ 1 <= ahead seqno (s_seqno s) <= 32768 \/
   (seqno = s_seqno s /\ refmetric < s_metric s)).
Proof. exact feasible_iff. Qed.
Print Assumptions C19_feasible_iff.
Example C19_ex1 : seqno_ok (s_seqno s18) /\ update_feasible 1100 (Some s18) 65530 299 = true /\
  update_feasible 1100 (Some s18) 3 5000 = true /\ update_feasible 1100 (Some s18) 65529 5 = false.
Proof. unfold seqno_ok. repeat split; try (vm_compute; reflexivity); vm_compute; discriminate. Qed.

(** C55 *)
Theorem C55_discard_only_old_unused : forall now t s, In s t ->
  (s_count s = 0 /\ s_time s < now - 200) \/
  exists s', In s' (expire_sources now t) /\ s_key s' = s_key s /\ s_seqno s' = s_seqno s /\
     s_metric s' = s_metric s /\ s_count s' = s_count s /\ s_time s' = Z.min (s_time s) now.
Proof. exact expire_exact. Qed.
Print Assumptions C55_discard_only_old_unused.
Example C55_ex1 : expire_sources 500 [mkSrc kA 1 2 0 299; mkSrc kB 1 2 1 3; s18] =
  [mkSrc kB 1 2 1 3; mkSrc kA 65530 300 0 500].
Proof. vm_compute. reflexivity. Qed.

Theorem C55_kept_entries : forall now t s', In s' (expire_sources now t) ->
  exists s, In s t /\ s_key s' = s_key s /\ s_seqno s' = s_seqno s /\ s_metric s' = s_metric s /\
    s_count s' = s_count s /\ s_time s' = Z.min (s_time s) now /\
    ~ (s_count s = 0 /\ s_time s < now - 200).
Proof. exact expire_only. Qed.
Print Assumptions C55_kept_entries.
Example C55_ex2 : In (mkSrc kB 1 2 1 3) (expire_sources 500 [mkSrc kA 1 2 0 299; mkSrc kB 1 2 1 3]).
Proof. vm_compute. auto. Qed.

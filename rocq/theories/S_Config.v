(** S_Config.v: what reading a configuration line should mean. *)
From Verif Require Import Base M_Config.
From Coq Require Import Sorted.

(** The characters still to be read: the look-ahead and what follows; -1 is the end. *)
Definition text (c : Z) (r : list Z) : list Z := if c <? 0 then [] else c :: r.
Definition lex_ok (c : Z) (r : list Z) : Prop :=
  (c = -1 /\ r = [] \/ 0 <= c) /\ Forall (fun x => 0 <= x) r.
(** Every end of line in [l] follows a backslash (inside a quoted string). *)
Inductive escaped : list Z -> Prop :=
| esc_nil : escaped []
| esc_char : forall c l, c <> 10 -> escaped l -> escaped (c :: l)
| esc_eol : forall l, escaped l -> escaped (92 :: 10 :: l).
(** [l] is one line: at most its last character is an unescaped end of line; one that does
    not end with it ends with the input. *)
Definition one_line (l rest : list Z) : Prop :=
  exists l0, escaped l0 /\ (l = l0 ++ [10] \/ l = l0 /\ rest = []).

(** Blank characters, and lines with nothing but blanks and a comment. *)
Definition blank (c : Z) : Prop := c = 32 \/ c = 9 \/ c = 13.
Definition empty_line (l : list Z) : Prop :=
  exists b k, l = b ++ k ++ [10] /\ Forall blank b /\ ~ In 10 k /\ (k = [] \/ exists k', k = 35 :: k').
(** A line that is the word [w] alone. *)
Definition word_line (w l : list Z) : Prop :=
  exists b l', l = b ++ w ++ l' /\ Forall blank b /\ empty_line l'.

(** The strings in use are live. *)
Definition heap_ok (p : pst) : Prop :=
  NoDup (p_live p) /\ Forall (fun t => t < p_nxt p) (p_live p).

(** Two configurations that differ only in the reference counts of keys, which may be larger
    in the second, and in whether an assertion on them failed. *)
Definition anonymous (k : key) : list Z * Z * list Z := (k_id k, k_type k, k_value k).
Definition refs_only (g g' : cfg) : Prop :=
  g_final g' = g_final g /\ g_write g' = g_write g /\ g_in g' = g_in g /\ g_out g' = g_out g /\
  g_redist g' = g_redist g /\ g_inst g' = g_inst g /\ g_ifs g' = g_ifs g /\
  g_default g' = g_default g /\ g_log g' = g_log g /\
  map anonymous (g_keys g') = map anonymous (g_keys g) /\
  Forall2 (fun k k' => k_ref k <= k_ref k') (g_keys g) (g_keys g').

(** The line begins with the characters [w]. *)
Definition starts_with (l w : list Z) : Prop := exists b r, l = b ++ w ++ r /\ Forall blank b.

(** A complete line: its only end of line is its last character; characters are bytes. *)
Definition complete_line (l : list Z) : Prop :=
  exists body, l = body ++ [10] /\ ~ In 10 body /\ Forall (fun x => 0 <= x) body.
(** What the C library sees of a word: it stops at a NUL. *)
Definition seen_as (x w : list Z) : Prop := x = w \/ exists y, x = w ++ 0 :: y.
(** The commands available on a read-only connection. *)
Definition ro_commands : list (list Z * Z) :=
  [(map Z.of_nat [113; 117; 105; 116]%nat, 1);                                 (* quit *)
   (map Z.of_nat [100; 117; 109; 112]%nat, 2);                                 (* dump *)
   (map Z.of_nat [109; 111; 110; 105; 116; 111; 114]%nat, 3);                  (* monitor *)
   (map Z.of_nat [117; 110; 109; 111; 110; 105; 116; 111; 114]%nat, 4)].       (* unmonitor *)

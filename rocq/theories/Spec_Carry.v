(* Spec_Carry.v - what a unified diff says: the vocabulary for carrying one out. *)
From Verif Require Import Base Model_Seq Model_Changes Model_Text Model_Regex Model_Unified Spec Spec_Unified.

(* [carried number i j old ts new]: the clumps [ts], carried out on a text that goes on with [old]
   from line i on, give one that goes on with [new] from line j on.  Lines in front of a clump
   are kept; in a clump the lines marked as kept or removed are those of the one text, the lines
   marked as kept or added those of the other.  [number s n] is how the position of n lines behind
   the first s ones is written. *)
Inductive carried (number : nat -> nat -> nat) : nat -> nat -> list line -> list unified_text -> list line -> Prop :=
| carried_end i j rest : carried number i j rest [] rest
| carried_clump i j kept old new body t ts rest rest' :
    Forall marked_line body -> with_marker body (ut_lines t) ->
    unmark (old_lines body) = old -> unmark (new_lines body) = new ->
    header_written (ut_header t)
      (Z.of_nat (number (i + length kept) (length old))) (Z.of_nat (length old))
      (Z.of_nat (number (j + length kept) (length new))) (Z.of_nat (length new)) ->
    carried number (i + length kept + length old) (j + length kept + length new) rest ts rest' ->
    carried number i j (kept ++ old ++ rest) (t :: ts) (kept ++ new ++ rest').
(* as the code writes positions: the number of lines in front *)
Definition lines_before (s n : nat) : nat := s.

(* Spec_Reread.v - reading a written unified diff clump after clump and carrying out what is read (used by C133). *)
From Verif Require Import Base Model_Seq Model_Changes Model_Regex Model_Unified Spec Spec_Unified.

(* from line i on there is one clump after another up to the end of the lines: each of them is read
   where the one before ends by its own account *)
Inductive clumps_from (nd : char -> bool) (dbg : bool) (lines : list line) : nat -> list unified_clump -> Prop :=
| clumps_end : clumps_from nd dbg lines (length lines) []
| clumps_more i c cs : get_from_at nd dbg lines i = Ok (DOk (Some c)) -> clumps_from nd dbg lines (i + uc_consumed c) cs -> clumps_from nd dbg lines i (c :: cs).

(* clumps that were read, carried out on a text that goes on with the first list from line i on, give
   one that goes on with the last list from line j on *)
Inductive carried_out : nat -> nat -> list line -> list unified_clump -> list line -> Prop :=
| carried_out_end i j rest : carried_out i j rest [] rest
| carried_out_clump i j kept c cs rest rest' :
    uc_header c = SLs (SL (Z.of_nat (i + length kept)) (Z.of_nat (length (uc_before c)))) (SL (Z.of_nat (j + length kept)) (Z.of_nat (length (uc_after c)))) ->
    carried_out (i + length kept + length (uc_before c)) (j + length kept + length (uc_after c)) rest cs rest' ->
    carried_out i j (kept ++ unmark (uc_before c) ++ rest) (c :: cs) (kept ++ unmark (uc_after c) ++ rest').

(* a diff as it is written to a file: the clumps one after another *)
Definition all_written (ts : list unified_text) : list byte := concat (map written_out ts).

(* all printed lines have their newline *)
Definition full_clump (t : unified_text) : Prop := Forall ends_in_newline (ut_lines t).
(* only the line printed last has none; it is an old or a new line, not ending in a blank *)
Definition open_clump (t : unified_text) : Prop := exists front x, ut_lines t = front ++ [x; [newline; "\"%byte; newline]] /\ Forall ends_in_newline front /\
  ~ ends_in_newline x /\ context_line x = false /\ (forall p c, chars x = p ++ [c] -> ~ blank c).

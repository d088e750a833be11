(* Properties_Reread.v - the property theorems and a concrete case beside each; proofs are in
   Proof_Props_Reread.v.  Generated by tools/mkthms.py. *)
From Coq Require Import String.
From Verif Require Import Proof_Props_Reread Base Model_Seq Model_Changes Model_IO Model_Text Model_Json Model_Regex Model_Unified Spec Spec_Unified Spec_Nearly Spec_Carry Spec_Reread Cases Proof_Seq Proof_Diff Proof_Clumps Proof_Changes Proof_Unified Proof_UClump Proof_Carry Proof_Reread Proof_Props_Gen Proof_Props_Unified Proof_Props_Carry.

(* ------------------------------------------------------------------ C133 *)
(* C133, full statement: the clumps of a printed unified diff, written to a file one after another,
   can be read from its lines one after another, each starting where the one before ends, up to
   the end of the file; and what is read, carried out on the first text, gives the second.  It is
   false: if a line without a newline is printed before another, the file cannot be read ... *)
Theorem C133_reread_refuted : exists before_text before after_text after ts, lines_of before_text before /\ lines_of after_text after /\
  no_isolated_mismatch before after /\ unified_diff 1 before after = Ok ts /\
  ~ exists cs, clumps_from no_more_digits true (split_lines (all_written ts)) 0 cs.
Proof. exact p_C133_reread_refuted. Qed.
Print Assumptions C133_reread_refuted.

(* ... and the line printed last, if it is kept, gets a newline it does not have: what is read says
   that the newline is to be added, which the second text does not have. *)
Theorem C133_last_line_refuted : exists before_text before after_text after ts cs, lines_of before_text before /\ lines_of after_text after /\
  no_isolated_mismatch before after /\ unified_diff 1 before after = Ok ts /\
  clumps_from no_more_digits true (split_lines (all_written ts)) 0 cs /\ ~ carried_out 0 0 before cs after.
Proof. exact p_C133_last_line_refuted. Qed.
Print Assumptions C133_last_line_refuted.

(* What does hold (in the debug build with at most 128 lines of context): if in every clump all
   printed lines have their newline, or all but the last and this is an old or new line that does
   not end in a blank, the whole file is read, after whatever lines stand in front, and in one way
   only; the clumps read have the printed old and new lines; and carried out on the first text they
   give the second one, except for lines that differ from their counterparts in isolation and stay
   as they are.  If all lines of both texts end in a newline so do all printed lines.  Positions
   are counted from 0.  Missing: other texts without a newline at the end, debug builds with more
   context, lines that are overlooked. *)
Theorem C133_reread_partial : forall before_text before after_text after, lines_of before_text before -> lines_of after_text after ->
  (Z.of_nat (length before) < two64)%Z -> (Z.of_nat (length after) < two64)%Z ->
  exists r, nearly before after r /\ (no_isolated_mismatch before after -> r = after) /\
    forall nd dbg context front, digit_table nd -> context <= 255 -> (dbg = true -> context <= 128) ->
    exists ts, unified_diff context before after = Ok ts /\
      (Forall ends_in_newline before -> Forall ends_in_newline after -> Forall full_clump ts) /\
      (Forall (fun t => full_clump t \/ open_clump t) ts -> exists cs,
        clumps_from nd dbg (front ++ split_lines (all_written ts)) (length front) cs /\
        (forall cs', clumps_from nd dbg (front ++ split_lines (all_written ts)) (length front) cs' -> cs' = cs) /\
        map (fun c => (uc_before c, uc_after c)) cs = map (fun t => (old_lines (ut_lines t), new_lines (ut_lines t))) ts /\
        carried_out 0 0 before cs r).
Proof. exact p_C133_reread_partial. Qed.
Print Assumptions C133_reread_partial.

(* two clumps behind the two lines with the names of the files; the new text has no newline at its end *)
Example C133_example : let b := L "A B C D E F G " in let a := L "A B X Y E F G H" in let front := [str "--- a" ++ [newline]; str "+++ b" ++ [newline]] in
  exists t1 t2 c1 c2, lines_of (bs "A B C D E F G ") b /\ lines_of (bs "A B X Y E F G H") a /\ no_isolated_mismatch b a /\
    unified_diff 1 b a = Ok [t1; t2] /\ full_clump t1 /\ open_clump t2 /\ clumps_from no_more_digits true (front ++ split_lines (all_written [t1; t2])) 2 [c1; c2] /\
    uc_consumed c1 = 7 /\ unmark (uc_before c1) = L "B C D E " /\ unmark (uc_after c2) = L "G H" /\ carried_out 0 0 b [c1; c2] a.
Proof. exact e_C133_example. Qed.

(* Properties_Carry.v - the property theorems and a concrete case beside each; proofs are in
   Proof_Props_Carry.v.  Generated by tools/mkthms.py. *)
From Coq Require Import String.
From Verif Require Import Proof_Props_Carry Base Model_Seq Model_Changes Model_IO Model_Text Model_Json Model_Regex Model_Unified Spec Spec_Unified Spec_Nearly Spec_Carry Cases Proof_Seq Proof_Diff Proof_Clumps Proof_Changes Proof_Carry Proof_Props_Gen Proof_Props_Unified.

(* ------------------------------------------------------------------ C127 *)
(* C127, full statement: the clumps printed for two texts, carried out as unified diffs are (the
   positions counted from 1), make the first text into the second.  It is false for two reasons:
   positions are counted from 0 (see C70), so that the lines are looked for in the wrong place ... *)
Theorem C127_carried_refuted : exists before after ts, no_isolated_mismatch before after /\
  unified_diff 1 before after = Ok ts /\ ~ exists r, carried unified_position 0 0 before ts r.
Proof. exact p_C127_carried_refuted. Qed.
Print Assumptions C127_carried_refuted.

(* ... and changes are overlooked (see C10). *)
Theorem C127_complete_refuted : exists before after ts r, unified_diff 3 before after = Ok ts /\
  carried lines_before 0 0 before ts r /\ r <> after.
Proof. exact p_C127_complete_refuted. Qed.
Print Assumptions C127_complete_refuted.

(* What does hold, with the positions counted from 0: for any two texts the clumps can be carried
   out on the first one and give, whatever the number of context lines, one and the same text: the
   second one, except for lines that differ from their counterparts in isolation and stay as they
   are.  Missing: these lines, and the positions. *)
Theorem C127_carried_partial : forall before after,
  (Z.of_nat (length before) < two64)%Z -> (Z.of_nat (length after) < two64)%Z ->
  exists r, nearly before after r /\ (no_isolated_mismatch before after -> r = after) /\
    forall context, context <= 255 -> exists ts, unified_diff context before after = Ok ts /\ carried lines_before 0 0 before ts r.
Proof. exact p_C127_carried_partial. Qed.
Print Assumptions C127_carried_partial.

(* what clumps make of a text is determined by them, and they can be undone: they make it of no
   other text *)
Theorem C127_determined : forall number, number = lines_before \/ number = unified_position ->
  forall before ts r, carried number 0 0 before ts r ->
  (forall r', carried number 0 0 before ts r' -> r' = r) /\ (forall before', carried number 0 0 before' ts r -> before' = before).
Proof. exact p_C127_determined. Qed.
Print Assumptions C127_determined.

Example C127_example :
  let b := L "A B C D E F G " in let a := L "A B X Y E F G H" in exists t1 t2,
  no_isolated_mismatch b a /\ unified_diff 1 b a = Ok [t1; t2] /\
  ut_header t1 = str "@@ -1,4 +1,4 @@" /\ ut_lines t1 = [str " B" ++ [newline]; str "+X" ++ [newline]; str "+Y" ++ [newline]; str "-C" ++ [newline]; str "-D" ++ [newline]; str " E" ++ [newline]] /\
  carried lines_before 0 0 b [t1; t2] a /\
  forall b', carried lines_before 0 0 b' [t1; t2] a -> b' = b.
Proof. exact e_C127_example. Qed.

(* Properties_Rounds.v - the property theorems and a concrete case beside each; proofs are in
   Proof_Props_Rounds.v.  Generated by tools/mkthms.py. *)
From Coq Require Import String.
From Verif Require Import Proof_Props_Rounds Base Model_Seq Model_Changes Model_IO Model_Text Spec Spec_Shape Spec_Nearly Spec_Overlook Spec_Closer Spec_Rounds Cases Proof_Seq Proof_Changes Proof_Nearly Proof_Diff Proof_Text Proof_Shape Proof_Overlook Proof_Props_Gen Proof_Props_Context Proof_Props_Closer.

(* ------------------------------------------------------------------ C137 *)
(* C137: making a diff and patching with it over and over comes to an end, with the new text.  It
   need not end with the new text: if what is different is overlooked, nothing happens. *)
Theorem C137_arrives_refuted : exists before after, before <> after /\
  (exists cb, lines_of cb before) /\ (exists ca, lines_of ca after) /\
  (forall dbg, round dbg 3 after before before) /\ forall dbg n u, rounds dbg 3 after n before u -> u = before.
Proof. exact p_C137_arrives_refuted. Qed.
Print Assumptions C137_arrives_refuted.

(* What does hold: if no line of the old text stands at another place of the new one and the lines
   of the new text are all different, it does come to an end, after no more rounds that change
   something than half the number of lines and one, and no round makes a right line wrong.
   Missing: texts with lines that have moved or are repeated, where patching can make more lines
   wrong (C136); no sequence of rounds without end is known. *)
Theorem C137_ends_partial : forall dbg context before after cb ca n u,
  context <= 255 -> fits_lines before -> fits_lines after -> lines_of cb before -> lines_of ca after ->
  stays_put before after -> NoDup after -> rounds dbg context after n before u ->
  2 * n <= List.length after + 2 /\ (forall ds, wrong_items u after ds -> wrong_items before after ds) /\
  (0 < n -> List.length u = List.length after /\ forall ds, wrong_items u after ds -> 2 * (List.length ds + n) <= List.length after + 2).
Proof. exact p_C137_ends_partial. Qed.
Print Assumptions C137_ends_partial.

(* two rounds: the first overlooks a line, the second does not *)
Example C137_example : let b := L "A B C D x E F G one two " in let a := L "A B C D y E F G three four five six " in
  let t := L "A B C D x E F G three four five six " in
  stays_put b a /\ NoDup a /\ t <> a /\ rounds true 3 a 2 b a.
Proof. exact e_C137_example. Qed.

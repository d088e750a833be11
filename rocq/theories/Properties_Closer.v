(* Properties_Closer.v - the property theorems and a concrete case beside each; proofs are in
   Proof_Props_Closer.v.  Generated by tools/mkthms.py. *)
From Coq Require Import String.
From Verif Require Import Proof_Props_Closer Base Model_Seq Model_Changes Model_IO Model_Text Model_Bytes Spec Spec_Shape Spec_Overlook Spec_Closer Cases Proof_Seq Proof_Changes Proof_Diff Proof_Text Proof_Bytes Proof_Shape Proof_Overlook Proof_Props_Gen Proof_Props_Context.

(* ------------------------------------------------------------------ C136 *)
(* C136: patching a text brings it no further from the text it is meant to become.  If [before]
   and [after] have the same number of lines, the patched text differs from [after] in no more
   lines than [before] does; a diff of the patched text and [after] has no clumps.  Both parts are
   false.  A text of 255 lines that differs from another in three differs from it in four after
   patching; likewise for bytes.  The number of context lines is that of the programs (3). *)
Theorem C136_closer_refuted :
  (exists before after clumps, List.length before = List.length after /\ (forall ds, wrong_items before after ds -> List.length ds <= 3) /\
     text_diff_clumps before after 3 = Ok clumps /\ forall dbg, exists out ds,
     text_apply_into dbg clumps before false (Writer [] None) = (Done (Stats (List.length clumps) 0 0 0 0), Writer (List.concat out) None) /\
     Forall is_line out /\ List.length out = List.length after /\ wrong_items out after ds /\ List.length ds = 4) /\
  (exists before after clumps, List.length before = List.length after /\ (forall ds, wrong_items before after ds -> List.length ds <= 3) /\
     byte_diff_clumps before after 3 = Ok clumps /\ forall dbg, exists out ds,
     byte_apply_into dbg clumps before false (Writer [] None) = (Done tt, Writer out None) /\
     List.length out = List.length after /\ wrong_items out after ds /\ List.length ds = 4).
Proof. exact p_C136_closer_refuted. Qed.
Print Assumptions C136_closer_refuted.

(* and the second part: after patching, a new diff has a clump, and the text has to be patched
   again to become [after] *)
Theorem C136_again_refuted : exists before after out clumps clumps',
  text_diff_clumps before after 3 = Ok clumps /\ text_diff_clumps out after 3 = Ok clumps' /\ clumps' <> [] /\ out <> after /\
  forall dbg,
    text_apply_into dbg clumps before false (Writer [] None) = (Done (Stats (List.length clumps) 0 0 0 0), Writer (List.concat out) None) /\
    text_apply_into dbg clumps' out false (Writer [] None) = (Done (Stats (List.length clumps') 0 0 0 0), Writer (List.concat after) None).
Proof. exact p_C136_again_refuted. Qed.
Print Assumptions C136_again_refuted.

(* What does hold: if no line of the old text stands at another place of the new one, every line of
   the patched text that is wrong was wrong before (in both directions); likewise for bytes, with
   context and data that are not empty (see C31).  Missing: texts with lines that have moved. *)
Theorem C136_closer_partial : forall dbg before after context clumps,
  context <= 255 -> fits_lines before -> fits_lines after -> stays_put before after -> text_diff_clumps before after context = Ok clumps ->
  (exists out, text_apply_into dbg clumps before false (Writer [] None) = (Done (Stats (List.length clumps) 0 0 0 0), Writer (List.concat out) None) /\
     List.length out = List.length after /\
     (forall k, nth_error out k = nth_error after k \/ nth_error out k = nth_error before k) /\
     forall ds, wrong_items out after ds -> wrong_items before after ds) /\
  (exists out, text_apply_into dbg clumps after true (Writer [] None) = (Done (Stats (List.length clumps) 0 0 0 0), Writer (List.concat out) None) /\
     List.length out = List.length before /\
     (forall k, nth_error out k = nth_error before k \/ nth_error out k = nth_error after k) /\
     forall ds, wrong_items out before ds -> wrong_items after before ds).
Proof. exact p_C136_closer_partial. Qed.
Print Assumptions C136_closer_partial.

Theorem C136_closer_bytes_partial : forall dbg before after context clumps,
  1 <= context <= 255 -> fits_bytes before -> fits_bytes after -> stays_put before after -> byte_diff_clumps before after context = Ok clumps ->
  (before <> [] -> exists out, byte_apply_into dbg clumps before false (Writer [] None) = (Done tt, Writer out None) /\
     List.length out = List.length after /\
     (forall k, nth_error out k = nth_error after k \/ nth_error out k = nth_error before k) /\
     forall ds, wrong_items out after ds -> wrong_items before after ds) /\
  (after <> [] -> exists out, byte_apply_into dbg clumps after true (Writer [] None) = (Done tt, Writer out None) /\
     List.length out = List.length before /\
     (forall k, nth_error out k = nth_error before k \/ nth_error out k = nth_error after k) /\
     forall ds, wrong_items out before ds -> wrong_items after before ds).
Proof. exact p_C136_closer_bytes_partial. Qed.
Print Assumptions C136_closer_bytes_partial.

(* two lines changed together and one in isolation: the former are put right, the latter is not *)
Example C136_example : let b := L "A B C D E F G x H I J K one two " in let a := L "A B C D E F G y H I J K three four " in
  stays_put b a /\ wrong_items b a [7; 12; 13] /\
  exists clumps, text_diff_clumps b a 3 = Ok clumps /\ List.length clumps = 1 /\
    text_apply_into true clumps b false (Writer [] None) = (Done (Stats 1 0 0 0 0), Writer (bs "A B C D E F G x H I J K three four ") None).
Proof. exact e_C136_example. Qed.

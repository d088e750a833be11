(* Properties_Context.v - the property theorems and a concrete case beside each; proofs are in
   Proof_Props_Context.v.  Generated by tools/mkthms.py. *)
From Coq Require Import String.
From Verif Require Import Proof_Props_Context Base Model_Seq Model_Changes Model_IO Model_Text Model_Bytes Spec Spec_Shape Cases Proof_Seq Proof_Changes Proof_Clumps Proof_IO Proof_Diff Proof_Arith Proof_Text Proof_Apply Proof_Bytes Proof_Shape Proof_Context Proof_Props_Gen Proof_Props_Text Proof_Props_Bytes.

(* ------------------------------------------------------------------ C103 *)
(* C103, full statement: the result of patching a text with a diff made from it is the same for
   every number of context lines.  It is false: what the generator overlooks is put right if it
   lies in the context of a change, and otherwise not. *)
Theorem C103_any_context_refuted : exists b a clumps1 clumps3,
  text_diff_clumps b a 1 = Ok clumps1 /\ text_diff_clumps b a 3 = Ok clumps3 /\
  forall dbg, exists out1 out3,
    text_apply_into dbg clumps1 b false (Writer [] None) = (Done (Stats (length clumps1) 0 0 0 0), Writer out1 None) /\
    text_apply_into dbg clumps3 b false (Writer [] None) = (Done (Stats (length clumps3) 0 0 0 0), Writer out3 None) /\ out1 <> out3.
Proof. exact p_C103_any_context_refuted. Qed.
Print Assumptions C103_any_context_refuted.

(* What does hold: exactly which lines are put in.  The result has the lines of [after], except for
   those reported as unchanged and [context] or more lines away from every change, which stay. *)
Theorem C103_result : forall dbg before after context clumps cs,
  context <= 255 -> fits_lines before -> fits_lines after -> text_changes before after = Ok cs -> text_diff_clumps before after context = Ok clumps ->
  (exists out, result_of context cs before after out /\
     text_apply_into dbg clumps before false (Writer [] None) = (Done (Stats (length clumps) 0 0 0 0), Writer (List.concat out) None)) /\
  (exists out, result_of context (map swap_range_change cs) after before out /\
     text_apply_into dbg clumps after true (Writer [] None) = (Done (Stats (length clumps) 0 0 0 0), Writer (List.concat out) None)).
Proof. exact p_C103_result. Qed.
Print Assumptions C103_result.

Theorem C103_result_bytes_partial : forall dbg before after context clumps cs,
  1 <= context <= 255 -> fits_bytes before -> fits_bytes after -> byte_changes before after = Ok cs -> byte_diff_clumps before after context = Ok clumps ->
  (before <> [] -> exists out, result_of context cs before after out /\ byte_apply_into dbg clumps before false (Writer [] None) = (Done tt, Writer out None)) /\
  (after <> [] -> exists out, result_of context (map swap_range_change cs) after before out /\ byte_apply_into dbg clumps after true (Writer [] None) = (Done tt, Writer out None)).
Proof. exact p_C103_result_bytes_partial. Qed.
Print Assumptions C103_result_bytes_partial.

(* so a line that comes out as in [after] does so with more context as well, and with a context as long
   as the longest block reported as unchanged the result is [after], if any change is reported.
   Missing: that more context makes no difference. *)
Theorem C103_more_context_partial : forall dbg before after context context' clumps clumps',
  context <= context' <= 255 -> fits_lines before -> fits_lines after ->
  text_diff_clumps before after context = Ok clumps -> text_diff_clumps before after context' = Ok clumps' ->
  exists out out',
    text_apply_into dbg clumps before false (Writer [] None) = (Done (Stats (length clumps) 0 0 0 0), Writer (List.concat out) None) /\
    text_apply_into dbg clumps' before false (Writer [] None) = (Done (Stats (length clumps') 0 0 0 0), Writer (List.concat out') None) /\
    length out = length after /\ length out' = length after /\
    forall j, nth_error out j = nth_error after j -> nth_error out' j = nth_error after j.
Proof. exact p_C103_more_context_partial. Qed.
Print Assumptions C103_more_context_partial.

Theorem C103_enough_context_partial : forall dbg before after context clumps cs,
  context <= 255 -> fits_lines before -> fits_lines after -> text_changes before after = Ok cs -> text_diff_clumps before after context = Ok clumps ->
  clumps <> [] -> (forall m, In (NoChange m) cs -> cs_n m <= context) ->
  text_apply_into dbg clumps before false (Writer [] None) = (Done (Stats (length clumps) 0 0 0 0), Writer (List.concat after) None) /\
  text_apply_into dbg clumps after true (Writer [] None) = (Done (Stats (length clumps) 0 0 0 0), Writer (List.concat before) None).
Proof. exact p_C103_enough_context_partial. Qed.
Print Assumptions C103_enough_context_partial.

Example C103_example : let b := L "A B C X D " in let a := L "A B C Y D E " in let cs := [NoChange (CS 0 0 5); Insert 5 (Range 5 6)] in
  text_changes b a = Ok cs /\
  result_of 1 cs b a (L "A B C X D E ") /\ result_of 2 cs b a (L "A B C Y D E ") /\ L "A B C X D E " <> L "A B C Y D E ".
Proof. exact e_C103_example. Qed.

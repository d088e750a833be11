(* Properties_Ends.v - the property theorems and a concrete case beside each; proofs are in
   Proof_Props_Ends.v.  Generated by tools/mkthms.py. *)
From Coq Require Import String.
From Verif Require Import Proof_Props_Ends Base Model_Seq Model_Changes Model_IO Model_Text Model_Bytes Spec Spec_Shape Spec_Outcome Cases Proof_Seq Proof_Changes Proof_Clumps Proof_IO Proof_Diff Proof_Arith Proof_Text Proof_Apply Proof_Bytes Proof_Shape Proof_Context Proof_Outcome Proof_Fewer Proof_Props_Text Proof_Props_Bytes Proof_Props_Outcome Proof_Props_Fewer.

(* ------------------------------------------------------------------ C119 *)
(* C119, full statement: a byte patch puts in everything when applied to the data it was made from.
   It is false without context: what is put in at the end is lost, without a sign. *)
Theorem C119_end_refuted : exists before after clumps, before <> [] /\ byte_diff_clumps before after 0 = Ok clumps /\
  length clumps = 2 /\ forall dbg, exists out, byte_apply_into dbg clumps before false (Writer [] None) = (Done tt, Writer out None) /\ out <> after /\ out ++ bs "Z" = after.
Proof. exact p_C119_end_refuted. Qed.
Print Assumptions C119_end_refuted.

(* What does hold, for every context and all data, also empty: exactly the clumps that start before the
   end are applied, and with the new bytes of the others added at the end the result would be the one
   told by C103; and there is no other if there is context and the data are not empty.
   Missing: the clumps at the end. *)
Theorem C119_partial : forall dbg before after context hs cs,
  context <= 255 -> fits_bytes (before ++ after) -> byte_changes before after = Ok cs -> byte_diff_clumps before after context = Ok (map byte_of_hunk hs) ->
  (exists out, result_of context cs before after (out ++ List.concat (map h_new (filter (fun h => negb (h_b h <? length before)) hs))) /\
     byte_apply_into dbg (map byte_of_hunk hs) before false (Writer [] None) = (Done tt, Writer out None)) /\
  (exists out, result_of context (map swap_range_change cs) after before (out ++ List.concat (map h_old (filter (fun h => negb (h_a h <? length after)) hs))) /\
     byte_apply_into dbg (map byte_of_hunk hs) after true (Writer [] None) = (Done tt, Writer out None)) /\
  (1 <= context -> before <> [] -> filter (fun h => negb (h_b h <? length before)) hs = []) /\
  (1 <= context -> after <> [] -> filter (fun h => negb (h_a h <? length after)) hs = []).
Proof. exact p_C119_partial. Qed.
Print Assumptions C119_partial.

(* without context, two clumps, the second at the end; and the other way round *)
Example C119_example : let b := bs "abcdefg" in let a := bs "aXYdefgZ" in
  fits_bytes (b ++ a) /\ exists hs cs, byte_changes b a = Ok cs /\ byte_diff_clumps b a 0 = Ok (map byte_of_hunk hs) /\
  map h_new (filter (fun h => negb (h_b h <? length b)) hs) = [bs "Z"] /\ filter (fun h => negb (h_a h <? length a)) hs = [] /\
  byte_apply_into true (map byte_of_hunk hs) b false (Writer [] None) = (Done tt, Writer (bs "aXYdefg") None) /\
  byte_apply_into true (map byte_of_hunk hs) a true (Writer [] None) = (Done tt, Writer b None).
Proof. exact e_C119_example. Qed.

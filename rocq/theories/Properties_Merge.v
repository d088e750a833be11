(* Properties_Merge.v - the property theorems and a concrete case beside each; proofs are in
   Proof_Props_Merge.v.  Generated by tools/mkthms.py. *)
From Coq Require Import String.
From Verif Require Import Proof_Props_Merge Base Model_Seq Model_Changes Model_IO Model_Text Model_Bytes Model_Json Model_Files Spec Spec_Files Spec_Outcome Spec_Merge Cases Proof_Arith Proof_Seq Proof_Utf8 Proof_IO Proof_Text Proof_Apply Proof_Diff Proof_Files Proof_Outcome Proof_Merge Proof_Props_Text Proof_Props_Files.

(* ------------------------------------------------------------------ C93 *)
(* C93, full statement: if the old lines of all clumps of a diff are found in order in a text
   (edited elsewhere), each clump fitting at one place only, then patching that text replaces
   exactly these lines and rejects nothing.  It is false, even with the default context of 2:
   six lines inserted in front of the first of two clumps that follow each other closely are
   enough for it not to be found. *)
Theorem C93_merge_refuted : exists before after hs target moved out,
  text_diff_clumps before after 2 = Ok (map text_of_hunk hs) /\ target = L "P Q R S T U " ++ before /\
  Forall (fun h => fits_once h target) hs /\ merged anywhere target 0 0 hs moved out /\
  forall dbg, exists bytes, text_apply_into dbg (map text_of_hunk hs) target false (Writer [] None) = (Done (Stats 0 1 0 0 1), Writer bytes None) /\
    bytes <> concat out.
Proof. exact p_C93_merge_refuted. Qed.
Print Assumptions C93_merge_refuted.

(* What does hold, for the diff of any two texts (together in memory) and any text: if each
   clump's old lines are found at its best place - other places may exist farther away from
   where it is expected - and within reach, patching replaces exactly these lines; the
   statistics tell how many clumps were not exactly where expected.
   Missing: clumps displaced forward out of reach. *)
Theorem C93_merge_partial : forall dbg before after context hs target moved out,
  context <= 255 -> fits_lines (before ++ after) -> fits_lines target ->
  text_diff_clumps before after context = Ok (map text_of_hunk hs) -> merged within_reach target 0 0 hs moved out ->
  text_apply_into dbg (map text_of_hunk hs) target false (Writer [] None) =
    (Done (Stats (length hs - moved) moved 0 0 0), Writer (concat out) None).
Proof. exact p_C93_merge_partial. Qed.
Print Assumptions C93_merge_partial.

(* the same for patches that do not come from the generator, and for patching in reverse *)
Theorem C93_merge_any_partial : forall dbg hs target moved out,
  Forall hunk_ok hs -> ordered hs -> lines_fit hs -> fits_lines target ->
  (merged within_reach target 0 0 hs moved out ->
   text_apply_into dbg (map text_of_hunk hs) target false (Writer [] None) =
     (Done (Stats (length hs - moved) moved 0 0 0), Writer (concat out) None)) /\
  (merged within_reach target 0 0 (map swap_hunk hs) moved out ->
   text_apply_into dbg (map text_of_hunk hs) target true (Writer [] None) =
     (Done (Stats (length hs - moved) moved 0 0 0), Writer (concat out) None)).
Proof. exact p_C93_merge_any_partial. Qed.
Print Assumptions C93_merge_any_partial.

(* the patch tool does that to a file *)
Theorem C93_merge_file_partial : forall E f P d hs target moved out,
  fault_free E -> N.testbit (e_mode E) 8 = true -> holds_diff f P (TextChange d) -> f (e_tmp E) = None ->
  td_clumps d = map text_of_hunk hs -> Forall hunk_ok hs -> ordered hs -> lines_fit hs -> fits_lines target ->
  text_of f (td_before d) target -> merged within_reach target 0 0 hs moved out ->
  exists w, patch_main E P false (start f) = (Val tt, w) /\ content (w_fs w) (td_before d) = Some (concat out) /\
    forall p, p <> td_before d -> w_fs w p = f p.
Proof. exact p_C93_merge_file_partial. Qed.
Print Assumptions C93_merge_file_partial.

(* Lines inserted in front, changed between and removed after two clumps; the old lines of the
   second clump also occur farther away. *)
Example C93_example :
  let b := L "A B C D E F G H I J " in let a := L "A B X V D E F G H Y W J " in let target := L "P A B C D Q R S H I J H I J " in
  exists hs, text_diff_clumps b a 1 = Ok (map text_of_hunk hs) /\ length hs = 2 /\
    merged within_reach target 0 0 hs 1 (L "P A B X V D Q R S H Y W J H I J ") /\
    text_apply_into true (map text_of_hunk hs) target false (Writer [] None) = (Done (Stats 1 1 0 0 0), Writer (bs "P A B X V D Q R S H Y W J H I J ") None).
Proof. exact e_C93_example. Qed.

(* ------------------------------------------------------------------ C94 *)
(* C94: if a text (edited elsewhere) was patched as in C93 and the new lines of every clump fit
   the result at one place only, then patching the result in reverse restores the text, with the
   same number of displaced clumps. *)
Theorem C94_undo_merge : forall dbg before after context hs target moved out,
  context <= 255 -> fits_lines (before ++ after) -> fits_lines target -> fits_lines out ->
  text_diff_clumps before after context = Ok (map text_of_hunk hs) -> merged within_reach target 0 0 hs moved out ->
  Forall (fun h => fits_once (swap_hunk h) out) hs ->
  text_apply_into dbg (map text_of_hunk hs) target false (Writer [] None) =
    (Done (Stats (length hs - moved) moved 0 0 0), Writer (concat out) None) /\
  text_apply_into dbg (map text_of_hunk hs) out true (Writer [] None) =
    (Done (Stats (length hs - moved) moved 0 0 0), Writer (concat target) None).
Proof. exact p_C94_undo_merge. Qed.
Print Assumptions C94_undo_merge.

Example C94_example :
  let b := L "A B C D E F G H I J " in let a := L "A B X V D E F G H Y W J " in
  let target := L "P A B C D Q R S H I J " in let out := L "P A B X V D Q R S H Y W J " in
  exists hs, text_diff_clumps b a 1 = Ok (map text_of_hunk hs) /\ length hs = 2 /\ merged within_reach target 0 0 hs 1 out /\
    Forall (fun h => fits_once (swap_hunk h) out) hs /\
    text_apply_into true (map text_of_hunk hs) out true (Writer [] None) = (Done (Stats 1 1 0 0 0), Writer (bs "P A B C D Q R S H I J ") None).
Proof. exact e_C94_example. Qed.

(* Properties_Undo.v - the property theorems and a concrete case beside each; proofs are in
   Proof_Props_Undo.v.  Generated by tools/mkthms.py. *)
From Coq Require Import String.
From Verif Require Import Proof_Props_Undo Base Model_Seq Model_Changes Model_IO Model_Text Model_Bytes Model_Json Model_Files Spec Spec_Files Spec_Nearly Cases Proof_Arith Proof_Seq Proof_Utf8 Proof_Json Proof_IO Proof_Text Proof_Apply Proof_Bytes Proof_Diff Proof_Saved Proof_Files Proof_Nearly Proof_Props_Gen Proof_Props_Text Proof_Props_Bytes Proof_Props_Files.

(* ------------------------------------------------------------------ C90 *)
(* C90: for all texts, whatever the generator overlooks: patching the first text and then the
   result in reverse, with the same clumps, restores the first text byte for byte, every clump
   applying cleanly both times. *)
Theorem C90_undo_text : forall dbg before_text after_text before after context clumps,
  context <= 255 -> lines_of before_text before -> lines_of after_text after -> fits_lines before -> fits_lines after ->
  text_diff_clumps before after context = Ok clumps ->
  exists out, lines_of (concat out) out /\
    text_apply_into dbg clumps before false (Writer [] None) = (Done (Stats (length clumps) 0 0 0 0), Writer (concat out) None) /\
    text_apply_into dbg clumps out true (Writer [] None) = (Done (Stats (length clumps) 0 0 0 0), Writer before_text None).
Proof. exact p_C90_undo_text. Qed.
Print Assumptions C90_undo_text.

(* a line overlooked by the generator keeps its old state there and back *)
Example C90_example :
  let b := L "A B C X D " in let a := L "A B C Y D E " in
  lines_of (bs "A B C X D ") b /\ lines_of (bs "A B C Y D E ") a /\ fits_lines b /\ fits_lines a /\
  exists clumps, text_diff_clumps b a 1 = Ok clumps /\
    text_apply_into true clumps b false (Writer [] None) = (Done (Stats 1 0 0 0 0), Writer (bs "A B C X D E ") None) /\
    text_apply_into true clumps (L "A B C X D E ") true (Writer [] None) = (Done (Stats 1 0 0 0 0), Writer (bs "A B C X D ") None).
Proof. exact e_C90_example. Qed.

(* ------------------------------------------------------------------ C91 *)
(* C91, full statement: patching a file of bytes and then the result in reverse restores it.
   It is false: a file emptied by the patch stays empty ... *)
Theorem C91_undo_bytes_refuted : exists before after context clumps,
  byte_diff_clumps before after context = Ok clumps /\ 1 <= context /\ before <> [] /\
  forall dbg, byte_apply_into dbg clumps before false (Writer [] None) = (Done tt, Writer [] None) /\
    byte_apply_into dbg clumps [] true (Writer [] None) = (Done tt, Writer [] None).
Proof. exact p_C91_undo_bytes_refuted. Qed.
Print Assumptions C91_undo_bytes_refuted.

(* ... and without context what was removed from the end is not put back *)
Theorem C91_undo_no_context_refuted : exists before after clumps,
  byte_diff_clumps before after 0 = Ok clumps /\ before <> after /\ after <> [] /\
  forall dbg, byte_apply_into dbg clumps before false (Writer [] None) = (Done tt, Writer after None) /\
    byte_apply_into dbg clumps after true (Writer [] None) = (Done tt, Writer after None).
Proof. exact p_C91_undo_no_context_refuted. Qed.
Print Assumptions C91_undo_no_context_refuted.

Theorem C91_undo_bytes_partial : forall dbg before after context clumps,
  1 <= context <= 255 -> after <> [] -> fits_bytes before -> fits_bytes after ->
  byte_diff_clumps before after context = Ok clumps ->
  exists out, byte_apply_into dbg clumps before false (Writer [] None) = (Done tt, Writer out None) /\
    byte_apply_into dbg clumps out true (Writer [] None) = (Done tt, Writer before None).
Proof. exact p_C91_undo_bytes_partial. Qed.
Print Assumptions C91_undo_bytes_partial.

(* for any context: if no clump starts at the end of either file *)
Theorem C91_undo_any_context_partial : forall dbg before after context hs,
  context <= 255 -> fits_bytes before -> fits_bytes after -> byte_diff_clumps before after context = Ok (map byte_of_hunk hs) ->
  Forall (fun h => h_b h < length before /\ h_a h < length after) hs ->
  exists out, byte_apply_into dbg (map byte_of_hunk hs) before false (Writer [] None) = (Done tt, Writer out None) /\
    byte_apply_into dbg (map byte_of_hunk hs) out true (Writer [] None) = (Done tt, Writer before None).
Proof. exact p_C91_undo_any_context_partial. Qed.
Print Assumptions C91_undo_any_context_partial.

Example C91_example :
  let b := bs "ABCXD" in let a := bs "ABCYDE" in
  exists clumps, byte_diff_clumps b a 1 = Ok clumps /\
    byte_apply_into true clumps b false (Writer [] None) = (Done tt, Writer (bs "ABCXDE") None) /\
    byte_apply_into true clumps (bs "ABCXDE") true (Writer [] None) = (Done tt, Writer b None).
Proof. exact e_C91_example. Qed.

(* ------------------------------------------------------------------ C92 *)
(* C92, full statement: patching a file with the saved diff of two files and then patching it in
   reverse with the same diff restores it.  It is false for a binary file the patch empties. *)
Theorem C92_undo_files_refuted : exists E f before after context P w1 w2 w3, fault_free E /\ e_stdout E = None /\ 1 <= context <= 255 /\
  diff_main E before after context (start f) = (Val tt, w1) /\
  patch_main E P false (start (upd f P (Some (File rw (w_stdout w1))))) = (Val tt, w2) /\
  patch_main E P true (start (w_fs w2)) = (Val tt, w3) /\
  content f before = Some [xff; x41] /\ content f after = Some [] /\ content (w_fs w3) before = Some [].
Proof. exact p_C92_undo_files_refuted. Qed.
Print Assumptions C92_undo_files_refuted.

(* What does hold, when nothing fails, for all files readable if present, binary files if there
   is at least one byte of context and the new file is not empty: the diff is saved, the file is
   patched and patched back, and has its original content again, whatever the generator
   overlooks.  In between, a text file differs from the new one at most by lines the generator
   overlooks.  Missing: binary files without context or emptied. *)
Theorem C92_undo_files_partial : forall E f before after context P m,
  fault_free E -> e_stdout E = None -> context <= 255 -> is_utf8 before -> is_utf8 after ->
  fits_file f before -> fits_file f after ->
  (forall cb ca, content f before = Some cb -> content f after = Some ca -> ~ (is_utf8 cb /\ is_utf8 ca) -> 1 <= context /\ ca <> []) ->
  N.testbit (e_mode E) 8 = true -> N.testbit m 8 = true -> f (e_tmp E) = None -> P <> before -> P <> e_tmp E ->
  (present f before -> content f before <> None) -> (present f after -> content f after <> None) -> (present f before \/ present f after) ->
  exists w1, diff_main E before after context (start f) = (Val tt, w1) /\ w_fs w1 = f /\
  forall f1, replaced f P (Some (File m (w_stdout w1))) f1 ->
  exists w2, patch_main E P false (start f1) = (Val tt, w2) /\
    (forall lb la, text_of f before lb -> text_of f after la -> exists lo, text_of (w_fs w2) before lo /\ nearly lb la lo) /\
    (forall p, p <> before -> w_fs w2 p = f1 p) /\
  exists w3, patch_main E P true (start (w_fs w2)) = (Val tt, w3) /\
    content (w_fs w3) before = content f before /\ (~ present f before -> ~ present (w_fs w3) before) /\ (forall p, p <> before -> w_fs w3 p = f1 p).
Proof. exact p_C92_undo_files_partial. Qed.
Print Assumptions C92_undo_files_partial.

Example C92_example :
  let f := files [(bs "A", bs "A B C X D "); (bs "B", bs "A B C Y D E "); (bs "C", [xff; x41; x42]); (bs "D", [xff; x41])] in
  text_of f (bs "A") (L "A B C X D ") /\ text_of f (bs "B") (L "A B C Y D E ") /\ fits_file f (bs "A") /\
  (exists w1 w2 w3, diff_main (calm_env false) (bs "A") (bs "B") 1 (start f) = (Val tt, w1) /\
     patch_main (calm_env false) (bs "P") false (start (upd f (bs "P") (Some (File rw (w_stdout w1))))) = (Val tt, w2) /\
     content (w_fs w2) (bs "A") = Some (bs "A B C X D E ") /\
     patch_main (calm_env false) (bs "P") true (start (w_fs w2)) = (Val tt, w3) /\ content (w_fs w3) (bs "A") = Some (bs "A B C X D ")) /\
  (exists w1 w2 w3, diff_main (calm_env false) (bs "C") (bs "D") 1 (start f) = (Val tt, w1) /\
     patch_main (calm_env false) (bs "P") false (start (upd f (bs "P") (Some (File rw (w_stdout w1))))) = (Val tt, w2) /\
     content (w_fs w2) (bs "C") = Some [xff; x41] /\
     patch_main (calm_env false) (bs "P") true (start (w_fs w2)) = (Val tt, w3) /\ content (w_fs w3) (bs "C") = Some [xff; x41; x42]).
Proof. exact e_C92_example. Qed.

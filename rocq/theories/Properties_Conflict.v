(* Properties_Conflict.v - the property theorems and a concrete case beside each; proofs are in
   Proof_Props_Conflict.v.  Generated by tools/mkthms.py. *)
From Coq Require Import String.
From Verif Require Import Proof_Props_Conflict Base Model_Seq Model_Changes Model_IO Model_Text Model_Bytes Model_Json Model_Files Spec Spec_Outcome Spec_Files Spec_Result Spec_Conflict Cases Proof_Seq Proof_Arith Proof_IO Proof_Text Proof_Files Proof_Outcome Proof_Result Proof_Conflicts Proof_ReadConflict Proof_Props_Gen Proof_Props_Text Proof_Props_Files Proof_Props_Outcome Proof_Props_Result.

(* ------------------------------------------------------------------ C135 *)
(* C135, full statement: the rejected clumps can be read from the patched text - looking for the marks,
   one finds exactly one conflict for each of them, with its old and new lines - and taking the
   conflicts out leaves what the other clumps made of the text.  It is false: a diff that takes a conflict
   out of a text (someone has resolved it) has the marks among its lines; where it is rejected, the
   text cannot be read. *)
Theorem C135_read_refuted : exists before after target hs st out ls,
  text_diff_clumps before after 2 = Ok (map text_of_hunk hs) /\ Forall full_line before /\ Forall full_line after /\ clear target /\
  (exists cs rest, conflicted before cs rest) /\ clear after /\
  text_apply_into true (map text_of_hunk hs) target false (Writer [] None) = (Done st, Writer out None) /\ st_failed st = 1 /\ lines_of out ls /\
  forall cs rest, ~ conflicted ls cs rest.
Proof. exact p_C135_read_refuted. Qed.
Print Assumptions C135_read_refuted.

(* And a conflict left by an earlier patch is counted again. *)
Theorem C135_count_refuted : exists hs target st out ls cs rest, Forall full_line target /\
  Forall (fun h => clear (h_old h) /\ clear (h_new h)) hs /\
  text_apply_into true (map text_of_hunk hs) target false (Writer [] None) = (Done st, Writer out None) /\ lines_of out ls /\
  conflicted ls cs rest /\ st_failed st = 1 /\ List.length cs = 2.
Proof. exact p_C135_count_refuted. Qed.
Print Assumptions C135_count_refuted.

(* A text can be read in one way only, and has a conflict exactly if it has a line <<<<<<<. *)
Theorem C135_reading : forall ls cs rest, conflicted ls cs rest ->
  (forall cs' rest', conflicted ls cs' rest' -> cs' = cs /\ rest' = rest) /\ (In (mark x3c) ls <-> cs <> []).
Proof. exact p_C135_reading. Qed.
Print Assumptions C135_reading.

(* What does hold: if all lines of the text and the patch end in a newline and none of them is a mark, the
   patched text is read in just this way: its conflicts are the rejected hunks, in order, as many as
   the statistics say, and the rest is what the other hunks made of the text.
   Missing: lines without a newline (see C114) and marks in the text or the patch. *)
Theorem C135_read_partial : forall dbg hs target st out, Forall hunk_ok hs -> lines_fit hs -> fits_lines target ->
  clear target -> Forall (fun h => clear (h_old h) /\ clear (h_new h)) hs ->
  text_apply_into dbg (map text_of_hunk hs) target false (Writer [] None) = (Done st, Writer out None) ->
  exists fates ls, outcome dbg target 0 0 hs (Some fates) out /\ st = tally fates /\ lines_of out ls /\
    conflicted ls (rejected hs fates) (settled target 0 hs fates) /\ List.length (rejected hs fates) = st_failed st.
Proof. exact p_C135_read_partial. Qed.
Print Assumptions C135_read_partial.

(* in reverse, with the hunks the other way round *)
Theorem C135_read_reverse_partial : forall dbg hs target st out, Forall hunk_ok hs -> lines_fit hs -> fits_lines target ->
  clear target -> Forall (fun h => clear (h_old h) /\ clear (h_new h)) hs ->
  text_apply_into dbg (map text_of_hunk hs) target true (Writer [] None) = (Done st, Writer out None) ->
  exists fates ls, outcome dbg target 0 0 (map swap_hunk hs) (Some fates) out /\ st = tally fates /\ lines_of out ls /\
    conflicted ls (rejected (map swap_hunk hs) fates) (settled target 0 (map swap_hunk hs) fates) /\
    List.length (rejected (map swap_hunk hs) fates) = st_failed st.
Proof. exact p_C135_read_reverse_partial. Qed.
Print Assumptions C135_read_reverse_partial.

(* The patch tool, which ends with status 0 and without an error message in such a case (C40, C84): the rejected
   hunks can be read from the file it leaves; there is none exactly if no line is <<<<<<<. *)
Theorem C135_file_partial : forall E f patch reverse w d hs target, patch_main E patch reverse (start f) = (Val tt, w) ->
  holds_diff f patch (TextChange d) -> td_clumps d = map text_of_hunk hs -> text_of f (td_before d) target ->
  Forall hunk_ok hs -> lines_fit hs -> fits_lines target -> clear target -> Forall (fun h => clear (h_old h) /\ clear (h_new h)) hs ->
  let hs' := if reverse then map swap_hunk hs else hs in
  exists fates out ls, outcome (e_dbg E) target 0 0 hs' (Some fates) out /\
    w_fs w (td_before d) = Some (File (e_mode E) out) /\ lines_of out ls /\
    conflicted ls (rejected hs' fates) (settled target 0 hs' fates) /\ (In (mark x3c) ls <-> In Rejected fates).
Proof. exact p_C135_file_partial. Qed.
Print Assumptions C135_file_partial.

(* one hunk put in, two rejected: two conflicts, and the text with the one hunk put in *)
Example C135_example :
  let hs := [Hunk 0 0 1 (L "B ") 1 (L "C "); Hunk 1 0 2 (L "P Q ") 2 (L "P R "); Hunk 0 0 9 (L "X ") 9 (L "Y ")] in
  let target := L "A B D E " in
  Forall hunk_ok hs /\ lines_fit hs /\ fits_lines target /\ clear target /\ Forall (fun h => clear (h_old h) /\ clear (h_new h)) hs /\
  exists out, text_apply_into true (map text_of_hunk hs) target false (Writer [] None) = (Done (Stats 1 0 0 0 2), Writer out None) /\
    lines_of out (L "A C <<<<<<< P Q ======= P R >>>>>>> <<<<<<< X ======= Y >>>>>>> D E ") /\
    conflicted (L "A C <<<<<<< P Q ======= P R >>>>>>> <<<<<<< X ======= Y >>>>>>> D E ") [(L "P Q ", L "P R "); (L "X ", L "Y ")] (L "A C D E ") /\
    let fates := [Placed false 0 Cleanly; Rejected; Rejected] in
    rejected hs fates = [(L "P Q ", L "P R "); (L "X ", L "Y ")] /\ settled target 0 hs fates = L "A C D E ".
Proof. exact e_C135_example. Qed.

(* the patch tool with the same patch *)
Example C135_file_example :
  let hs := [Hunk 0 0 1 (L "B ") 1 (L "C "); Hunk 1 0 2 (L "P Q ") 2 (L "P R "); Hunk 0 0 9 (L "X ") 9 (L "Y ")] in
  let f := files [(bs "A", bs "A B D E "); (bs "P", saved (TextChange (TextDiff (bs "A") (bs "B") (map text_of_hunk hs))))] in
  let run := patch_main (calm_env true) (bs "P") false (start f) in
  fst run = Val tt /\ w_fs (snd run) (bs "A") = Some (File rw (bs "A C <<<<<<< P Q ======= P R >>>>>>> <<<<<<< X ======= Y >>>>>>> D E ")).
Proof. exact e_C135_file_example. Qed.

(* Properties_Bytes.v - the property theorems and a concrete case beside each; proofs are in
   Proof_Props_Bytes.v.  Generated by tools/mkthms.py. *)
From Coq Require Import String.
From Verif Require Import Proof_Props_Bytes Base Model_Seq Model_Changes Model_IO Model_Text Model_Bytes Spec Spec_Nearly Cases Proof_Seq Proof_Changes Proof_Clumps Proof_IO Proof_Diff Proof_Arith Proof_Text Proof_Apply Proof_Bytes Proof_Nearly Proof_Props_Gen Proof_Props_Text.

(* ------------------------------------------------------------------ C31 *)
(* C31, full statement: applying the byte diff of b and a to b writes exactly a.
   It is false: a changed byte can be missing from the diff (C10) ... *)
Theorem C31_patch_gives_new_bytes_refuted : exists before after context clumps,
  byte_diff_clumps before after context = Ok clumps /\
  forall dbg, exists out, byte_apply_into dbg clumps before false (Writer [] None) = (Done tt, Writer out None) /\ out <> after.
Proof. exact p_C31_patch_gives_new_bytes_refuted. Qed.
Print Assumptions C31_patch_gives_new_bytes_refuted.

(* ... and a clump at the very end of the file (an empty file, or context 0) is never applied *)
Theorem C31_empty_file_refuted : exists after context clumps,
  byte_diff_clumps [] after context = Ok clumps /\ 1 <= context /\ after <> [] /\
  forall dbg, byte_apply_into dbg clumps [] false (Writer [] None) = (Done tt, Writer [] None).
Proof. exact p_C31_empty_file_refuted. Qed.
Print Assumptions C31_empty_file_refuted.

(* What does hold: with a non-empty file and at least one byte of context applying succeeds,
   and writes exactly [after] if every block reported unchanged is unchanged.
   Missing: overlooked changes, empty file, context 0. *)
Theorem C31_patch_gives_new_bytes_partial : forall dbg before after context clumps cs,
  1 <= context <= 255 -> before <> [] -> fits_bytes before ->
  byte_changes before after = Ok cs -> byte_diff_clumps before after context = Ok clumps ->
  faithful before after cs \/ no_isolated_mismatch before after ->
  byte_apply_into dbg clumps before false (Writer [] None) = (Done tt, Writer after None).
Proof. exact p_C31_patch_gives_new_bytes_partial. Qed.
Print Assumptions C31_patch_gives_new_bytes_partial.

(* for any context: exactly the clumps that start before the end of the file are applied *)
Theorem C31_any_context_partial : forall dbg before after context hs,
  context <= 255 -> fits_bytes before -> byte_diff_clumps before after context = Ok (map byte_of_hunk hs) ->
  Forall (fun h => h_b h < length before) hs ->
  byte_apply_into dbg (map byte_of_hunk hs) before false (Writer [] None) = (Done tt, Writer (patched before 0 hs) None).
Proof. exact p_C31_any_context_partial. Qed.
Print Assumptions C31_any_context_partial.

(* whatever the generator overlooks: the result is [after], except for bytes that are still those
   of [before], each different from its counterpart and directly between two equal pairs *)
Theorem C31_patch_nearly_new_partial : forall dbg before after context clumps,
  1 <= context <= 255 -> before <> [] -> fits_bytes before -> byte_diff_clumps before after context = Ok clumps ->
  exists out, nearly before after out /\ byte_apply_into dbg clumps before false (Writer [] None) = (Done tt, Writer out None).
Proof. exact p_C31_patch_nearly_new_partial. Qed.
Print Assumptions C31_patch_nearly_new_partial.

Example C31_example :
  let b := bs "ABCDEFG" in let a := bs "XBCYZEFGH" in
  no_isolated_mismatch b a /\ exists clumps, byte_diff_clumps b a 1 = Ok clumps /\ length clumps = 3 /\
    byte_apply_into true clumps b false (Writer [] None) = (Done tt, Writer a None).
Proof. exact e_C31_example. Qed.

(* ------------------------------------------------------------------ C32 *)
(* C32, full statement: applying the byte diff of b and a in reverse to a writes exactly b.
   It is false for the same reasons. *)
Theorem C32_reverse_gives_old_bytes_refuted : exists before after context clumps,
  byte_diff_clumps before after context = Ok clumps /\
  forall dbg, exists out, byte_apply_into dbg clumps after true (Writer [] None) = (Done tt, Writer out None) /\ out <> before.
Proof. exact p_C32_reverse_gives_old_bytes_refuted. Qed.
Print Assumptions C32_reverse_gives_old_bytes_refuted.

Theorem C32_empty_file_refuted : exists before context clumps,
  byte_diff_clumps before [] context = Ok clumps /\ 1 <= context /\ before <> [] /\
  forall dbg, byte_apply_into dbg clumps [] true (Writer [] None) = (Done tt, Writer [] None).
Proof. exact p_C32_empty_file_refuted. Qed.
Print Assumptions C32_empty_file_refuted.

(* What does hold, as for C31.  Missing: overlooked changes, empty file, context 0. *)
Theorem C32_reverse_gives_old_bytes_partial : forall dbg before after context clumps cs,
  1 <= context <= 255 -> after <> [] -> fits_bytes after ->
  byte_changes before after = Ok cs -> byte_diff_clumps before after context = Ok clumps ->
  faithful before after cs \/ no_isolated_mismatch before after ->
  byte_apply_into dbg clumps after true (Writer [] None) = (Done tt, Writer before None).
Proof. exact p_C32_reverse_gives_old_bytes_partial. Qed.
Print Assumptions C32_reverse_gives_old_bytes_partial.

Theorem C32_reverse_nearly_old_partial : forall dbg before after context clumps,
  1 <= context <= 255 -> after <> [] -> fits_bytes after -> byte_diff_clumps before after context = Ok clumps ->
  exists out, nearly after before out /\ byte_apply_into dbg clumps after true (Writer [] None) = (Done tt, Writer out None).
Proof. exact p_C32_reverse_nearly_old_partial. Qed.
Print Assumptions C32_reverse_nearly_old_partial.

Example C32_example :
  let b := bs "ABCDEFG" in let a := bs "XBCYZEFGH" in
  exists clumps, byte_diff_clumps b a 1 = Ok clumps /\ byte_apply_into true clumps a true (Writer [] None) = (Done tt, Writer b None).
Proof. exact e_C32_example. Qed.

(* ------------------------------------------------------------------ C33 *)
(* C33, full statement: the byte diff of b and a is recognised as already applied to a.
   It is false if a is empty. *)
Theorem C33_already_applied_bytes_refuted : exists before after context clumps,
  byte_diff_clumps before after context = Ok clumps /\ byte_already_applied clumps after false = false.
Proof. exact p_C33_already_applied_bytes_refuted. Qed.
Print Assumptions C33_already_applied_bytes_refuted.

(* Missing: empty file, context 0. *)
Theorem C33_already_applied_bytes_partial : forall before after context clumps,
  1 <= context <= 255 -> byte_diff_clumps before after context = Ok clumps ->
  (after <> [] -> byte_already_applied clumps after false = true) /\
  (before <> [] -> byte_already_applied clumps before true = true).
Proof. exact p_C33_already_applied_bytes_partial. Qed.
Print Assumptions C33_already_applied_bytes_partial.

Example C33_example :
  let b := bs "ABCDEFG" in let a := bs "XBCYZEFGH" in
  exists clumps, byte_diff_clumps b a 1 = Ok clumps /\ byte_already_applied clumps a false = true /\ byte_already_applied clumps b false = false.
Proof. exact e_C33_example. Qed.

(* ------------------------------------------------------------------ C34 *)
(* C34, full statement: the test answers yes exactly when the items occur at the position.
   It is false: no items at the end position. *)
Theorem C34_subsequence_refuted : exists (s items : list byte) pos,
  occurs_at s items pos /\ has_subsequence_at_z Byte.eqb s items pos = false.
Proof. exact p_C34_subsequence_refuted. Qed.
Print Assumptions C34_subsequence_refuted.

(* Missing: empty item list at the end position, which is the only exception. *)
Theorem C34_subsequence_partial : forall (T : Type) (eqb : T -> T -> bool) (s items : list T) pos,
  (forall x y, eqb x y = true <-> x = y) -> (0 <= pos)%Z ->
  (has_subsequence_at_z eqb s items pos = true <-> occurs_at s items pos /\ ~ (items = [] /\ pos = zlen s)).
Proof. exact p_C34_subsequence_partial. Qed.
Print Assumptions C34_subsequence_partial.

Example C34_example :
  has_subsequence_at_z Byte.eqb (bs "ABCAB") (bs "AB") 3 = true /\ has_subsequence_at_z Byte.eqb (bs "ABCAB") (bs "AB") 1 = false /\
  has_subsequence_at_z Byte.eqb (bs "ABCAB") (bs "ABC") 3 = false /\ has_subsequence_at_z Byte.eqb (bs "ABCAB") [] 4 = true.
Proof. exact e_C34_example. Qed.

(* ------------------------------------------------------------------ C35 *)
(* C35: for every byte patch and target: if neither side of any clump occurs at its place,
   the output is the target and no error is reported. *)
Theorem C35_no_match : forall dbg clumps target reverse,
  Forall (fun c => (0 <= sn_start (bc_before c))%Z /\ (0 <= sn_start (bc_after c))%Z /\
    ~ occurs_at target (sn_items (bc_before c)) (sn_start (bc_before c)) /\
    ~ occurs_at target (sn_items (bc_after c)) (sn_start (bc_after c))) clumps ->
  byte_apply_into dbg clumps target reverse (Writer [] None) = (Done tt, Writer target None).
Proof. exact p_C35_no_match. Qed.
Print Assumptions C35_no_match.

Example C35_example :
  let clumps := map byte_of_hunk [Hunk 1 1 0 (bs "AXC") 0 (bs "AYYC"); Hunk 0 0 9 (bs "Q") 10 (bs "")] in
  byte_apply_into true clumps (bs "ABCD") false (Writer [] None) = (Done tt, Writer (bs "ABCD") None).
Proof. exact e_C35_example. Qed.

(* ------------------------------------------------------------------ C36 *)
(* C36: as C29, for byte patches. *)
Theorem C36_write_errors_bytes : forall dbg clumps target reverse, exists o r, r <> IoErr /\
  (forall out, byte_apply_into dbg clumps target reverse (Writer out None) = (r, Writer (out ++ o) None)) /\
  (forall out n, byte_apply_into dbg clumps target reverse (Writer out (Some n)) =
     if length o <=? n then (r, Writer (out ++ o) (Some (n - length o))) else (IoErr, Writer (out ++ firstn n o) (Some 0))).
Proof. exact p_C36_write_errors_bytes. Qed.
Print Assumptions C36_write_errors_bytes.

Example C36_example :
  let clumps := map byte_of_hunk [Hunk 0 0 1 (bs "B") 1 (bs "XY")] in
  byte_apply_into true clumps (bs "ABC") false (Writer [] (Some 2)) = (IoErr, Writer (bs "AX") (Some 0)) /\
  byte_apply_into true clumps (bs "ABC") false (Writer [] (Some 4)) = (Done tt, Writer (bs "AXYC") (Some 0)).
Proof. exact e_C36_example. Qed.

(* ------------------------------------------------------------------ C51 *)
(* C51, full statement: applying a byte diff to any data never panics.  It is false, in both
   build modes, even for the data the diff leads to. *)
Theorem C51_no_panic_bytes_refuted : exists before after context clumps,
  byte_diff_clumps before after context = Ok clumps /\
  forall dbg, fst (byte_apply_into dbg clumps after false (Writer [] None)) = Panicked.
Proof. exact p_C51_no_panic_bytes_refuted. Qed.
Print Assumptions C51_no_panic_bytes_refuted.

(* What does hold: if no clump is already applied (unless it applies), exactly the clumps
   whose old bytes are found at their place are replaced.
   Missing: clumps that apply and others that are already applied in the same data. *)
Theorem C51_no_panic_bytes_partial : forall dbg before after context hs target,
  context <= 255 -> fits_bytes target -> byte_diff_clumps before after context = Ok (map byte_of_hunk hs) ->
  Forall (fun h => matches_at target (h_old h) (h_b h) = true \/ matches_at target (h_new h) (h_a h) = false) hs ->
  byte_apply_into dbg (map byte_of_hunk hs) target false (Writer [] None) =
    (Done tt, Writer (patched target 0 (filter (fun h => matches_at target (h_old h) (h_b h)) hs)) None).
Proof. exact p_C51_no_panic_bytes_partial. Qed.
Print Assumptions C51_no_panic_bytes_partial.

Example C51_example :
  let b := bs "ABCDEFG" in let a := bs "XBCYZEFGH" in let target := bs "ABCQEFG" in
  let hs := [Hunk 0 1 0 (bs "AB") 0 (bs "XB"); Hunk 1 1 2 (bs "CDE") 2 (bs "CYZE"); Hunk 1 0 6 (bs "G") 7 (bs "GH")] in
  byte_diff_clumps b a 1 = Ok (map byte_of_hunk hs) /\
  Forall (fun h => matches_at target (h_old h) (h_b h) = true \/ matches_at target (h_new h) (h_a h) = false) hs /\
  byte_apply_into true (map byte_of_hunk hs) target false (Writer [] None) = (Done tt, Writer (bs "XBCQEFGH") None).
Proof. exact e_C51_example. Qed.

(* ------------------------------------------------------------------ C52 *)
(* C52, full statement: applying the byte diff of b and a to a writes a unchanged.
   It is false: C51 shows a panic; here the data are silently changed. *)
Theorem C52_reapply_bytes_refuted : exists before after context clumps,
  byte_diff_clumps before after context = Ok clumps /\ 1 <= context /\
  forall dbg, exists out, byte_apply_into dbg clumps after false (Writer [] None) = (Done tt, Writer out None) /\ out <> after.
Proof. exact p_C52_reapply_bytes_refuted. Qed.
Print Assumptions C52_reapply_bytes_refuted.

(* What does hold: for any target in which no clump applies, the output is the target;
   so re-applying is harmless if no clump's old bytes are at their place in the new data.
   Missing: clumps that also apply to the new data. *)
Theorem C52_reapply_bytes_partial : forall dbg before after context hs target,
  context <= 255 -> fits_bytes target -> byte_diff_clumps before after context = Ok (map byte_of_hunk hs) ->
  Forall (fun h => matches_at target (h_old h) (h_b h) = false) hs ->
  byte_apply_into dbg (map byte_of_hunk hs) target false (Writer [] None) = (Done tt, Writer target None).
Proof. exact p_C52_reapply_bytes_partial. Qed.
Print Assumptions C52_reapply_bytes_partial.

Example C52_example :
  let b := bs "ABCDEFG" in let a := bs "XBCYZEFGH" in
  let hs := [Hunk 0 1 0 (bs "AB") 0 (bs "XB"); Hunk 1 1 2 (bs "CDE") 2 (bs "CYZE"); Hunk 1 0 6 (bs "G") 7 (bs "GH")] in
  Forall (fun h => matches_at a (h_old h) (h_b h) = false) hs /\
  byte_apply_into true (map byte_of_hunk hs) a false (Writer [] None) = (Done tt, Writer a None).
Proof. exact e_C52_example. Qed.

(* ------------------------------------------------------------------ C53 *)
(* C53: applying a byte patch in reverse is applying the swapped patch forward. *)
Theorem C53_reverse_is_swap_bytes : forall dbg clumps target,
  (forall w, byte_apply_into dbg clumps target true w = byte_apply_into dbg (map swap_bclump clumps) target false w) /\
  byte_already_applied clumps target true = byte_already_applied (map swap_bclump clumps) target false.
Proof. exact p_C53_reverse_is_swap_bytes. Qed.
Print Assumptions C53_reverse_is_swap_bytes.

Example C53_example :
  let clumps := map byte_of_hunk [Hunk 0 0 1 (bs "B") 1 (bs "XY")] in
  byte_apply_into true clumps (bs "AXYC") true (Writer [] None) = (Done tt, Writer (bs "ABC") None).
Proof. exact e_C53_example. Qed.

(* Properties_Taken.v - the property theorems and a concrete case beside each; proofs are in
   Proof_Props_Taken.v.  Generated by tools/mkthms.py. *)
From Coq Require Import String.
From Verif Require Import Proof_Props_Taken Base Model_Seq Model_Changes Model_IO Model_Text Model_Bytes Spec Spec_Outcome Spec_Result Spec_Conflict Spec_Taken Cases Proof_Seq Proof_Diff Proof_IO Proof_Text Proof_Apply Proof_Fuzzy Proof_Bytes Proof_Outcome Proof_Seen Proof_Merge Proof_Props_Text Proof_Props_Outcome.

(* ------------------------------------------------------------------ C139 *)
(* C139: the lines a patch takes out of a text are the ones it was found to match; the patched text is
   the text with these replaced, and everything else is still there.  False: where a hunk is already
   there, the next one can be found in the midst of its lines.  It is put in behind them, and as many
   lines as were found are dropped from there: p4 to p10 are lost, and nothing is reported. *)
Theorem C139_taken_refuted : exists before after clumps target out,
  text_diff_clumps before after 3 = Ok clumps /\ List.length clumps = 2 /\
  (forall dbg, text_apply_into dbg clumps target false (Writer [] None) = (Done (Stats 1 0 1 0 0), Writer (List.concat out) None)) /\
  (forall l, In l (L "p4 p5 p6 p7 p8 p9 p10 ") -> In l before /\ In l after /\ In l target /\ ~ In l out).
Proof. exact p_C139_taken_refuted. Qed.
Print Assumptions C139_taken_refuted.

(* a hunk given twice is put in twice, and the line behind it is dropped *)
Theorem C139_twice_refuted : exists h target, hunk_ok h /\ forall dbg,
  text_apply_into dbg (map text_of_hunk [h]) target false (Writer [] None) = (Done (Stats 1 0 0 0 0), Writer (bs "A X C D ") None) /\
  text_apply_into dbg (map text_of_hunk [h; h]) target false (Writer [] None) = (Done (Stats 2 0 0 0 0), Writer (bs "A X X D ") None).
Proof. exact p_C139_twice_refuted. Qed.
Print Assumptions C139_twice_refuted.

(* What does hold, for every patch: if no hunk was found in a part of the text that had been dealt
   with before, the text is changed in this way only.  It is so if the old lines of every hunk begin
   behind the old and new lines of the earlier ones, or behind their old lines and no hunk was
   already there.  Missing: other patches, as above. *)
Theorem C139_taken_partial : forall dbg hs target st out, Forall hunk_ok hs -> lines_fit hs -> fits_lines target ->
  text_apply_into dbg (map text_of_hunk hs) target false (Writer [] None) = (Done st, Writer out None) ->
  exists fates, outcome dbg target 0 0 hs (Some fates) out /\ st = tally fates /\
    (st_failed st = 0 -> out = List.concat (settled target 0 hs fates)) /\
    (apart 0 hs fates -> edited target (replacements hs fates) (settled target 0 hs fates)) /\
    (behind_both hs \/ (behind_old hs /\ st_already st = 0 /\ st_already_fuzzy st = 0) -> apart 0 hs fates).
Proof. exact p_C139_taken_partial. Qed.
Print Assumptions C139_taken_partial.

(* in reverse, with the hunks the other way round *)
Theorem C139_taken_reverse_partial : forall dbg hs target st out, Forall hunk_ok hs -> lines_fit hs -> fits_lines target ->
  text_apply_into dbg (map text_of_hunk hs) target true (Writer [] None) = (Done st, Writer out None) ->
  let hs' := map swap_hunk hs in
  exists fates, outcome dbg target 0 0 hs' (Some fates) out /\ st = tally fates /\
    (st_failed st = 0 -> out = List.concat (settled target 0 hs' fates)) /\
    (apart 0 hs' fates -> edited target (replacements hs' fates) (settled target 0 hs' fates)) /\
    (behind_both hs' \/ (behind_old hs' /\ st_already st = 0 /\ st_already_fuzzy st = 0) -> apart 0 hs' fates).
Proof. exact p_C139_taken_reverse_partial. Qed.
Print Assumptions C139_taken_reverse_partial.

(* A diff made by the program: it is so whenever no clump is already there. *)
Theorem C139_diff_partial : forall dbg before after context hs target st out, context <= 255 -> fits_lines (before ++ after) -> fits_lines target ->
  text_diff_clumps before after context = Ok (map text_of_hunk hs) ->
  text_apply_into dbg (map text_of_hunk hs) target false (Writer [] None) = (Done st, Writer out None) ->
  st_already st = 0 -> st_already_fuzzy st = 0 ->
  exists fates, outcome dbg target 0 0 hs (Some fates) out /\ st = tally fates /\
    (st_failed st = 0 -> out = List.concat (settled target 0 hs fates)) /\ edited target (replacements hs fates) (settled target 0 hs fates).
Proof. exact p_C139_diff_partial. Qed.
Print Assumptions C139_diff_partial.

(* Bytes: false as well. *)
Theorem C139_bytes_refuted : exists before after clumps target, byte_diff_clumps before after 0 = Ok clumps /\
  before = list_byte_of_string "OxyRn" /\ after = list_byte_of_string "PQTRUxyZWn" /\ target = list_byte_of_string "PQTRUxyRn" /\
  forall dbg, byte_apply_into dbg clumps target false (Writer [] None) = (Done tt, Writer (list_byte_of_string "PQTRUZWyRn") None).
Proof. exact p_C139_bytes_refuted. Qed.
Print Assumptions C139_bytes_refuted.

(* What does hold, for every byte patch: if no hunk is found in a part that has been dealt with before,
   there is no panic and the bytes found are replaced and nothing else; it is so if the old bytes of every
   hunk begin behind the bytes of the earlier ones, or behind their old bytes and none is already there.
   Missing: other patches, as above. *)
Theorem C139_bytes_partial : forall dbg hs target, bytes_fit target hs ->
  (byte_apart target 0 hs -> exists out, edited target (byte_replacements target hs) out /\
    forall w, byte_apply_into dbg (map byte_of_hunk hs) target false w = delivered (Done tt) out w) /\
  (behind_both hs \/ (behind_old hs /\ Forall (fun h => matches_at target (h_old h) (h_b h) = true \/ matches_at target (h_new h) (h_a h) = false) hs) ->
    byte_apart target 0 hs).
Proof. exact p_C139_bytes_partial. Qed.
Print Assumptions C139_bytes_partial.

(* in reverse, with the hunks the other way round *)
Theorem C139_bytes_reverse_partial : forall dbg hs target, bytes_fit target hs -> let hs' := map swap_hunk hs in
  byte_apart target 0 hs' -> exists out, edited target (byte_replacements target hs') out /\
    forall w, byte_apply_into dbg (map byte_of_hunk hs) target true w = delivered (Done tt) out w.
Proof. exact p_C139_bytes_reverse_partial. Qed.
Print Assumptions C139_bytes_reverse_partial.

(* two hunks: one placed three lines further down, one already there *)
Example C139_example :
  let hs := [Hunk 1 1 0 (L "A B C ") 0 (L "A X Y C "); Hunk 0 0 6 (L "G ") 7 (L "H ")] in
  let target := L "p q r A B C D E F H " in let fates := [Placed true 3 Cleanly; Seen true 2 Cleanly] in
  Forall hunk_ok hs /\ lines_fit hs /\ fits_lines target /\ behind_both hs /\
  text_apply_into true (map text_of_hunk hs) target false (Writer [] None) = (Done (Stats 0 1 0 1 0), Writer (bs "p q r A X Y C D E F H ") None) /\
  apart 0 hs fates /\ settled target 0 hs fates = L "p q r A X Y C D E F H " /\ replacements hs fates = [(L "A B C ", L "A X Y C ")] /\
  edited target (replacements hs fates) (settled target 0 hs fates).
Proof. exact e_C139_example. Qed.

(* bytes: one hunk replaced, one already there *)
Example C139_bytes_example :
  let hs := [Hunk 0 0 1 (list_byte_of_string "bc") 1 (list_byte_of_string "x"); Hunk 0 0 4 (list_byte_of_string "e") 3 (list_byte_of_string "d")] in
  let target := list_byte_of_string "abcdf" in
  bytes_fit target hs /\ behind_both hs /\ byte_apart target 0 hs /\ byte_replacements target hs = [(list_byte_of_string "bc", list_byte_of_string "x")] /\
  byte_apply_into true (map byte_of_hunk hs) target false (Writer [] None) = (Done tt, Writer (list_byte_of_string "axdf") None) /\
  edited target (byte_replacements target hs) (list_byte_of_string "axdf").
Proof. exact e_C139_bytes_example. Qed.

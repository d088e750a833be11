(* Properties_Select.v - the property theorems and a concrete case beside each; proofs are in
   Proof_Props_Select.v.  Generated by tools/mkthms.py. *)
From Coq Require Import String.
From Verif Require Import Proof_Props_Select Base Model_Seq Model_Changes Model_IO Model_Text Model_Bytes Spec Spec_Nearly Spec_Shape Cases Proof_Seq Proof_Changes Proof_Clumps Proof_IO Proof_Diff Proof_Arith Proof_Text Proof_Apply Proof_Bytes Proof_Select Proof_Props_Gen Proof_Props_Text Proof_Props_Bytes.

(* ------------------------------------------------------------------ C104 *)
(* C104: any selection of the clumps of a diff applies cleanly to the text the diff was made from,
   and each of them in its place: exactly the selected hunks are replaced.  Likewise in reverse on
   the other text. *)
Theorem C104_selection : forall dbg before after context clumps chosen others,
  context <= 255 -> fits_lines before -> fits_lines after -> text_diff_clumps before after context = Ok clumps -> parts clumps chosen others ->
  exists hs, chosen = map text_of_hunk hs /\
    text_apply_into dbg chosen before false (Writer [] None) = (Done (Stats (length chosen) 0 0 0 0), Writer (List.concat (patched before 0 hs)) None) /\
    text_apply_into dbg chosen after true (Writer [] None) = (Done (Stats (length chosen) 0 0 0 0), Writer (List.concat (patched after 0 (map swap_hunk hs))) None).
Proof. exact p_C104_selection. Qed.
Print Assumptions C104_selection.

(* with context the lines written are those the result is read as *)
Theorem C104_lines : forall before_text after_text before after context clumps hs others,
  1 <= context <= 255 -> lines_of before_text before -> lines_of after_text after -> fits_lines before -> fits_lines after ->
  text_diff_clumps before after context = Ok clumps -> parts clumps (map text_of_hunk hs) others ->
  lines_of (List.concat (patched before 0 hs)) (patched before 0 hs).
Proof. exact p_C104_lines. Qed.
Print Assumptions C104_lines.

(* bytes, full statement: the same for every selection.  It is false: a clump at the very end is not found *)
Theorem C104_selection_bytes_refuted : exists before after hs chosen others,
  byte_diff_clumps before after 0 = Ok (map byte_of_hunk hs) /\ parts hs chosen others /\
  forall dbg, byte_apply_into dbg (map byte_of_hunk chosen) before false (Writer [] None) = (Done tt, Writer before None) /\
    patched before 0 chosen <> before.
Proof. exact p_C104_selection_bytes_refuted. Qed.
Print Assumptions C104_selection_bytes_refuted.

(* What does hold: if all clumps start before the end of the file.  Missing: clumps at the end. *)
Theorem C104_selection_bytes_partial : forall dbg before after context hs chosen others,
  context <= 255 -> fits_bytes before -> fits_bytes after -> byte_diff_clumps before after context = Ok (map byte_of_hunk hs) -> parts hs chosen others ->
  (Forall (fun h => h_b h < length before) chosen ->
     byte_apply_into dbg (map byte_of_hunk chosen) before false (Writer [] None) = (Done tt, Writer (patched before 0 chosen) None)) /\
  (Forall (fun h => h_a h < length after) chosen ->
     byte_apply_into dbg (map byte_of_hunk chosen) after true (Writer [] None) = (Done tt, Writer (patched after 0 (map swap_hunk chosen)) None)).
Proof. exact p_C104_selection_bytes_partial. Qed.
Print Assumptions C104_selection_bytes_partial.

Example C104_example : let b := L "P Q A B A B A B A B C D " in let a := L "N M P Q A B A B A B Z A B C D " in
  let h1 := Hunk 0 1 0 (L "P ") 0 (L "N M P ") in let h2 := Hunk 1 1 7 (L "B A ") 9 (L "B Z A ") in
  text_diff_clumps b a 1 = Ok (map text_of_hunk [h1; h2]) /\ parts (map text_of_hunk [h1; h2]) [text_of_hunk h2] [text_of_hunk h1] /\
  patched b 0 [h2] = L "P Q A B A B A B Z A B C D ".
Proof. exact e_C104_example. Qed.

(* ------------------------------------------------------------------ C105 *)
(* C105, full statement: a diff can be applied in two steps: some of its clumps, and then the others
   to the result, give the same as all of them at once.  It is false: lines put in by the first step
   move the places of the others, and a text that repeats itself then fits at the old place. *)
Theorem C105_in_parts_refuted : exists before after clumps first second out,
  text_diff_clumps before after 1 = Ok clumps /\ parts clumps first second /\
  forall dbg, text_apply_into dbg clumps before false (Writer [] None) = (Done (Stats 2 0 0 0 0), Writer (List.concat after) None) /\
    text_apply_into dbg first before false (Writer [] None) = (Done (Stats 1 0 0 0 0), Writer (List.concat out) None) /\
    exists out', text_apply_into dbg second out false (Writer [] None) = (Done (Stats 1 0 0 0 0), Writer out' None) /\ out' <> List.concat after.
Proof. exact p_C105_in_parts_refuted. Qed.
Print Assumptions C105_in_parts_refuted.

(* What does hold: it is so if the clumps of the first step leave the others where they are, that is,
   put in as many lines as they take out or come after all others; in both directions.
   Missing: clumps that move the others. *)
Theorem C105_in_parts_partial : forall dbg before after context hs first second,
  context <= 255 -> fits_lines (before ++ after) -> text_diff_clumps before after context = Ok (map text_of_hunk hs) -> steady_parts hs first second ->
  (exists out whole,
     text_apply_into dbg (map text_of_hunk first) before false (Writer [] None) = (Done (Stats (length first) 0 0 0 0), Writer (List.concat out) None) /\
     text_apply_into dbg (map text_of_hunk second) out false (Writer [] None) = (Done (Stats (length second) 0 0 0 0), Writer whole None) /\
     text_apply_into dbg (map text_of_hunk hs) before false (Writer [] None) = (Done (Stats (length hs) 0 0 0 0), Writer whole None) /\
     (forall before_text after_text, 1 <= context -> lines_of before_text before -> lines_of after_text after -> lines_of (List.concat out) out)) /\
  (exists out whole,
     text_apply_into dbg (map text_of_hunk first) after true (Writer [] None) = (Done (Stats (length first) 0 0 0 0), Writer (List.concat out) None) /\
     text_apply_into dbg (map text_of_hunk second) out true (Writer [] None) = (Done (Stats (length second) 0 0 0 0), Writer whole None) /\
     text_apply_into dbg (map text_of_hunk hs) after true (Writer [] None) = (Done (Stats (length hs) 0 0 0 0), Writer whole None) /\
     (forall before_text after_text, 1 <= context -> lines_of before_text before -> lines_of after_text after -> lines_of (List.concat out) out)).
Proof. exact p_C105_in_parts_partial. Qed.
Print Assumptions C105_in_parts_partial.

(* in particular from the last clump to the first: the clumps after any point first *)
Theorem C105_last_first_partial : forall dbg before after context hs1 hs2,
  context <= 255 -> fits_lines (before ++ after) -> text_diff_clumps before after context = Ok (map text_of_hunk (hs1 ++ hs2)) ->
  exists out whole,
    text_apply_into dbg (map text_of_hunk hs2) before false (Writer [] None) = (Done (Stats (length hs2) 0 0 0 0), Writer (List.concat out) None) /\
    text_apply_into dbg (map text_of_hunk hs1) out false (Writer [] None) = (Done (Stats (length hs1) 0 0 0 0), Writer whole None) /\
    text_apply_into dbg (map text_of_hunk (hs1 ++ hs2)) before false (Writer [] None) = (Done (Stats (length (hs1 ++ hs2)) 0 0 0 0), Writer whole None).
Proof. exact p_C105_last_first_partial. Qed.
Print Assumptions C105_last_first_partial.

Theorem C105_bytes_partial : forall dbg before after context hs first second,
  1 <= context <= 255 -> fits_bytes (before ++ after) -> before <> [] -> patched before 0 first <> [] ->
  byte_diff_clumps before after context = Ok (map byte_of_hunk hs) -> steady_parts hs first second ->
  Forall (fun h => h_b h < length (patched before 0 first)) second ->
  exists out whole,
    byte_apply_into dbg (map byte_of_hunk first) before false (Writer [] None) = (Done tt, Writer out None) /\
    byte_apply_into dbg (map byte_of_hunk second) out false (Writer [] None) = (Done tt, Writer whole None) /\
    byte_apply_into dbg (map byte_of_hunk hs) before false (Writer [] None) = (Done tt, Writer whole None).
Proof. exact p_C105_bytes_partial. Qed.
Print Assumptions C105_bytes_partial.

Example C105_example : let b := L "P Q A B A B A B A B C D " in let a := L "N M P Q A B A B A B Z A B C D " in
  let h1 := Hunk 0 1 0 (L "P ") 0 (L "N M P ") in let h2 := Hunk 1 1 7 (L "B A ") 9 (L "B Z A ") in
  text_diff_clumps b a 1 = Ok (map text_of_hunk [h1; h2]) /\ steady_parts [h1; h2] [h2] [h1] /\ ~ steady_parts [h1; h2] [h1] [h2] /\
  patched (patched b 0 [h2]) 0 [h1] = a.
Proof. exact e_C105_example. Qed.

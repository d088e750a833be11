(* Properties_Overlook.v - the property theorems and a concrete case beside each; proofs are in
   Proof_Props_Overlook.v.  Generated by tools/mkthms.py. *)
From Coq Require Import String.
From Verif Require Import Proof_Props_Overlook Base Model_Seq Model_Changes Model_IO Model_Text Model_Bytes Spec Spec_Shape Spec_Overlook Cases Proof_Seq Proof_Changes Proof_Diff Proof_Text Proof_Bytes Proof_Shape Proof_Overlook Proof_Props_Gen Proof_Props_Context.

(* ------------------------------------------------------------------ C128 *)
(* C128: there is a bound on the number of changed lines (bytes) that a diff does not report:
     exists n, forall before after cs ds, text_changes before after = Ok cs -> NoDup ds ->
       (forall q, In q ds -> overlooked before after cs q) -> length ds <= n
   and at most half of what is reported as unchanged is changed.  The first part is false by any
   amount.  Whenever every other line of two equally long texts is the same line (say, an empty
   one), at the start and at the end as well, and they have no other line in common, the diff
   is empty; likewise for bytes. *)
Theorem C128_every_other :
  (forall (p : line) xs ys context, context <= 255 -> List.length xs = List.length ys -> ~ In p xs -> ~ In p ys -> (forall v, In v xs -> ~ In v ys) ->
     text_changes (spaced p xs) (spaced p ys) = Ok [NoChange (CS 0 0 (2 * List.length xs + 1))] /\
     text_diff_clumps (spaced p xs) (spaced p ys) context = Ok []) /\
  (forall (p : byte) xs ys context, context <= 255 -> List.length xs = List.length ys -> ~ In p xs -> ~ In p ys -> (forall v, In v xs -> ~ In v ys) ->
     byte_changes (spaced p xs) (spaced p ys) = Ok [NoChange (CS 0 0 (2 * List.length xs + 1))] /\
     byte_diff_clumps (spaced p xs) (spaced p ys) context = Ok []).
Proof. exact p_C128_every_other. Qed.
Print Assumptions C128_every_other.

Theorem C128_bounded_refuted : forall n,
  (exists before after : list line, exists ds, wrong_items before after ds /\ List.length ds = n /\ List.length before = 2 * n + 1 /\ List.length after = 2 * n + 1 /\
     forall context, context <= 255 -> text_diff_clumps before after context = Ok []) /\
  (exists before after : list byte, exists ds, wrong_items before after ds /\ List.length ds = n /\ List.length before = 2 * n + 1 /\ List.length after = 2 * n + 1 /\
     forall context, context <= 255 -> byte_diff_clumps before after context = Ok []).
Proof. exact p_C128_bounded_refuted. Qed.
Print Assumptions C128_bounded_refuted.

(* the second part: of the pairs reported as unchanged at most half are different *)
Theorem C128_half :
  (forall before after cs ds, text_changes before after = Ok cs -> NoDup ds -> (forall q, In q ds -> overlooked before after cs q) -> 2 * List.length ds <= kept_items cs) /\
  (forall before after cs ds, byte_changes before after = Ok cs -> NoDup ds -> (forall q, In q ds -> overlooked before after cs q) -> 2 * List.length ds <= kept_items cs).
Proof. exact p_C128_half. Qed.
Print Assumptions C128_half.

(* so at most half of the lines of a patched text are not those of the new text (of the old one,
   for patching in reverse), whatever the number of context lines; likewise for bytes, with
   context and data that are not empty (see C31) *)
Theorem C128_patched_half : forall dbg before after context clumps,
  context <= 255 -> fits_lines before -> fits_lines after -> text_diff_clumps before after context = Ok clumps ->
  (exists out, text_apply_into dbg clumps before false (Writer [] None) = (Done (Stats (List.length clumps) 0 0 0 0), Writer (List.concat out) None) /\
     List.length out = List.length after /\ forall ds, wrong_items out after ds -> 2 * List.length ds <= List.length after) /\
  (exists out, text_apply_into dbg clumps after true (Writer [] None) = (Done (Stats (List.length clumps) 0 0 0 0), Writer (List.concat out) None) /\
     List.length out = List.length before /\ forall ds, wrong_items out before ds -> 2 * List.length ds <= List.length before).
Proof. exact p_C128_patched_half. Qed.
Print Assumptions C128_patched_half.

Theorem C128_patched_half_bytes_partial : forall dbg before after context clumps,
  1 <= context <= 255 -> fits_bytes before -> fits_bytes after -> byte_diff_clumps before after context = Ok clumps ->
  (before <> [] -> exists out, byte_apply_into dbg clumps before false (Writer [] None) = (Done tt, Writer out None) /\
     List.length out = List.length after /\ forall ds, wrong_items out after ds -> 2 * List.length ds <= List.length after) /\
  (after <> [] -> exists out, byte_apply_into dbg clumps after true (Writer [] None) = (Done tt, Writer out None) /\
     List.length out = List.length before /\ forall ds, wrong_items out before ds -> 2 * List.length ds <= List.length before).
Proof. exact p_C128_patched_half_bytes_partial. Qed.
Print Assumptions C128_patched_half_bytes_partial.

(* a double-spaced text and another one: no line but the empty ones is the same, and the diff is empty *)
Example C128_example : let b := spaced (bs "_ ") (L "one two three ") in let a := spaced (bs "_ ") (L "four five six ") in
  b = L "_ one _ two _ three _ " /\ a = L "_ four _ five _ six _ " /\
  text_diff_clumps b a 3 = Ok [] /\ text_changes b a = Ok [NoChange (CS 0 0 7)] /\
  wrong_items b a [1; 3; 5] /\ overlooked b a [NoChange (CS 0 0 7)] (3, 3) /\
  text_apply_into true [] b false (Writer [] None) = (Done (Stats 0 0 0 0 0), Writer (List.concat b) None).
Proof. exact e_C128_example. Qed.

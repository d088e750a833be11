(* Properties_Fewer.v - the property theorems and a concrete case beside each; proofs are in
   Proof_Props_Fewer.v.  Generated by tools/mkthms.py. *)
From Coq Require Import String.
From Verif Require Import Proof_Props_Fewer Base Model_Seq Model_Changes Model_IO Model_Text Model_Bytes Model_Json Model_Files Spec Spec_Shape Spec_Outcome Spec_Merge Spec_Files Cases Proof_Seq Proof_Changes Proof_Clumps Proof_IO Proof_Diff Proof_Arith Proof_Text Proof_Apply Proof_Bytes Proof_Shape Proof_Context Proof_Outcome Proof_Merge Proof_Fewer Proof_Files Proof_Props_Gen Proof_Props_Text Proof_Props_Bytes Proof_Props_Outcome Proof_Props_Files.

(* ------------------------------------------------------------------ C118 *)
(* C118, full statement: where a diff applies cleanly, the diff of the same texts with fewer context
   lines applies cleanly and gives the same result.  It is false: what the generator overlooks is put
   right if it lies in the context. *)
Theorem C118_same_result_refuted : exists before after target hs hs' out out',
  text_diff_clumps before after 1 = Ok (map text_of_hunk hs) /\ text_diff_clumps before after 3 = Ok (map text_of_hunk hs') /\ target <> before /\
  forall dbg,
    text_apply_into dbg (map text_of_hunk hs') target false (Writer [] None) = (Done (Stats (length hs') 0 0 0 0), Writer out' None) /\
    text_apply_into dbg (map text_of_hunk hs) target false (Writer [] None) = (Done (Stats (length hs) 0 0 0 0), Writer out None) /\ out <> out'.
Proof. exact p_C118_same_result_refuted. Qed.
Print Assumptions C118_same_result_refuted.

(* What does hold: where the diff with more context applies with every clump exactly where it is
   expected - to any text, not only the one it was made from - so does the one with less, and it
   replaces the old lines of its clumps by the new ones.  In reverse too.
   Missing: the result is the same. *)
Theorem C118_clean_partial : forall dbg before after context context' hs hs' target out',
  context <= context' <= 255 -> fits_lines (before ++ after) -> fits_lines target ->
  text_diff_clumps before after context = Ok (map text_of_hunk hs) -> text_diff_clumps before after context' = Ok (map text_of_hunk hs') ->
  (text_apply_into dbg (map text_of_hunk hs') target false (Writer [] None) = (Done (Stats (length hs') 0 0 0 0), Writer out' None) ->
   text_apply_into dbg (map text_of_hunk hs) target false (Writer [] None) = (Done (Stats (length hs) 0 0 0 0), Writer (List.concat (patched target 0 hs)) None)) /\
  (text_apply_into dbg (map text_of_hunk hs') target true (Writer [] None) = (Done (Stats (length hs') 0 0 0 0), Writer out' None) ->
   text_apply_into dbg (map text_of_hunk hs) target true (Writer [] None) = (Done (Stats (length hs) 0 0 0 0), Writer (List.concat (patched target 0 (map swap_hunk hs))) None)).
Proof. exact p_C118_clean_partial. Qed.
Print Assumptions C118_clean_partial.

(* and the result is the same if nothing is overlooked between the two contexts: every line reported as
   unchanged and left out of the clumps with less context is the same in both texts, or left out of
   the ones with more context as well *)
Theorem C118_same_result_partial : forall dbg before after context context' hs hs' cs target out',
  context <= context' <= 255 -> fits_lines (before ++ after) -> fits_lines target -> text_changes before after = Ok cs ->
  text_diff_clumps before after context = Ok (map text_of_hunk hs) -> text_diff_clumps before after context' = Ok (map text_of_hunk hs') ->
  (forall i j, beyond_context context cs i j -> beyond_context context' cs i j \/ nth_error before i = nth_error after j) ->
  (text_apply_into dbg (map text_of_hunk hs') target false (Writer [] None) = (Done (Stats (length hs') 0 0 0 0), Writer out' None) ->
   text_apply_into dbg (map text_of_hunk hs) target false (Writer [] None) = (Done (Stats (length hs) 0 0 0 0), Writer out' None)) /\
  (text_apply_into dbg (map text_of_hunk hs') target true (Writer [] None) = (Done (Stats (length hs') 0 0 0 0), Writer out' None) ->
   text_apply_into dbg (map text_of_hunk hs) target true (Writer [] None) = (Done (Stats (length hs) 0 0 0 0), Writer out' None)).
Proof. exact p_C118_same_result_partial. Qed.
Print Assumptions C118_same_result_partial.

(* For byte patches, where nothing is said about the clumps in the end: if all old bytes of the clumps
   with more context are at their places, so are those with less, and the patch replaces them. *)
Theorem C118_bytes_partial : forall dbg before after context context' hs hs' cs target,
  context <= context' <= 255 -> bytes_fit target hs -> bytes_fit target hs' -> byte_changes before after = Ok cs ->
  byte_diff_clumps before after context = Ok (map byte_of_hunk hs) -> byte_diff_clumps before after context' = Ok (map byte_of_hunk hs') ->
  Forall (fun h => h_old h <> []) hs -> Forall (fun h => occurs_at target (h_old h) (Z.of_nat (h_b h))) hs' ->
  byte_apply_into dbg (map byte_of_hunk hs) target false (Writer [] None) = (Done tt, Writer (patched target 0 hs) None) /\
  ((forall i j, beyond_context context cs i j -> beyond_context context' cs i j \/ nth_error before i = nth_error after j) ->
   Forall (fun h => h_old h <> []) hs' ->
   byte_apply_into dbg (map byte_of_hunk hs') target false (Writer [] None) = (Done tt, Writer (patched target 0 hs) None)).
Proof. exact p_C118_bytes_partial. Qed.
Print Assumptions C118_bytes_partial.

(* In reverse, the new bytes of the clumps being at their places. *)
Theorem C118_bytes_reverse_partial : forall dbg before after context context' hs hs' cs target,
  context <= context' <= 255 -> bytes_fit target hs -> bytes_fit target hs' -> byte_changes before after = Ok cs ->
  byte_diff_clumps before after context = Ok (map byte_of_hunk hs) -> byte_diff_clumps before after context' = Ok (map byte_of_hunk hs') ->
  Forall (fun h => h_new h <> []) hs -> Forall (fun h => occurs_at target (h_new h) (Z.of_nat (h_a h))) hs' ->
  byte_apply_into dbg (map byte_of_hunk hs) target true (Writer [] None) = (Done tt, Writer (patched target 0 (map swap_hunk hs)) None) /\
  ((forall i j, beyond_context context cs i j -> beyond_context context' cs i j \/ nth_error before i = nth_error after j) ->
   Forall (fun h => h_new h <> []) hs' ->
   byte_apply_into dbg (map byte_of_hunk hs') target true (Writer [] None) = (Done tt, Writer (patched target 0 (map swap_hunk hs)) None)).
Proof. exact p_C118_bytes_reverse_partial. Qed.
Print Assumptions C118_bytes_reverse_partial.

(* The patch tool: of two saved diffs of the same texts, the one with less context does to a file what
   the one with more context does, if that applies cleanly. *)
Theorem C118_file_partial : forall E f P P' d d' reverse before after context context' cs target out',
  fault_free E -> N.testbit (e_mode E) 8 = true -> f (e_tmp E) = None ->
  holds_diff f P (TextChange d) -> holds_diff f P' (TextChange d') -> td_before d' = td_before d ->
  context <= context' <= 255 -> fits_lines (before ++ after) -> fits_lines target -> text_of f (td_before d) target -> text_changes before after = Ok cs ->
  text_diff_clumps before after context = Ok (td_clumps d) -> text_diff_clumps before after context' = Ok (td_clumps d') ->
  (forall i j, beyond_context context cs i j -> beyond_context context' cs i j \/ nth_error before i = nth_error after j) ->
  text_apply_into (e_dbg E) (td_clumps d') target reverse (Writer [] None) = (Done (Stats (length (td_clumps d')) 0 0 0 0), Writer out' None) ->
  exists w w', patch_main E P reverse (start f) = (Val tt, w) /\ patch_main E P' reverse (start f) = (Val tt, w') /\
    content (w_fs w) (td_before d) = Some out' /\ content (w_fs w') (td_before d) = Some out' /\
    forall p, p <> td_before d -> w_fs w p = f p /\ w_fs w' p = f p.
Proof. exact p_C118_file_partial. Qed.
Print Assumptions C118_file_partial.

(* Two changes far apart, in a text edited at its start, between them and at its end; the diffs with 1
   and with 2 context lines apply cleanly with the same result, while the one with 3 does not. *)
Example C118_example :
  let b := L "A B C D E F G H I J K L M N " in let a := L "A B C X Y F G H I J V W M N " in let target := L "Q B C D E F G R I J K L M N S " in
  exists hs1 hs2 hs3,
  text_diff_clumps b a 1 = Ok (map text_of_hunk hs1) /\ text_diff_clumps b a 2 = Ok (map text_of_hunk hs2) /\ text_diff_clumps b a 3 = Ok (map text_of_hunk hs3) /\
  fits_lines (b ++ a) /\ fits_lines target /\ length hs1 = 2 /\
  text_apply_into true (map text_of_hunk hs1) target false (Writer [] None) = (Done (Stats 2 0 0 0 0), Writer (bs "Q B C X Y F G R I J V W M N S ") None) /\
  text_apply_into true (map text_of_hunk hs2) target false (Writer [] None) = (Done (Stats 2 0 0 0 0), Writer (bs "Q B C X Y F G R I J V W M N S ") None) /\
  text_apply_into true (map text_of_hunk hs3) target false (Writer [] None) <> (Done (Stats (length hs3) 0 0 0 0), Writer (bs "Q B C X Y F G R I J V W M N S ") None).
Proof. exact e_C118_example. Qed.

Example C118_bytes_example :
  let b := bs "abcdefghij" in let a := bs "abcXYfghij" in let target := bs "QRcdefghZZZ" in
  byte_changes b a = Ok [NoChange (CS 0 0 3); Replace (Range 3 5) (Range 3 5); NoChange (CS 5 5 5)] /\
  exists hs hs', byte_diff_clumps b a 0 = Ok (map byte_of_hunk hs) /\ byte_diff_clumps b a 1 = Ok (map byte_of_hunk hs') /\
  Forall (fun h => h_old h <> []) hs /\ Forall (fun h => occurs_at target (h_old h) (Z.of_nat (h_b h))) hs' /\
  byte_apply_into false (map byte_of_hunk hs) target false (Writer [] None) = (Done tt, Writer (bs "QRcXYfghZZZ") None).
Proof. exact e_C118_bytes_example. Qed.

Example C118_file_example :
  let clumps c := match text_diff_clumps (L "A B C D E F G H ") (L "A B C X Y F G H ") c with Ok l => l | _ => [] end in
  let d c := TextDiff (bs "A") (bs "B") (clumps c) in
  let f := files [(bs "A", bs "Q B C D E F G R "); (bs "P", saved (TextChange (d 1))); (bs "O", saved (TextChange (d 2)))] in
  List.length (clumps 1) = 1 /\ clumps 1 <> clumps 2 /\
  (exists cs, text_changes (L "A B C D E F G H ") (L "A B C X Y F G H ") = Ok cs /\
     forall i j, beyond_context 1 cs i j -> beyond_context 2 cs i j \/ nth_error (L "A B C D E F G H ") i = nth_error (L "A B C X Y F G H ") j) /\
  text_apply_into true (clumps 2) (L "Q B C D E F G R ") false (Writer [] None) = (Done (Stats 1 0 0 0 0), Writer (bs "Q B C X Y F G R ") None) /\
  let run patch := patch_main (calm_env true) patch false (start f) in
  fst (run (bs "P")) = Val tt /\ fst (run (bs "O")) = Val tt /\
  content (w_fs (snd (run (bs "P")))) (bs "A") = Some (bs "Q B C X Y F G R ") /\ content (w_fs (snd (run (bs "O")))) (bs "A") = Some (bs "Q B C X Y F G R ").
Proof. exact e_C118_file_example. Qed.

Example C118_bytes_reverse_example :
  let b := bs "abcdefghij" in let a := bs "abcXYfghij" in let target := bs "QRcXYfghZZZ" in
  exists hs hs', byte_diff_clumps b a 0 = Ok (map byte_of_hunk hs) /\ byte_diff_clumps b a 1 = Ok (map byte_of_hunk hs') /\
  Forall (fun h => h_new h <> []) hs /\ Forall (fun h => occurs_at target (h_new h) (Z.of_nat (h_a h))) hs' /\
  byte_apply_into false (map byte_of_hunk hs) target true (Writer [] None) = (Done tt, Writer (bs "QRcdefghZZZ") None).
Proof. exact e_C118_bytes_reverse_example. Qed.

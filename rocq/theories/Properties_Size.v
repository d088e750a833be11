(* Properties_Size.v - the property theorems and a concrete case beside each; proofs are in
   Proof_Props_Size.v.  Generated by tools/mkthms.py. *)
From Coq Require Import String.
From Verif Require Import Proof_Props_Size Base Model_Seq Model_Changes Model_IO Model_Text Model_Bytes Model_Json Model_Files Spec Spec_Files Spec_Size Cases Proof_Seq Proof_Files Proof_Size Proof_Props_Files.

(* ------------------------------------------------------------------ C106 *)
(* C106: the clumps of a diff hold no more lines, and no more bytes, than the two texts have,
   whatever the number of context lines; and there are no more clumps than lines. *)
Theorem C106_content :
  (forall before after context, context <= 255 -> exists clumps, text_diff_clumps before after context = Ok clumps /\
     length clumps <= length before + length after /\
     total (fun c => length (sn_items (tc_before c))) clumps <= length before /\
     total (fun c => length (sn_items (tc_after c))) clumps <= length after /\
     total (fun c => length (List.concat (sn_items (tc_before c)))) clumps <= length (List.concat before) /\
     total (fun c => length (List.concat (sn_items (tc_after c)))) clumps <= length (List.concat after)) /\
  (forall before after context, context <= 255 -> exists clumps, byte_diff_clumps before after context = Ok clumps /\
     length clumps <= length before + length after /\
     total (fun c => length (sn_items (bc_before c))) clumps <= length before /\
     total (fun c => length (sn_items (bc_after c))) clumps <= length after).
Proof. exact p_C106_content. Qed.
Print Assumptions C106_content.

(* The saved form of a diff of two files with k clumps takes at most 22 bytes for each byte of
   the files, 298 for each clump, 6 for each byte of the paths and 120 besides. *)
Theorem C106_saved : forall f before after context d, context <= 255 -> fits_file f before -> fits_file f after ->
  describes f before after context d ->
  exists k, k <= file_size f before + file_size f after /\
    (forall t, d = TextChange t -> k = length (td_clumps t)) /\ (forall t, d = ByteChange t -> k = length (bd_clumps t)) /\
    length (fst (diff_to_json d)) <= 120 + 6 * (length before + length after) + 298 * k + 22 * (file_size f before + file_size f after).
Proof. exact p_C106_saved. Qed.
Print Assumptions C106_saved.

(* So the output of the diff tool, whatever happens, is at most a constant times as large as
   the two files, apart from the paths. *)
Theorem C106_output : forall E f before after context o w, context <= 255 -> fits_file f before -> fits_file f after ->
  diff_main E before after context (start f) = (o, w) ->
  length (w_stdout w) <= 120 + 6 * (length before + length after) + 320 * (file_size f before + file_size f after).
Proof. exact p_C106_output. Qed.
Print Assumptions C106_output.

(* ten one-byte lines against none of them: 1 clump, 20 bytes, 2 path bytes: 523 bytes, where
   120 + 12 + 298 + 440 = 870 are allowed *)
Example C106_example : let f := files [(bs "A", bs "a b c d e f g h i j "); (bs "B", [])] in
  fits_file f (bs "A") /\ fits_file f (bs "B") /\
  exists w, diff_main (calm_env true) (bs "A") (bs "B") 3 (start f) = (Val tt, w) /\ length (w_stdout w) = 523.
Proof. exact e_C106_example. Qed.

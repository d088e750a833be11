(* Properties_Again.v - the property theorems and a concrete case beside each; proofs are in
   Proof_Props_Again.v.  Generated by tools/mkthms.py. *)
From Coq Require Import String.
From Verif Require Import Proof_Props_Again Base Model_Seq Model_Changes Model_IO Model_Text Model_Bytes Model_Json Model_Files Spec Spec_Files Cases Proof_Seq Proof_Utf8 Proof_Json Proof_IO Proof_Text Proof_Bytes Proof_Diff Proof_Term Proof_Files Proof_Props_Text Proof_Props_Bytes Proof_Props_Files.

(* ------------------------------------------------------------------ C110 *)
(* C110, full statement: when the patch tool has brought a file to its new content, running it
   again with the same patch leaves the file as it is.  It is false: a patch that adds lines may
   fit the new text as well, and adds them again; both runs report success. *)
Theorem C110_again_refuted : exists E f before after context P w1 w2 w3, fault_free E /\ e_stdout E = None /\ 1 <= context <= 255 /\
  diff_main E before after context (start f) = (Val tt, w1) /\
  patch_main E P false (start (upd f P (Some (File rw (w_stdout w1))))) = (Val tt, w2) /\
  patch_main E P false (start (w_fs w2)) = (Val tt, w3) /\
  content f before = Some (bs "A B ") /\ content f after = Some (bs "A B A B ") /\ content (w_fs w2) before = content f after /\
  content (w_fs w3) before = Some (bs "A B A B A B ").
Proof. exact p_C110_again_refuted. Qed.
Print Assumptions C110_again_refuted.

(* ... or it panics (and leaves the file alone) *)
Theorem C110_panic_refuted : exists E f before after context P w1 w2 w3, fault_free E /\ e_stdout E = None /\ 1 <= context <= 255 /\
  diff_main E before after context (start f) = (Val tt, w1) /\
  patch_main E P false (start (upd f P (Some (File rw (w_stdout w1))))) = (Val tt, w2) /\
  patch_main E P false (start (w_fs w2)) = (Abort, w3) /\
  content f before = Some (bs "A A A ") /\ content f after = Some (bs "B A A ") /\ content (w_fs w2) before = content f after /\
  content (w_fs w3) before = content f after.
Proof. exact p_C110_panic_refuted. Qed.
Print Assumptions C110_panic_refuted.

(* What does hold: a text file that has the new content is written again with the same content if
   no clump of the diff, even with reduced context, fits anywhere in it.  Nothing else changes.
   Missing: clumps that fit the new text as well. *)
Theorem C110_text_partial : forall E f P d lb la context hs, fault_free E -> N.testbit (e_mode E) 8 = true -> f (e_tmp E) = None ->
  context <= 255 -> fits_lines lb -> fits_lines la -> text_diff_clumps lb la context = Ok (map text_of_hunk hs) ->
  holds_diff f P (TextChange d) -> td_clumps d = map text_of_hunk hs -> text_of f (td_before d) la ->
  Forall (fun h => ~ fits_somewhere h la /\ (e_dbg E = true -> (core_length h <= zlen la)%Z)) hs ->
  exists w, patch_main E P false (start f) = (Val tt, w) /\ content (w_fs w) (td_before d) = content f (td_before d) /\
    (forall p, p <> td_before d -> w_fs w p = f p) /\
    exists st, st_already st = List.length hs /\ text_apply_into (e_dbg E) (td_clumps d) la false (Writer [] None) = (Done st, Writer (concat la) None).
Proof. exact p_C110_text_partial. Qed.
Print Assumptions C110_text_partial.

(* Any file is written again with the same content by a patch for bytes if no clump applies: the
   old bytes of no clump are in the file at their place. *)
Theorem C110_bytes_partial : forall E f P d lb la context hs c, fault_free E -> N.testbit (e_mode E) 8 = true -> f (e_tmp E) = None ->
  context <= 255 -> fits_bytes c -> byte_diff_clumps lb la context = Ok (map byte_of_hunk hs) ->
  holds_diff f P (ByteChange d) -> bd_clumps d = map byte_of_hunk hs -> content f (bd_before d) = Some c ->
  Forall (fun h => matches_at c (h_old h) (h_b h) = false) hs ->
  exists w, patch_main E P false (start f) = (Val tt, w) /\ content (w_fs w) (bd_before d) = Some c /\ forall p, p <> bd_before d -> w_fs w p = f p.
Proof. exact p_C110_bytes_partial. Qed.
Print Assumptions C110_bytes_partial.

(* After a creation or a removal that has been carried out, a second run changes no file; for the
   removal it reports failure. *)
Theorem C110_create_partial : forall E f P reverse d c w, fault_free E -> N.testbit (e_mode E) 8 = true -> P <> target d ->
  holds_diff f P d -> creates d reverse c -> ~ present f (target d) -> patch_main E P reverse (start f) = (Val tt, w) ->
  exists w', patch_main E P reverse (start (w_fs w)) = (Val tt, w') /\ content (w_fs w) (target d) = Some c /\ same_files (w_fs w) (w_fs w').
Proof. exact p_C110_create_partial. Qed.
Print Assumptions C110_create_partial.

Theorem C110_remove_partial : forall E f P reverse d w, fault_free E -> P <> target d ->
  holds_diff f P d -> removes d reverse -> patch_main E P reverse (start f) = (Val tt, w) ->
  exists w', patch_main E P reverse (start (w_fs w)) = (Exit 1, w') /\ ~ present (w_fs w) (target d) /\ same_files (w_fs w) (w_fs w').
Proof. exact p_C110_remove_partial. Qed.
Print Assumptions C110_remove_partial.

(* a text, bytes, a creation and a removal; the second run finds everything done *)
Example C110_example :
  let f := files [(bs "A", bs "A B C D E F G "); (bs "B", bs "X B C Y Z E F G "); (bs "C", xff :: bs "BCDEFG"); (bs "D", xff :: bs "XBCYZEFGH")] in
  let hs := [Hunk 0 1 0 (L "A B ") 0 (L "X B "); Hunk 1 1 2 (L "C D E ") 2 (L "C Y Z E ")] in
  (text_diff_clumps (L "A B C D E F G ") (L "X B C Y Z E F G ") 1 = Ok (map text_of_hunk hs) /\
   Forall (fun h => ~ fits_somewhere h (L "X B C Y Z E F G ") /\ (true = true -> (core_length h <= zlen (L "X B C Y Z E F G "))%Z)) hs) /\
  (exists w1 w2 w3, diff_main (calm_env true) (bs "A") (bs "B") 1 (start f) = (Val tt, w1) /\
     patch_main (calm_env true) (bs "P") false (start (upd f (bs "P") (Some (File rw (w_stdout w1))))) = (Val tt, w2) /\ content (w_fs w2) (bs "A") = Some (bs "X B C Y Z E F G ") /\
     patch_main (calm_env true) (bs "P") false (start (w_fs w2)) = (Val tt, w3) /\ content (w_fs w3) (bs "A") = Some (bs "X B C Y Z E F G ")) /\
  (exists w1 w2 w3, diff_main (calm_env true) (bs "C") (bs "D") 1 (start f) = (Val tt, w1) /\
     patch_main (calm_env true) (bs "P") false (start (upd f (bs "P") (Some (File rw (w_stdout w1))))) = (Val tt, w2) /\ content (w_fs w2) (bs "C") = Some (xff :: bs "XBCYZEFGH") /\
     patch_main (calm_env true) (bs "P") false (start (w_fs w2)) = (Val tt, w3) /\ content (w_fs w3) (bs "C") = Some (xff :: bs "XBCYZEFGH")) /\
  (exists w1 w2 w3, diff_main (calm_env true) (bs "A") (bs "N") 1 (start f) = (Val tt, w1) /\
     patch_main (calm_env true) (bs "P") false (start (upd f (bs "P") (Some (File rw (w_stdout w1))))) = (Val tt, w2) /\ w_fs w2 (bs "A") = None /\
     patch_main (calm_env true) (bs "P") false (start (w_fs w2)) = (Exit 1, w3)) /\
  (exists w1 w2 w3, diff_main (calm_env true) (bs "N") (bs "B") 1 (start f) = (Val tt, w1) /\
     patch_main (calm_env true) (bs "P") false (start (upd f (bs "P") (Some (File rw (w_stdout w1))))) = (Val tt, w2) /\ content (w_fs w2) (bs "N") = Some (bs "X B C Y Z E F G ") /\
     patch_main (calm_env true) (bs "P") false (start (w_fs w2)) = (Val tt, w3) /\ content (w_fs w3) (bs "N") = Some (bs "X B C Y Z E F G ")).
Proof. exact e_C110_example. Qed.

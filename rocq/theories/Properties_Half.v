(* Properties_Half.v - the property theorems and a concrete case beside each; proofs are in
   Proof_Props_Half.v.  Generated by tools/mkthms.py. *)
From Coq Require Import String.
From Verif Require Import Proof_Props_Half Base Model_Seq Model_Changes Model_IO Model_Text Model_Bytes Model_Json Model_Files Spec Spec_Outcome Spec_Shape Spec_Files Spec_Half Cases Proof_Seq Proof_Diff Proof_IO Proof_Text Proof_Apply Proof_Fuzzy Proof_Bytes Proof_Outcome Proof_Merge Proof_Props_Text Proof_Props_Outcome Proof_Props_Fewer Proof_Props_Select Proof_Select Proof_Props_Bytes Proof_Props_Ends Proof_Files Proof_Props_Files.

(* ------------------------------------------------------------------ C140 *)
(* C140, full statement: a diff of which some clumps have been put in is completed by applying it: the
   whole diff applied to the text with these clumps gives the same as applied to the original text.
   It is false: the first clump is recognised as already there, but the second is put in at a wrong
   place, in the midst of the new lines of the first; nothing is reported. *)
Theorem C140_completed_refuted : exists before after clumps first second half,
  text_diff_clumps before after 3 = Ok clumps /\ parts clumps first second /\ List.length first = 1 /\ List.length second = 1 /\
  forall dbg,
    text_apply_into dbg clumps before false (Writer [] None) = (Done (Stats 2 0 0 0 0), Writer (List.concat after) None) /\
    text_apply_into dbg first before false (Writer [] None) = (Done (Stats 1 0 0 0 0), Writer (List.concat half) None) /\
    exists out, text_apply_into dbg clumps half false (Writer [] None) = (Done (Stats 1 0 1 0 0), Writer out None) /\ out <> List.concat after.
Proof. exact p_C140_completed_refuted. Qed.
Print Assumptions C140_completed_refuted.

(* It is false as well if the clumps move nothing, but the old lines of one that has been put in are found
   elsewhere: it is put in once more. *)
Theorem C140_again_refuted : exists before after hs put left half,
  text_diff_clumps before after 0 = Ok (map text_of_hunk hs) /\ put_in hs put left /\ Forall (fun h => List.length (h_old h) = List.length (h_new h)) hs /\ half = patched before 0 put /\
  forall dbg,
    text_apply_into dbg (map text_of_hunk hs) before false (Writer [] None) = (Done (Stats 2 0 0 0 0), Writer (List.concat after) None) /\
    text_apply_into dbg (map text_of_hunk hs) half false (Writer [] None) = (Done (Stats 0 2 0 0 0), Writer (bs "X C D X E F G H Y ") None) /\
    after = L "X C D B E F G H Y ".
Proof. exact p_C140_again_refuted. Qed.
Print Assumptions C140_again_refuted.

(* What does hold: it is so if in the text each clump that has been put in stands where the new text has
   it, and each other clump where the old text has it ([stands]: before a clump put in, those left out add
   together as many lines as they take away, and before another one, those put in do), and the old lines of
   no clump that has been put in are found in the text any more.  The statistics tell which is which.  Missing: clumps that have been moved, and clumps whose old lines are still found somewhere. *)
Theorem C140_completed_partial : forall dbg before after context hs put left,
  context <= 255 -> fits_lines (before ++ after) -> text_diff_clumps before after context = Ok (map text_of_hunk hs) -> stands 0 0 hs put left ->
  let half := patched before 0 put in fits_lines half ->
  Forall (fun h => ~ fits_somewhere h half /\ List.length (h_old h) <= List.length half) put ->
  text_apply_into dbg (map text_of_hunk put) before false (Writer [] None) = (Done (Stats (List.length put) 0 0 0 0), Writer (List.concat half) None) /\
  exists whole,
    text_apply_into dbg (map text_of_hunk hs) before false (Writer [] None) = (Done (Stats (List.length hs) 0 0 0 0), Writer whole None) /\
    text_apply_into dbg (map text_of_hunk hs) half false (Writer [] None) = (Done (Stats (List.length left) 0 (List.length put) 0 0), Writer whole None).
Proof. exact p_C140_completed_partial. Qed.
Print Assumptions C140_completed_partial.

(* In reverse: some of the clumps have been taken back.  Missing: the same. *)
Theorem C140_completed_reverse_partial : forall dbg before after context hs put left,
  context <= 255 -> fits_lines (before ++ after) -> text_diff_clumps before after context = Ok (map text_of_hunk hs) -> stands 0 0 (map swap_hunk hs) (map swap_hunk put) (map swap_hunk left) ->
  let half := patched after 0 (map swap_hunk put) in fits_lines half ->
  Forall (fun h => ~ fits_somewhere (swap_hunk h) half /\ List.length (h_new h) <= List.length half) put ->
  text_apply_into dbg (map text_of_hunk put) after true (Writer [] None) = (Done (Stats (List.length put) 0 0 0 0), Writer (List.concat half) None) /\
  exists whole,
    text_apply_into dbg (map text_of_hunk hs) after true (Writer [] None) = (Done (Stats (List.length hs) 0 0 0 0), Writer whole None) /\
    text_apply_into dbg (map text_of_hunk hs) half true (Writer [] None) = (Done (Stats (List.length left) 0 (List.length put) 0 0), Writer whole None).
Proof. exact p_C140_completed_reverse_partial. Qed.
Print Assumptions C140_completed_reverse_partial.

(* A diff that is right and whose clumps have as many old lines as new ones: with any of them put in, it
   completes the text, and in reverse takes back what has been put in.  Missing: as above, and diffs
   that overlook something. *)
Theorem C140_both_ways_partial : forall dbg before after context hs put left,
  context <= 255 -> fits_lines (before ++ after) -> text_diff_clumps before after context = Ok (map text_of_hunk hs) -> patched before 0 hs = after ->
  parts hs put left -> Forall (fun h => List.length (h_old h) = List.length (h_new h)) hs ->
  let half := patched before 0 put in
  (Forall (fun h => ~ fits_somewhere h half) put ->
     text_apply_into dbg (map text_of_hunk hs) half false (Writer [] None) = (Done (Stats (List.length left) 0 (List.length put) 0 0), Writer (List.concat after) None)) /\
  (Forall (fun h => ~ fits_somewhere (swap_hunk h) half) left ->
     text_apply_into dbg (map text_of_hunk hs) half true (Writer [] None) = (Done (Stats (List.length put) 0 (List.length left) 0 0), Writer (List.concat before) None)).
Proof. exact p_C140_both_ways_partial. Qed.
Print Assumptions C140_both_ways_partial.

(* Bytes, full statement: the same.  It is false in the same way. *)
Theorem C140_bytes_refuted : exists before after clumps first second half,
  byte_diff_clumps before after 0 = Ok clumps /\ parts clumps first second /\ List.length first = 1 /\ List.length second = 1 /\
  forall dbg,
    byte_apply_into dbg clumps before false (Writer [] None) = (Done tt, Writer after None) /\
    byte_apply_into dbg first before false (Writer [] None) = (Done tt, Writer half None) /\
    exists out, byte_apply_into dbg clumps half false (Writer [] None) = (Done tt, Writer out None) /\ out <> after.
Proof. exact p_C140_bytes_refuted. Qed.
Print Assumptions C140_bytes_refuted.

(* What does hold: if all clumps up to the last that has been put in have as many old bytes as new ones,
   and no clump only puts in bytes.  Missing: clumps that move the bytes behind them, and clumps
   without old bytes. *)
Theorem C140_bytes_partial : forall dbg before after context hs put left,
  context <= 255 -> bytes_fit before hs -> byte_diff_clumps before after context = Ok (map byte_of_hunk hs) -> put_in hs put left ->
  Forall (fun h => h_old h <> []) hs ->
  exists whole,
    byte_apply_into dbg (map byte_of_hunk hs) before false (Writer [] None) = (Done tt, Writer whole None) /\
    byte_apply_into dbg (map byte_of_hunk hs) (patched before 0 put) false (Writer [] None) = (Done tt, Writer whole None).
Proof. exact p_C140_bytes_partial. Qed.
Print Assumptions C140_bytes_partial.

(* In reverse.  Missing: clumps that move the bytes behind them, and clumps without new bytes. *)
Theorem C140_bytes_reverse_partial : forall dbg before after context hs put left,
  context <= 255 -> bytes_fit after hs -> byte_diff_clumps before after context = Ok (map byte_of_hunk hs) -> put_in hs put left ->
  Forall (fun h => h_new h <> []) hs ->
  exists whole,
    byte_apply_into dbg (map byte_of_hunk hs) after true (Writer [] None) = (Done tt, Writer whole None) /\
    byte_apply_into dbg (map byte_of_hunk hs) (patched after 0 (map swap_hunk put)) true (Writer [] None) = (Done tt, Writer whole None).
Proof. exact p_C140_bytes_reverse_partial. Qed.
Print Assumptions C140_bytes_reverse_partial.

(* Clumps that move bytes: so it is, too, if each clump stands in its place as for texts, and a clump that has
   been put in has new bytes and its old bytes are not found at their old place (they may be elsewhere).
   Missing: clumps that have been moved, clumps without old bytes, and clumps that still match. *)
Theorem C140_bytes_moved_partial : forall dbg before after context hs put left,
  context <= 255 -> bytes_fit before hs -> byte_diff_clumps before after context = Ok (map byte_of_hunk hs) -> stands 0 0 hs put left ->
  Forall (fun h => h_old h <> []) hs ->
  let half := patched before 0 put in bytes_fit half hs ->
  Forall (fun h => matches_at half (h_old h) (h_b h) = false /\ h_new h <> []) put ->
  exists whole,
    byte_apply_into dbg (map byte_of_hunk hs) before false (Writer [] None) = (Done tt, Writer whole None) /\
    byte_apply_into dbg (map byte_of_hunk hs) half false (Writer [] None) = (Done tt, Writer whole None).
Proof. exact p_C140_bytes_moved_partial. Qed.
Print Assumptions C140_bytes_moved_partial.

(* In reverse.  Missing: the same. *)
Theorem C140_bytes_moved_reverse_partial : forall dbg before after context hs put left,
  context <= 255 -> bytes_fit after hs -> byte_diff_clumps before after context = Ok (map byte_of_hunk hs) -> stands 0 0 (map swap_hunk hs) (map swap_hunk put) (map swap_hunk left) ->
  Forall (fun h => h_new h <> []) hs ->
  let half := patched after 0 (map swap_hunk put) in bytes_fit half hs ->
  Forall (fun h => matches_at half (h_new h) (h_a h) = false /\ h_old h <> []) put ->
  exists whole,
    byte_apply_into dbg (map byte_of_hunk hs) after true (Writer [] None) = (Done tt, Writer whole None) /\
    byte_apply_into dbg (map byte_of_hunk hs) half true (Writer [] None) = (Done tt, Writer whole None).
Proof. exact p_C140_bytes_moved_reverse_partial. Qed.
Print Assumptions C140_bytes_moved_reverse_partial.

(* Both ways, as for text.  Missing: as above, and diffs that overlook something. *)
Theorem C140_bytes_both_ways_partial : forall dbg before after context hs put left,
  context <= 255 -> bytes_fit before hs -> byte_diff_clumps before after context = Ok (map byte_of_hunk hs) -> patched before 0 hs = after ->
  parts hs put left -> Forall (fun h => List.length (h_old h) = List.length (h_new h) /\ h_old h <> []) hs ->
  let half := patched before 0 put in
  byte_apply_into dbg (map byte_of_hunk hs) half false (Writer [] None) = (Done tt, Writer after None) /\
  byte_apply_into dbg (map byte_of_hunk hs) half true (Writer [] None) = (Done tt, Writer before None).
Proof. exact p_C140_bytes_both_ways_partial. Qed.
Print Assumptions C140_bytes_both_ways_partial.

(* The patch tool: a file into which some of the clumps of a saved diff have been put is completed, or
   with the option -r taken back; no other file is touched.  Missing: as above, and runs with faults. *)
Theorem C140_file_partial : forall E f P d before after context hs put left,
  fault_free E -> N.testbit (e_mode E) 8 = true -> f (e_tmp E) = None -> holds_diff f P (TextChange d) -> td_clumps d = map text_of_hunk hs ->
  context <= 255 -> fits_lines (before ++ after) -> text_diff_clumps before after context = Ok (map text_of_hunk hs) -> patched before 0 hs = after ->
  parts hs put left -> Forall (fun h => List.length (h_old h) = List.length (h_new h)) hs ->
  text_of f (td_before d) (patched before 0 put) ->
  (Forall (fun h => ~ fits_somewhere h (patched before 0 put)) put ->
     exists w, patch_main E P false (start f) = (Val tt, w) /\ content (w_fs w) (td_before d) = Some (List.concat after) /\ forall p, p <> td_before d -> w_fs w p = f p) /\
  (Forall (fun h => ~ fits_somewhere (swap_hunk h) (patched before 0 put)) left ->
     exists w, patch_main E P true (start f) = (Val tt, w) /\ content (w_fs w) (td_before d) = Some (List.concat before) /\ forall p, p <> td_before d -> w_fs w p = f p).
Proof. exact p_C140_file_partial. Qed.
Print Assumptions C140_file_partial.

(* The same for clumps that move lines: the patch file, run on a file that holds the text with some of its
   clumps, leaves the whole new text.  Missing: as for C140_completed_partial. *)
Theorem C140_file_moved_partial : forall E f P d before after context hs put left,
  fault_free E -> N.testbit (e_mode E) 8 = true -> f (e_tmp E) = None -> holds_diff f P (TextChange d) -> td_clumps d = map text_of_hunk hs ->
  context <= 255 -> fits_lines (before ++ after) -> text_diff_clumps before after context = Ok (map text_of_hunk hs) -> patched before 0 hs = after ->
  stands 0 0 hs put left ->
  let half := patched before 0 put in fits_lines half -> text_of f (td_before d) half ->
  Forall (fun h => ~ fits_somewhere h half /\ List.length (h_old h) <= List.length half) put ->
  exists w, patch_main E P false (start f) = (Val tt, w) /\ content (w_fs w) (td_before d) = Some (List.concat after) /\ forall p, p <> td_before d -> w_fs w p = f p.
Proof. exact p_C140_file_moved_partial. Qed.
Print Assumptions C140_file_moved_partial.

(* The same for files of bytes. *)
Theorem C140_bytes_file_partial : forall E f P d before after context hs put left,
  fault_free E -> N.testbit (e_mode E) 8 = true -> f (e_tmp E) = None -> holds_diff f P (ByteChange d) -> bd_clumps d = map byte_of_hunk hs ->
  context <= 255 -> bytes_fit before hs -> byte_diff_clumps before after context = Ok (map byte_of_hunk hs) -> patched before 0 hs = after ->
  parts hs put left -> Forall (fun h => List.length (h_old h) = List.length (h_new h) /\ h_old h <> []) hs ->
  content f (bd_before d) = Some (patched before 0 put) ->
  forall reverse : bool, exists w, patch_main E P reverse (start f) = (Val tt, w) /\ content (w_fs w) (bd_before d) = Some (if reverse then before else after) /\
    forall p, p <> bd_before d -> w_fs w p = f p.
Proof. exact p_C140_bytes_file_partial. Qed.
Print Assumptions C140_bytes_file_partial.

(* Clumps that move bytes.  Missing: as for C140_bytes_moved_partial. *)
Theorem C140_bytes_file_moved_partial : forall E f P d before after context hs put left,
  fault_free E -> N.testbit (e_mode E) 8 = true -> f (e_tmp E) = None -> holds_diff f P (ByteChange d) -> bd_clumps d = map byte_of_hunk hs ->
  context <= 255 -> bytes_fit before hs -> byte_diff_clumps before after context = Ok (map byte_of_hunk hs) -> patched before 0 hs = after ->
  stands 0 0 hs put left -> Forall (fun h => h_old h <> []) hs ->
  let half := patched before 0 put in bytes_fit half hs -> content f (bd_before d) = Some half ->
  Forall (fun h => matches_at half (h_old h) (h_b h) = false /\ h_new h <> []) put ->
  exists w, patch_main E P false (start f) = (Val tt, w) /\ content (w_fs w) (bd_before d) = Some after /\ forall p, p <> bd_before d -> w_fs w p = f p.
Proof. exact p_C140_bytes_file_moved_partial. Qed.
Print Assumptions C140_bytes_file_moved_partial.

(* the first two of three clumps have been put in; the first adds a line and the second takes one away *)
Example C140_example : let b := L "A V B C E Q D F H " in let a := L "A X W B C Y D F Z " in let half := L "A X W B C Y D F H " in
  let k1 := Hunk 1 1 0 (L "A V B ") 0 (L "A X W B ") in let k2 := Hunk 1 1 3 (L "C E Q D ") 4 (L "C Y D ") in let k3 := Hunk 1 0 7 (L "F H ") 7 (L "F Z ") in
  text_diff_clumps b a 1 = Ok (map text_of_hunk [k1; k2; k3]) /\ stands 0 0 [k1; k2; k3] [k1; k2] [k3] /\
  patched b 0 [k1; k2] = half /\ Forall (fun h => ~ fits_somewhere h half /\ List.length (h_old h) <= List.length half) [k1; k2] /\
  forall dbg, text_apply_into dbg (map text_of_hunk [k1; k2; k3]) half false (Writer [] None) = (Done (Stats 1 0 2 0 0), Writer (List.concat a) None).
Proof. exact e_C140_example. Qed.

Example C140_bytes_example : let b := list_byte_of_string "ABCMDEFNOGHI" in let a := list_byte_of_string "AXCMDYFNOGZWI" in
  let k3 := Hunk 1 1 9 (list_byte_of_string "GHI") 9 (list_byte_of_string "GZWI") in
  let k1 := Hunk 1 1 0 (list_byte_of_string "ABC") 0 (list_byte_of_string "AXC") in let k2 := Hunk 1 1 4 (list_byte_of_string "DEF") 4 (list_byte_of_string "DYF") in
  byte_diff_clumps b a 1 = Ok (map byte_of_hunk [k1; k2; k3]) /\ put_in [k1; k2; k3] [k2] [k1; k3] /\ bytes_fit b [k1; k2; k3] /\
  patched b 0 [k2] = list_byte_of_string "ABCMDYFNOGHI" /\
  forall dbg, byte_apply_into dbg (map byte_of_hunk [k1; k2; k3]) (list_byte_of_string "ABCMDYFNOGHI") false (Writer [] None) = (Done tt, Writer a None).
Proof. exact e_C140_bytes_example. Qed.

(* the first two of three clumps have been put in; the first adds a byte and the second takes one away *)
Example C140_bytes_moved_example : let b := list_byte_of_string "AVBCEQDFH" in let a := list_byte_of_string "AXWBCYDFZ" in let half := list_byte_of_string "AXWBCYDFH" in
  let k1 := Hunk 1 1 0 (list_byte_of_string "AVB") 0 (list_byte_of_string "AXWB") in let k2 := Hunk 1 1 3 (list_byte_of_string "CEQD") 4 (list_byte_of_string "CYD") in let k3 := Hunk 1 0 7 (list_byte_of_string "FH") 7 (list_byte_of_string "FZ") in
  byte_diff_clumps b a 1 = Ok (map byte_of_hunk [k1; k2; k3]) /\ stands 0 0 [k1; k2; k3] [k1; k2] [k3] /\ patched b 0 [k1; k2] = half /\
  Forall (fun h => matches_at half (h_old h) (h_b h) = false /\ h_new h <> []) [k1; k2] /\
  forall dbg, byte_apply_into dbg (map byte_of_hunk [k1; k2; k3]) half false (Writer [] None) = (Done tt, Writer a None).
Proof. exact e_C140_bytes_moved_example. Qed.

Example C140_both_ways_example : let b := L "B C D E F G H I J K M " in let a := L "X C D E Y G H I J K Z " in
  let k1 := Hunk 0 1 0 (L "B C ") 0 (L "X C ") in let k2 := Hunk 1 1 3 (L "E F G ") 3 (L "E Y G ") in let k3 := Hunk 1 0 9 (L "K M ") 9 (L "K Z ") in
  text_diff_clumps b a 1 = Ok (map text_of_hunk [k1; k2; k3]) /\ patched b 0 [k1; k2; k3] = a /\ parts [k1; k2; k3] [k2] [k1; k3] /\
  patched b 0 [k2] = L "B C D E Y G H I J K M " /\
  Forall (fun h => ~ fits_somewhere h (L "B C D E Y G H I J K M ")) [k2] /\ Forall (fun h => ~ fits_somewhere (swap_hunk h) (L "B C D E Y G H I J K M ")) [k1; k3] /\
  forall dbg, text_apply_into dbg (map text_of_hunk [k1; k2; k3]) (L "B C D E Y G H I J K M ") true (Writer [] None) = (Done (Stats 1 0 2 0 0), Writer (List.concat b) None).
Proof. exact e_C140_both_ways_example. Qed.

Example C140_bytes_both_ways_example : let b := list_byte_of_string "BCDEFGHIJKM" in let a := list_byte_of_string "XCDEYGHIJKZ" in
  let k1 := Hunk 0 1 0 (list_byte_of_string "BC") 0 (list_byte_of_string "XC") in let k2 := Hunk 1 1 3 (list_byte_of_string "EFG") 3 (list_byte_of_string "EYG") in let k3 := Hunk 1 0 9 (list_byte_of_string "KM") 9 (list_byte_of_string "KZ") in
  byte_diff_clumps b a 1 = Ok (map byte_of_hunk [k1; k2; k3]) /\ patched b 0 [k1; k2; k3] = a /\ parts [k1; k2; k3] [k2] [k1; k3] /\ bytes_fit b [k1; k2; k3] /\
  patched b 0 [k2] = list_byte_of_string "BCDEYGHIJKM" /\
  forall dbg, byte_apply_into dbg (map byte_of_hunk [k1; k2; k3]) (list_byte_of_string "BCDEYGHIJKM") true (Writer [] None) = (Done tt, Writer b None).
Proof. exact e_C140_bytes_both_ways_example. Qed.

Example C140_file_moved_example :
  let hs := [Hunk 1 1 0 (L "A V B ") 0 (L "A X W B "); Hunk 1 1 3 (L "C E Q D ") 4 (L "C Y D "); Hunk 1 0 7 (L "F H ") 7 (L "F Z ")] in
  let f := files [(bs "A", bs "A X W B C Y D F H "); (bs "P", saved (TextChange (TextDiff (bs "A") (bs "B") (map text_of_hunk hs))))] in
  let run := patch_main (calm_env true) (bs "P") false (start f) in
  fst run = Val tt /\ content (w_fs (snd run)) (bs "A") = Some (bs "A X W B C Y D F Z ").
Proof. exact e_C140_file_moved_example. Qed.

Example C140_bytes_file_moved_example :
  let hs := [Hunk 1 1 0 (list_byte_of_string "AVB") 0 (list_byte_of_string "AXWB"); Hunk 1 1 3 (list_byte_of_string "CEQD") 4 (list_byte_of_string "CYD"); Hunk 1 0 7 (list_byte_of_string "FH") 7 (list_byte_of_string "FZ")] in
  let f := files [(bs "A", list_byte_of_string "AXWBCYDFH"); (bs "P", saved (ByteChange (ByteDiff (bs "A") (bs "B") false (map byte_of_hunk hs))))] in
  let run := patch_main (calm_env true) (bs "P") false (start f) in
  fst run = Val tt /\ content (w_fs (snd run)) (bs "A") = Some (list_byte_of_string "AXWBCYDFZ").
Proof. exact e_C140_bytes_file_moved_example. Qed.

Example C140_file_example :
  let hs := [Hunk 0 1 0 (L "B C ") 0 (L "X C "); Hunk 1 1 3 (L "E F G ") 3 (L "E Y G "); Hunk 1 0 9 (L "K M ") 9 (L "K Z ")] in
  let f := files [(bs "A", bs "B C D E Y G H I J K M "); (bs "P", saved (TextChange (TextDiff (bs "A") (bs "B") (map text_of_hunk hs))))] in
  let run reverse := patch_main (calm_env true) (bs "P") reverse (start f) in
  fst (run false) = Val tt /\ content (w_fs (snd (run false))) (bs "A") = Some (bs "X C D E Y G H I J K Z ") /\
  fst (run true) = Val tt /\ content (w_fs (snd (run true))) (bs "A") = Some (bs "B C D E F G H I J K M ").
Proof. exact e_C140_file_example. Qed.

Example C140_bytes_file_example :
  let hs := [Hunk 0 1 0 (list_byte_of_string "BC") 0 (list_byte_of_string "XC"); Hunk 1 1 3 (list_byte_of_string "EFG") 3 (list_byte_of_string "EYG"); Hunk 1 0 9 (list_byte_of_string "KM") 9 (list_byte_of_string "KZ")] in
  let f := files [(list_byte_of_string "A", list_byte_of_string "BCDEYGHIJKM"); (list_byte_of_string "P", saved (ByteChange (ByteDiff (list_byte_of_string "A") (list_byte_of_string "B") false (map byte_of_hunk hs))))] in
  let run reverse := patch_main (calm_env true) (list_byte_of_string "P") reverse (start f) in
  fst (run false) = Val tt /\ content (w_fs (snd (run false))) (list_byte_of_string "A") = Some (list_byte_of_string "XCDEYGHIJKZ") /\
  fst (run true) = Val tt /\ content (w_fs (snd (run true))) (list_byte_of_string "A") = Some (list_byte_of_string "BCDEFGHIJKM").
Proof. exact e_C140_bytes_file_example. Qed.

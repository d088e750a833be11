(* Properties_Result.v - the property theorems and a concrete case beside each; proofs are in
   Proof_Props_Result.v.  Generated by tools/mkthms.py. *)
From Coq Require Import String.
From Verif Require Import Proof_Props_Result Base Model_Seq Model_Changes Model_IO Model_Text Model_Bytes Model_Json Model_Files Spec Spec_Outcome Spec_Files Spec_Json Spec_Result Cases Proof_Seq Proof_Utf8 Proof_Arith Proof_IO Proof_Text Proof_Files Proof_Outcome Proof_Result Proof_Weight Proof_Conflicts Proof_Accepts Proof_Props_Gen Proof_Props_Json Proof_Props_Text Proof_Props_Files Proof_Props_Outcome.

(* ------------------------------------------------------------------ C112 *)
(* C112: whatever the clumps, the target and the outcome (also a panic), what is written is one
   line after the other, each of them a line of the target, an old or new line of a clump or one
   of the three conflict marks; and if no clump was rejected, only lines of the target and new
   lines of clumps. *)
Theorem C112_pieces : forall dbg clumps target reverse r out,
  text_apply_into dbg clumps target reverse (Writer [] None) = (r, Writer out None) ->
  made_of (fun l => In l target \/ (exists c, In c clumps /\ (In l (old_lines reverse c) \/ In l (new_lines reverse c))) \/ In l marks) out /\
  (forall st, r = Done st -> st_failed st = 0 -> made_of (fun l => In l target \/ exists c, In c clumps /\ In l (new_lines reverse c)) out).
Proof. exact p_C112_pieces. Qed.
Print Assumptions C112_pieces.

(* Every byte written by a byte patch comes from the data or from the new bytes of a clump. *)
Theorem C112_bytes : forall dbg clumps data reverse r out,
  byte_apply_into dbg clumps data reverse (Writer [] None) = (r, Writer out None) ->
  made_of (fun p => (exists i j, p = sub data i j) \/ exists c, In c clumps /\ p = new_bytes reverse c) out.
Proof. exact p_C112_bytes. Qed.
Print Assumptions C112_bytes.

(* So a text remains a text: UTF-8 before, UTF-8 after. *)
Theorem C112_utf8 : forall dbg clumps target reverse r out, Forall is_utf8 target -> Forall valid_text_clump clumps ->
  text_apply_into dbg clumps target reverse (Writer [] None) = (r, Writer out None) -> is_utf8 out.
Proof. exact p_C112_utf8. Qed.
Print Assumptions C112_utf8.

(* The file itself: a text patch leaves it alone or makes it valid UTF-8, at every moment. *)
Theorem C112_file : forall E f patch reverse o w d, patch_main E patch reverse (start f) = (o, w) -> holds_diff f patch (TextChange d) ->
  forall g, In g (w_seen w) -> g (td_before d) = f (td_before d) \/ exists m new, g (td_before d) = Some (File m new) /\ is_utf8 new.
Proof. exact p_C112_file. Qed.
Print Assumptions C112_file.

Example C112_example :
  let c := TextClump (0, 0)%Z (Snippet 1 [[xc3; xa9; x0a]]) (Snippet 1 [[xe2; x82; xac; x0a]]) in
  (* placed *)
  text_apply_into true [c] [bs "A "; [xc3; xa9; x0a]] false (Writer [] None) =
    (Done (Stats 1 0 0 0 0), Writer (bs "A " ++ [xe2; x82; xac; x0a]) None) /\
  (* rejected *)
  text_apply_into true [c] (L "A B ") false (Writer [] None) =
    (Done (Stats 0 0 0 0 1), Writer (bs "<<<<<<< " ++ [xc3; xa9; x0a] ++ bs "======= " ++ [xe2; x82; xac; x0a] ++ bs ">>>>>>> A B ") None) /\
  valid_text_clump c /\ Forall is_utf8 [bs "A "; [xc3; xa9; x0a]] /\
  (* the patch tool *)
  let f := files [(bs "A", bs "A " ++ [xc3; xa9; x0a]); (bs "P", saved (TextChange (TextDiff (bs "A") (bs "B") [c])))] in
  exists w, patch_main (calm_env true) (bs "P") false (start f) = (Val tt, w) /\ w_fs w (bs "A") = Some (File rw (bs "A " ++ [xe2; x82; xac; x0a])).
Proof. exact e_C112_example. Qed.

(* ------------------------------------------------------------------ C113 *)
(* C113: what is written is no longer than the target, the old and the new lines of all clumps
   and 24 bytes for each; and if no clump was rejected, than the target and the new lines. *)
Theorem C113_text : forall dbg clumps target reverse r out, patch_fits clumps -> fits_lines target ->
  text_apply_into dbg clumps target reverse (Writer [] None) = (r, Writer out None) ->
  List.length out <= text_size target + sum_of (conflict_size reverse) clumps /\
  (forall st, r = Done st -> st_failed st = 0 -> List.length out <= text_size target + sum_of (fun c => text_size (new_lines reverse c)) clumps).
Proof. exact p_C113_text. Qed.
Print Assumptions C113_text.

Theorem C113_bytes : forall dbg clumps data reverse r out, byte_patch_fits clumps data ->
  byte_apply_into dbg clumps data reverse (Writer [] None) = (r, Writer out None) ->
  List.length out <= List.length data + sum_of (fun c => List.length (new_bytes reverse c)) clumps.
Proof. exact p_C113_bytes. Qed.
Print Assumptions C113_bytes.

(* The files: a file patched with a text patch is longer than it was by at most twelve elevenths
   of the patch file, one patched with a byte patch by at most the size of the patch file, at
   every moment. *)
Theorem C113_file : forall E f patch reverse o w d s old, patch_main E patch reverse (start f) = (o, w) -> holds_diff f patch d -> is_change d ->
  fits_file f patch -> fits_file f (target d) -> content f patch = Some s -> content f (target d) = Some old ->
  forall g new, In g (w_seen w) -> content g (target d) = Some new ->
  match d with
  | TextChange _ => 11 * List.length new <= 11 * List.length old + 12 * List.length s
  | _ => List.length new <= List.length old + List.length s
  end.
Proof. exact p_C113_file. Qed.
Print Assumptions C113_file.

Example C113_example :
  (* nothing of the target is replaced, and one clump is rejected *)
  (let c := TextClump (0, 0)%Z (Snippet 0 (L "B C ")) (Snippet 0 (L "D ")) in let target := L "A E " in
   patch_fits [c] /\ fits_lines target /\
   exists out, text_apply_into true [c] target false (Writer [] None) = (Done (Stats 0 0 0 0 1), Writer out None) /\
     List.length out = text_size target + sum_of (conflict_size false) [c]) /\
  (* an insertion *)
  (let c := TextClump (0, 0)%Z (Snippet 1 []) (Snippet 1 (L "B C ")) in let target := L "A D " in
   exists out, text_apply_into true [c] target false (Writer [] None) = (Done (Stats 1 0 0 0 0), Writer out None) /\
     List.length out = text_size target + sum_of (fun c => text_size (new_lines false c)) [c]) /\
  (let c := ByteClump (0, 0)%Z (Snippet 1 []) (Snippet 1 (bs "BC")) in
   byte_patch_fits [c] (bs "AD") /\ byte_apply_into true [c] (bs "AD") false (Writer [] None) = (Done tt, Writer (bs "ABCD") None)) /\
  (let f := files [(bs "A", bs "a "); (bs "P", short_patch 40)] in
   exists w new, patch_main (calm_env false) (bs "P") false (start f) = (Val tt, w) /\ content (w_fs w) (bs "A") = Some new /\
     List.length new = 936 /\ List.length (short_patch 40) = 932).
Proof. exact e_C113_example. Qed.

(* ------------------------------------------------------------------ C114 *)
(* C114, full statement: a rejected clump is shown as a conflict - the marks, its old and its
   new lines, each a line of the output - at the place where the clump belongs.
   False in both respects.  A line without a newline (the last of a file) swallows the mark
   that follows it: neither ======= nor >>>>>>> is a line of the result. *)
Theorem C114_lines_refuted : exists before after target clumps st out ls,
  text_diff_clumps before after 0 = Ok clumps /\ lines_of (concat before) before /\ lines_of (concat after) after /\
  text_apply_into true clumps target false (Writer [] None) = (Done st, Writer out None) /\ st_failed st = 1 /\
  lines_of out ls /\ ~ In (mark x3d) ls /\ ~ In (mark x3e) ls.
Proof. exact p_C114_lines_refuted. Qed.
Print Assumptions C114_lines_refuted.

(* And the conflict is not put where the clump belongs but right after what the previous clumps
   made of the target: here in front of everything, although the clump is about the lines from
   the third on. *)
Theorem C114_place_refuted : exists before after target c st out,
  text_diff_clumps before after 1 = Ok [c] /\ sn_start (tc_before c) = 2%Z /\
  text_apply_into true [c] target false (Writer [] None) = (Done st, Writer out None) /\ st_failed st = 1 /\ List.length target = 5 /\
  let conflict := concat (conflict_lines (Hunk 1 1 2 (sn_items (tc_before c)) 2 (sn_items (tc_after c)))) in
  out <> concat (firstn 2 target) ++ conflict ++ concat (skipn 2 target) /\ out = conflict ++ concat target.
Proof. exact p_C114_place_refuted. Qed.
Print Assumptions C114_place_refuted.

(* What holds, without the place: if all lines end in a newline, the lines written are one piece
   for every hunk, in order, and then the rest of the target; the piece of a rejected hunk is
   exactly its conflict. *)
Theorem C114_lines_partial : forall dbg hs target st out, Forall hunk_ok hs -> lines_fit hs -> fits_lines target ->
  Forall full_line target -> Forall (fun h => Forall full_line (h_old h) /\ Forall full_line (h_new h)) hs ->
  text_apply_into dbg (map text_of_hunk hs) target false (Writer [] None) = (Done st, Writer out None) ->
  exists fates pieces n, outcome dbg target 0 0 hs (Some fates) out /\ st = tally fates /\
    lines_of out (concat pieces ++ skipn n target) /\ shown target hs fates pieces.
Proof. exact p_C114_lines_partial. Qed.
Print Assumptions C114_lines_partial.

(* Whether or not lines end in newlines, a patch all of whose hunks are rejected puts all
   conflicts in front of the target. *)
Theorem C114_top_partial : forall dbg hs target st out, Forall hunk_ok hs -> lines_fit hs -> fits_lines target ->
  text_apply_into dbg (map text_of_hunk hs) target false (Writer [] None) = (Done st, Writer out None) ->
  st_failed st = List.length hs -> out = concat (map (fun h => concat (conflict_lines h)) hs) ++ concat target.
Proof. exact p_C114_top_partial. Qed.
Print Assumptions C114_top_partial.

(* The same under [reverse], where a hunk is taken the other way round. *)
Theorem C114_reverse_partial : forall dbg hs target st out, Forall hunk_ok hs -> lines_fit hs -> fits_lines target ->
  text_apply_into dbg (map text_of_hunk hs) target true (Writer [] None) = (Done st, Writer out None) ->
  (Forall full_line target -> Forall (fun h => Forall full_line (h_old h) /\ Forall full_line (h_new h)) hs ->
   exists fates pieces n, outcome dbg target 0 0 (map swap_hunk hs) (Some fates) out /\ st = tally fates /\
     lines_of out (concat pieces ++ skipn n target) /\ shown target (map swap_hunk hs) fates pieces) /\
  (st_failed st = List.length hs -> out = concat (map (fun h => concat (conflict_lines (swap_hunk h))) hs) ++ concat target).
Proof. exact p_C114_reverse_partial. Qed.
Print Assumptions C114_reverse_partial.

Example C114_example :
  let hs := [Hunk 0 0 1 (L "B ") 1 (L "C "); Hunk 1 0 2 (L "P Q ") 2 (L "P R "); Hunk 0 0 9 (L "X ") 9 (L "Y ")] in
  let target := L "A B D E " in
  Forall hunk_ok hs /\ lines_fit hs /\ fits_lines target /\ Forall full_line target /\
  Forall (fun h => Forall full_line (h_old h) /\ Forall full_line (h_new h)) hs /\
  exists out, text_apply_into true (map text_of_hunk hs) target false (Writer [] None) = (Done (Stats 1 0 0 0 2), Writer out None) /\
    lines_of out (L "A C <<<<<<< P Q ======= P R >>>>>>> <<<<<<< X ======= Y >>>>>>> D E ").
Proof. exact e_C114_example. Qed.

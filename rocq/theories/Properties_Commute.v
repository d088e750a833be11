(* Properties_Commute.v - the property theorems and a concrete case beside each; proofs are in
   Proof_Props_Commute.v.  Generated by tools/mkthms.py. *)
From Coq Require Import String.
From Verif Require Import Proof_Props_Commute Base Model_Seq Model_Changes Model_IO Model_Text Model_Bytes Model_Json Model_Files Spec Spec_Files Spec_Nearly Spec_Outcome Spec_Merge Spec_Commute Cases Proof_Arith Proof_Seq Proof_Utf8 Proof_IO Proof_Text Proof_Apply Proof_Diff Proof_Files Proof_Outcome Proof_Nearly Proof_Merge Proof_Commute Proof_Props_Gen Proof_Props_Text Proof_Props_Files Proof_Props_Undo Proof_Props_Merge.

(* ------------------------------------------------------------------ C95 *)
(* C95, full statement: two patches made from one text that change different places of it (their
   clumps do not overlap, context included) can be applied in either order, with the same
   result, if each clump fits only one place of the texts involved.  It is false: six lines
   inserted by one of them in front of two clumps of the other (C93). *)
Theorem C95_commute_refuted : exists base one two both (first second : list line),
  text_diff_clumps base one 2 = Ok (map text_of_hunk (part true both)) /\
  text_diff_clumps base two 2 = Ok (map text_of_hunk (part false both)) /\ apart 0 both /\
  Forall (fun x : bool * hunk line => fits_once (snd x) base /\ fits_once (snd x) (if fst x then second else first)) both /\
  forall dbg, exists bytes,
    text_apply_into dbg (map text_of_hunk (part true both)) base false (Writer [] None) = (Done (Stats 1 0 0 0 0), Writer (concat first) None) /\
    text_apply_into dbg (map text_of_hunk (part false both)) base false (Writer [] None) = (Done (Stats 2 0 0 0 0), Writer (concat second) None) /\
    text_apply_into dbg (map text_of_hunk (part true both)) second false (Writer [] None) =
      (Done (Stats 1 0 0 0 0), Writer (concat (patched base 0 (map snd both))) None) /\
    text_apply_into dbg (map text_of_hunk (part false both)) first false (Writer [] None) = (Done (Stats 0 1 0 0 1), Writer bytes None) /\
    bytes <> concat (patched base 0 (map snd both)).
Proof. exact p_C95_commute_refuted. Qed.
Print Assumptions C95_commute_refuted.

(* What does hold: if neither adds too many lines in front of a clump of the other, each patch
   applies cleanly to the text, the other one then applies without rejects, and the result is
   in both orders the text with the old lines of all clumps of both replaced by their new ones
   (for any two texts [one] and [two] the patches were made for, and any contexts).
   Missing: more lines, overlapping contexts. *)
Theorem C95_commute_partial : forall dbg base one two c1 c2 both,
  c1 <= 255 -> c2 <= 255 -> fits_lines (base ++ one) -> fits_lines (base ++ two) ->
  text_diff_clumps base one c1 = Ok (map text_of_hunk (part true both)) ->
  text_diff_clumps base two c2 = Ok (map text_of_hunk (part false both)) ->
  apart 0 both -> little true 0 both -> little false 0 both ->
  let first := patched base 0 (part true both) in let second := patched base 0 (part false both) in
  Forall (fun h => fits_once h second) (part true both) -> Forall (fun h => fits_once h first) (part false both) ->
  nearly base one first /\ nearly base two second /\
  text_apply_into dbg (map text_of_hunk (part true both)) base false (Writer [] None) =
    (Done (Stats (length (part true both)) 0 0 0 0), Writer (concat first) None) /\
  text_apply_into dbg (map text_of_hunk (part false both)) base false (Writer [] None) =
    (Done (Stats (length (part false both)) 0 0 0 0), Writer (concat second) None) /\
  exists m1 m2,
    text_apply_into dbg (map text_of_hunk (part true both)) second false (Writer [] None) =
      (Done (Stats (length (part true both) - m1) m1 0 0 0), Writer (concat (patched base 0 (map snd both))) None) /\
    text_apply_into dbg (map text_of_hunk (part false both)) first false (Writer [] None) =
      (Done (Stats (length (part false both) - m2) m2 0 0 0), Writer (concat (patched base 0 (map snd both))) None).
Proof. exact p_C95_commute_partial. Qed.
Print Assumptions C95_commute_partial.

(* The patch tool, run with the two saved patches in either order on a file holding the text,
   leaves the same content; nothing else is changed. *)
Theorem C95_commute_files_partial : forall E f P1 P2 d1 d2 base one two t1 t2 c1 c2 both,
  fault_free E -> N.testbit (e_mode E) 8 = true -> f (e_tmp E) = None -> td_before d2 = td_before d1 -> P1 <> td_before d1 -> P2 <> td_before d1 ->
  holds_diff f P1 (TextChange d1) -> holds_diff f P2 (TextChange d2) -> text_of f (td_before d1) base ->
  is_utf8 t1 -> lines_of t1 one -> is_utf8 t2 -> lines_of t2 two ->
  c1 <= 255 -> c2 <= 255 -> fits_lines (base ++ one) -> fits_lines (base ++ two) ->
  text_diff_clumps base one c1 = Ok (td_clumps d1) -> text_diff_clumps base two c2 = Ok (td_clumps d2) ->
  td_clumps d1 = map text_of_hunk (part true both) -> td_clumps d2 = map text_of_hunk (part false both) ->
  apart 0 both -> little true 0 both -> little false 0 both ->
  Forall (fun h => fits_once h (patched base 0 (part false both))) (part true both) ->
  Forall (fun h => fits_once h (patched base 0 (part true both))) (part false both) ->
  exists w1 w2 v1 v2,
    patch_main E P1 false (start f) = (Val tt, w1) /\ patch_main E P2 false (start (w_fs w1)) = (Val tt, w2) /\
    patch_main E P2 false (start f) = (Val tt, v1) /\ patch_main E P1 false (start (w_fs v1)) = (Val tt, v2) /\
    content (w_fs w2) (td_before d1) = Some (concat (patched base 0 (map snd both))) /\
    content (w_fs v2) (td_before d1) = Some (concat (patched base 0 (map snd both))) /\
    forall p, p <> td_before d1 -> w_fs w2 p = f p /\ w_fs v2 p = f p.
Proof. exact p_C95_commute_files_partial. Qed.
Print Assumptions C95_commute_files_partial.

(* the clumps of the two patches alternate *)
Example C95_example :
  let base := L "A B C D E F G H I J K M N Z O P Q " in let one := L "A B X V D E F G H I J Y W N Z O P Q " in
  let two := L "A B C D E F S T H I J K M N Z R U Q " in
  let both := [(true, Hunk 1 1 1 (L "B C D ") 1 (L "B X V D ")); (false, Hunk 1 1 5 (L "F G H ") 5 (L "F S T H "));
               (true, Hunk 1 1 9 (L "J K M N ") 10 (L "J Y W N ")); (false, Hunk 1 1 13 (L "Z O P Q ") 14 (L "Z R U Q "))] in
  let first := patched base 0 (part true both) in let second := patched base 0 (part false both) in
  text_diff_clumps base one 1 = Ok (map text_of_hunk (part true both)) /\
  text_diff_clumps base two 1 = Ok (map text_of_hunk (part false both)) /\
  apart 0 both /\ little true 0 both /\ little false 0 both /\
  Forall (fun h => fits_once h second) (part true both) /\ Forall (fun h => fits_once h first) (part false both) /\
  first = one /\ second = two /\ patched base 0 (map snd both) = L "A B X V D E F S T H I J Y W N Z R U Q ".
Proof. exact e_C95_example. Qed.

(* the same with files: two saved diffs applied to F in both orders *)
Example C95_files_example :
  let f := files [(bs "F", bs "A B C D E F G H I J "); (bs "O", bs "A B X V D E F G H I J "); (bs "W", bs "A B C D E F S U H I J ")] in
  exists d1 d2 w1 w2 v1 v2, diff_main (calm_env true) (bs "F") (bs "O") 1 (start f) = (Val tt, d1) /\
    diff_main (calm_env true) (bs "F") (bs "W") 1 (start f) = (Val tt, d2) /\
    let g := upd (upd f (bs "P") (Some (File rw (w_stdout d1)))) (bs "Q") (Some (File rw (w_stdout d2))) in
    patch_main (calm_env true) (bs "P") false (start g) = (Val tt, w1) /\ patch_main (calm_env true) (bs "Q") false (start (w_fs w1)) = (Val tt, w2) /\
    patch_main (calm_env true) (bs "Q") false (start g) = (Val tt, v1) /\ patch_main (calm_env true) (bs "P") false (start (w_fs v1)) = (Val tt, v2) /\
    content (w_fs w2) (bs "F") = Some (bs "A B X V D E F S U H I J ") /\ content (w_fs v2) (bs "F") = Some (bs "A B X V D E F S U H I J ").
Proof. exact e_C95_files_example. Qed.

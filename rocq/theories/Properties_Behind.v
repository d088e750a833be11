(* Properties_Behind.v - the property theorems and a concrete case beside each; proofs are in
   Proof_Props_Behind.v.  Generated by tools/mkthms.py. *)
From Coq Require Import String.
From Verif Require Import Proof_Props_Behind Base Model_Seq Model_Changes Model_IO Model_Text Model_Bytes Spec Spec_Outcome Spec_Result Spec_Behind Cases Proof_Seq Proof_IO Proof_Arith Proof_Apply Proof_Bytes Proof_Outcome Proof_Behind Proof_Behind2 Proof_Props_Gen Proof_Props_Outcome.

(* ------------------------------------------------------------------ C134 *)
(* C134, full statement: if a patch can be applied to a text, it can be applied to the text with more
   lines behind it, and the result has these lines behind it.  It is false: a clump that is not where
   it is expected can be found among the lines added, if this is nearer. *)
Theorem C134_behind_refuted : exists before after target more clumps out,
  text_diff_clumps before after 1 = Ok clumps /\
  text_apply_into true clumps target false (Writer [] None) = (Done (Stats 0 1 0 0 0), Writer out None) /\
  exists out', text_apply_into true clumps (target ++ more) false (Writer [] None) = (Done (Stats 0 1 0 0 0), Writer out' None) /\ out' <> out ++ List.concat more.
Proof. exact p_C134_behind_refuted. Qed.
Print Assumptions C134_behind_refuted.

(* A byte clump that adds to the end without context is left out, and put in once something follows. *)
Theorem C134_bytes_refuted : exists before after more clumps out,
  byte_diff_clumps before after 0 = Ok clumps /\
  byte_apply_into true clumps before false (Writer [] None) = (Done tt, Writer out None) /\
  exists out', byte_apply_into true clumps (before ++ more) false (Writer [] None) = (Done tt, Writer out' None) /\ out' <> out ++ more.
Proof. exact p_C134_bytes_refuted. Qed.
Print Assumptions C134_bytes_refuted.

(* What does hold, for any clumps whatever, also such as no diff has, for any text and in both
   directions: if every clump is found where it is expected, the same happens with more lines behind
   the text, and the result is the same with these lines behind it.  Missing: clumps found elsewhere (see the next theorem). *)
Theorem C134_behind_partial : forall dbg clumps target more reverse st out,
  text_apply_into dbg clumps target reverse (Writer [] None) = (Done st, Writer out None) -> st_clean st = length clumps ->
  text_apply_into dbg clumps (target ++ more) reverse (Writer [] None) = (Done st, Writer (out ++ List.concat more) None).
Proof. exact p_C134_behind_partial. Qed.
Print Assumptions C134_behind_partial.

(* Clumps found elsewhere, with less context, already applied or rejected: the same holds of every run
   that comes to an end, and the answer to the question whether the patch is already applied is the
   same, if each clump has some context and the lines added make no new place for its old or its new
   lines, not even with less context. *)
Theorem C134_elsewhere_partial : forall dbg hs target more, Forall hunk_ok hs -> lines_fit hs -> fits_lines (target ++ more) -> Forall (indifferent target more) hs ->
  (forall reverse st out, text_apply_into dbg (map text_of_hunk hs) target reverse (Writer [] None) = (Done st, Writer out None) ->
    text_apply_into dbg (map text_of_hunk hs) (target ++ more) reverse (Writer [] None) = (Done st, Writer (out ++ List.concat more) None)) /\
  (forall reverse answer, text_is_already_applied dbg (map text_of_hunk hs) target reverse = Ok answer ->
    text_is_already_applied dbg (map text_of_hunk hs) (target ++ more) reverse = Ok answer).
Proof. exact p_C134_elsewhere_partial. Qed.
Print Assumptions C134_elsewhere_partial.

(* Lines that are none of the lines of a clump with context make no place for it. *)
Theorem C134_foreign : forall target more h, hunk_ok h -> 0 < h_lead h + h_trail h -> foreign more h -> indifferent target more h.
Proof. exact p_C134_foreign. Qed.
Print Assumptions C134_foreign.

(* For bytes: if the old bytes of all clumps are at their places. *)
Theorem C134_bytes_partial : forall dbg clumps data more reverse out,
  Forall (fun c => old_bytes reverse c <> [] /\ occurs_at data (old_bytes reverse c) (sn_start (bc_side c reverse))) clumps ->
  byte_apply_into dbg clumps data reverse (Writer [] None) = (Done tt, Writer out None) ->
  byte_apply_into dbg clumps (data ++ more) reverse (Writer [] None) = (Done tt, Writer (out ++ more) None).
Proof. exact p_C134_bytes_partial. Qed.
Print Assumptions C134_bytes_partial.

(* A byte patch that is already applied to some data is so to the data with more behind. *)
Theorem C134_query : forall clumps data more reverse, Forall (fun c => (0 <= sn_start (bc_side c (negb reverse)))%Z) clumps ->
  byte_already_applied clumps data reverse = true -> byte_already_applied clumps (data ++ more) reverse = true.
Proof. exact p_C134_query. Qed.
Print Assumptions C134_query.

(* two clumps, the second at the end of the text; a line edited between them *)
Example C134_example : exists clumps bclumps,
  text_diff_clumps (L "A B C D E F G H ") (L "A X Y B C D E F G P Q H ") 1 = Ok clumps /\
  text_apply_into true clumps (L "A B C V E F G H ") false (Writer [] None) = (Done (Stats 2 0 0 0 0), Writer (bs "A X Y B C V E F G P Q H ") None) /\
  text_apply_into true clumps (L "A B C V E F G H " ++ L "A B G H Z") false (Writer [] None) = (Done (Stats 2 0 0 0 0), Writer (bs "A X Y B C V E F G P Q H A B G H Z") None) /\
  byte_diff_clumps (bs "ABCDEFGH") (bs "AXYBCDEFGPQH") 1 = Ok bclumps /\
  Forall (fun c => old_bytes false c <> [] /\ occurs_at (bs "ABCVEFGH") (old_bytes false c) (sn_start (bc_side c false))) bclumps /\
  byte_apply_into true bclumps (bs "ABCVEFGH") false (Writer [] None) = (Done tt, Writer (bs "AXYBCVEFGPQH") None) /\
  byte_already_applied bclumps (bs "AXYBCVEFGPQH") false = true.
Proof. exact e_C134_example. Qed.

(* the patch of C73: a hunk displaced, one already applied, one that fits nowhere *)
Example C134_elsewhere_example :
  let hs := [Hunk 1 1 0 (L "A B C ") 0 (L "A X C "); Hunk 1 1 4 (L "E F G ") 4 (L "E Y G "); Hunk 1 0 9 (L "I P ") 9 (L "I Q ")] in
  let target := L "Z A B C D E Y G H " in
  Forall hunk_ok hs /\ lines_fit hs /\ fits_lines (target ++ L "V H W") /\ Forall (indifferent target (L "V H W")) hs /\
  text_apply_into true (map text_of_hunk hs) target false (Writer [] None) = (Done (Stats 0 1 1 0 1), Writer (bs "Z A X C D E Y G <<<<<<< I P ======= I Q >>>>>>> H ") None) /\
  text_apply_into true (map text_of_hunk hs) (target ++ L "V H W") false (Writer [] None) = (Done (Stats 0 1 1 0 1), Writer (bs "Z A X C D E Y G <<<<<<< I P ======= I Q >>>>>>> H V H W") None).
Proof. exact e_C134_elsewhere_example. Qed.

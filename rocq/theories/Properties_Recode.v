(* Properties_Recode.v - the property theorems and a concrete case beside each; proofs are in
   Proof_Props_Recode.v.  Generated by tools/mkthms.py. *)
From Coq Require Import String.
From Verif Require Import Proof_Props_Recode Base Model_Seq Model_Changes Model_IO Model_Text Model_Bytes Spec Spec_Outcome Spec_Result Spec_Shape Spec_Recode Cases Proof_Seq Proof_IO Proof_Shape Proof_Recode Proof_Props_Gen Proof_Props_Shape.

(* ------------------------------------------------------------------ C132 *)
(* C132, full statement: when the line ends of both texts of a diff and of the text to be patched
   are all converted to carriage return and newline, so are those of the result.  It is false: the
   marks around a conflict are always written with a newline alone. *)
Theorem C132_crlf_refuted : exists before_text before after_text after target_text target clumps clumps' st out out',
  lines_of before_text before /\ lines_of after_text after /\ lines_of target_text target /\
  text_diff_clumps before after 3 = Ok clumps /\ text_diff_clumps (map crlf before) (map crlf after) 3 = Ok clumps' /\
  text_apply_into true clumps target false (Writer [] None) = (Done st, Writer out None) /\
  text_apply_into true clumps' (map crlf target) false (Writer [] None) = (Done st, Writer out' None) /\ out' <> crlf out.
Proof. exact p_C132_crlf_refuted. Qed.
Print Assumptions C132_crlf_refuted.

(* Applying clumps looks at lines only to compare them.  Whatever the clumps and the target are and
   whatever [f] does to the lines, so long as no two different lines become equal, the run with the
   replaced lines takes the same decisions, ends the same way with the same statistics, and writes
   the same pieces in the same order, lines of the target and of the clumps, with the replaced lines
   for the lines.  Only the marks of a
   conflict stay, and there are none if no clump failed. *)
Theorem C132_apply : forall f dbg clumps target reverse, apart f clumps target ->
  exists r pieces,
    (forall m, In (Marker m) pieces -> In m marks) /\
    (forall l, In (Whole l) pieces -> In l target \/ exists c, In c clumps /\ (In l (sn_items (tc_before c)) \/ In l (sn_items (tc_after c)))) /\
    (forall st, r = Done st -> st_failed st = 0 -> forall m, ~ In (Marker m) pieces) /\
    (forall w, text_apply_into dbg clumps target reverse w = delivered r (pieces_as (fun l => l) pieces) w) /\
    (forall w, text_apply_into dbg (map (recode_text f) clumps) (map f target) reverse w = delivered r (pieces_as f pieces) w) /\
    text_is_already_applied dbg (map (recode_text f) clumps) (map f target) reverse = text_is_already_applied dbg clumps target reverse.
Proof. exact p_C132_apply. Qed.
Print Assumptions C132_apply.

(* The diff of the replaced lines is the diff with the lines replaced. *)
Theorem C132_diff : forall f before after context clumps, (forall x y, In x before -> In y after -> f x = f y -> x = y) ->
  text_diff_clumps before after context = Ok clumps -> text_diff_clumps (map f before) (map f after) context = Ok (map (recode_text f) clumps).
Proof. exact p_C132_diff. Qed.
Print Assumptions C132_diff.

(* Converting the line ends keeps the lines, and so it converts the diff; and it converts the
   result of applying the diff to any text so long as no clump failed.  Missing from the full
   statement: the marks of a failed clump. *)
Theorem C132_crlf_partial : forall dbg before_text before after_text after target_text target context clumps reverse st out,
  lines_of before_text before -> lines_of after_text after -> lines_of target_text target ->
  text_diff_clumps before after context = Ok clumps ->
  text_apply_into dbg clumps target reverse (Writer [] None) = (Done st, Writer out None) -> st_failed st = 0 ->
  exists before' after' target' clumps',
    lines_of (crlf before_text) before' /\ lines_of (crlf after_text) after' /\ lines_of (crlf target_text) target' /\
    text_diff_clumps before' after' context = Ok clumps' /\
    text_apply_into dbg clumps' target' reverse (Writer [] None) = (Done st, Writer (crlf out) None).
Proof. exact p_C132_crlf_partial. Qed.
Print Assumptions C132_crlf_partial.

(* Byte patches have no marks: with any one-to-one change of the bytes everything written changes
   in the same way, also when a clump is left out. *)
Theorem C132_bytes : forall (f : byte -> byte) dbg, (forall x y, f x = f y -> x = y) ->
  (forall before after context clumps, byte_diff_clumps before after context = Ok clumps ->
     byte_diff_clumps (map f before) (map f after) context = Ok (map (recode_bytes f) clumps)) /\
  (forall clumps data reverse, exists r out,
     (forall w, byte_apply_into dbg clumps data reverse w = delivered r out w) /\
     (forall w, byte_apply_into dbg (map (recode_bytes f) clumps) (map f data) reverse w = delivered r (map f out) w) /\
     byte_already_applied (map (recode_bytes f) clumps) (map f data) reverse = byte_already_applied clumps data reverse).
Proof. exact p_C132_bytes. Qed.
Print Assumptions C132_bytes.

(* a clump found two lines further down, in a text with converted line ends; and the same for bytes
   of which one bit is turned over *)
Example C132_example : exists clumps flip bytes_clumps,
  text_diff_clumps (L "A B C ") (L "A B X Y C ") 3 = Ok clumps /\ apart crlf clumps (L "P Q A B C ") /\
  text_apply_into true clumps (L "P Q A B C ") false (Writer [] None) = (Done (Stats 0 1 0 0 0), Writer (bs "P Q A B X Y C ") None) /\
  crlf (bs "A B ") = [x41; x0d; x0a; x42; x0d; x0a] /\
  text_apply_into true (map (recode_text crlf) clumps) (map crlf (L "P Q A B C ")) false (Writer [] None) = (Done (Stats 0 1 0 0 0), Writer (crlf (bs "P Q A B X Y C ")) None) /\
  (forall x y : byte, flip x = flip y -> x = y) /\ flip x41 = x61 /\
  byte_diff_clumps (bs "ABC") (bs "ABXYC") 2 = Ok bytes_clumps /\
  byte_apply_into true bytes_clumps (bs "ABC") false (Writer [] None) = (Done tt, Writer (bs "ABXYC") None) /\
  byte_apply_into true (map (recode_bytes flip) bytes_clumps) (bs "abc") false (Writer [] None) = (Done tt, Writer (bs "abxyc") None).
Proof. exact e_C132_example. Qed.

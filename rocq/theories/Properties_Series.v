(* Properties_Series.v - the property theorems and a concrete case beside each; proofs are in
   Proof_Props_Series.v.  Generated by tools/mkthms.py. *)
From Coq Require Import String.
From Verif Require Import Proof_Props_Series Base Model_Seq Model_Changes Model_IO Model_Text Model_Bytes Spec Spec_Nearly Spec_Series Cases Proof_Seq Proof_Diff Proof_Props_Gen Proof_Props_Text Proof_Props_Bytes Proof_Props_Undo.

(* ------------------------------------------------------------------ C108 *)
(* C108, full statement: the diffs between successive versions of a text, applied one after another
   to the first version, give the last one.
   It is false: what one diff overlooks is missing when the next is applied ... *)
Theorem C108_series_refuted : exists patches first last, steps made patches first last /\
  forall dbg, (exists result, steps (turns dbg false) patches first result) /\
    forall result, steps (turns dbg false) patches first result -> result <> last.
Proof. exact p_C108_series_refuted. Qed.
Print Assumptions C108_series_refuted.

(* What does hold: if no step changes a single line between unchanged ones, the diffs applied one
   after another to the first version give the last, and applied in reverse to the last version,
   the last diff first, give the first; every clump of every diff applies cleanly.
   Missing: series with a step that does. *)
Theorem C108_series_partial : forall dbg patches first last,
  steps (fun p t t' => made p t t' /\ plain t t') patches first last ->
  steps (turns_cleanly dbg false) patches first last /\
  steps (turns_cleanly dbg true) (rev patches) last first.
Proof. exact p_C108_series_partial. Qed.
Print Assumptions C108_series_partial.

(* For all texts, whatever is overlooked: when each diff is made from the text as it is (after the
   patches before), it can be applied, and undoing the patches in reverse, the last one first,
   restores the first text byte for byte, every clump applying cleanly. *)
Theorem C108_undo :
  (forall dbg clumps text goal, made clumps text goal -> exists result, turns_cleanly dbg false clumps text result) /\
  (forall dbg patches first last,
     steps (fun p t t' => (exists goal, made p t goal) /\ turns dbg false p t t') patches first last ->
     steps (turns_cleanly dbg true) (rev patches) last first).
Proof. exact p_C108_undo. Qed.
Print Assumptions C108_undo.

(* The order matters: undoing the patches in the order in which they were made may fail. *)
Theorem C108_undo_order_refuted : exists patches first last,
  steps (fun p t t' => made p t t' /\ plain t t') patches first last /\
  forall dbg, (exists result, steps (turns dbg true) patches last result) /\
    forall result, steps (turns dbg true) patches last result -> result <> first.
Proof. exact p_C108_undo_order_refuted. Qed.
Print Assumptions C108_undo_order_refuted.

(* For bytes, with at least one byte of context and no empty versions, the same as for texts. *)
Theorem C108_bytes_partial :
  (forall dbg patches first last,
     steps (fun p t t' => made_bytes p t t' /\ no_isolated_mismatch t t') patches first last ->
     steps (turns_bytes dbg false) patches first last /\
     steps (turns_bytes dbg true) (rev patches) last first) /\
  (forall dbg clumps data goal, made_bytes clumps data goal -> exists result, turns_bytes dbg false clumps data result) /\
  (forall dbg patches first last,
     steps (fun p t t' => (exists goal, made_bytes p t goal) /\ turns_bytes dbg false p t t') patches first last ->
     steps (turns_bytes dbg true) (rev patches) last first).
Proof. exact p_C108_bytes_partial. Qed.
Print Assumptions C108_bytes_partial.

(* three versions, there and back *)
Example C108_example : exists p q,
  steps (fun p t t' => made p t t' /\ plain t t') [p; q] (bs "A B ") (bs "A Y Y Y B ") /\
  length p = 1 /\ length q = 1 /\
  turns_cleanly true true q (bs "A Y Y Y B ") (bs "A X X B ") /\ turns_cleanly true true p (bs "A X X B ") (bs "A B ").
Proof. exact e_C108_example. Qed.

(* ... and bytes *)
Example C108_bytes_example : exists p,
  made_bytes p (bs "AB") (bs "AXXB") /\ no_isolated_mismatch (bs "AB") (bs "AXXB") /\
  turns_bytes true false p (bs "AB") (bs "AXXB") /\ turns_bytes true true p (bs "AXXB") (bs "AB").
Proof. exact e_C108_bytes_example. Qed.

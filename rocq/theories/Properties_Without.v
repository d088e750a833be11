(* Properties_Without.v - the property theorems and a concrete case beside each; proofs are in
   Proof_Props_Without.v.  Generated by tools/mkthms.py. *)
From Coq Require Import String.
From Verif Require Import Proof_Props_Without Base Model_Seq Model_Changes Model_IO Model_Text Model_Bytes Spec Spec_Outcome Spec_Result Spec_Conflict Spec_Without Cases Proof_Seq Proof_IO Proof_Text Proof_Apply Proof_Fuzzy Proof_Bytes Proof_Outcome Proof_Props_Text Proof_Props_Outcome.

(* ------------------------------------------------------------------ C138 *)
(* C138: a hunk that is rejected makes no difference to the others: without it the text is patched
   in the same way, only without the conflict.  False, as the hunk before it is searched for only
   up to the place of the next hunk: with the rejected hunk the other one is put in five lines
   earlier, without it four lines later. *)
Theorem C138_moved_refuted : exists b a target c1 c2, text_diff_clumps b a 1 = Ok [c1; c2] /\ forall dbg,
  text_apply_into dbg [c1; c2] target false (Writer [] None) =
    (Done (Stats 0 1 0 0 1), Writer (bs "p q A X Y C <<<<<<< G H I ======= G Z W I >>>>>>> p q p q p q A B C q ") None) /\
  text_apply_into dbg [c1] target false (Writer [] None) =
    (Done (Stats 0 1 0 0 0), Writer (bs "p q A B C p q p q p q A X Y C q ") None).
Proof. exact p_C138_moved_refuted. Qed.
Print Assumptions C138_moved_refuted.

(* nor is a hunk that is rejected sure to be so without the one that follows it *)
Theorem C138_hidden_refuted : exists b a target c1 c2, text_diff_clumps b a 1 = Ok [c1; c2] /\ forall dbg,
  fst (text_apply_into dbg [c1; c2] target false (Writer [] None)) = Done (Stats 0 0 0 0 2) /\
  text_apply_into dbg [c1] target false (Writer [] None) =
    (Done (Stats 0 1 0 0 0), Writer (bs "1 2 3 4 5 6 7 A X Y C 8 9 ") None).
Proof. exact p_C138_hidden_refuted. Qed.
Print Assumptions C138_hidden_refuted.

(* What does hold: if every hunk that is followed by a rejected one was found where expected or
   rejected itself, the patch without all the rejected hunks makes the same text of the target,
   without the conflicts, and with the same statistics but for the failures.
   Missing: hunks found elsewhere or already there before a rejected one, as above. *)
Theorem C138_without_partial : forall dbg hs target st out, Forall hunk_ok hs -> lines_fit hs -> fits_lines target ->
  text_apply_into dbg (map text_of_hunk hs) target false (Writer [] None) = (Done st, Writer out None) ->
  exists fates, outcome dbg target 0 0 hs (Some fates) out /\ st = tally fates /\ (steady 0 fates -> forall w,
    text_apply_into dbg (map text_of_hunk (accepted hs fates)) target false w =
    delivered (Done (Stats (st_clean st) (st_fuzzy st) (st_already st) (st_already_fuzzy st) 0)) (concat (settled target 0 hs fates)) w).
Proof. exact p_C138_without_partial. Qed.
Print Assumptions C138_without_partial.

(* in reverse, with the hunks the other way round *)
Theorem C138_without_reverse_partial : forall dbg hs target st out, Forall hunk_ok hs -> lines_fit hs -> fits_lines target ->
  text_apply_into dbg (map text_of_hunk hs) target true (Writer [] None) = (Done st, Writer out None) ->
  exists fates, outcome dbg target 0 0 (map swap_hunk hs) (Some fates) out /\ st = tally fates /\ (steady 0 fates -> forall w,
    text_apply_into dbg (map text_of_hunk (accepted hs fates)) target true w =
    delivered (Done (Stats (st_clean st) (st_fuzzy st) (st_already st) (st_already_fuzzy st) 0)) (concat (settled target 0 (map swap_hunk hs) fates)) w).
Proof. exact p_C138_without_reverse_partial. Qed.
Print Assumptions C138_without_reverse_partial.

(* Taking out a single rejected hunk takes out its conflict and nothing else if the hunk before it
   was found where expected, or there is none.  Missing: as above. *)
Theorem C138_one_partial : forall dbg pre h post target fs gs out, Forall hunk_ok (pre ++ post) -> lines_fit (pre ++ post) -> fits_lines target ->
  outcome dbg target 0 0 (pre ++ h :: post) (Some (fs ++ Rejected :: gs)) out -> List.length fs = List.length pre -> ends_as_expected 0 fs ->
  exists x y, out = x ++ conflict_block h ++ y /\ forall w,
    text_apply_into dbg (map text_of_hunk (pre ++ post)) target false w = delivered (Done (tally (fs ++ gs))) (x ++ y) w.
Proof. exact p_C138_one_partial. Qed.
Print Assumptions C138_one_partial.

(* Bytes: a hunk neither side of which is there makes no difference to the others at all. *)
Theorem C138_bytes : forall dbg pre h post target w, ~ occurs_at target (h_old h) (Z.of_nat (h_b h)) -> ~ occurs_at target (h_new h) (Z.of_nat (h_a h)) ->
  forall reverse, byte_apply_into dbg (map byte_of_hunk (pre ++ h :: post)) target reverse w = byte_apply_into dbg (map byte_of_hunk (pre ++ post)) target reverse w.
Proof. exact p_C138_bytes. Qed.
Print Assumptions C138_bytes.

(* three hunks, the second of them rejected *)
Example C138_example :
  let g := Hunk 0 0 1 (L "B ") 1 (L "C ") in let h := Hunk 1 0 2 (L "P Q ") 2 (L "P R ") in let k := Hunk 0 0 4 (L "F ") 4 (L "X Y ") in
  let target := L "A B D E F " in let fates := [Placed false 0 Cleanly; Rejected; Placed false 0 Cleanly] in
  Forall hunk_ok [g; h; k] /\ lines_fit [g; h; k] /\ fits_lines target /\
  text_apply_into true (map text_of_hunk [g; h; k]) target false (Writer [] None) =
    (Done (Stats 2 0 0 0 1), Writer (bs "A C <<<<<<< P Q ======= P R >>>>>>> D E X Y ") None) /\
  steady 0 fates /\ accepted [g; h; k] fates = [g; k] /\ settled target 0 [g; h; k] fates = L "A C D E X Y " /\
  text_apply_into true (map text_of_hunk [g; k]) target false (Writer [] None) = (Done (Stats 2 0 0 0 0), Writer (bs "A C D E X Y ") None).
Proof. exact e_C138_example. Qed.

(* the same with bytes: the second hunk is passed over *)
Example C138_bytes_example :
  let g := Hunk 0 0 1 (list_byte_of_string "b") 1 (list_byte_of_string "cc") in
  let h := Hunk 1 0 2 (list_byte_of_string "pq") 3 (list_byte_of_string "pr") in
  let k := Hunk 0 0 4 (list_byte_of_string "f") 5 (list_byte_of_string "xy") in let target := list_byte_of_string "abdefg" in
  ~ occurs_at target (h_old h) 2 /\ ~ occurs_at target (h_new h) 3 /\
  byte_apply_into true (map byte_of_hunk [g; h; k]) target false (Writer [] None) = (Done tt, Writer (list_byte_of_string "accdexyg") None) /\
  byte_apply_into true (map byte_of_hunk [g; k]) target false (Writer [] None) = (Done tt, Writer (list_byte_of_string "accdexyg") None).
Proof. exact e_C138_bytes_example. Qed.

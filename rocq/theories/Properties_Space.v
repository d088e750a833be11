(* Properties_Space.v - the property theorems and a concrete case beside each; proofs are in
   Proof_Props_Space.v.  Generated by tools/mkthms.py. *)
From Coq Require Import String.
From Verif Require Import Proof_Props_Space Base Model_Seq Model_Changes Model_Space Spec Spec_Cost Cases Proof_Seq Proof_Cost Proof_Space.

(* ------------------------------------------------------------------ C120 *)
(* C120: what the generator holds at once (positions in the index, entries of its two hash tables,
   pairs of ranges still to be searched, blocks found and changes) is at most 4 times the length of
   the old sequence and 4, however long the new sequence is, though the time can be cubic (C107).
   If no item occurs more than r times in the old sequence, it is at most the length of the old
   sequence and the larger of 2 r + M and 3 M + 1, where M is the shorter length, or 1.
   The record changes no result. *)
Theorem C120 :
  (forall before after, snd (text_changes_h before after) = text_changes before after) /\
  (forall before after, snd (byte_changes_h before after) = byte_changes before after) /\
  (forall before after, fst (text_changes_h before after) <= 4 * length before + 4) /\
  (forall before after, fst (byte_changes_h before after) <= 4 * length before + 4) /\
  (forall before after r, at_most line_eqb r before ->
     let M := Nat.max 1 (Nat.min (length before) (length after)) in
     fst (text_changes_h before after) <= length before + Nat.max (2 * r + M) (3 * M + 1)) /\
  (forall before after r, at_most Byte.eqb r before ->
     let M := Nat.max 1 (Nat.min (length before) (length after)) in
     fst (byte_changes_h before after) <= length before + Nat.max (2 * r + M) (3 * M + 1)).
Proof. exact p_C120. Qed.
Print Assumptions C120.

(* It does grow with the old sequence: for every n there are an old sequence of n items and a new
   one of 2 for which at least 3 n is held at once. *)
Theorem C120_needed :
  (forall n, exists before after, length before = n /\ length after = 2 /\ 3 * n <= fst (text_changes_h before after)) /\
  (forall n, exists before after, length before = n /\ length after = 2 /\ 3 * n <= fst (byte_changes_h before after)).
Proof. exact p_C120_needed. Qed.
Print Assumptions C120_needed.

(* Three different lines in another order: 7 at once, where at most 3 + (3 * 3 + 1) are claimed; 4
   equal lines against 12 lines with them: 16 of at most 4 + (3 * 4 + 1); 5 against two of them: 15 of at most 5 + (2 * 5 + 2). *)
Example C120_example :
  fst (text_changes_h (L "a b c ") (L "c a b ")) = 7 /\
  fst (text_changes_h (repeat (bs "a ") 4) (L "a b b a b b a b b a b b ")) = 16 /\
  fst (text_changes_h (repeat (bs "a ") 5) (L "a a ")) = 15.
Proof. exact e_C120_example. Qed.

(* Properties_Cost.v - the property theorems and a concrete case beside each; proofs are in
   Proof_Props_Cost.v.  Generated by tools/mkthms.py. *)
From Coq Require Import String.
From Verif Require Import Proof_Props_Cost Base Model_Seq Model_Changes Model_Cost Spec Spec_Cost Cases Proof_Seq Proof_Cost.

(* ------------------------------------------------------------------ C107 *)
(* C107 (in full): there is a K with rounds <= K * (length before + 1) * (length after + 1) for all
   before and after, where rounds is the number of rounds of the loops of the generator.  False
   for every K: on m equal lines against m times that line and two others it takes at least
   m * m * (m + 1) / 2 rounds. *)
Theorem C107_refuted :
  (forall K, exists before after,
     K * ((length before + 1) * (length after + 1)) < fst (text_changes_c before after)) /\
  (forall K, exists before after,
     K * ((length before + 1) * (length after + 1)) < fst (byte_changes_c before after)) /\
  (forall m, exists before after, length before = m /\ length after = 3 * m /\
     m * m * (m + 1) <= 2 * fst (text_changes_c before after)) /\
  (forall m, exists before after, length before = m /\ length after = 3 * m /\
     m * m * (m + 1) <= 2 * fst (byte_changes_c before after)).
Proof. exact p_C107_refuted. Qed.
Print Assumptions C107_refuted.

(* Proved of C107: if no item occurs more than r times in the old sequence, the number of rounds
   is at most the shorter length times (1 + the length of the new sequence times (r + 3)), that is,
   for each r at most proportional to the product of the two lengths; r can always be the length
   of the old sequence.  The counting changes no result.
   Missing: the bound with a factor that does not depend on r, which is false. *)
Theorem C107_partial :
  (forall before after, snd (text_changes_c before after) = text_changes before after) /\
  (forall before after, snd (byte_changes_c before after) = byte_changes before after) /\
  (forall before after r, at_most line_eqb r before ->
     fst (text_changes_c before after) <=
       Nat.max 1 (Nat.min (length before) (length after)) * (1 + length after * (r + 3))) /\
  (forall before after r, at_most Byte.eqb r before ->
     fst (byte_changes_c before after) <=
       Nat.max 1 (Nat.min (length before) (length after)) * (1 + length after * (r + 3))) /\
  (forall before, at_most line_eqb (length before) before) /\
  (forall before, at_most Byte.eqb (length before) before).
Proof. exact p_C107_partial. Qed.
Print Assumptions C107_partial.

(* Two sequences without common items take one round, and one for each new item. *)
Theorem C107_apart :
  (forall before after, (forall x, In x before -> ~ In x after) -> fst (text_changes_c before after) = 1 + length after) /\
  (forall before after, (forall x, In x before -> ~ In x after) -> fst (byte_changes_c before after) = 1 + length after).
Proof. exact p_C107_apart. Qed.
Print Assumptions C107_apart.

(* One search in two ranges takes at most the length of the new sequence times (r + 3). *)
Theorem C107_search : forall before after br ar r, at_most line_eqb r before ->
  let find := longest_common_subsequence_c line_eqb (string_indices_of (string_generate_from before)) before after br ar in
  snd find = longest_common_subsequence line_eqb (string_indices_of (string_generate_from before)) before after br ar /\
  fst find <= length after * (r + 3).
Proof. exact p_C107_search. Qed.
Print Assumptions C107_search.

(* 4 equal lines against 12: 82 rounds, where at least 40 are claimed and at most 4 * (1 + 12 * 7);
   three different lines against themselves in another order: 7, where at most 3 * (1 + 3 * 4) are *)
Example C107_example :
  fst (text_changes_c (L "a b ") (L "c d e ")) = 4 /\
  fst (text_changes_c (repeat (bs "a ") 4) (L "a b b a b b a b b a b b ")) = 82 /\
  fst (text_changes_c (L "a b c ") (L "c a b ")) = 7 /\
  at_most line_eqb 1 (L "a b c ").
Proof. exact e_C107_example. Qed.

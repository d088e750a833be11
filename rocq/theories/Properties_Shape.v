(* Properties_Shape.v - the property theorems and a concrete case beside each; proofs are in
   Proof_Props_Shape.v.  Generated by tools/mkthms.py. *)
From Coq Require Import String.
From Verif Require Import Proof_Props_Shape Base Model_Seq Model_Changes Model_IO Model_Text Model_Bytes Model_Json Spec Spec_Shape Cases Proof_Seq Proof_Lcs Proof_Changes Proof_Blocks Proof_Clumps Proof_Diff Proof_Shape Proof_Props_Gen.

(* ------------------------------------------------------------------ C100 *)
(* C100: the changes between two sequences are determined by which items of the one equal which
   items of the other: two pairs of texts, two pairs of byte strings, or a pair of texts and one of
   byte strings with the same pattern have the same changes. *)
Theorem C100_only_equality :
  (forall b a b' a' : list line, same_pattern b a b' a' -> text_changes b a = text_changes b' a') /\
  (forall b a b' a' : list byte, same_pattern b a b' a' -> byte_changes b a = byte_changes b' a') /\
  (forall (b a : list line) (b' a' : list byte), same_pattern b a b' a' -> text_changes b a = byte_changes b' a').
Proof. exact p_C100_only_equality. Qed.
Print Assumptions C100_only_equality.

(* in particular if every line is replaced by another, different ones by different ones *)
Theorem C100_renaming : forall (f : line -> line) b a, (forall x y, In x b -> In y a -> f x = f y -> x = y) ->
  text_changes (map f b) (map f a) = text_changes b a.
Proof. exact p_C100_renaming. Qed.
Print Assumptions C100_renaming.

Example C100_example :
  text_changes (L "A B C D ") (L "A X C ") = byte_changes (bs "1234") (bs "193") /\
  text_changes (map (cons x23) (L "A B C D ")) (map (cons x23) (L "A X C ")) = text_changes (L "A B C D ") (L "A X C ") /\
  text_changes (L "A B C D ") (L "A X C ") = Ok [NoChange (CS 0 0 3); Delete (Range 3 4) 3].
Proof. exact e_C100_example. Qed.

(* ------------------------------------------------------------------ C101 *)
(* C101, full statement: diffing two texts in the other order gives the same changes seen from
   the other side.  It is false: of two equally long blocks the one found first is kept. *)
Theorem C101_exchange_refuted : exists b a cs, text_changes b a = Ok cs /\ text_changes a b <> Ok (map swap_range_change cs).
Proof. exact p_C101_exchange_refuted. Qed.
Print Assumptions C101_exchange_refuted.

Theorem C101_exchange_bytes_refuted : exists b a cs, byte_changes b a = Ok cs /\ byte_changes a b <> Ok (map swap_range_change cs).
Proof. exact p_C101_exchange_bytes_refuted. Qed.
Print Assumptions C101_exchange_bytes_refuted.

(* What does hold: it is so if at no step there are two longest common blocks, and then the diffs
   with any context are those with the sides of every clump exchanged.  Missing: ties. *)
Theorem C101_exchange_partial :
  (forall b a cs, untied b a (Range 0 (length b)) (Range 0 (length a)) -> text_changes b a = Ok cs ->
     text_changes a b = Ok (map swap_range_change cs) /\
     forall context clumps, text_diff_clumps b a context = Ok clumps -> text_diff_clumps a b context = Ok (map swap_clump clumps)) /\
  (forall b a cs, untied b a (Range 0 (length b)) (Range 0 (length a)) -> byte_changes b a = Ok cs ->
     byte_changes a b = Ok (map swap_range_change cs) /\
     forall context clumps, byte_diff_clumps b a context = Ok clumps -> byte_diff_clumps a b context = Ok (map swap_bclump clumps)).
Proof. exact p_C101_exchange_partial. Qed.
Print Assumptions C101_exchange_partial.

Theorem C102_minimal_refuted : forall n, exists b a cs ps, text_changes b a = Ok cs /\ common_seq b a ps /\ List.length ps = n /\ kept_items cs = 1.
Proof. exact p_C102_minimal_refuted. Qed.
Print Assumptions C102_minimal_refuted.

(* What does hold: some block reported as unchanged is as long as the longest common block; and
   every pair of equal lines is reported as unchanged or crosses a pair that is, so that nothing
   can be added to what is kept.  Missing: that no other choice keeps more. *)
Theorem C102_maximal_partial :
  (forall b a cs, text_changes b a = Ok cs ->
     (forall x y n, 0 < n -> block_in b a (Range 0 (List.length b)) (Range 0 (List.length a)) x y n -> exists m, In (NoChange m) cs /\ n <= cs_n m) /\
     (forall i j, same_at b a i j -> exists i' j', reported_same cs i' j' /\ crossing i j i' j')) /\
  (forall b a cs, byte_changes b a = Ok cs ->
     (forall x y n, 0 < n -> block_in b a (Range 0 (List.length b)) (Range 0 (List.length a)) x y n -> exists m, In (NoChange m) cs /\ n <= cs_n m) /\
     (forall i j, same_at b a i j -> exists i' j', reported_same cs i' j' /\ crossing i j i' j')).
Proof. exact p_C102_maximal_partial. Qed.
Print Assumptions C102_maximal_partial.

(* the single longest common block is kept on both sides; a line moved to the front loses three *)
Example C101_example : let b := L "A B C D " in let a := L "A B X Y " in untied b a (Range 0 4) (Range 0 4) /\
  text_changes b a = Ok [NoChange (CS 0 0 2); Replace (Range 2 4) (Range 2 4)].
Proof. exact e_C101_example. Qed.

Example C102_example :
  text_changes (L "A B C D ") (L "D A X B Y C ") = Ok [Delete (Range 0 3) 0; NoChange (CS 3 0 1); Insert 4 (Range 1 6)] /\
  common_seq (L "A B C D ") (L "D A X B Y C ") [(0, 1); (1, 3); (2, 5)].
Proof. exact e_C102_example. Qed.

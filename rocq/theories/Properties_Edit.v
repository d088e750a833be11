(* Properties_Edit.v - the property theorems and a concrete case beside each; proofs are in
   Proof_Props_Edit.v.  Generated by tools/mkthms.py. *)
From Coq Require Import String.
From Verif Require Import Proof_Props_Edit Base Model_Seq Model_Changes Model_IO Model_Text Model_Bytes Model_Json Spec Spec_Shape Spec_Edit Cases Proof_Seq Proof_Lcs Proof_Changes Proof_Blocks Proof_Clumps Proof_Diff Proof_Shape Proof_Edit Proof_Props_Gen Proof_Props_Shape.

(* ------------------------------------------------------------------ C123 *)
(* C123: if a text or byte string is edited in one place - [p ++ y ++ s] becomes [p ++ x ++ s] - one
   change is reported:
     forall p y x s cs, p ++ y ++ s <> p ++ x ++ s -> text_changes (p ++ y ++ s) (p ++ x ++ s) = Ok cs -> length (real_changes cs) = 1. *)
(* a line is replaced by another one: no change; two new lines are inserted: two changes, one of
   them a removal; likewise for bytes *)
Theorem C123_one_change_refuted :
  (exists p y x s : list line, fresh_edit p y x s /\ List.length y = 1 /\ List.length x = 1 /\
     exists cs, text_changes (p ++ y ++ s) (p ++ x ++ s) = Ok cs /\ real_changes cs = []) /\
  (exists p x s : list line, fresh_edit p [] x s /\ no_isolated_mismatch (p ++ s) (p ++ x ++ s) /\
     exists cs, text_changes (p ++ [] ++ s) (p ++ x ++ s) = Ok cs /\ real_changes cs = [Insert 0 (Range 0 3); Delete (Range 2 3) 5]) /\
  (exists p y x s : list byte, fresh_edit p y x s /\ List.length y = 1 /\ List.length x = 1 /\
     exists cs, byte_changes (p ++ y ++ s) (p ++ x ++ s) = Ok cs /\ real_changes cs = []) /\
  (exists p x s : list byte, fresh_edit p [] x s /\ no_isolated_mismatch (p ++ s) (p ++ x ++ s) /\
     exists cs, byte_changes (p ++ [] ++ s) (p ++ x ++ s) = Ok cs /\ real_changes cs = [Insert 0 (Range 0 3); Delete (Range 2 3) 5]).
Proof. exact p_C123_one_change_refuted. Qed.
Print Assumptions C123_one_change_refuted.

(* proved: one change, exactly at the edited place, if the lines of each of [y] and [x] are not in the
   other text, no single differing pair is between equal ones, and - unless lines are
   replaced - the rest [s] is not longer than [p] or is nowhere else in [p ++ s] *)
Theorem C123_one_change_partial :
  (forall p y x s : list line, fresh_edit p y x s -> no_isolated_mismatch (p ++ y ++ s) (p ++ x ++ s) ->
     (y <> [] /\ x <> []) \/ List.length s <= List.length p \/ only_at_end p s ->
     text_changes (p ++ y ++ s) (p ++ x ++ s) = Ok (one_change (List.length p) (List.length y) (List.length x) (List.length s))) /\
  (forall p y x s : list byte, fresh_edit p y x s -> no_isolated_mismatch (p ++ y ++ s) (p ++ x ++ s) ->
     (y <> [] /\ x <> []) \/ List.length s <= List.length p \/ only_at_end p s ->
     byte_changes (p ++ y ++ s) (p ++ x ++ s) = Ok (one_change (List.length p) (List.length y) (List.length x) (List.length s))).
Proof. exact p_C123_one_change_partial. Qed.
Print Assumptions C123_one_change_partial.

(* the patch is then one clump: the edited lines between up to [context] lines of [p] and of [s] *)
Theorem C123_one_clump_partial :
  (forall (p y x s : list line) context, context <= 255 -> fresh_edit p y x s -> no_isolated_mismatch (p ++ y ++ s) (p ++ x ++ s) ->
     (y <> [] /\ x <> []) \/ List.length s <= List.length p \/ only_at_end p s ->
     let lead := skipn (List.length p - context) p in let trail := firstn context s in let start := Z.of_nat (List.length p - context) in
     text_diff_clumps (p ++ y ++ s) (p ++ x ++ s) context =
       Ok [TextClump (Z.of_nat (List.length lead), Z.of_nat (List.length trail)) (Snippet start (lead ++ y ++ trail)) (Snippet start (lead ++ x ++ trail))]) /\
  (forall (p y x s : list byte) context, context <= 255 -> fresh_edit p y x s -> no_isolated_mismatch (p ++ y ++ s) (p ++ x ++ s) ->
     (y <> [] /\ x <> []) \/ List.length s <= List.length p \/ only_at_end p s ->
     let lead := skipn (List.length p - context) p in let trail := firstn context s in let start := Z.of_nat (List.length p - context) in
     byte_diff_clumps (p ++ y ++ s) (p ++ x ++ s) context =
       Ok [ByteClump (Z.of_nat (List.length lead), Z.of_nat (List.length trail)) (Snippet start (lead ++ y ++ trail)) (Snippet start (lead ++ x ++ trail))]).
Proof. exact p_C123_one_clump_partial. Qed.
Print Assumptions C123_one_clump_partial.

(* edits in any number of places: if what is common to both is in the same order in both, and no
   single differing pair is between equal ones, exactly the equal items are reported as unchanged *)
Theorem C123_in_order :
  (forall b a cs, text_changes b a = Ok cs -> in_order b a -> no_isolated_mismatch b a -> forall i j, reported_same cs i j <-> same_at b a i j) /\
  (forall b a cs, byte_changes b a = Ok cs -> in_order b a -> no_isolated_mismatch b a -> forall i j, reported_same cs i j <-> same_at b a i j).
Proof. exact p_C123_in_order. Qed.
Print Assumptions C123_in_order.

(* two lines replaced by one between two and three others; the patch with one line of context *)
Example C123_example :
  let p := L "a b " in let y := L "M N " in let x := L "X " in let s := L "a c b " in
  fresh_edit p y x s /\ no_isolated_mismatch (p ++ y ++ s) (p ++ x ++ s) /\ y <> [] /\ x <> [] /\
  text_changes (p ++ y ++ s) (p ++ x ++ s) = Ok [NoChange (CS 0 0 2); Replace (Range 2 4) (Range 2 3); NoChange (CS 4 3 3)] /\
  text_diff_clumps (p ++ y ++ s) (p ++ x ++ s) 1 = Ok [TextClump (1%Z, 1%Z) (Snippet 1 (L "b M N a ")) (Snippet 1 (L "b X a "))] /\
  only_at_end (L "a ") (L "a c ") /\ text_changes (L "a " ++ [] ++ L "a c ") (L "a " ++ L "X Y " ++ L "a c ") = Ok [NoChange (CS 0 0 1); Insert 1 (Range 1 3); NoChange (CS 1 3 2)].
Proof. exact e_C123_example. Qed.

(* lines removed, inserted and replaced in several places *)
Example C123_in_order_example : let b := L "A B C D E F " in let a := L "A C X Y D G H F " in
  in_order b a /\ no_isolated_mismatch b a /\ exists cs, text_changes b a = Ok cs /\
  List.length (real_changes cs) = 3 /\ reported_same cs 2 1 /\ reported_same cs 5 7.
Proof. exact e_C123_in_order_example. Qed.

(* Spec_Size.v - vocabulary for the size of diffs. *)
From Verif Require Import Base Model_Seq Model_Json Model_Files Spec Spec_Files.

(* a quantity summed over a list *)
Definition total {A} (f : A -> nat) (l : list A) : nat := list_sum (map f l).
(* the number of bytes of a file; none if it cannot be read *)
Definition file_size (f : fs) (p : path) : nat := match content f p with Some c => length c | None => 0 end.

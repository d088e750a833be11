(* Spec_Result.v - where the content of a patched file comes from, how much of it there can be, and
   what a conflict looks like (used by C112 - C114). *)
From Verif Require Import Base Model_Seq Model_Changes Model_IO Model_Text Model_Bytes Spec Spec_Outcome.

(* the lines (bytes) of a clump that are to be replaced, and those to be put in their place *)
Definition old_lines (reverse : bool) (c : text_clump) : list line := sn_items (if reverse then tc_after c else tc_before c).
Definition new_lines (reverse : bool) (c : text_clump) : list line := sn_items (if reverse then tc_before c else tc_after c).
Definition old_bytes (reverse : bool) (c : byte_clump) : list byte := sn_items (if reverse then bc_after c else bc_before c).
Definition new_bytes (reverse : bool) (c : byte_clump) : list byte := sn_items (if reverse then bc_before c else bc_after c).

(* the three lines that mark a conflict: <<<<<<<, =======, >>>>>>> *)
Definition mark (b : byte) : line := repeat b 7 ++ [newline].
Definition marks : list line := [mark x3c; mark x3d; mark x3e].

(* one piece after the other, each of them as described *)
Definition made_of (piece : list byte -> Prop) (out : list byte) : Prop := exists pieces, out = concat pieces /\ Forall piece pieces.

(* the number of bytes *)
Definition text_size (ls : list line) : nat := length (concat ls).
Definition sum_of {A} (f : A -> nat) (l : list A) : nat := fold_right (fun x n => f x + n) 0 l.
(* a conflict: three marks of eight bytes, the old lines and the new ones *)
Definition conflict_size (reverse : bool) (c : text_clump) : nat := 24 + text_size (old_lines reverse c) + text_size (new_lines reverse c).

(* What memory guarantees of any list of byte clumps and any data: all bytes are in memory together. *)
Definition byte_patch_fits (clumps : list byte_clump) (data : list byte) : Prop :=
  (Z.of_nat (length data + sum_of (fun c => length (old_bytes false c) + length (new_bytes false c)) clumps)%nat < two64)%Z.

(* the lines of a conflict about a hunk *)
Definition conflict_lines (h : hunk line) : list line := mark x3c :: h_old h ++ mark x3d :: h_new h ++ [mark x3e].
Definition full_line (l : line) : Prop := is_line l /\ ends_in_newline l.
(* [shown target hs fates pieces]: one piece of the output for every hunk, in order; for a rejected
   hunk exactly its conflict, for any other lines of the target and new lines of the hunk *)
Inductive shown (target : list line) : list (hunk line) -> list fate -> list (list line) -> Prop :=
| shown_nil : shown target [] [] []
| shown_rejected h hs fs ps : shown target hs fs ps -> shown target (h :: hs) (Rejected :: fs) (conflict_lines h :: ps)
| shown_other h hs f fs p ps : f <> Rejected -> Forall (fun l => In l target \/ In l (h_new h)) p -> shown target hs fs ps ->
    shown target (h :: hs) (f :: fs) (p :: ps).

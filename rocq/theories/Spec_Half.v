(* Spec_Half.v - diffs of which some hunks have been put in (used by C140). *)
From Verif Require Import Base Model_Seq Model_Changes Model_IO Model_Text Spec.

(* [put_in hs put left]: of the hunks [hs] those of [put] have been put in and those of [left] have not;
   up to the last of [put] every hunk has as many old items as new ones *)
Inductive put_in {T} : list (hunk T) -> list (hunk T) -> list (hunk T) -> Prop :=
| put_none hs : put_in hs [] hs
| put_this h hs put left : length (h_old h) = length (h_new h) -> put_in hs put left -> put_in (h :: hs) (h :: put) left
| put_other h hs put left : length (h_old h) = length (h_new h) -> put_in hs put left -> put_in (h :: hs) put (h :: left).
(* [stands i k hs put left], where [i] is a position of the old text and [k] the same position of the text
   into which [put] has been put in: there every hunk of [put] stands where the new text has it, and every
   hunk of [left] where the old text has it *)
Inductive stands {T} : nat -> nat -> list (hunk T) -> list (hunk T) -> list (hunk T) -> Prop :=
| stands_end i k : stands i k [] [] []
| stands_rest i hs : stands i i hs [] hs
| stands_put i k h hs put left : i <= h_b h -> h_a h = k + (h_b h - i) ->
    stands (h_b h + length (h_old h)) (h_a h + length (h_new h)) hs put left -> stands i k (h :: hs) (h :: put) left
| stands_left i h hs put left :
    stands (h_b h + length (h_old h)) (h_b h + length (h_old h)) hs put left -> stands i i (h :: hs) put (h :: left).

(* Spec_Overlook.v - the vocabulary for counting the changes the generator overlooks. *)
From Verif Require Import Base Model_Seq Model_Changes Spec.

(* every other item is [p], at the start and at the end as well: p x p x' p *)
Fixpoint spaced {T} (p : T) (xs : list T) : list T := match xs with [] => [p] | x :: xs' => p :: x :: spaced p xs' end.
(* a pair of items is reported as unchanged but is not equal *)
Definition overlooked {T} (b a : list T) (cs : list change) (q : nat * nat) : Prop :=
  reported_same cs (fst q) (snd q) /\ differ_at b a (fst q) (snd q).
(* [ds] lists items of [out] that are not those of [a] *)
Definition wrong_items {T} (out a : list T) (ds : list nat) : Prop := NoDup ds /\ forall k, In k ds -> differ_at out a k k.

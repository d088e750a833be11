(* Spec_Cost.v - how often an item occurs in a sequence. *)
From Verif Require Import Base.

Definition occurrences {T} (eqb : T -> T -> bool) (x : T) (s : list T) : nat := length (filter (eqb x) s).
(* no item occurs more than r times *)
Definition at_most {T} (eqb : T -> T -> bool) (r : nat) (s : list T) : Prop := forall x, occurrences eqb x s <= r.

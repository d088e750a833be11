(* Spec_Closer.v - texts whose common lines have not moved. *)
From Verif Require Import Base Spec.

(* no item of [b] is found at another place of [a] *)
Definition stays_put {T} (b a : list T) : Prop := forall i j, same_at b a i j -> i = j.

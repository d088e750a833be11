(* Spec_Nearly.v - texts equal but for changes the generator overlooks. *)
From Verif Require Import Base Spec.

(* the items S x of b and S y of a differ, between two equal pairs *)
Definition isolated {T} (b a : list T) (x y : nat) : Prop :=
  same_at b a x y /\ differ_at b a (S x) (S y) /\ same_at b a (S (S x)) (S (S y)).
(* [out] is [a], except that some items which differ in isolation from their counterparts in
   [b] are as they are in [b] *)
Definition nearly {T} (b a out : list T) : Prop :=
  length out = length a /\
  forall k, k < length a -> nth_error out k = nth_error a k \/
    exists x y, k = S y /\ isolated b a x y /\ nth_error out k = nth_error b (S x).

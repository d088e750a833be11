(* Spec_Behind.v - lines behind a text in which there is no place for a hunk (used by C134). *)
From Verif Require Import Base Model_Seq Spec.

(* wherever the hunk fits the longer text, possibly with trimmed context, it fits the shorter one *)
Definition no_place_in (h : hunk line) (target more : list line) : Prop :=
  forall pos k, admissible h k -> occurs_trimmed h (target ++ more) pos k -> occurs_trimmed h target pos k.
(* a hunk with context, for neither side of which there is a place in the lines added *)
Definition indifferent (target more : list line) (h : hunk line) : Prop :=
  0 < h_lead h + h_trail h /\ no_place_in h target more /\ no_place_in (swap_hunk h) target more.
(* the lines are not lines of the hunk *)
Definition foreign (more : list line) (h : hunk line) : Prop := forall l, In l more -> ~ In l (h_old h) /\ ~ In l (h_new h).

(* Spec_Work.v - the size of a patch. *)
From Verif Require Import Base Model_Seq Model_Changes Model_IO Model_Text Spec.

(* the hunk lies within the first [m] lines on both sides and has at most [k] lines of context *)
Definition within (m k : nat) (h : hunk line) : Prop :=
  h_b h + length (h_old h) <= m /\ h_a h + length (h_new h) <= m /\ h_lead h <= k /\ h_trail h <= k.

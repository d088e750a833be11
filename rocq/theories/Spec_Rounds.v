(* Spec_Rounds.v - making a diff and patching with it, over and over. *)
From Verif Require Import Base Model_Seq Model_IO Model_Text Model_Changes Spec.

(* one round: a diff of [t] and [after] is made and applied to [t], which gives [t'] *)
Definition round (dbg : bool) (context : nat) (after t t' : list line) : Prop :=
  exists clumps st, text_diff_clumps t after context = Ok clumps /\
    text_apply_into dbg clumps t false (Writer [] None) = (Done st, Writer (concat t') None) /\ lines_of (concat t') t'.
(* rounds each of which changes the text *)
Inductive rounds (dbg : bool) (context : nat) (after : list line) : nat -> list line -> list line -> Prop :=
| rounds_none t : rounds dbg context after 0 t t
| rounds_more n t t' u : round dbg context after t t' -> t' <> t -> rounds dbg context after n t' u -> rounds dbg context after (S n) t u.

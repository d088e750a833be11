(* Spec_Words.v - the vocabulary for the texts of messages. *)
From Verif Require Import Base Model_Seq Model_Changes Model_IO Model_Text Model_Bytes Model_Json Model_Files Model_Log.

(* a message about a clump that could not be applied has neither reductions nor an offset *)
Definition sayable (m : message) : Prop :=
  match m with AboutClump _ (NotApplied | NotAlreadyApplied) r o => r = None /\ o = None | _ => True end.
(* the messages that give the text of an error *)
Definition gives_reason (m : message) : bool :=
  match m with
  | AboutClump _ _ _ _ | PatchDone _ | Deleted _ | Created _ => false
  | _ => true
  end.
(* not a control character of ASCII *)
Definition visible (b : byte) : Prop := (32 <= Byte.to_N b)%N /\ b <> x7f.

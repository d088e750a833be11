(* Spec_Alone.v - what the JSON of a change diff on its own stands for. *)
From Coq Require Import String.
From Verif Require Import Base Model_Seq Model_Changes Model_IO Model_Text Model_Bytes Model_Json Spec Spec_Json.

Section Forms.
Context (txt : list byte -> json -> Prop) (rec : list (list byte * (json -> Prop)) -> json -> Prop).
Definition text_change_form (d : text_diff) : json -> Prop :=
  rec [(chars "before_path", txt (td_before d)); (chars "after_path", txt (td_after d));
       (chars "clumps", array (text_clump_form txt rec) (td_clumps d))].
Definition byte_change_form (d : byte_diff) : json -> Prop :=
  rec [(chars "before_path", txt (bd_before d)); (chars "after_path", txt (bd_after d));
       (chars "compressed", boolean (bd_compressed d)); (chars "clumps", array (byte_clump_form rec) (bd_clumps d))].
End Forms.
(* what a loader must accept, and the form written *)
Definition text_change_json : text_diff -> json -> Prop := text_change_form text record.
Definition byte_change_json : byte_diff -> json -> Prop := byte_change_form text record.
Definition saved_text_change : text_diff -> json -> Prop := text_change_form exact_text exact_record.
Definition saved_byte_change : byte_diff -> json -> Prop := byte_change_form exact_text exact_record.

Definition valid_text_diff (d : text_diff) : Prop :=
  is_utf8 (td_before d) /\ is_utf8 (td_after d) /\ Forall valid_text_clump (td_clumps d).
Definition valid_byte_diff (d : byte_diff) : Prop :=
  is_utf8 (bd_before d) /\ is_utf8 (bd_after d) /\ Forall valid_byte_clump (bd_clumps d).
(* a text with a member name in front, as the only member of an object *)
Definition wrapped (name s : list byte) : list byte := chars "{""" ++ name ++ chars """:" ++ s ++ chars "}".
Definition no_items (c : byte_clump) : Prop := sn_items (bc_before c) = [] /\ sn_items (bc_after c) = [].

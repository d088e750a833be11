(* Spec_Recode.v - replacing every line (or byte) by another one throughout (used by C132). *)
From Verif Require Import Base Model_Seq Model_Changes Model_IO Model_Text Model_Bytes Spec.

(* the same snippet or clump with other items *)
Definition recode_snippet {T} (f : T -> T) (s : snippet T) : snippet T := Snippet (sn_start s) (map f (sn_items s)).
Definition recode_text (f : line -> line) (c : text_clump) : text_clump :=
  TextClump (tc_context c) (recode_snippet f (tc_before c)) (recode_snippet f (tc_after c)).
Definition recode_bytes (f : byte -> byte) (c : byte_clump) : byte_clump :=
  ByteClump (bc_context c) (recode_snippet f (bc_before c)) (recode_snippet f (bc_after c)).

(* what is written is made of lines and of conflict marks; only the lines are replaced *)
Inductive piece := Whole (l : line) | Marker (m : line).
Definition piece_as (f : line -> line) (p : piece) : list byte := match p with Whole l => f l | Marker m => m end.
Definition pieces_as (f : line -> line) (ps : list piece) : list byte := concat (map (piece_as f) ps).

(* [f] makes no line of the target equal to a different one of the clumps *)
Definition apart (f : line -> line) (clumps : list text_clump) (target : list line) : Prop :=
  forall c x y, In c clumps -> In x (sn_items (tc_before c)) \/ In x (sn_items (tc_after c)) -> In y target -> f x = f y -> x = y.

(* the line ends of a text as on other systems: carriage return and newline *)
Definition crlf (text : list byte) : list byte := flat_map (fun c => if Byte.eqb c newline then [x0d; newline] else [c]) text.

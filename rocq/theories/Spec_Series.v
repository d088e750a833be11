(* Spec_Series.v - patches applied one after another (used by C108). *)
From Verif Require Import Base Model_Seq Model_Changes Model_IO Model_Text Model_Bytes Spec.

(* from one state to another by taking a step for each element of the list *)
Inductive steps {P X} (R : P -> X -> X -> Prop) : list P -> X -> X -> Prop :=
| steps_none x : steps R [] x x
| steps_more p ps x y z : R p x y -> steps R ps y z -> steps R (p :: ps) x z.

(* the clumps are those of a diff of the two texts *)
Definition made (clumps : list text_clump) (before after : list byte) : Prop :=
  exists b a context, lines_of before b /\ lines_of after a /\ fits_lines b /\ fits_lines a /\
    context <= 255 /\ text_diff_clumps b a context = Ok clumps.
(* nowhere does a single differing line sit between equal ones on a diagonal *)
Definition plain (before after : list byte) : Prop :=
  forall b a, lines_of before b -> lines_of after a -> no_isolated_mismatch b a.
(* applying the clumps to the text gives the other one *)
Definition turns dbg (reverse : bool) (clumps : list text_clump) (text result : list byte) : Prop :=
  exists lines stats, lines_of text lines /\
    text_apply_into dbg clumps lines reverse (Writer [] None) = (Done stats, Writer result None).
(* and every clump applies in its place with all its context *)
Definition turns_cleanly dbg (reverse : bool) (clumps : list text_clump) (text result : list byte) : Prop :=
  exists lines, lines_of text lines /\
    text_apply_into dbg clumps lines reverse (Writer [] None) =
      (Done (Stats (length clumps) 0 0 0 0), Writer result None).

(* the same for bytes *)
Definition made_bytes (clumps : list byte_clump) (before after : list byte) : Prop :=
  exists context, 1 <= context <= 255 /\ before <> [] /\ after <> [] /\ fits_bytes before /\ fits_bytes after /\
    byte_diff_clumps before after context = Ok clumps.
Definition turns_bytes dbg (reverse : bool) (clumps : list byte_clump) (data result : list byte) : Prop :=
  byte_apply_into dbg clumps data reverse (Writer [] None) = (Done tt, Writer result None).

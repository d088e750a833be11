(* Spec_Merge.v - a patch carried over to a text that was edited elsewhere (used by C93, C94). *)
From Verif Require Import Base Model_Seq Spec.
Local Open Scope Z_scope.

(* The old lines of the hunk are at line p of the target, and p is the nearest of all places
   where the hunk would fit, be it with trimmed context, to where it is expected; of two
   equally near ones the first. *)
Definition best_place (h : hunk line) (target : list line) (expected : Z) (p : nat) : Prop :=
  occurs_at target (h_old h) (Z.of_nat p) /\
  forall pos k, admissible h k -> occurs_trimmed h target pos k ->
    pos = Z.of_nat p \/ Z.abs (Z.of_nat p - expected) < Z.abs (pos - expected) \/
    (Z.of_nat p - expected = expected - pos /\ Z.of_nat p < pos).

(* there is only one place where the hunk would fit *)
Definition fits_once (h : hunk line) (target : list line) : Prop :=
  forall pos k pos' k', admissible h k -> occurs_trimmed h target pos k ->
    admissible h k' -> occurs_trimmed h target pos' k' -> pos = pos'.

(* [merged reach target from offset hs moved out]: [out] is the target from line [from] on with
   the old lines of all hunks replaced by their new lines; each hunk is found at its best place,
   expected to be displaced as much as the one before it ([offset]); [moved] of them are not
   exactly where expected.  [reach] limits how far. *)
Inductive merged (reach : hunk line -> option (hunk line) -> list line -> Z -> nat -> Prop) (target : list line)
  : nat -> Z -> list (hunk line) -> nat -> list line -> Prop :=
| merged_end from offset : (from <= length target)%nat -> merged reach target from offset [] 0 (skipn from target)
| merged_hunk from offset h rest p moved out :
    (from <= p)%nat -> best_place h target (Z.of_nat (h_b h) + offset) p -> reach h (hd_error rest) target offset p ->
    merged reach target (p + length (h_old h)) (Z.of_nat p - Z.of_nat (h_b h)) rest moved out ->
    merged reach target from offset (h :: rest) (if Z.of_nat p =? Z.of_nat (h_b h) + offset then moved else S moved)
      (sub target from p ++ h_new h ++ out).

(* any distance *)
Definition anywhere (h : hunk line) (next : option (hunk line)) (target : list line) (offset : Z) (p : nat) : Prop := True.
(* Backward any distance; forward so that the lines to be changed would end before the place
   where the next hunk is expected if it had moved as much as the one before this one, moved on
   by the leading context; for the last hunk: so that something follows its changed lines. *)
Definition within_reach (h : hunk line) (next : option (hunk line)) (target : list line) (offset : Z) (p : nat) : Prop :=
  Z.of_nat p <= Z.of_nat (h_b h) + offset \/
  match next with
  | Some n => Z.of_nat p + core_length h < Z.of_nat (h_b n) + offset + Z.of_nat (h_lead h)
  | None => Z.of_nat p + core_length h < zlen target
  end.

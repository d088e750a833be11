(* Spec_Count.v - what the numbers of clumps in messages should be (used by C130). *)
From Verif Require Import Base Model_Text Model_Log Model_Count.
Local Open Scope Z_scope.

(* the 32-bit signed integer that equals [number] up to a multiple of 2^32 *)
Definition fits_in_32_bits (number shown : Z) : Prop :=
  - 2 ^ 31 <= shown < 2 ^ 31 /\ exists k, shown = number + k * 2 ^ 32.

(* the message [t] is the message [e] about a clump, apart from what [number] says of the numbers *)
Definition same_but_number (number : nat -> Z -> Prop) (e : event) (t : told) : Prop :=
  exists lv n v r o, e = Event Library lv (AboutClump n v r o) /\
    td_level t = lv /\ td_verdict t = v /\ td_reductions t = r /\ td_offset t = o /\ number n (td_number t).
(* the number is that of the clump *)
Definition true_number (n : nat) (shown : Z) : Prop := shown = Z.of_nat n.
Definition wrapped_number (n : nat) (shown : Z) : Prop := fits_in_32_bits (Z.of_nat n) shown.

(* there are fewer than 2^31 clumps *)
Definition countable {T} (clumps : list T) : Prop := Z.of_nat (length clumps) < 2 ^ 31.

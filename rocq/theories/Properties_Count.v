(* Properties_Count.v - the property theorems and a concrete case beside each; proofs are in
   Proof_Props_Count.v.  Generated by tools/mkthms.py. *)
From Coq Require Import String.
From Verif Require Import Proof_Props_Count Base Model_Seq Model_Changes Model_IO Model_Text Model_Bytes Model_Json Model_Files Model_Log Model_Count Spec Spec_Outcome Spec_Count Cases Proof_Log Proof_Count.
Local Open Scope Z_scope.

(* C130: counting clumps with an i32 should make no difference: a patch should be applied as it is
   with any other numbers, and a message should have the number of its clump. *)
Theorem C130_numbers_refuted : exists clumps target,
  (exists st, text_apply_into true clumps target false sink = (Done st, sink)) /\
  fst (snd (text_apply_counted true clumps target false sink)) = Panicked /\
  exists t, In t (fst (text_apply_counted false clumps target false sink)) /\ td_number t = -2147483648.
Proof. exact p_C130_numbers_refuted. Qed.
Print Assumptions C130_numbers_refuted.

(* It makes none in release builds, apart from the numbers, and none at all with fewer than 2^31
   clumps. *)
Theorem C130_text_partial : forall dbg clumps target reverse w, dbg = false \/ countable clumps ->
  snd (text_apply_counted dbg clumps target reverse w) = text_apply_into dbg clumps target reverse w /\
  Forall2 (same_but_number wrapped_number) (fst (text_apply_logged dbg clumps target reverse w)) (fst (text_apply_counted dbg clumps target reverse w)) /\
  (countable clumps ->
   Forall2 (same_but_number true_number) (fst (text_apply_logged dbg clumps target reverse w)) (fst (text_apply_counted dbg clumps target reverse w))).
Proof. exact p_C130_text_partial. Qed.
Print Assumptions C130_text_partial.

Theorem C130_bytes_partial : forall dbg clumps target reverse w, dbg = false \/ countable clumps ->
  snd (byte_apply_counted dbg clumps target reverse w) = byte_apply_into dbg clumps target reverse w /\
  Forall2 (same_but_number wrapped_number) (fst (byte_apply_logged dbg clumps target reverse w)) (fst (byte_apply_counted dbg clumps target reverse w)) /\
  (countable clumps ->
   Forall2 (same_but_number true_number) (fst (byte_apply_logged dbg clumps target reverse w)) (fst (byte_apply_counted dbg clumps target reverse w))).
Proof. exact p_C130_bytes_partial. Qed.
Print Assumptions C130_bytes_partial.

(* The queries likewise; in debug builds they may also end before the clump 2^31. *)
Theorem C130_queries_partial : forall dbg reverse,
  (forall clumps target, let (ev, answer) := text_query_logged dbg clumps target reverse 0 0 in
    let (said, answer') := text_query_counted dbg clumps target reverse 0 0 in
    (dbg = false \/ countable clumps \/ (exists b, answer = Ok b) /\ countable ev ->
     answer' = answer /\ Forall2 (same_but_number wrapped_number) ev said /\
     (countable clumps -> Forall2 (same_but_number true_number) ev said)) /\
    (dbg = true -> ~ countable ev -> (exists b, answer = Ok b) -> answer' = Panic)) /\
  (forall clumps target, let (ev, answer) := byte_query_logged clumps target reverse 0 in
    let (said, answer') := byte_query_counted dbg clumps target reverse 0 in
    (dbg = false \/ countable ev ->
     answer' = Ok answer /\ Forall2 (same_but_number wrapped_number) ev said /\
     (countable clumps -> Forall2 (same_but_number true_number) ev said)) /\
    (dbg = true -> ~ countable ev -> answer' = Panic)).
Proof. exact p_C130_queries_partial. Qed.
Print Assumptions C130_queries_partial.

(* In debug builds, a patch with 2^31 clumps or more that would be applied otherwise makes the
   program panic after 2^31 - 1 clumps, each of them reported with its number. *)
Theorem C130_debug : forall reverse w,
  (forall clumps target st w', ~ countable clumps -> text_apply_into true clumps target reverse w = (Done st, w') ->
     let '(said, (outcome, _)) := text_apply_counted true clumps target reverse w in
     outcome = Panicked /\ Z.of_nat (List.length said) = 2 ^ 31 - 1 /\
     Forall2 (same_but_number true_number) (firstn (List.length said) (fst (text_apply_logged true clumps target reverse w))) said) /\
  (forall clumps target st w', ~ countable clumps -> byte_apply_into true clumps target reverse w = (Done st, w') ->
     let '(said, (outcome, _)) := byte_apply_counted true clumps target reverse w in
     outcome = Panicked /\ Z.of_nat (List.length said) = 2 ^ 31 - 1 /\
     Forall2 (same_but_number true_number) (firstn (List.length said) (fst (byte_apply_logged true clumps target reverse w))) said).
Proof. exact p_C130_debug. Qed.
Print Assumptions C130_debug.

Example C130_example :
  let hs := [Hunk 1 1 0 (L "A B C ") 0 (L "A X C "); Hunk 1 1 4 (L "E F G ") 4 (L "E Y G "); Hunk 0 0 9 (L "P ") 9 (L "Q ")] in
  let clumps := map text_of_hunk hs in
  let target := L "Z A B C D E Y G H " in
  countable clumps /\
  fst (text_apply_counted true clumps target false sink) =
    [Told Warn 1 Applies None (Some 1); Told Warn 2 AlreadyApplied None None; Told Error 3 NotApplied None None] /\
  w_out (snd (snd (text_apply_counted true clumps target false sink))) = bs "Z A X C D E Y G <<<<<<< P ======= Q >>>>>>> H " /\
  text_query_counted true clumps (L "A X C D E Y G ") false 0 0 =
    ([Told Info 1 AlreadyApplied None None; Told Info 2 AlreadyApplied None None; Told Error 3 NotAlreadyApplied None None], Ok false) /\
  fst (text_clumps_counted false target false clumps 2147483646 0 0 stats0 sink) =
    [Told Warn 2147483647 Applies None (Some 1); Told Warn (-2147483648) AlreadyApplied None None; Told Error (-2147483647) NotApplied None None] /\
  fst (snd (text_clumps_counted true target false clumps 2147483646 0 0 stats0 sink)) = Panicked /\
  byte_apply_counted true (map byte_of_hunk [Hunk 0 0 1 (bs "bc") 1 (bs "xyz"); Hunk 0 0 3 (bs "q") 3 (bs "r")]) (bs "abcd") false sink =
    ([Told Info 1 Applies None None; Told Error 2 NotApplied None None], (Done tt, Writer (bs "axyzd") None)).
Proof. exact e_C130_example. Qed.

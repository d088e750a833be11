(* Properties_Work.v - the property theorems and a concrete case beside each; proofs are in
   Proof_Props_Work.v.  Generated by tools/mkthms.py. *)
From Coq Require Import String.
From Verif Require Import Proof_Props_Work Base Model_Seq Model_Changes Model_IO Model_Text Model_Cost Model_Work Spec Spec_Outcome Spec_Work Cases Proof_Seq Proof_IO Proof_Arith Proof_Text Proof_Apply Proof_Fuzzy Proof_Diff Proof_Merge Proof_Work Proof_Props_Text.
Local Open Scope Z_scope.

(* ------------------------------------------------------------------ C111 *)
(* The counting changes no result. *)
Theorem C111_same : forall dbg clumps target reverse w,
  snd (text_apply_into_c dbg clumps target reverse w) = text_apply_into dbg clumps target reverse w.
Proof. exact p_C111_same. Qed.
Print Assumptions C111_same.

(* C111, full statement: the number of comparisons and rounds made when a text patch is applied is
   at most proportional to the size of the patch and of the text.  It is false: one clump of one
   line, with a text of one line, makes it as large as the line number the clump states. *)
Theorem C111_work_refuted : forall dbg n w, Z.of_nat n < 2 ^ 60 ->
  exists c l, sn_items (tc_before c) = [bs "x "] /\ sn_items (tc_after c) = [bs "y "] /\ l = bs "z " /\ tc_context c = (0, 0) /\
    sn_start (tc_before c) = Z.of_nat n /\ sn_start (tc_after c) = Z.of_nat n /\
    (n <= fst (text_apply_into_c dbg [c] [l] false w))%nat.
Proof. exact p_C111_work_refuted. Qed.
Print Assumptions C111_work_refuted.

(* What does hold: a patch with hunks that lie within the first m lines, with at most k lines of
   context, takes at most 2 * ((k + 1) + (t + m + k + 3) * (2 k + 3)) for each hunk, where t is the
   number of lines of the text - forwards and backwards, whatever the text is.
   Missing: a bound that does not depend on the line numbers stated, which is false. *)
Theorem C111_work_partial : forall dbg hs target reverse w m k, Forall hunk_ok hs -> Forall (within m k) hs -> Z.of_nat m < 2 ^ 61 ->
  fits_lines target -> lines_fit hs ->
  (fst (text_apply_into_c dbg (map text_of_hunk hs) target reverse w) <=
     List.length hs * (2 * (k + 1 + (List.length target + m + k + 3) * (2 * k + 3))))%nat.
Proof. exact p_C111_work_partial. Qed.
Print Assumptions C111_work_partial.

(* In particular a saved diff of two texts: the work is at most proportional to the number of
   clumps, to the number of lines of the three texts together, and to the context. *)
Theorem C111_diff_partial : forall dbg b a context clumps target reverse w, (context <= 255)%nat -> fits_lines (b ++ a) -> fits_lines target ->
  text_diff_clumps b a context = Ok clumps ->
  (fst (text_apply_into_c dbg clumps target reverse w) <=
     List.length clumps * (2 * (context + 1 + (List.length target + Nat.max (List.length b) (List.length a) + context + 3) * (2 * context + 3))))%nat.
Proof. exact p_C111_diff_partial. Qed.
Print Assumptions C111_diff_partial.

(* The text a diff was made from takes one comparison for each clump, and so does the new text
   when the diff is applied in reverse. *)
Theorem C111_own_text : forall dbg b a context clumps, (context <= 255)%nat -> fits_lines b -> fits_lines a ->
  text_diff_clumps b a context = Ok clumps ->
  fst (text_apply_into_c dbg clumps b false (Writer [] None)) = List.length clumps /\
  fst (text_apply_into_c dbg clumps a true (Writer [] None)) = List.length clumps.
Proof. exact p_C111_own_text. Qed.
Print Assumptions C111_own_text.

(* The search for another place: if there is none, every place from the one reached on up to the
   limit is tried with every possible context, one further round being needed to see the end. *)
Theorem C111_search : forall dbg h target next n o, hunk_ok h -> fits_lines target -> (forall x, next = Some x -> hunk_ok x) ->
  - 2 ^ 61 <= o < 2 ^ 61 - 255 -> 0 <= n < 2 ^ 61 ->
  will_apply_nearby dbg (text_of_hunk h) target n (option_map text_of_hunk next) o false = Ok None ->
  let expected := Z.of_nat (h_b h) + o in
  let before := Z.to_nat (expected - n) in
  let beyond := Z.to_nat (search_limit h target next o - 1 - expected) in
  let tries := Nat.max 1 (Nat.max (h_lead h) (h_trail h)) in
  fst (will_apply_nearby_c dbg (text_of_hunk h) target n (option_map text_of_hunk next) o false) =
    (Nat.max before beyond + 1 + (before + beyond) * tries)%nat.
Proof. exact p_C111_search. Qed.
Print Assumptions C111_search.

(* two clumps that fit nowhere in a text of four lines: 38 where at most 2 * (2 * (2 + 17 * 5)) are
   claimed; both fit at once in the text they were made from; and a clump that states line 100 *)
Example C111_example : exists clumps,
  text_diff_clumps (L "a b c d e f g ") (L "a B B c d e G G g ") 1 = Ok clumps /\ List.length clumps = 2%nat /\
  fst (text_apply_into_c false clumps (L "p q r s ") false (Writer [] None)) = 38%nat /\
  fst (text_apply_into_c false clumps (L "a b c d e f g ") false (Writer [] None)) = 2%nat /\
  fst (text_apply_into_c true [text_of_hunk (Hunk 0 0 100 [bs "x "] 100 [bs "y "])] (L "z ") false (Writer [] None)) = 404%nat.
Proof. exact e_C111_example. Qed.

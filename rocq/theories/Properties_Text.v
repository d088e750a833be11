(* Properties_Text.v - the property theorems and a concrete case beside each; proofs are in
   Proof_Props_Text.v.  Generated by tools/mkthms.py. *)
From Coq Require Import String.
From Verif Require Import Proof_Props_Text Base Model_Seq Model_Changes Model_IO Model_Text Model_Bytes Spec Spec_Nearly Cases Proof_Seq Proof_Changes Proof_Clumps Proof_IO Proof_Diff Proof_Arith Proof_Text Proof_Nearby Proof_Apply Proof_Fuzzy Proof_Contained Proof_Term Proof_Nearly Proof_Props_Gen.

(* ------------------------------------------------------------------ C18 *)
(* C18, full statement: for all texts b, a and contexts, applying the diff of b and a to b
   writes exactly a.  It is false (a changed line can be missing from the diff, see C10). *)
Theorem C18_patch_gives_new_refuted : exists before after context clumps,
  text_diff_clumps before after context = Ok clumps /\
  forall dbg, exists out, text_apply_into dbg clumps before false (Writer [] None) = (Done (Stats (length clumps) 0 0 0 0), Writer out None) /\
    out <> concat after.
Proof. exact p_C18_patch_gives_new_refuted. Qed.
Print Assumptions C18_patch_gives_new_refuted.

(* What does hold: applying always succeeds cleanly, and writes exactly [after] if every
   block reported unchanged is unchanged, in particular without isolated mismatches.
   Missing: changes that the generator overlooks. *)
Theorem C18_patch_gives_new_partial : forall dbg before after context clumps cs,
  context <= 255 -> fits_lines before -> fits_lines after ->
  text_changes before after = Ok cs -> text_diff_clumps before after context = Ok clumps ->
  faithful before after cs \/ no_isolated_mismatch before after ->
  text_apply_into dbg clumps before false (Writer [] None) = (Done (Stats (length clumps) 0 0 0 0), Writer (concat after) None).
Proof. exact p_C18_patch_gives_new_partial. Qed.
Print Assumptions C18_patch_gives_new_partial.

(* the same on file contents: if the files are valid texts, patching the first content gives
   the second byte for byte *)
Theorem C18_patch_file_partial : forall dbg tb ta before after context clumps,
  context <= 255 -> lines_of tb before -> lines_of ta after -> fits_lines before -> fits_lines after ->
  no_isolated_mismatch before after -> text_diff_clumps before after context = Ok clumps ->
  text_apply_into dbg clumps before false (Writer [] None) = (Done (Stats (length clumps) 0 0 0 0), Writer ta None).
Proof. exact p_C18_patch_file_partial. Qed.
Print Assumptions C18_patch_file_partial.

(* for all texts, without conditions: the patch applies cleanly and the result has the lines of
   [after], except for lines that are still those of [before], each different from its
   counterpart and directly between two equal pairs of lines *)
Theorem C18_patch_nearly_new_partial : forall dbg before after context clumps,
  context <= 255 -> fits_lines before -> fits_lines after -> text_diff_clumps before after context = Ok clumps ->
  exists out, nearly before after out /\
    text_apply_into dbg clumps before false (Writer [] None) = (Done (Stats (length clumps) 0 0 0 0), Writer (concat out) None).
Proof. exact p_C18_patch_nearly_new_partial. Qed.
Print Assumptions C18_patch_nearly_new_partial.

Example C18_nearly_example :
  let b := L "A B C X D " in let a := L "A B C Y D E " in
  isolated b a 2 2 /\ nearly b a (L "A B C X D E ") /\
  exists clumps, text_diff_clumps b a 1 = Ok clumps /\
    text_apply_into true clumps b false (Writer [] None) = (Done (Stats 1 0 0 0 0), Writer (bs "A B C X D E ") None).
Proof. exact e_C18_nearly_example. Qed.

Example C18_example :
  let b := L "A B C D E F G" in let a := L "X B C Y Z E F G " in
  no_isolated_mismatch b a /\ fits_lines b /\ fits_lines a /\ lines_of (bs "A B C D E F G") b /\
  exists clumps, text_diff_clumps b a 1 = Ok clumps /\ length clumps = 3 /\
    text_apply_into true clumps b false (Writer [] None) = (Done (Stats 3 0 0 0 0), Writer (bs "X B C Y Z E F G ") None).
Proof. exact e_C18_example. Qed.

(* ------------------------------------------------------------------ C19 *)
(* C19, full statement: applying the diff of b and a in reverse to a writes exactly b.
   It is false for the same reason. *)
Theorem C19_reverse_gives_old_refuted : exists before after context clumps,
  text_diff_clumps before after context = Ok clumps /\
  forall dbg, exists out, text_apply_into dbg clumps after true (Writer [] None) = (Done (Stats (length clumps) 0 0 0 0), Writer out None) /\
    out <> concat before.
Proof. exact p_C19_reverse_gives_old_refuted. Qed.
Print Assumptions C19_reverse_gives_old_refuted.

(* What does hold, under the same condition as C18.  Missing: overlooked changes. *)
Theorem C19_reverse_gives_old_partial : forall dbg before after context clumps cs,
  context <= 255 -> fits_lines before -> fits_lines after ->
  text_changes before after = Ok cs -> text_diff_clumps before after context = Ok clumps ->
  faithful before after cs \/ no_isolated_mismatch before after ->
  text_apply_into dbg clumps after true (Writer [] None) = (Done (Stats (length clumps) 0 0 0 0), Writer (concat before) None).
Proof. exact p_C19_reverse_gives_old_partial. Qed.
Print Assumptions C19_reverse_gives_old_partial.

(* for all texts, without conditions, as for C18 *)
Theorem C19_reverse_nearly_old_partial : forall dbg before after context clumps,
  context <= 255 -> fits_lines before -> fits_lines after -> text_diff_clumps before after context = Ok clumps ->
  exists out, nearly after before out /\
    text_apply_into dbg clumps after true (Writer [] None) = (Done (Stats (length clumps) 0 0 0 0), Writer (concat out) None).
Proof. exact p_C19_reverse_nearly_old_partial. Qed.
Print Assumptions C19_reverse_nearly_old_partial.

Example C19_example :
  let b := L "A B C D E F G" in let a := L "X B C Y Z E F G " in
  exists clumps, text_diff_clumps b a 1 = Ok clumps /\
    text_apply_into true clumps a true (Writer [] None) = (Done (Stats 3 0 0 0 0), Writer (bs "A B C D E F G") None).
Proof. exact e_C19_example. Qed.

(* ------------------------------------------------------------------ C20 *)
(* C20: for all texts, a text diff applies cleanly to the text it was made from and replaces
   exactly the lines of each clump; likewise in reverse for the other text. *)
Theorem C20_own_text : forall dbg before after context clumps,
  context <= 255 -> fits_lines before -> fits_lines after -> text_diff_clumps before after context = Ok clumps ->
  exists hs, clumps = map text_of_hunk hs /\
    text_apply_into dbg clumps before false (Writer [] None) = (Done (Stats (length clumps) 0 0 0 0), Writer (concat (patched before 0 hs)) None) /\
    text_apply_into dbg clumps after true (Writer [] None) = (Done (Stats (length clumps) 0 0 0 0), Writer (concat (patched after 0 (map swap_hunk hs))) None).
Proof. exact p_C20_own_text. Qed.
Print Assumptions C20_own_text.

(* and the result is the other text exactly when every line left out of the diff is the same
   on both sides *)
Theorem C20_own_text_exact : forall before after context hs,
  context <= 255 -> fits_lines before -> fits_lines after -> text_diff_clumps before after context = Ok (map text_of_hunk hs) ->
  (patched before 0 hs = after <-> cover context (equal_gap before after) before after 0 0 hs).
Proof. exact p_C20_own_text_exact. Qed.
Print Assumptions C20_own_text_exact.

Example C20_example :
  text_diff_clumps (L "A B C X D ") (L "A B C Y D E ") 1 = Ok (map text_of_hunk [Hunk 1 0 4 (L "D ") 4 (L "D E ")]) /\
  patched (L "A B C X D ") 0 [Hunk 1 0 4 (L "D ") 4 (L "D E ")] = L "A B C X D E ".
Proof. exact e_C20_example. Qed.

(* ------------------------------------------------------------------ C21 *)
(* C21: for all texts, the diff of b and a is recognised as already applied to a, and in
   reverse as already applied to b. *)
Theorem C21_already_applied : forall dbg before after context clumps,
  context <= 255 -> fits_lines before -> fits_lines after -> text_diff_clumps before after context = Ok clumps ->
  text_is_already_applied dbg clumps after false = Ok true /\
  text_is_already_applied dbg clumps before true = Ok true.
Proof. exact p_C21_already_applied. Qed.
Print Assumptions C21_already_applied.

Example C21_example :
  let b := L "A B C D E F G" in let a := L "X B C Y Z E F G " in
  exists clumps, text_diff_clumps b a 1 = Ok clumps /\ text_is_already_applied true clumps a false = Ok true /\
    text_is_already_applied true clumps b false = Ok false.
Proof. exact e_C21_example. Qed.

(* ------------------------------------------------------------------ C22 *)
(* C22, full statement: applying the diff of b and a to a writes a unchanged, counting all
   clumps as already applied.  It is false: an addition is applied again ... *)
Theorem C22_reapply_refuted : exists before after context clumps,
  text_diff_clumps before after context = Ok clumps /\
  forall dbg, text_apply_into dbg clumps after false (Writer [] None) = (Done (Stats 1 0 0 0 0), Writer (concat (after ++ after)) None) /\
    after <> [].
Proof. exact p_C22_reapply_refuted. Qed.
Print Assumptions C22_reapply_refuted.

(* ... and re-applying can panic in both build modes *)
Theorem C22_reapply_panics_refuted : exists before after context clumps,
  text_diff_clumps before after context = Ok clumps /\
  forall dbg, fst (text_apply_into dbg clumps after false (Writer [] None)) = Panicked.
Proof. exact p_C22_reapply_panics_refuted. Qed.
Print Assumptions C22_reapply_panics_refuted.

(* What does hold: if no clump fits the new text (even with reduced context), re-applying
   leaves it alone.  The condition on core_length is needed for debug builds only (C27).
   Missing: clumps that also fit the new text. *)
Theorem C22_reapply_partial : forall dbg before after context hs,
  context <= 255 -> fits_lines before -> fits_lines after ->
  text_diff_clumps before after context = Ok (map text_of_hunk hs) ->
  Forall (fun h => ~ fits_somewhere h after /\ (dbg = true -> (core_length h <= zlen after)%Z)) hs ->
  text_apply_into dbg (map text_of_hunk hs) after false (Writer [] None) = (Done (Stats 0 0 (length hs) 0 0), Writer (concat after) None).
Proof. exact p_C22_reapply_partial. Qed.
Print Assumptions C22_reapply_partial.

Example C22_example :
  let b := L "A B C D E F G" in let a := L "X B C Y Z E F G " in
  let hs := [Hunk 0 1 0 (L "A B ") 0 (L "X B "); Hunk 1 1 2 (L "C D E ") 2 (L "C Y Z E "); Hunk 1 0 5 (L "F G") 6 (L "F G ")] in
  text_diff_clumps b a 1 = Ok (map text_of_hunk hs) /\
  Forall (fun h => ~ fits_somewhere h a /\ (true = true -> (core_length h <= zlen a)%Z)) hs.
Proof. exact e_C22_example. Qed.

(* ------------------------------------------------------------------ C23 *)
(* C23: whenever applying any list of clumps finishes, the counters add up to its length. *)
Theorem C23_all_accounted : forall dbg clumps target reverse w st w',
  text_apply_into dbg clumps target reverse w = (Done st, w') -> stats_total st = length clumps.
Proof. exact p_C23_all_accounted. Qed.
Print Assumptions C23_all_accounted.

Example C23_example :
  let clumps := map text_of_hunk [Hunk 0 0 0 (L "A ") 0 (L "B "); Hunk 0 0 4 (L "Q ") 4 (L "R ")] in
  exists out, text_apply_into true clumps (L "A P P P ") false (Writer [] None) = (Done (Stats 1 0 0 0 1), Writer out None).
Proof. exact e_C23_example. Qed.

(* ------------------------------------------------------------------ C24 *)
(* C24: the applicability decision is the one specified, forward and reverse, and the
   specification determines it. *)
Theorem C24_decision : forall dbg h target offset, hunk_ok h -> (- (2 * two61) <= offset <= 2 * two61)%Z ->
  (exists x, will_apply dbg (text_of_hunk h) target offset false = Ok x /\ decision h target (Z.of_nat (h_b h) + offset) x) /\
  (exists x, will_apply dbg (text_of_hunk h) target offset true = Ok x /\ decision (swap_hunk h) target (Z.of_nat (h_a h) + offset) x).
Proof. exact p_C24_decision. Qed.
Print Assumptions C24_decision.

Theorem C24_decision_unique : forall h target pos x y, decision h target pos x -> decision h target pos y -> x = y.
Proof. exact p_C24_decision_unique. Qed.
Print Assumptions C24_decision_unique.

(* two lines of context, the outermost leading one altered in the target *)
Example C24_example :
  let h := Hunk 2 2 1 (L "Q R X S T ") 1 (L "Q R Y S T ") in
  hunk_ok h /\ will_apply true (text_of_hunk h) (L "P q R X S T ") 0 false = Ok (Some (WithReductions (1, 1)%Z)) /\
  will_apply true (text_of_hunk h) (L "P Q R X S T ") 0 false = Ok (Some Cleanly) /\
  will_apply true (text_of_hunk h) (L "P q r X S T ") 0 false = Ok None /\
  will_apply true (text_of_hunk h) (L "q R X S T ") (-1) false = Ok (Some (WithReductions (1, 1)%Z)).
Proof. exact e_C24_example. Qed.

(* ------------------------------------------------------------------ C25 *)
(* C25: the nearby search returns the nearest applicable position in its window (backward
   first), or nothing if there is none.  The last hypothesis concerns debug builds only: the
   limit of the search must not be negative (otherwise the subtraction panics, C27). *)
Theorem C25_nearest : forall dbg h next target consumed offset,
  hunk_ok h -> match next with Some x => hunk_ok x | None => True end -> fits_lines target ->
  (- two61 <= offset < two61 - 255)%Z -> (0 <= consumed < two61)%Z ->
  (dbg = true -> (0 <= search_limit h target next offset)%Z) ->
  exists x, will_apply_nearby dbg (text_of_hunk h) target consumed (option_map text_of_hunk next) offset false = Ok x /\
    nearest h target (Z.of_nat (h_b h) + offset) consumed (search_limit h target next offset) x.
Proof. exact p_C25_nearest. Qed.
Print Assumptions C25_nearest.

Theorem C25_nearest_reverse : forall dbg h next target consumed offset,
  hunk_ok h -> match next with Some x => hunk_ok x | None => True end -> fits_lines target ->
  (- two61 <= offset < two61 - 255)%Z -> (0 <= consumed < two61)%Z ->
  (dbg = true -> (0 <= search_limit (swap_hunk h) target (option_map swap_hunk next) offset)%Z) ->
  exists x, will_apply_nearby dbg (text_of_hunk h) target consumed (option_map text_of_hunk next) offset true = Ok x /\
    nearest (swap_hunk h) target (Z.of_nat (h_a h) + offset) consumed (search_limit (swap_hunk h) target (option_map swap_hunk next) offset) x.
Proof. exact p_C25_nearest_reverse. Qed.
Print Assumptions C25_nearest_reverse.

Theorem C25_nearest_unique : forall h target expected lowest limit x y,
  nearest h target expected lowest limit x -> nearest h target expected lowest limit y -> x = y.
Proof. exact p_C25_nearest_unique. Qed.
Print Assumptions C25_nearest_unique.

(* the nearest is taken; of two equally near candidates the backward one, if not consumed *)
Example C25_example :
  let h := Hunk 0 0 3 (L "X ") 3 (L "Y ") in
  hunk_ok h /\ will_apply_nearby true (text_of_hunk h) (L "X X A B X P ") 0 None 0 false = Ok (Some (1%Z, Cleanly)) /\
  will_apply_nearby true (text_of_hunk h) (L "A X A B C X P Q ") 0 None 0 false = Ok (Some ((-2)%Z, Cleanly)) /\
  will_apply_nearby true (text_of_hunk h) (L "A X A B C X P Q ") 2 None 0 false = Ok (Some (2%Z, Cleanly)).
Proof. exact e_C25_example. Qed.

(* ------------------------------------------------------------------ C26 *)
(* C26, full statement: applying with reductions (r,s) writes the after-lines of the clump
   without the first r and last s lines (sub (h_new h) r (length - s)).
   It is false: the positions of the after file are used to index the clump's own lines
   (apply_text.rs:73-90 with changes.rs:30-39), so the wrong lines are written ... *)
Theorem C26_reduced_lines_refuted : exists before after context h target r s out,
  text_diff_clumps before after context = Ok [text_of_hunk h] /\
  forall dbg, will_apply dbg (text_of_hunk h) target 0 false = Ok (Some (WithReductions (Z.of_nat r, Z.of_nat s))) /\
    after_write_into dbg (text_of_hunk h) (Some (Z.of_nat r, Z.of_nat s)) false (Writer [] None) = (Done tt, Writer out None) /\
    out <> concat (sub (h_new h) r (length (h_new h) - s)).
Proof. exact p_C26_reduced_lines_refuted. Qed.
Print Assumptions C26_reduced_lines_refuted.

(* ... or the slice is out of bounds and the program panics *)
Theorem C26_reduced_lines_panic_refuted : exists before after context h target r s,
  text_diff_clumps before after context = Ok [text_of_hunk h] /\
  forall dbg, will_apply dbg (text_of_hunk h) target 0 false = Ok (Some (WithReductions (Z.of_nat r, Z.of_nat s))) /\
    fst (after_write_into dbg (text_of_hunk h) (Some (Z.of_nat r, Z.of_nat s)) false (Writer [] None)) = Panicked.
Proof. exact p_C26_reduced_lines_panic_refuted. Qed.
Print Assumptions C26_reduced_lines_panic_refuted.

(* What does hold, for every clump and every reduction k >= 1: exactly [shown_window h k] is
   written if the after position of the clump does not exceed the trailing reduction, and
   otherwise it panics; the window is the right one for clumps at the start of the file.
   Missing: the right lines at any other position. *)
Theorem C26_reduced_lines_partial : forall dbg h k, hunk_ok h -> 1 <= k ->
  let r := Nat.min k (h_lead h) in let s := Nat.min k (h_trail h) in
  after_write_into dbg (text_of_hunk h) (Some (Z.of_nat r, Z.of_nat s)) false (Writer [] None) =
    (if h_a h <=? s then (Done tt, Writer (concat (shown_window h k)) None) else (Panicked, Writer [] None)) /\
  (h_a h = 0 -> shown_window h k = sub (h_new h) r (length (h_new h) - s)).
Proof. exact p_C26_reduced_lines_partial. Qed.
Print Assumptions C26_reduced_lines_partial.

(* without reductions the after-lines are written as they are *)
Theorem C26_no_reduction : forall dbg h,
  after_write_into dbg (text_of_hunk h) None false (Writer [] None) = (Done tt, Writer (concat (h_new h)) None).
Proof. exact p_C26_no_reduction. Qed.
Print Assumptions C26_no_reduction.

Example C26_example :
  let h := Hunk 2 2 0 (L "Q R X S T ") 0 (L "Q R Y Z S T ") in
  after_write_into true (text_of_hunk h) (Some (1, 1)%Z) false (Writer [] None) = (Done tt, Writer (bs "R Y Z S ") None).
Proof. exact e_C26_example. Qed.

(* ------------------------------------------------------------------ C27 *)
(* C27, full statement: applying a text diff to any text never panics.  It is false, in both
   build modes ... *)
Theorem C27_no_panic_refuted : exists before after context clumps target,
  text_diff_clumps before after context = Ok clumps /\
  forall dbg, fst (text_apply_into dbg clumps target false (Writer [] None)) = Panicked.
Proof. exact p_C27_no_panic_refuted. Qed.
Print Assumptions C27_no_panic_refuted.

(* ... and, in debug builds, even when the target is empty *)
Theorem C27_no_panic_debug_refuted : exists before after context clumps,
  text_diff_clumps before after context = Ok clumps /\
  fst (text_apply_into true clumps [] true (Writer [] None)) = Panicked /\
  fst (text_apply_into false clumps [] true (Writer [] None)) = Done (Stats 0 0 1 0 0).
Proof. exact p_C27_no_panic_debug_refuted. Qed.
Print Assumptions C27_no_panic_debug_refuted.

(* What does hold: no panic for a diff whose clumps are [calm] on the target (see Spec.v; in a
   release build: no clump is seen as already applied, and context <= 1 suffices for the rest).
   Missing: reduced context at positions > trailing reduction, already-applied clumps, and
   debug underflow. *)
Theorem C27_no_panic_partial : forall dbg before after context hs target,
  context <= 255 -> fits_lines before -> fits_lines after -> fits_lines target ->
  text_diff_clumps before after context = Ok (map text_of_hunk hs) ->
  Forall (calm dbg target) hs ->
  exists out st, text_apply_into dbg (map text_of_hunk hs) target false (Writer [] None) = (Done st, Writer out None) /\
    st_already st = 0 /\ st_already_fuzzy st = 0.
Proof. exact p_C27_no_panic_partial. Qed.
Print Assumptions C27_no_panic_partial.

Example C27_example :
  let b := L "A B C D E F G " in let a := L "A B X Y D E F Z " in let target := L "P Q A B C D E f G " in
  let hs := [Hunk 1 1 1 (L "B C D ") 1 (L "B X Y D "); Hunk 1 0 5 (L "F G ") 6 (L "F Z ")] in
  text_diff_clumps b a 1 = Ok (map text_of_hunk hs) /\ Forall (calm true target) hs /\
  exists out, text_apply_into true (map text_of_hunk hs) target false (Writer [] None) = (Done (Stats 0 1 0 0 1), Writer out None).
Proof. exact e_C27_example. Qed.

(* ------------------------------------------------------------------ C28 *)
(* C28, full statement: if no clump is counted as already applied, the output is the target
   with each placed clump's matched lines replaced by its trimmed new lines and conflict
   blocks inserted: rendered trimmed_new target 0 hs out.
   It is false (C26): a line of the target is lost and another doubled. *)
Theorem C28_nothing_lost_refuted : exists before after context hs target out,
  text_diff_clumps before after context = Ok (map text_of_hunk hs) /\
  (forall dbg, text_apply_into dbg (map text_of_hunk hs) target false (Writer [] None) = (Done (Stats 0 1 0 0 0), Writer out None)) /\
  In (bs "R ") target /\ ~ In (bs "R ") (split_lines out) /\ ~ rendered trimmed_new target 0 hs out.
Proof. exact p_C28_nothing_lost_refuted. Qed.
Print Assumptions C28_nothing_lost_refuted.

(* What does hold for every diff: the output is the target with the matched lines replaced by
   what C26 says is written, and nothing else is lost or reordered; with context <= 1 or
   clumps at the start of the file those are the right lines.
   Missing: the right lines for reduced context elsewhere. *)
Theorem C28_nothing_lost_partial : forall dbg before after context hs target out st,
  context <= 255 -> fits_lines before -> fits_lines after -> fits_lines target ->
  text_diff_clumps before after context = Ok (map text_of_hunk hs) ->
  text_apply_into dbg (map text_of_hunk hs) target false (Writer [] None) = (Done st, Writer out None) ->
  st_already st = 0 -> st_already_fuzzy st = 0 ->
  rendered shown_window target 0 hs out /\
  (Forall (fun h => Nat.max (h_lead h) (h_trail h) <= 1 \/ h_a h = 0) hs -> rendered trimmed_new target 0 hs out) /\
  (st_fuzzy st = 0 -> st_failed st = 0 -> st_clean st = length hs).
Proof. exact p_C28_nothing_lost_partial. Qed.
Print Assumptions C28_nothing_lost_partial.

(* if no clump fits the target in either direction, all are counted as failed and the output
   is the conflict blocks followed by the whole target *)
Theorem C28_no_clump_fits_partial : forall dbg before after context hs target,
  context <= 255 -> fits_lines before -> fits_lines after -> fits_lines target ->
  text_diff_clumps before after context = Ok (map text_of_hunk hs) ->
  Forall (calm dbg target) hs -> Forall (fun h => ~ fits_somewhere h target) hs ->
  text_apply_into dbg (map text_of_hunk hs) target false (Writer [] None) =
    (Done (Stats 0 0 0 0 (length hs)), Writer (concat (map conflict_block hs) ++ concat target) None).
Proof. exact p_C28_no_clump_fits_partial. Qed.
Print Assumptions C28_no_clump_fits_partial.

Example C28_example :
  let b := L "A B C D E F G " in let a := L "A B X Y D E F Z " in let target := L "P Q A B C D E f G " in
  let hs := [Hunk 1 1 1 (L "B C D ") 1 (L "B X Y D "); Hunk 1 0 5 (L "F G ") 6 (L "F Z ")] in
  text_apply_into true (map text_of_hunk hs) target false (Writer [] None) =
    (Done (Stats 0 1 0 0 1), Writer (bs "P Q A B X Y D <<<<<<< F G ======= F Z >>>>>>> E f G ") None) /\
  Forall (fun h => Nat.max (h_lead h) (h_trail h) <= 1 \/ h_a h = 0) hs.
Proof. exact e_C28_example. Qed.

Theorem C29_write_errors : forall dbg clumps target reverse, exists o r, r <> IoErr /\
  (forall out, text_apply_into dbg clumps target reverse (Writer out None) = (r, Writer (out ++ o) None)) /\
  (forall out n, text_apply_into dbg clumps target reverse (Writer out (Some n)) =
     if length o <=? n then (r, Writer (out ++ o) (Some (n - length o))) else (IoErr, Writer (out ++ firstn n o) (Some 0))).
Proof. exact p_C29_write_errors. Qed.
Print Assumptions C29_write_errors.

Example C29_example :
  let clumps := map text_of_hunk [Hunk 0 0 1 (L "B ") 1 (L "XY ")] in
  text_apply_into true clumps (L "A B C ") false (Writer [] (Some 4)) = (IoErr, Writer (bs "A XY") (Some 0)) /\
  text_apply_into true clumps (L "A B C ") false (Writer [] (Some 7)) = (Done (Stats 1 0 0 0 0), Writer (bs "A XY C ") (Some 0)).
Proof. exact e_C29_example. Qed.

(* ------------------------------------------------------------------ C30 *)
(* C30: applying in reverse is applying the swapped clumps forward, in every respect. *)
Theorem C30_reverse_is_swap : forall dbg clumps target,
  (forall w, text_apply_into dbg clumps target true w = text_apply_into dbg (map swap_clump clumps) target false w) /\
  text_is_already_applied dbg clumps target true = text_is_already_applied dbg (map swap_clump clumps) target false.
Proof. exact p_C30_reverse_is_swap. Qed.
Print Assumptions C30_reverse_is_swap.

Example C30_example :
  let clumps := map text_of_hunk [Hunk 0 0 1 (L "B ") 1 (L "X Y ")] in
  text_apply_into true clumps (L "A X Y C ") true (Writer [] None) = (Done (Stats 1 0 0 0 0), Writer (bs "A B C ") None).
Proof. exact e_C30_example. Qed.

(* ------------------------------------------------------------------ C50 *)
(* C50, full statement: if non-empty lines [prefix] are put in front of the text and the only
   clump's before-lines occur only at the displaced place, patching gives prefix ++ after and
   counts one fuzzy clump.  It is false: the forward search stops before the last position. *)
Theorem C50_displaced_refuted : exists before after context h prefix,
  text_diff_clumps before after context = Ok [text_of_hunk h] /\ prefix <> [] /\
  (forall pos k, admissible h k -> occurs_trimmed h (prefix ++ before) pos k -> pos = Z.of_nat (length prefix + h_b h)) /\
  (forall dbg, exists out, text_apply_into dbg [text_of_hunk h] (prefix ++ before) false (Writer [] None) = (Done (Stats 0 0 0 0 1), Writer out None)).
Proof. exact p_C50_displaced_refuted. Qed.
Print Assumptions C50_displaced_refuted.

(* What does hold: displaced patching works whenever something of the original text follows
   the clump's changed lines (trailing context counts).  [patched before 0 [h]] is the new
   text under the conditions of C18.  Missing: a clump without trailing context at the end. *)
Theorem C50_displaced_partial : forall dbg before after context h prefix,
  context <= 255 -> fits_lines before -> fits_lines after -> fits_lines (prefix ++ before) ->
  text_diff_clumps before after context = Ok [text_of_hunk h] -> prefix <> [] ->
  (Z.of_nat (h_b h) + core_length h < zlen before)%Z ->
  (forall pos k, admissible h k -> occurs_trimmed h (prefix ++ before) pos k -> pos = Z.of_nat (length prefix + h_b h)) ->
  text_apply_into dbg [text_of_hunk h] (prefix ++ before) false (Writer [] None) =
    (Done (Stats 0 1 0 0 0), Writer (concat (prefix ++ patched before 0 [h])) None) /\
  (no_isolated_mismatch before after -> patched before 0 [h] = after).
Proof. exact p_C50_displaced_partial. Qed.
Print Assumptions C50_displaced_partial.

Example C50_example :
  let b := L "A B C D " in let a := L "A X Y D " in let h := Hunk 1 1 0 (L "A B C D ") 0 (L "A X Y D ") in
  text_diff_clumps b a 1 = Ok [text_of_hunk h] /\ (Z.of_nat (h_b h) + core_length h < zlen b)%Z /\
  (forall pos k, admissible h k -> occurs_trimmed h (L "P Q " ++ b) pos k -> pos = Z.of_nat (length (L "P Q ") + h_b h)) /\
  text_apply_into true [text_of_hunk h] (L "P Q " ++ b) false (Writer [] None) = (Done (Stats 0 1 0 0 0), Writer (bs "P Q A X Y D ") None).
Proof. exact e_C50_example. Qed.

(* ------------------------------------------------------------------ C54 *)
(* C54: applying any text patch at all (not only one made by the generator) to any text comes
   to an end: the search never runs out of the rounds the model allows it, and allowing it
   more rounds changes nothing. *)
Theorem C54_terminates : forall dbg clumps target reverse, patch_fits clumps -> fits_lines target ->
  (forall w, fst (text_apply_into dbg clumps target reverse w) <> NoFuel) /\
  text_is_already_applied dbg clumps target reverse <> OutOfFuel.
Proof. exact p_C54_terminates. Qed.
Print Assumptions C54_terminates.

Theorem C54_rounds_irrelevant : forall dbg c target consumed not_after offset reverse n, (0 <= consumed < two63)%Z ->
  nearby_fuel c consumed not_after offset reverse <= n ->
  nearby_loop dbg n c target consumed not_after offset reverse 1 false false =
  nearby_loop dbg (nearby_fuel c consumed not_after offset reverse) c target consumed not_after offset reverse 1 false false.
Proof. exact p_C54_rounds_irrelevant. Qed.
Print Assumptions C54_rounds_irrelevant.

Example C54_example :
  let clumps := [TextClump (0, 0)%Z (Snippet 18446744073709551615%Z (L "A ")) (Snippet 7 (L "B "))] in
  patch_fits clumps /\ text_apply_into false clumps (L "A C D ") false sink = (Done (Stats 0 1 0 0 0), Writer (bs "B C D ") None) /\
  text_apply_into false clumps (L "C D E ") false sink = (Done (Stats 0 0 0 0 1), Writer (bs "<<<<<<< A ======= B >>>>>>> C D E ") None).
Proof. exact e_C54_example. Qed.

(* ------------------------------------------------------------------ C55 *)
(* C55, full statement: the search for a displaced clump tries at most about as many positions
   as the text has lines.  It is false: a patch whose clump claims to be at line 2^62 keeps the
   search busy for 2^61 rounds on a one-line text. *)
Theorem C55_search_length_refuted : exists c target, patch_fits [c] /\ length target = 1 /\
  forall dbg n, (Z.of_nat n < two61)%Z -> nearby_not_after dbg c target None 0 false = Ok 0%Z /\
  ~ search_ends_within n dbg c target 0 0 0 false.
Proof. exact p_C55_search_length_refuted. Qed.
Print Assumptions C55_search_length_refuted.

(* What does hold: for a clump whose expected position lies within the text the search ends
   within length + 2 rounds. *)
Theorem C55_search_length_partial : forall dbg c target consumed not_after offset reverse, fits_lines target ->
  (0 <= consumed <= zlen target)%Z -> (0 <= not_after <= zlen target)%Z ->
  (0 <= as_isize (before_start c reverse) + offset <= zlen target)%Z ->
  search_ends_within (length target + 2) dbg c target consumed not_after offset reverse.
Proof. exact p_C55_search_length_partial. Qed.
Print Assumptions C55_search_length_partial.

Example C55_example :
  let c := TextClump (0, 0)%Z (Snippet 2 (L "A ")) (Snippet 2 (L "X ")) in
  search_ends_within 7 true c (L "A B C D E ") 0 4 0 false /\
  will_apply_nearby true c (L "A B C D E ") 0 None 0 false = Ok (Some (-2, Cleanly)%Z).
Proof. exact e_C55_example. Qed.

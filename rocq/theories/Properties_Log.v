(* Properties_Log.v - the property theorems and a concrete case beside each; proofs are in
   Proof_Props_Log.v.  Generated by tools/mkthms.py. *)
From Coq Require Import String.
From Verif Require Import Proof_Props_Log Base Model_Seq Model_Changes Model_IO Model_Text Model_Bytes Model_Json Model_Files Model_Log Spec Spec_Outcome Spec_Files Spec_Log Cases Proof_Text Proof_Bytes Proof_Apply Proof_Outcome Proof_Log Proof_LogMain Proof_Files Proof_Props_Files.

(* C83: the messages about the clumps of a text patch are the reports on their true fates, one
   for each clump in order until the run stops; if it completes there is one for every clump and
   the statistics count them. *)
Theorem C83_text : forall dbg hs target w, Forall hunk_ok hs -> lines_fit hs -> fits_lines target ->
  exists l, fates dbg target 0 0 hs l /\ (forall l', fates dbg target 0 0 hs l' -> length l' = length l -> l' = l) /\
    fst (text_apply_logged dbg (map text_of_hunk hs) target false w) = reports 0 0 l /\
    forall st w', text_apply_into dbg (map text_of_hunk hs) target false w = (Done st, w') -> length l = length hs /\ st = tally l.
Proof. exact p_C83_text. Qed.
Print Assumptions C83_text.

Theorem C83_text_reverse : forall dbg hs target w, Forall hunk_ok hs -> lines_fit hs -> fits_lines target ->
  exists l, fates dbg target 0 0 (map swap_hunk hs) l /\ (forall l', fates dbg target 0 0 (map swap_hunk hs) l' -> length l' = length l -> l' = l) /\
    fst (text_apply_logged dbg (map text_of_hunk hs) target true w) = reports 0 0 l /\
    forall st w', text_apply_into dbg (map text_of_hunk hs) target true w = (Done st, w') -> length l = length hs /\ st = tally l.
Proof. exact p_C83_text_reverse. Qed.
Print Assumptions C83_text_reverse.

(* bytes: likewise *)
Theorem C83_bytes : forall dbg hs target (reverse : bool) w,
  let mine := if reverse then map swap_hunk hs else hs in
  let ev := fst (byte_apply_logged dbg (map byte_of_hunk hs) target reverse w) in
  (exists k, ev = firstn k (byte_reports target 0 mine)) /\
  (forall u w', byte_apply_into dbg (map byte_of_hunk hs) target reverse w = (Done u, w') -> ev = byte_reports target 0 mine).
Proof. exact p_C83_bytes. Qed.
Print Assumptions C83_bytes.

(* the messages of the already-applied queries: one for each clump found applied, in order, none
   of them an error, and an error for the clump with which the query fails *)
Theorem C83_queries : forall dbg clumps target reverse,
  let (ev, r) := text_query_logged dbg clumps target reverse 0 0 in
  r = text_is_already_applied dbg clumps target reverse /\
  forall b, r = Ok b -> exists found,
    ev = found ++ (if b then [] else [Event Library Error (AboutClump (S (length found)) NotAlreadyApplied None None)]) /\
    (if b then length found = length clumps else length found < length clumps) /\
    forall i e, nth_error found i = Some e -> exists lv x y, e = Event Library lv (AboutClump (S i) AlreadyApplied x y) /\ lv <> Error.
Proof. exact p_C83_queries. Qed.
Print Assumptions C83_queries.

(* for clumps that are not beyond all bounds, the messages are exactly those of [all_reported] *)
Theorem C83_queries_exact : forall dbg hs target (reverse : bool), Forall hunk_ok hs -> fits_lines target ->
  let mine := if reverse then map swap_hunk hs else hs in
  exists ev r, all_reported dbg target 0 0 mine ev r /\ (forall ev' r', all_reported dbg target 0 0 mine ev' r' -> ev' = ev /\ r' = r) /\
    text_query_logged dbg (map text_of_hunk hs) target reverse 0 0 = (ev, match r with Some b => Ok b | None => Panic end).
Proof. exact p_C83_queries_exact. Qed.
Print Assumptions C83_queries_exact.

Theorem C83_byte_queries : forall clumps target reverse,
  let (ev, r) := byte_query_logged clumps target reverse 0 in
  r = byte_already_applied clumps target reverse /\
  exists k, (if r then k = length clumps else k < length clumps) /\
    ev = map (fun i => Event Library Info (AboutClump i AlreadyApplied None None)) (seq 1 k) ++
         (if r then [] else [Event Library Error (AboutClump (S k) NotAlreadyApplied None None)]).
Proof. exact p_C83_byte_queries. Qed.
Print Assumptions C83_byte_queries.

(* giving messages changes nothing: without them this is the model the other properties are about *)
Theorem C83_nothing_else : forall dbg E,
  (forall clumps target reverse w, snd (text_apply_logged dbg clumps target reverse w) = text_apply_into dbg clumps target reverse w) /\
  (forall clumps target reverse w, snd (byte_apply_logged dbg clumps target reverse w) = byte_apply_into dbg clumps target reverse w) /\
  (forall patch reverse w, snd (patch_main_logged E patch reverse w) = patch_main E patch reverse w) /\
  (forall before after context w, snd (diff_main_logged E before after context w) = diff_main E before after context w).
Proof. exact p_C83_nothing_else. Qed.
Print Assumptions C83_nothing_else.

(* a displaced clump, one that is already there, one that fits nowhere *)
Example C83_example :
  let hs := [Hunk 1 1 0 (L "A B C ") 0 (L "A X C "); Hunk 1 1 4 (L "E F G ") 4 (L "E Y G "); Hunk 0 0 9 (L "P ") 9 (L "Q ")] in
  let target := L "Z A B C D E Y G H " in
  Forall hunk_ok hs /\ lines_fit hs /\ fits_lines target /\
  fst (text_apply_logged true (map text_of_hunk hs) target false sink) =
    [Event Library Warn (AboutClump 1 Applies None (Some 1%Z)); Event Library Warn (AboutClump 2 AlreadyApplied None None);
     Event Library Error (AboutClump 3 NotApplied None None)] /\
  fst (text_query_logged true (map text_of_hunk hs) (L "A X C D E Y G ") false 0 0) =
    [Event Library Info (AboutClump 1 AlreadyApplied None None); Event Library Info (AboutClump 2 AlreadyApplied None None);
     Event Library Error (AboutClump 3 NotAlreadyApplied None None)] /\
  fst (byte_apply_logged true (map byte_of_hunk [Hunk 0 0 1 (bs "bc") 1 (bs "xyz"); Hunk 0 0 3 (bs "q") 3 (bs "r")]) (bs "abcd") false sink) =
    [Event Library Info (AboutClump 1 Applies None None); Event Library Error (AboutClump 2 NotApplied None None)].
Proof. exact e_C83_example. Qed.

(* ------------------------------------------------------------------ C84 *)
(* C84, full statement: if a clump could not be applied, the user of the patch tool is told: the
   status is not 0, or a message that is shown says so.  It is false: the message about the clump
   comes from the library, whose messages are never shown.  For text this is so by default and
   with -v ... *)
Theorem C84_failure_told_refuted : exists E f patch w st out, fault_free E /\ holds_diff f patch diff_bad /\
  text_apply_into (e_dbg E) (match diff_bad with TextChange d => td_clumps d | _ => [] end) (L "x y ") false sink = (Done st, Writer out None) /\
  st_failed st = 1 /\ content f (target diff_bad) = Some (bs "x y ") /\
  exists ev, patch_main_logged E patch false (start f) = (ev, (Val tt, w)) /\
    In (Event Library Error (AboutClump 1 NotApplied None None)) ev /\
    forall verbose, verbose < 2 -> filter (shown verbose) ev = [].
Proof. exact p_C84_failure_told_refuted. Qed.
Print Assumptions C84_failure_told_refuted.

(* ... and for bytes whatever the verbosity: what is shown with -vv is the same as on success. *)
Theorem C84_byte_failure_told_refuted : exists E f patch d w, fault_free E /\ holds_diff f patch (ByteChange d) /\
  exists ev, patch_main_logged E patch false (start f) = (ev, (Val tt, w)) /\
    In (Event Library Error (AboutClump 1 NotApplied None None)) ev /\ content (w_fs w) (bd_before d) = content f (bd_before d) /\
    forall verbose, filter (shown verbose) ev = if 2 <=? verbose then [Event Program Info (PatchDone None)] else [].
Proof. exact p_C84_byte_failure_told_refuted. Qed.
Print Assumptions C84_byte_failure_told_refuted.

(* What does hold: a run with status 0 on a text diff says about every clump whether it failed,
   to the log; with -vv (and only then) the statistics are shown, and they count the failures
   exactly, for every patch and text.  Missing: the same without -vv, and for bytes. *)
Theorem C84_statistics_shown_partial : forall E f patch reverse ev w d verbose,
  patch_main_logged E patch reverse (start f) = (ev, (Val tt, w)) -> holds_diff f patch (TextChange d) ->
  exists st, filter (shown verbose) ev = (if 2 <=? verbose then [Event Program Info (PatchDone (Some st))] else []) /\
    length (filter is_error ev) = st_failed st /\
    exists old ls wr wr', content f (td_before d) = Some old /\ lines_of old ls /\
      text_apply_into (e_dbg E) (td_clumps d) ls reverse wr = (Done st, wr').
Proof. exact p_C84_statistics_shown_partial. Qed.
Print Assumptions C84_statistics_shown_partial.

Example C84_example :
  let f := files [(bs "A", bs "x y "); (bs "P", saved diff_bad)] in
  holds_diff f (bs "P") diff_bad /\
  exists w, patch_main_logged (calm_env true) (bs "P") false (start f) =
    ([Event Library Error (AboutClump 1 NotApplied None None); Event Program Info (PatchDone (Some (Stats 0 0 0 0 1)))], (Val tt, w)).
Proof. exact e_C84_example. Qed.

(* ------------------------------------------------------------------ C85 *)
(* C85: whenever one of the programs ends with a status other than 0 (and is not aborted by a
   panic), exactly one message is shown, an error, whatever the verbosity; *)
Theorem C85_error_shown : forall E patch reverse w ev code w' verbose,
  patch_main_logged E patch reverse w = (ev, (Exit code, w')) -> exists m, filter (shown verbose) ev = [Event Program Error m].
Proof. exact p_C85_error_shown. Qed.
Print Assumptions C85_error_shown.

Theorem C85_diff_error_shown : forall E before after context f ev code w' verbose, context <= 255 ->
  diff_main_logged E before after context (start f) = (ev, (Exit code, w')) -> exists m, filter (shown verbose) ev = [Event Program Error m].
Proof. exact p_C85_diff_error_shown. Qed.
Print Assumptions C85_diff_error_shown.

(* what is shown: messages of the program's own, errors always, warnings from the first -v on and
   information from the second; so more -v never hide a message; *)
Theorem C85_levels : forall verbose src lv m,
  (shown verbose (Event src lv m) = true <->
     src = Program /\ match lv with Error => 0 | Warn => 1 | Info => 2 end <= verbose) /\
  (forall more, verbose <= more -> shown verbose (Event src lv m) = true -> shown more (Event src lv m) = true).
Proof. exact p_C85_levels. Qed.
Print Assumptions C85_levels.

(* nothing is shown by the diff tool on success; *)
Theorem C85_diff_silent : forall E before after context f ev w', context <= 255 ->
  diff_main_logged E before after context (start f) = (ev, (Val tt, w')) -> ev = [].
Proof. exact p_C85_diff_silent. Qed.
Print Assumptions C85_diff_silent.

(* and when a file was to be created, an error is shown if and only if it was not created with
   the complete content, although the status is 0. *)
Theorem C85_creation : forall E f patch reverse ev o w d c verbose,
  patch_main_logged E patch reverse (start f) = (ev, (o, w)) -> holds_diff f patch d -> creates d reverse c -> o = Val tt ->
  (filter is_error (filter (shown verbose) ev) = [] /\ ~ present f (target d) /\ replaced f (target d) (Some (File (e_mode E) c)) (w_fs w)) \/
  (filter (shown verbose) ev = [Event Program Error (CreationFailed (target d))] /\
   (~ present f (target d) -> w_fs w (target d) <> Some (File (e_mode E) c))).
Proof. exact p_C85_creation. Qed.
Print Assumptions C85_creation.

Example C85_example :
  let f := files [(bs "A", bs "other "); (bs "P", saved diff_add)] in
  holds_diff f (bs "P") diff_add /\ creates diff_add false (bs "x y ") /\
  (exists w, patch_main_logged (calm_env true) (bs "P") false (start f) = ([Event Program Error (CreationFailed (bs "A"))], (Val tt, w))) /\
  (exists w, patch_main_logged (calm_env true) (bs "A") false (start f) = ([Event Program Error BadPatch], (Exit 1, w))).
Proof. exact e_C85_example. Qed.

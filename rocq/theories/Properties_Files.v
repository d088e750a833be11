(* Properties_Files.v - the property theorems and a concrete case beside each; proofs are in
   Proof_Props_Files.v.  Generated by tools/mkthms.py. *)
From Coq Require Import String.
From Verif Require Import Proof_Props_Files Base Model_Seq Model_Changes Model_IO Model_Text Model_Bytes Model_Json Model_Files Spec Spec_Files Cases Proof_Arith Proof_Seq Proof_Utf8 Proof_Json Proof_IO Proof_Text Proof_Bytes Proof_Diff Proof_Term Proof_Files Proof_Props_Gen Proof_Props_Text Proof_Props_Bytes.

(* ------------------------------------------------------------------ C37 *)
(* C37: without faults the kind of diff follows from the existence, readability and UTF-8
   validity of the two files. *)
Theorem C37_kind : forall E f before after context, fault_free E -> context <= 255 ->
  exists r w, diff_new E before after context (start f) = (Val r, w) /\ w_seen w = [f] /\
  (forall lb la, text_of f before lb -> text_of f after la ->
     exists cl, text_diff_clumps lb la context = Ok cl /\ r = Some (TextChange (TextDiff before after cl))) /\
  (forall cb ca, content f before = Some cb -> content f after = Some ca -> ~ (is_utf8 cb /\ is_utf8 ca) ->
     exists cl, byte_diff_clumps cb ca context = Ok cl /\ r = Some (ByteChange (ByteDiff before after false cl))) /\
  (forall lb, text_of f before lb -> ~ present f after -> r = Some (TextRemove (PathAndLines before lb))) /\
  (forall cb, content f before = Some cb -> ~ is_utf8 cb -> ~ present f after -> r = Some (ByteRemove (PathAndBytes before false cb))) /\
  (forall la, ~ present f before -> text_of f after la -> r = Some (TextAdd (PathAndLines before la))) /\
  (forall ca, ~ present f before -> content f after = Some ca -> ~ is_utf8 ca -> r = Some (ByteAdd (PathAndBytes before false ca))) /\
  (~ present f before -> ~ present f after -> r = None) /\
  (present f before -> content f before = None -> r = None) /\
  (present f after -> content f after = None -> r = None).
Proof. exact p_C37_kind. Qed.
Print Assumptions C37_kind.

Example C37_example :
  let f := files [(bs "A", bs "x y "); (bs "B", [xff]); (bs "C", bs "x z ")] in
  (exists cl w, diff_new (calm_env true) (bs "A") (bs "C") 2 (start f) = (Val (Some (TextChange (TextDiff (bs "A") (bs "C") cl))), w) /\ length cl = 1) /\
  (exists cl w, diff_new (calm_env true) (bs "A") (bs "B") 2 (start f) = (Val (Some (ByteChange (ByteDiff (bs "A") (bs "B") false cl))), w) /\ length cl = 1) /\
  (exists w, diff_new (calm_env true) (bs "A") (bs "D") 2 (start f) = (Val (Some (TextRemove (PathAndLines (bs "A") (L "x y ")))), w)) /\
  (exists w, diff_new (calm_env true) (bs "D") (bs "B") 2 (start f) = (Val (Some (ByteAdd (PathAndBytes (bs "D") false [xff]))), w)) /\
  (exists w, diff_new (calm_env true) (bs "D") (bs "E") 2 (start f) = (Val None, w)).
Proof. exact e_C37_example. Qed.

(* ------------------------------------------------------------------ C64 *)
(* C64, full statement: a diff is only reported as an addition or a removal if one of the
   files does not exist.  It is false: a failing existence check (Path::exists answers false,
   say for lack of permission) is taken for absence, and the diff removes the file. *)
Theorem C64_absence_refuted : exists E f before after context d w, diff_new E before after context (start f) = (Val (Some d), w) /\
  content f before <> None /\ content f after <> None /\ removes d false.
Proof. exact p_C64_absence_refuted. Qed.
Print Assumptions C64_absence_refuted.

(* What does hold, whatever fails: if there is a diff, what it records is the actual content
   of the files; and no file is changed.  Missing: that the other file is absent. *)
Theorem C64_recorded_content_partial : forall E f before after context, context <= 255 ->
  exists r w, diff_new E before after context (start f) = (Val r, w) /\ w_seen w = [f] /\
    forall d, r = Some d -> describes f before after context d.
Proof. exact p_C64_recorded_content_partial. Qed.
Print Assumptions C64_recorded_content_partial.

Example C64_example : let f := files [(bs "A", bs "x "); (bs "B", bs "y ")] in
  exists w, diff_new (faulty_env 3 Fail) (bs "A") (bs "B") 2 (start f) =
    (Val (Some (ByteChange (ByteDiff (bs "A") (bs "B") false [ByteClump (0, 1)%Z (Snippet 0 (bs "x ")) (Snippet 0 (bs "y "))]))), w).
Proof. exact e_C64_example. Qed.

(* ------------------------------------------------------------------ C63 *)
(* C63: the diff tool changes no file, whatever happens. *)
Theorem C63_diff_reads_only : forall E f before after context o w, context <= 255 ->
  diff_main E before after context (start f) = (o, w) -> w_seen w = [f] /\ w_fs w = f.
Proof. exact p_C63_diff_reads_only. Qed.
Print Assumptions C63_diff_reads_only.

Example C63_example : let f := files [(bs "A", bs "x y "); (bs "B", bs "x z w ")] in
  exists w, diff_main (calm_env true) (bs "A") (bs "B") 1 (start f) = (Val tt, w) /\ w_stdout w = saved diff_ab /\ w_seen w = [f].
Proof. exact e_C63_example. Qed.

(* ------------------------------------------------------------------ C62 *)
(* C62, full statement: if the diff tool ends with status 0, its whole output has been
   written.  It is false: what follows the last newline, the closing brace, is written when
   the process ends, where an error (a full disk) goes unnoticed. *)
Theorem C62_output_complete_refuted : exists E f before after context w, fault_free E /\
  diff_main E before after context (start f) = (Val tt, w) /\ diff_from_json (w_stdout w) = Ok None.
Proof. exact p_C62_output_complete_refuted. Qed.
Print Assumptions C62_output_complete_refuted.

(* What does hold: with status 0 at most the last byte is missing, and then the patch tool
   rejects the output; with any other status there is no output at all, or a path that is not
   valid UTF-8, or an incomplete output.  Missing: noticing the missing byte. *)
Theorem C62_output_complete_partial : forall E f before after context o w, context <= 255 -> is_utf8 before -> is_utf8 after ->
  fits_file f before -> fits_file f after -> diff_main E before after context (start f) = (o, w) ->
  (o = Val tt /\ exists d, describes f before after context d /\
     (diff_from_json (w_stdout w) = Ok (Some d) \/
      (diff_from_json (w_stdout w) = Ok None /\ diff_from_json (w_stdout w ++ [x7d]) = Ok (Some d)))) \/
  (o = Exit 1 /\ w_stdout w = []) \/
  (o = Exit 5 /\ diff_from_json (w_stdout w) = Ok None).
Proof. exact p_C62_output_complete_partial. Qed.
Print Assumptions C62_output_complete_partial.

Example C62_example :
  let f := files [(bs "A", bs "x y "); (bs "B", bs "x z w ")] in
  (exists w, diff_main (Env true (bs "T") rw (fun _ => NoFault) (Some 20)) (bs "A") (bs "B") 1 (start f) = (Exit 5, w) /\ length (w_stdout w) = 20) /\
  (exists w, diff_main (calm_env false) (bs "A") (bs "B") 1 (start f) = (Val tt, w) /\ diff_from_json (w_stdout w) = Ok (Some diff_ab)).
Proof. exact e_C62_example. Qed.

(* ------------------------------------------------------------------ C39 *)
(* C39: while a change diff is applied, whatever fails and whenever the process is killed, the
   target is as before or holds the complete patched content. *)
Theorem C39_all_or_nothing : forall E f patch reverse o w d,
  patch_main E patch reverse (start f) = (o, w) -> holds_diff f patch d -> is_change d ->
  forall g, In g (w_seen w) ->
    g (target d) = f (target d) \/
    exists old new, content f (target d) = Some old /\ patches_to (e_dbg E) reverse d old new /\ g (target d) = Some (File (e_mode E) new).
Proof. exact p_C39_all_or_nothing. Qed.
Print Assumptions C39_all_or_nothing.

(* The switch happens in one step, the last one: all states before it are old ones. *)
Theorem C39_one_step : forall E f patch reverse o w d,
  patch_main E patch reverse (start f) = (o, w) -> holds_diff f patch d -> is_change d ->
  exists old_states rest, w_seen w = old_states ++ rest /\ (forall g, In g old_states -> g (target d) = f (target d)) /\
    (o = Val tt -> exists g, rest = [g]) /\ (o <> Val tt -> rest = []).
Proof. exact p_C39_one_step. Qed.
Print Assumptions C39_one_step.

(* the disk is full after 3 bytes; and a run to the end *)
Example C39_example :
  let f := files [(bs "A", bs "x y "); (bs "P", saved diff_ab)] in
  holds_diff f (bs "P") diff_ab /\ is_change diff_ab /\
  (exists w, patch_main (faulty_env 6 (FailAfter 3)) (bs "P") false (start f) = (Exit 1, w) /\
     w_fs w (bs "A") = Some (File rw (bs "x y ")) /\ w_fs w (bs "T") = Some (File rw (bs "x z"))) /\
  (exists w, patch_main (calm_env true) (bs "P") false (start f) = (Val tt, w) /\
     w_fs w (bs "A") = Some (File rw (bs "x z w ")) /\ w_fs w (bs "T") = None /\ 10 <= length (w_seen w)).
Proof. exact e_C39_example. Qed.

(* ------------------------------------------------------------------ C40 *)
(* C40, full statement: if the requested result could not be brought about, the patch tool
   ends with a status other than 0 and leaves the target unchanged.  It is false: clumps that
   do not fit are written into the file as conflicts with status 0, ... *)
Theorem C40_failed_clump_refuted : exists E f patch d w st out, fault_free E /\
  patch_main E patch false (start f) = (Val tt, w) /\ holds_diff f patch (TextChange d) /\
  text_apply_into (e_dbg E) (td_clumps d) (L "x y ") false sink = (Done st, Writer out None) /\ st_failed st = 1 /\
  content f (td_before d) = Some (bs "x y ") /\ content (w_fs w) (td_before d) = Some (bs "<<<<<<< no no ======= q >>>>>>> x y ").
Proof. exact p_C40_failed_clump_refuted. Qed.
Print Assumptions C40_failed_clump_refuted.

(* ... a file that exists already is not created, with status 0, ... *)
Theorem C40_not_created_refuted : exists E f patch d c w, fault_free E /\
  patch_main E patch false (start f) = (Val tt, w) /\ holds_diff f patch d /\ creates d false c /\ content (w_fs w) (target d) <> Some c.
Proof. exact p_C40_not_created_refuted. Qed.
Print Assumptions C40_not_created_refuted.

(* ... and a failing write leaves a truncated new file, with status 0. *)
Theorem C40_truncated_refuted : exists E f patch d c w,
  patch_main E patch false (start f) = (Val tt, w) /\ holds_diff f patch d /\ creates d false c /\ f (target d) = None /\
  content (w_fs w) (target d) = Some (bs "x") /\ c = bs "x y ".
Proof. exact p_C40_truncated_refuted. Qed.
Print Assumptions C40_truncated_refuted.

(* What does hold: a status other than 0 means that nothing but (possibly) the temporary file
   has changed; *)
Theorem C40_failure_unchanged_partial : forall E f patch reverse o w, patch_main E patch reverse (start f) = (o, w) -> o <> Val tt ->
  (forall p, p <> e_tmp E -> w_fs w p = f p) /\ (present f (e_tmp E) -> forall p, w_fs w p = f p) /\
  (o = Exit 1 \/ o = Abort \/ o = Stuck).
Proof. exact p_C40_failure_unchanged_partial. Qed.
Print Assumptions C40_failure_unchanged_partial.

(* status 0 after a change diff means that the complete patched content, with whatever clumps
   fitted, is in place, and the temporary file is gone; *)
Theorem C40_success_change_partial : forall E f patch reverse w d, patch_main E patch reverse (start f) = (Val tt, w) ->
  holds_diff f patch d -> is_change d ->
  exists old new, content f (target d) = Some old /\ patches_to (e_dbg E) reverse d old new /\ replaced f (target d) (Some (File (e_mode E) new)) (w_fs w).
Proof. exact p_C40_success_change_partial. Qed.
Print Assumptions C40_success_change_partial.

(* status 0 after a removal means that the target was there and is gone; *)
Theorem C40_success_remove_partial : forall E f patch reverse w d, patch_main E patch reverse (start f) = (Val tt, w) ->
  holds_diff f patch d -> removes d reverse -> present f (target d) /\ replaced f (target d) None (w_fs w).
Proof. exact p_C40_success_remove_partial. Qed.
Print Assumptions C40_success_remove_partial.

(* without faults, a creation succeeds exactly if the target did not exist.
   Missing: reporting clumps that do not fit and files that cannot be created or written. *)
Theorem C40_create_partial : forall E f patch reverse o w d c, fault_free E -> patch_main E patch reverse (start f) = (o, w) ->
  holds_diff f patch d -> creates d reverse c -> o = Val tt /\
  (~ present f (target d) -> replaced f (target d) (Some (File (e_mode E) c)) (w_fs w)) /\
  (present f (target d) -> w_fs w = f).
Proof. exact p_C40_create_partial. Qed.
Print Assumptions C40_create_partial.

Example C40_example :
  let f := files [(bs "A", bs "x y "); (bs "P", saved diff_ab); (bs "Q", saved (TextRemove (PathAndLines (bs "A") (L "x y "))))] in
  (forall k, k < 6 -> exists w, patch_main (faulty_env k Fail) (bs "P") false (start f) = (Exit 1, w) /\ w_fs w (bs "A") = Some (File rw (bs "x y "))) /\
  (exists w, patch_main (calm_env true) (bs "Q") false (start f) = (Val tt, w) /\ w_fs w (bs "A") = None) /\
  (exists w, patch_main (calm_env true) (bs "A") false (start f) = (Exit 1, w)).
Proof. exact e_C40_example. Qed.

(* ------------------------------------------------------------------ C41 *)
(* C41: applying an addition (or a removal in reverse) never modifies a path that exists, at no
   moment and whatever fails. *)
Theorem C41_no_overwrite : forall E f patch reverse o w d c, patch_main E patch reverse (start f) = (o, w) ->
  holds_diff f patch d -> creates d reverse c ->
  forall g p, In g (w_seen w) -> present f p -> g p = f p.
Proof. exact p_C41_no_overwrite. Qed.
Print Assumptions C41_no_overwrite.

Example C41_example :
  let f := files [(bs "A", bs "other "); (bs "P", saved diff_add)] in
  holds_diff f (bs "P") diff_add /\ creates diff_add false (bs "x y ") /\
  exists w, patch_main (calm_env true) (bs "P") false (start f) = (Val tt, w) /\ w_fs w (bs "A") = Some (File rw (bs "other ")).
Proof. exact e_C41_example. Qed.

(* ------------------------------------------------------------------ C58 *)
(* C58: at no moment, whatever fails, does the patch tool touch any other file than the target
   of the diff and its temporary file; if the patch file does not hold a diff, nothing at all is
   touched, and the status is 1. *)
Theorem C58_only_target : forall E f patch reverse o w, patch_main E patch reverse (start f) = (o, w) ->
  (forall d, holds_diff f patch d -> forall g p, In g (w_seen w) -> p <> target d -> p <> e_tmp E -> g p = f p) /\
  ((forall d, ~ holds_diff f patch d) -> o = Exit 1 /\ w_seen w = [f]).
Proof. exact p_C58_only_target. Qed.
Print Assumptions C58_only_target.

Example C58_example :
  let f := files [(bs "A", bs "x y "); (bs "B", bs "x z w "); (bs "P", saved diff_ab); (bs "Q", bs "no diff")] in
  (exists w, patch_main (calm_env false) (bs "P") false (start f) = (Val tt, w) /\
     forallb (fun g => match g (bs "B") with Some (File _ d) => list_eqb Byte.eqb d (bs "x z w ") | _ => false end) (w_seen w) = true) /\
  (exists w, patch_main (calm_env false) (bs "Q") false (start f) = (Exit 1, w)).
Proof. exact e_C58_example. Qed.

(* ------------------------------------------------------------------ C59 *)
(* C59, full statement: when the patch tool has ended, its temporary file is gone.  It is false:
   std::process::exit does not run the destructor that removes it. *)
Theorem C59_temp_removed_refuted : exists E f patch reverse w, patch_main E patch reverse (start f) = (Exit 1, w) /\
  f (e_tmp E) = None /\ content (w_fs w) (e_tmp E) = Some (bs "x z").
Proof. exact p_C59_temp_removed_refuted. Qed.
Print Assumptions C59_temp_removed_refuted.

(* What does hold: it is gone after status 0, and when the first operation on it failed; and a
   file that already had its name is never touched by a change.
   Missing: removal when writing or renaming fails. *)
Theorem C59_temp_removed_partial : forall E f patch reverse o w d, patch_main E patch reverse (start f) = (o, w) ->
  holds_diff f patch d -> is_change d ->
  (o = Val tt -> f (e_tmp E) = None /\ w_fs w (e_tmp E) = None) /\
  (present f (e_tmp E) -> o = Exit 1 /\ w_seen w = [f]).
Proof. exact p_C59_temp_removed_partial. Qed.
Print Assumptions C59_temp_removed_partial.

(* a panic while applying does remove it, unless the removal itself fails *)
Theorem C59_temp_removed_after_panic_partial : forall E f patch reverse w d, fault_free E -> patch_main E patch reverse (start f) = (Abort, w) ->
  holds_diff f patch d -> w_fs w (e_tmp E) = None.
Proof. exact p_C59_temp_removed_after_panic_partial. Qed.
Print Assumptions C59_temp_removed_after_panic_partial.

Example C59_example :
  let f := files [(bs "A", bs "x y "); (bs "P", saved diff_ab)] in
  (exists w, patch_main (calm_env true) (bs "P") false (start f) = (Val tt, w) /\ w_fs w (bs "T") = None) /\
  (let f' := upd f (bs "T") (Some (File rw (bs "mine"))) in
   exists w, patch_main (calm_env true) (bs "P") false (start f') = (Exit 1, w) /\ w_fs w (bs "T") = Some (File rw (bs "mine"))) /\
  (let f' := files [(bs "A", bs "BAA"); (bs "P", saved diff_panic)] in
   exists w, patch_main (calm_env true) (bs "P") false (start f') = (Abort, w) /\ w_fs w (bs "T") = None).
Proof. exact e_C59_example. Qed.

(* ------------------------------------------------------------------ C60 *)
(* C60, full statement: a file is created all or nothing, as it is changed: at every moment it
   is absent or has its whole content.  It is false, even without faults: the file is created
   under its own name and then filled. *)
Theorem C60_creation_atomic_refuted : exists E f patch d c w g, fault_free E /\ patch_main E patch false (start f) = (Val tt, w) /\
  holds_diff f patch d /\ creates d false c /\ In g (w_seen w) /\ g (target d) <> None /\ content g (target d) <> Some c.
Proof. exact p_C60_creation_atomic_refuted. Qed.
Print Assumptions C60_creation_atomic_refuted.

(* What does hold: at every moment the target is as before or holds a beginning of the content.
   Missing: that it is the whole of it. *)
Theorem C60_creation_partial : forall E f patch reverse o w d c, patch_main E patch reverse (start f) = (o, w) ->
  holds_diff f patch d -> creates d reverse c ->
  forall g, In g (w_seen w) -> g (target d) = f (target d) \/
    (f (target d) = None /\ exists x rest, c = x ++ rest /\ g (target d) = Some (File (e_mode E) x)).
Proof. exact p_C60_creation_partial. Qed.
Print Assumptions C60_creation_partial.

Example C60_example :
  let f := files [(bs "P", saved diff_add)] in
  exists w, patch_main (calm_env true) (bs "P") false (start f) = (Val tt, w) /\
    map (fun g => content g (bs "A")) (w_seen w) = [None; Some []; Some []; Some (bs "x"); Some (bs "x "); Some (bs "x y"); Some (bs "x y ")].
Proof. exact e_C60_example. Qed.

(* ------------------------------------------------------------------ C61 *)
(* C61, full statement: patching keeps the permissions of the target.  It is false: the target
   is replaced by a new file. *)
Theorem C61_mode_kept_refuted : exists E f patch d w old new, fault_free E /\ patch_main E patch false (start f) = (Val tt, w) /\
  holds_diff f patch d /\ is_change d /\ f (target d) = Some (File rwx old) /\ w_fs w (target d) = Some (File rw new).
Proof. exact p_C61_mode_kept_refuted. Qed.
Print Assumptions C61_mode_kept_refuted.

(* What does hold: the mode of every other file is kept; that of the target too as long as it is
   not replaced; then it is the one new files get.  Missing: that the two are the same. *)
Theorem C61_mode_partial : forall E f patch reverse o w d, patch_main E patch reverse (start f) = (o, w) -> holds_diff f patch d ->
  forall g p m c, In g (w_seen w) -> p <> e_tmp E -> g p = Some (File m c) ->
    m = e_mode E \/ f p = Some (File m c).
Proof. exact p_C61_mode_partial. Qed.
Print Assumptions C61_mode_partial.

Example C61_example :
  let f := upd (files [(bs "P", saved diff_ab)]) (bs "A") (Some (File rwx (bs "x y "))) in
  exists w, patch_main (faulty_env 7 Fail) (bs "P") false (start f) = (Exit 1, w) /\ w_fs w (bs "A") = Some (File rwx (bs "x y ")).
Proof. exact e_C61_example. Qed.

(* ------------------------------------------------------------------ C65 *)
(* C65: the patch tool ends, whatever fails, unless the patch or the target exceeds the memory
   of the machine. *)
Theorem C65_ends : forall E f patch reverse,
  (forall t, holds_diff f patch (TextChange t) ->
     (24 * fold_right (fun c n => clump_lines c + n) 0 (td_clumps t) < two63)%Z /\ fits_file f (td_before t)) ->
  exists o w, patch_main E patch reverse (start f) = (o, w) /\ (o = Val tt \/ o = Exit 1 \/ o = Abort).
Proof. exact p_C65_ends. Qed.
Print Assumptions C65_ends.

Example C65_example :
  let f := fun a => files [(bs "A", a); (bs "P", saved diff_ab); (bs "Q", saved diff_panic)] in
  patch_fits [TextClump (0, 0)%Z (Snippet 0 (L "x y ")) (Snippet 0 (L "x z w "))] /\
  (exists w, patch_main (calm_env true) (bs "P") false (start (f (bs "x y "))) = (Val tt, w)) /\
  (exists w, patch_main (calm_env true) (bs "Q") false (start (f (bs "BAA"))) = (Abort, w)).
Proof. exact e_C65_example. Qed.

(* ------------------------------------------------------------------ C38 *)
(* C38, full statement: diffing two files and patching the first with the saved output gives it
   the content of the second, and patching in reverse restores it.  It is false because the
   generator overlooks changes. *)
Theorem C38_pipeline_refuted : exists E f before after context P w1 w2, fault_free E /\ e_stdout E = None /\
  diff_main E before after context (start f) = (Val tt, w1) /\
  patch_main E P false (start (upd f P (Some (File rw (w_stdout w1))))) = (Val tt, w2) /\
  content f before = Some (bs "A B C X D ") /\ content f after = Some (bs "A B C Y D E ") /\ content (w_fs w2) before = Some (bs "A B C X D E ").
Proof. exact p_C38_pipeline_refuted. Qed.
Print Assumptions C38_pipeline_refuted.

(* What does hold: the round trip through a saved diff and back, for files readable if present,
   when nothing fails, for contents without isolated mismatches (and, for byte diffs, non-empty
   ones and at least one byte of context).  Missing: changes the generator overlooks, and what
   byte patches miss. *)
Theorem C38_pipeline_partial : forall E f before after context P m,
  fault_free E -> e_stdout E = None -> context <= 255 -> is_utf8 before -> is_utf8 after ->
  fits_file f before -> fits_file f after -> tame f before after context ->
  N.testbit (e_mode E) 8 = true -> N.testbit m 8 = true -> f (e_tmp E) = None -> P <> before -> P <> e_tmp E ->
  (present f before -> content f before <> None) -> (present f after -> content f after <> None) -> (present f before \/ present f after) ->
  exists w1, diff_main E before after context (start f) = (Val tt, w1) /\ w_fs w1 = f /\
  forall f1, replaced f P (Some (File m (w_stdout w1))) f1 ->
  exists w2, patch_main E P false (start f1) = (Val tt, w2) /\
    content (w_fs w2) before = content f after /\ (~ present f after -> ~ present (w_fs w2) before) /\ (forall p, p <> before -> w_fs w2 p = f1 p) /\
  exists w3, patch_main E P true (start (w_fs w2)) = (Val tt, w3) /\
    content (w_fs w3) before = content f before /\ (~ present f before -> ~ present (w_fs w3) before) /\ (forall p, p <> before -> w_fs w3 p = f1 p).
Proof. exact p_C38_pipeline_partial. Qed.
Print Assumptions C38_pipeline_partial.

(* a text changed and a binary file removed *)
Example C38_example :
  let f := files [(bs "A", bs "x y "); (bs "B", bs "x z w "); (bs "C", [xff; x00; x41])] in
  tame f (bs "A") (bs "B") 1 /\ tame f (bs "C") (bs "D") 1 /\ is_utf8 (bs "A") /\
  (exists w1 w2 w3, diff_main (calm_env false) (bs "A") (bs "B") 1 (start f) = (Val tt, w1) /\
     patch_main (calm_env false) (bs "P") false (start (upd f (bs "P") (Some (File rw (w_stdout w1))))) = (Val tt, w2) /\
     content (w_fs w2) (bs "A") = Some (bs "x z w ") /\
     patch_main (calm_env false) (bs "P") true (start (w_fs w2)) = (Val tt, w3) /\ content (w_fs w3) (bs "A") = Some (bs "x y ")) /\
  (exists w1 w2 w3, diff_main (calm_env false) (bs "C") (bs "D") 1 (start f) = (Val tt, w1) /\
     patch_main (calm_env false) (bs "P") false (start (upd f (bs "P") (Some (File rw (w_stdout w1))))) = (Val tt, w2) /\
     w_fs w2 (bs "C") = None /\
     patch_main (calm_env false) (bs "P") true (start (w_fs w2)) = (Val tt, w3) /\ content (w_fs w3) (bs "C") = Some [xff; x00; x41]).
Proof. exact e_C38_example. Qed.

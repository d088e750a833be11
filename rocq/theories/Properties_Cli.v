(* Properties_Cli.v - the property theorems and a concrete case beside each; proofs are in
   Proof_Props_Cli.v.  Generated by tools/mkthms.py. *)
From Coq Require Import String.
From Verif Require Import Proof_Props_Cli Base Model_Seq Model_Changes Model_IO Model_Text Model_Bytes Model_Json Model_Files Model_Log Model_Cli Spec Spec_Files Spec_Json Spec_Log Spec_Run Spec_Cli Cases Proof_Utf8 Proof_Json Proof_Files Proof_Cli Proof_Props_Json Proof_Props_Files Proof_Props_Run.

(* ------------------------------------------------------------------ C96 *)
(* C96, full statement: whatever a patch file contains, the patch tool started in a directory
   changes no file outside of it.  It is false: the path in the patch is used as it is, also an
   absolute one and one that climbs out with "..". *)
Theorem C96_confined_refuted : exists E f patch w w' p q,
  patch_main E patch false (start f) = (Val tt, w) /\ outside p /\ f p <> None /\ w_fs w p = None /\
  patch_main E (bs "Q") false (start f) = (Val tt, w') /\ outside q /\ content f q = Some (bs "x y ") /\ content (w_fs w') q = Some (bs "x z w ").
Proof. exact p_C96_confined_refuted. Qed.
Print Assumptions C96_confined_refuted.

(* There is no path (if it is Unicode) that a patch cannot reach: one deletes the file there
   whatever it contains, and one creates a file there with any content. *)
Theorem C96_reach : forall p, is_utf8 p ->
  (exists d s, diff_to_json d = (s, true) /\ forall E f patch m c, fault_free E -> content f patch = Some s -> f p = Some (File m c) ->
     exists w, patch_main E patch false (start f) = (Val tt, w) /\ replaced f p None (w_fs w)) /\
  (forall c, exists d s, diff_to_json d = (s, true) /\ forall E f patch, fault_free E -> content f patch = Some s -> f p = None ->
     exists w, patch_main E patch false (start f) = (Val tt, w) /\ replaced f p (Some (File (e_mode E) c)) (w_fs w)).
Proof. exact p_C96_reach. Qed.
Print Assumptions C96_reach.

(* What does hold: if the path named in the patch does not lead out, nothing outside is touched at
   any moment, whatever fails (the temporary file is made in the current directory).
   Missing: a check of the path. *)
Theorem C96_confined_partial : forall E f patch reverse o w d, ~ outside (e_tmp E) -> patch_main E patch reverse (start f) = (o, w) ->
  holds_diff f patch d -> ~ outside (target d) -> forall g p, In g (w_seen w) -> outside p -> g p = f p.
Proof. exact p_C96_confined_partial. Qed.
Print Assumptions C96_confined_partial.

Example C96_example :
  let f := files [(bs "A", bs "x y "); (bs "P", saved diff_ab); (bs "../A", bs "x y ")] in
  ~ outside (e_tmp (calm_env true)) /\ holds_diff f (bs "P") diff_ab /\ ~ outside (target diff_ab) /\ outside (bs "../A") /\
  (exists w, patch_main (calm_env true) (bs "P") false (start f) = (Val tt, w) /\ w_fs w (bs "A") = Some (File rw (bs "x z w ")) /\ length (w_seen w) = 11) /\
  is_utf8 (bs "../A").
Proof. exact e_C96_example. Qed.

(* ------------------------------------------------------------------ C97 *)
(* C97: the command lines of pw_diff and pw_patch that run the program, and with what, are exactly
   those of the grammar in Spec_Cli.v; so a command line has at most one meaning. *)
Theorem C97_diff : forall args verbose context before after,
  diff_args args = Run (verbose, context, before, after) <-> calls_diff args verbose context before after.
Proof. exact p_C97_diff. Qed.
Print Assumptions C97_diff.

Theorem C97_patch : forall args verbose reverse patch,
  patch_args args = Run (verbose, reverse, patch) <-> calls_patch args verbose reverse patch.
Proof. exact p_C97_patch. Qed.
Print Assumptions C97_patch.

(* Everything else is a request for help (status 0) or refused (status 2), and touches no file. *)
Theorem C97_diff_program : forall E args w,
  (forall verbose context before after, calls_diff args verbose context before after ->
     diff_program E args w = let (ev, r) := diff_main_logged E before after context w in (filter (shown verbose) ev, r)) /\
  (asks_help diff_flag True 2 args -> diff_program E args w = ([], (Exit 0, w))) /\
  ((forall verbose context before after, ~ calls_diff args verbose context before after) -> ~ asks_help diff_flag True 2 args ->
     diff_program E args w = ([], (Exit 2, w))).
Proof. exact p_C97_diff_program. Qed.
Print Assumptions C97_diff_program.

Theorem C97_patch_program : forall E args w,
  (forall verbose reverse patch, calls_patch args verbose reverse patch ->
     patch_program E args w = let (ev, r) := patch_main_logged E patch reverse w in (filter (shown verbose) ev, r)) /\
  (asks_help patch_flag False 1 args -> patch_program E args w = ([], (Exit 0, w))) /\
  ((forall verbose reverse patch, ~ calls_patch args verbose reverse patch) -> ~ asks_help patch_flag False 1 args ->
     patch_program E args w = ([], (Exit 2, w))).
Proof. exact p_C97_patch_program. Qed.
Print Assumptions C97_patch_program.

(* No command line runs a program and asks for help at the same time; the context is a byte. *)
Theorem C97_exclusive : (forall args verbose context before after, calls_diff args verbose context before after ->
    context <= 255 /\ verbose <= 255 /\ before <> [] /\ after <> [] /\ ~ asks_help diff_flag True 2 args) /\
  (forall args verbose reverse patch, calls_patch args verbose reverse patch -> verbose <= 255 /\ patch <> [] /\ ~ asks_help patch_flag False 1 args).
Proof. exact p_C97_exclusive. Qed.
Print Assumptions C97_exclusive.

(* Any two paths that are not empty can be given, whatever they begin with. *)
Theorem C97_any_path : (forall before after, before <> [] -> after <> [] -> calls_diff [word "--"; before; after] 0 2 before after) /\
  (forall patch, patch <> [] -> calls_patch [word "--"; patch] 0 false patch /\ calls_patch [word "-r"; word "--"; patch] 0 true patch).
Proof. exact p_C97_any_path. Qed.
Print Assumptions C97_any_path.

(* The programs from the command line to the end, when nothing outside of them fails (see C86 and
   C87). *)
Theorem C97_diff_run : forall E f args verbose context before after, calls_diff args verbose context before after ->
  fault_free E -> e_stdout E = None -> fits_file f before -> fits_file f after ->
  exists said o w code, diff_program E args (start f) = (filter (shown verbose) said, (o, w)) /\ status o = Some code /\ w_fs w = f /\
    diff_run f before after context said code (w_stdout w).
Proof. exact p_C97_diff_run. Qed.
Print Assumptions C97_diff_run.

Theorem C97_patch_run : forall E f args verbose reverse patch, calls_patch args verbose reverse patch ->
  fault_free E -> f (e_tmp E) = None ->
  (forall t, holds_diff f patch (TextChange t) ->
     (24 * fold_right (fun c n => clump_lines c + n) 0 (td_clumps t) < two63)%Z /\ fits_file f (td_before t)) ->
  exists said o w code, patch_program E args (start f) = (filter (shown verbose) said, (o, w)) /\ status o = Some code /\
    patch_run E f patch reverse said code (w_fs w).
Proof. exact p_C97_patch_run. Qed.
Print Assumptions C97_patch_run.

Example C97_example :
  calls_diff [word "-vc3"; word "-"; word "--verbose"; word "--"; word "-b"] 2 3 (word "-") (word "-b") /\
  calls_diff [word "a"; word "--context"; word "+007"; word "b"] 0 7 (word "a") (word "b") /\
  calls_diff [word "--context=-0"; word "a"; word "b"] 0 0 (word "a") (word "b") /\
  calls_patch [word "-vrv"; word "p"] 2 true (word "p") /\
  asks_help diff_flag True 2 [word "a"; word "-vhx"; word "-c"] /\ asks_help patch_flag False 1 [word "--help"] /\
  Forall (fun args => diff_program (calm_env true) (map word args) (start (files [])) = ([], (Exit 2, start (files []))))
    [[]; ["a"]; ["a"; "b"; "c"]; ["-c"; "-1"; "a"; "b"]; ["-c256"; "a"; "b"]; ["-c"; "1"; "-c"; "1"; "a"; "b"]; ["a"; ""]; ["-r"; "a"; "b"]; ["--verbose=1"; "a"; "b"];
     ["--verb"; "a"; "b"]; ["a"; "b"; "-c"]; ["a"; "b"; "c"; "-h"]; ["--"; "a"; "-h"; "b"]; ["-c"; "--"; "a"; "b"]; ["-V"]]%string /\
  (exists w, patch_program (calm_env true) [word "P"; word "-vv"] (start (files [(bs "A", bs "x y "); (bs "P", saved diff_ab)])) =
     ([Event Program Info (PatchDone (Some (Stats 1 0 0 0 0)))], (Val tt, w)) /\ w_fs w (bs "A") = Some (File rw (bs "x z w "))).
Proof. exact e_C97_example. Qed.

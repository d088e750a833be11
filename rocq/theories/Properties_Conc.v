(* Properties_Conc.v - the property theorems and a concrete case beside each; proofs are in
   Proof_Props_Conc.v.  Generated by tools/mkthms.py. *)
From Coq Require Import String.
From Verif Require Import Proof_Props_Conc Base Model_Seq Model_Changes Model_IO Model_Text Model_Bytes Model_Json Model_Files Model_Conc Spec Spec_Files Spec_Conc Cases Proof_Seq Proof_Utf8 Proof_Json Proof_IO Proof_Text Proof_Bytes Proof_Term Proof_Files Proof_Conc Proof_Props_Files.

(* ------------------------------------------------------------------ C98 *)
(* A single run by itself is the run of Model_Files.v, operation by operation. *)
Theorem C98_alone : forall E patch reverse f o,
  (forall w, patch_main E patch reverse (start f) = (o, w) ->
     exists seen, together f [patch_process E patch reverse] seen (w_fs w) [Process E (w_ops w) (AEnd o)] /\ w_seen w = f :: seen) /\
  (forall seen g q, together f [patch_process E patch reverse] seen g [q] -> ended q = Some o ->
     exists w, patch_main E patch reverse (start f) = (o, w) /\ w_fs w = g /\ w_seen w = f :: seen).
Proof. exact p_C98_alone. Qed.
Print Assumptions C98_alone.

(* C98, full statement: when several runs at the same time all report success, every file holds
   the result of carrying out all the patches to it, one after the other in some order.  It is
   false: each run reads the file, and later replaces it; of two runs that have read it before
   either has replaced it, the changes of the first are lost, although both end with status 0. *)
Theorem C98_all_kept_refuted : exists f js seen g qs p, orderly f js /\ Forall (fun j => fault_free (j_env j)) js /\
  together f (map begun js) seen g qs /\ Forall (fun q => ended q = Some (Val tt)) qs /\
  length js = 2 /\ Forall (fun j => target (j_diff j) = p) js /\
  (exists n, after_jobs f js p [0; 1] n) /\ (exists n, after_jobs f js p [1; 0] n) /\
  ~ exists is, In 0 is /\ In 1 is /\ after_jobs f js p is (g p).
Proof. exact p_C98_all_kept_refuted. Qed.
Print Assumptions C98_all_kept_refuted.

(* What does hold, for any number of runs that change files (not: create or remove them), with
   their own temporary files, whatever fails and wherever runs are killed: every file outside the
   targets and the temporary files keeps its content.  Every target holds, at every moment, its
   content at the beginning after some of the patches to it, each of them applied at most once and
   completely to what the one before had left - never half a patch, and never a patch of a run
   that failed.  A run that reports success has put its result in place at some moment, and its
   temporary file is gone.  Missing: that later results are based on it. *)
Theorem C98_some_kept_partial : forall f js seen g qs, orderly f js -> together f (map begun js) seen g qs ->
  (forall h, In h (f :: seen) -> (forall p, ~ In p (targets js) -> ~ In p (temps js) -> h p = f p) /\
     (forall p, In p (targets js) -> exists is, after_jobs f js p is (h p))) /\
  (forall p, In p (targets js) -> exists is, after_jobs f js p is (g p) /\
     forall i q o, In i is -> nth_error qs i = Some q -> ended q = Some o -> o = Val tt) /\
  (forall i j q, nth_error js i = Some j -> nth_error qs i = Some q -> ended q = Some (Val tt) ->
     (exists h is, In h seen /\ after_jobs f js (target (j_diff j)) (i :: is) (h (target (j_diff j)))) /\ g (e_tmp (j_env j)) = None).
Proof. exact p_C98_some_kept_partial. Qed.
Print Assumptions C98_some_kept_partial.

(* The last of the states is the one at the end. *)
Theorem C98_states : forall f ps seen g qs, together f ps seen g qs -> g = last seen f /\ length qs = length ps.
Proof. exact p_C98_states. Qed.
Print Assumptions C98_states.

(* Runs on different files do not disturb each other: at the end the file of one that reports
   success holds the result of its patch, the file of one that fails what it did before. *)
Theorem C98_apart : forall f js seen g qs, orderly f js -> NoDup (targets js) -> together f (map begun js) seen g qs ->
  forall i j q o, nth_error js i = Some j -> nth_error qs i = Some q -> ended q = Some o ->
  (o = Val tt -> exists m old new, f (target (j_diff j)) = Some (File m old) /\
     patches_to (e_dbg (j_env j)) (j_reverse j) (j_diff j) old new /\ g (target (j_diff j)) = Some (File (e_mode (j_env j)) new)) /\
  (o <> Val tt -> g (target (j_diff j)) = f (target (j_diff j))).
Proof. exact p_C98_apart. Qed.
Print Assumptions C98_apart.

(* two runs in turn on different files; two on one file, one after the other, while a third is
   killed before it replaces its file *)
Example C98_example :
  orderly some_files [job_bc; job_fg; job_h] /\ NoDup (targets [job_bc; job_h]) /\ orderly some_files [job_bc; job_h] /\
  (exists seen g qs, together some_files (map begun [job_bc; job_h]) seen g qs /\ map ended qs = [Some (Val tt); Some (Val tt)] /\
     g (bs "F") = Some (File rw (bs "A B X V D E F G H I J ")) /\ g (bs "H") = Some (File rw (bs "abXdef")) /\ 20 <= length seen) /\
  (exists seen g qs, together some_files (map begun [job_bc; job_fg; job_h]) seen g qs /\ map ended qs = [Some (Val tt); Some (Val tt); None] /\
     g (bs "F") = Some (File rw (bs "A B X V D E F S U H I J ")) /\ g (bs "H") = Some (File rw (bs "abcdef")) /\ g (bs "T3") = Some (File rw (bs "abXdef"))) /\
  after_jobs some_files [job_bc; job_fg] (bs "F") [1; 0] (Some (File rw (bs "A B X V D E F S U H I J "))).
Proof. exact e_C98_example. Qed.

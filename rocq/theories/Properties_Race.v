(* Properties_Race.v - the property theorems and a concrete case beside each; proofs are in
   Proof_Props_Race.v.  Generated by tools/mkthms.py. *)
From Coq Require Import String.
From Verif Require Import Proof_Props_Race Base Model_Seq Model_Changes Model_IO Model_Text Model_Bytes Model_Json Model_Files Model_Conc Spec Spec_Files Spec_Conc Cases Proof_Seq Proof_Utf8 Proof_Json Proof_IO Proof_Text Proof_Bytes Proof_Term Proof_Files Proof_Conc Proof_Race Proof_Props_Files Proof_Props_Conc.

(* ------------------------------------------------------------------ C121 *)
(* C121, full statement: with several runs at the same time, a file that a run reports as removed
   is gone at the end unless a run creates it, and a run that is to create a file reports success
   only if the file has its content.  Both are false.  A change replaces the file after it has been
   removed, if it was read before, and both report success; in neither order could both succeed and
   the file be there. *)
Theorem C121_removed_refuted : exists f js seen g qs, mixed f js /\ Forall (fun j => fault_free (j_env j)) js /\ length js = 2 /\
  together f (map begun js) seen g qs /\ Forall (fun q => ended q = Some (Val tt)) qs /\
  exists i j, nth_error js i = Some j /\ removal j /\ (exists h, In h seen /\ h (target (j_diff j)) = None) /\
  exists m d, g (target (j_diff j)) = Some (File m d).
Proof. exact p_C121_removed_refuted. Qed.
Print Assumptions C121_removed_refuted.

Theorem C121_created_refuted : exists f js seen g qs p, rivals f js p /\ Forall (fun j => fault_free (j_env j)) js /\ f p = None /\
  together f (map begun js) seen g qs /\ Forall (fun q => ended q = Some (Val tt)) qs /\
  exists i j c, nth_error js i = Some j /\ creation j c /\ forall h, In h seen -> forall m, h p <> Some (File m c).
Proof. exact p_C121_created_refuted. Qed.
Print Assumptions C121_created_refuted.

(* What does hold, for any number of runs that change or remove files, with their own temporary
   files, whatever fails and wherever runs are killed: a file that is to be changed or removed is
   at every moment either gone, removed by one of the runs, or what some of the changes, each
   complete, have made of it; nothing else is touched.  At the end neither a removal nor a change
   that failed has left a trace.  A run that reports success has put its result in place, or
   removed the file, at some moment.  Missing: that the file stays away. *)
Theorem C121_removed_partial : forall f js seen g qs, mixed f js -> together f (map begun js) seen g qs ->
  (forall h, In h (f :: seen) -> (forall p, ~ In p (targets js) -> ~ In p (temps js) -> h p = f p) /\
     (forall p, In p (targets js) -> (exists is, after_jobs f js p is (h p)) \/
        h p = None /\ exists i j, nth_error js i = Some j /\ target (j_diff j) = p /\ removal j)) /\
  (forall p, In p (targets js) ->
     (exists is, after_jobs f js p is (g p) /\ forall i q o, In i is -> nth_error qs i = Some q -> ended q = Some o -> o = Val tt) \/
     g p = None /\ exists i j, nth_error js i = Some j /\ target (j_diff j) = p /\ removal j /\
        forall q o, nth_error qs i = Some q -> ended q = Some o -> o = Val tt) /\
  (forall i j q, nth_error js i = Some j -> nth_error qs i = Some q -> ended q = Some (Val tt) ->
     (is_change (j_diff j) -> (exists h is, In h seen /\ after_jobs f js (target (j_diff j)) (i :: is) (h (target (j_diff j)))) /\ g (e_tmp (j_env j)) = None) /\
     (removal j -> exists h, In h seen /\ h (target (j_diff j)) = None)).
Proof. exact p_C121_removed_partial. Qed.
Print Assumptions C121_removed_partial.

(* Runs on different files do not disturb each other, removals included. *)
Theorem C121_apart : forall f js seen g qs, mixed f js -> NoDup (targets js) -> together f (map begun js) seen g qs ->
  forall i j q o, nth_error js i = Some j -> nth_error qs i = Some q -> ended q = Some o ->
  (o = Val tt -> removal j -> g (target (j_diff j)) = None) /\
  (o = Val tt -> is_change (j_diff j) -> exists m old new, f (target (j_diff j)) = Some (File m old) /\
     patches_to (e_dbg (j_env j)) (j_reverse j) (j_diff j) old new /\ g (target (j_diff j)) = Some (File (e_mode (j_env j)) new)) /\
  (o <> Val tt -> g (target (j_diff j)) = f (target (j_diff j))).
Proof. exact p_C121_apart. Qed.
Print Assumptions C121_apart.

(* Of several runs that remove the same file, one at most reports success, and exactly one if there
   is a file, nothing fails and they are not killed; the others end with status 1. *)
Theorem C121_removed_once : forall f js p seen g qs, removers f js p -> together f (map begun js) seen g qs ->
  (forall h, In h seen -> (forall q, q <> p -> h q = f q) /\ (h p = f p \/ h p = None)) /\
  (forall i q o, nth_error qs i = Some q -> ended q = Some o -> o = Val tt \/ o = Exit 1) /\
  (forall i k q r, nth_error qs i = Some q -> nth_error qs k = Some r -> ended q = Some (Val tt) -> ended r = Some (Val tt) -> i = k) /\
  ((exists i q, nth_error qs i = Some q /\ ended q = Some (Val tt)) -> (exists m d, f p = Some (File m d)) /\ g p = None) /\
  (forall m d, f p = Some (File m d) -> Forall (fun j => fault_free (j_env j)) js -> js <> [] -> Forall (fun q => ended q <> None) qs ->
     g p = None /\ exists i q, nth_error qs i = Some q /\ ended q = Some (Val tt)).
Proof. exact p_C121_removed_once. Qed.
Print Assumptions C121_removed_once.

(* Of several runs that create the same file, one at most has written to it: at every moment there
   is nothing there or a beginning of its content; all of it at the end, if nothing fails and no run
   is killed.  A file that was there before stays as it is.  What is missing is a sign of this: all
   of them report success. *)
Theorem C121_created_partial : forall f js p seen g qs, rivals f js p -> together f (map begun js) seen g qs ->
  (forall h q, In h (g :: seen) -> q <> p -> h q = f q) /\
  (f p <> None -> forall h, In h (g :: seen) -> h p = f p) /\
  (f p = None -> js <> [] -> exists i j c, nth_error js i = Some j /\ creation j c /\
     (forall h, In h (g :: seen) -> h p = None \/ exists k, h p = Some (File (e_mode (j_env j)) (firstn k c))) /\
     (Forall (fun j => fault_free (j_env j)) js -> Forall (fun q => ended q <> None) qs -> g p = Some (File (e_mode (j_env j)) c))) /\
  (forall i j q o, nth_error js i = Some j -> nth_error qs i = Some q -> fault_free (j_env j) -> ended q = Some o -> o = Val tt).
Proof. exact p_C121_created_partial. Qed.
Print Assumptions C121_created_partial.

(* a change and a removal of F, one after the other in both orders; two runs that remove F in
   turns; two that create N in turns *)
Example C121_example :
  mixed race_files [job_change; job_remove] /\ removers race_files [job_remove; job_unadd] (bs "F") /\ rivals race_files [job_make; job_remake] (bs "N") /\
  (exists seen g qs, together race_files (map begun [job_change; job_remove]) seen g qs /\ map ended qs = [Some (Val tt); Some (Val tt)] /\ g (bs "F") = None) /\
  (exists seen g qs, together race_files (map begun [job_change; job_remove]) seen g qs /\ map ended qs = [Some (Exit 1); Some (Val tt)] /\ g (bs "F") = None) /\
  (exists seen g qs, together race_files (map begun [job_remove; job_unadd]) seen g qs /\ map ended qs = [Some (Exit 1); Some (Val tt)] /\ g (bs "F") = None) /\
  (exists seen g qs, together race_files (map begun [job_make; job_remake]) seen g qs /\ map ended qs = [Some (Val tt); Some (Val tt)] /\
     g (bs "N") = Some (File rw (bs "three"))).
Proof. exact e_C121_example. Qed.

(* Properties_Open.v - the property theorems and a concrete case beside each; proofs are in
   Proof_Props_Open.v.  Generated by tools/mkthms.py. *)
From Coq Require Import String.
From Verif Require Import Proof_Props_Open Base Model_Seq Model_Changes Model_IO Model_Text Model_Bytes Model_Json Model_Files Model_Conc Model_Links Model_Open Spec Spec_Files Spec_Conc Spec_Links Spec_Open Cases Proof_Seq Proof_Utf8 Proof_Json Proof_IO Proof_Text Proof_Bytes Proof_Term Proof_Files Proof_Conc Proof_Links Proof_Open Proof_Props_Files Proof_Props_Conc.

(* ------------------------------------------------------------------ C129 *)
(* C129, full statement: what runs on one file at the same time leave there, if all of them report
   success, they could have left one after the other, in some order.  It is false: a file that is
   being created can be changed before all of it has been written.  The change replaces it; what is
   written later goes to the file without a name, and is lost.  Both report success. *)
Theorem C129_serial_refuted : exists I j k p seen J qs d, assorted I [j; k] /\ fault_free (j_env j) /\ fault_free (j_env k) /\
  target (j_diff j) = p /\ target (j_diff k) = p /\
  at_once I (map started [j; k]) seen J qs /\ map over qs = [Some (Val tt); Some (Val tt)] /\ file_at J p d /\
  (forall o seen1 J1 o' seen2 J2, patch_links (j_env j) (j_patch j) (j_reverse j) I = (o, seen1, J1) ->
     patch_links (j_env k) (j_patch k) (j_reverse k) J1 = (o', seen2, J2) -> ~ file_at J2 p d) /\
  (forall o seen1 J1 o' seen2 J2, patch_links (j_env k) (j_patch k) (j_reverse k) I = (o, seen1, J1) ->
     patch_links (j_env j) (j_patch j) (j_reverse j) J1 = (o', seen2, J2) -> ~ file_at J2 p d).
Proof. exact p_C129_serial_refuted. Qed.
Print Assumptions C129_serial_refuted.

(* What does hold, for any number of runs that change, create and remove files, with their own
   temporary files, whatever fails and wherever runs are killed, with the bytes written in any
   portions and other names of the same files: all files there were at the start keep their content,
   and all names stay what they are, except those of the targets and the temporary files.  At every
   moment a target is what it was, or gone, by one of the runs that remove it, or the name of a
   file with what some of the changes, one after the other and each completely, have made of what
   was there or of a beginning of what one of the runs creates.  At the end no run that failed has
   left a trace there.  A change that reports success has put its result in place at some moment,
   and a removal has removed the file.  Missing: that a change finds all of what
   is created, and that what has been changed or removed in between is not replaced. *)
Theorem C129_serial_partial : forall I js seen J qs, assorted I js -> at_once I (map started js) seen J qs ->
  (forall h, In h (I :: seen) ->
     (forall n, n < used I -> nodes h n = nodes I n) /\
     (forall p, ~ In p (targets js) -> ~ In p (temps js) -> names h p = names I p) /\
     (forall p, In p (targets js) -> names h p = names I p \/
        names h p = None /\ (exists i j, nth_error js i = Some j /\ target (j_diff j) = p /\ removal j) \/
        exists is d, file_at h p d /\ grown I js p is d)) /\
  (forall p, In p (targets js) -> names J p = names I p \/
     names J p = None /\ (exists i j, nth_error js i = Some j /\ target (j_diff j) = p /\ removal j /\
       forall q o, nth_error qs i = Some q -> over q = Some o -> o = Val tt) \/
     exists is d, file_at J p d /\ grown I js p is d /\ forall i q o, In i is -> nth_error qs i = Some q -> over q = Some o -> o = Val tt) /\
  (forall i j q, nth_error js i = Some j -> nth_error qs i = Some q -> over q = Some (Val tt) ->
     (is_change (j_diff j) -> (exists h is d, In h seen /\ file_at h (target (j_diff j)) d /\ grown I js (target (j_diff j)) (i :: is) d) /\ names J (e_tmp (j_env j)) = None) /\
     (removal j -> exists h, In h seen /\ names h (target (j_diff j)) = None)).
Proof. exact p_C129_serial_partial. Qed.
Print Assumptions C129_serial_partial.

(* Runs on different names do not disturb each other, even if two names are those of one file:
   each ends as it would alone. *)
Theorem C129_apart : forall I js seen J qs, assorted I js -> NoDup (targets js) -> at_once I (map started js) seen J qs ->
  forall i j q o, nth_error js i = Some j -> nth_error qs i = Some q -> over q = Some o ->
  (o = Val tt -> removal j -> names J (target (j_diff j)) = None) /\
  (o = Val tt -> is_change (j_diff j) -> exists old new, file_at I (target (j_diff j)) old /\
     patches_to (e_dbg (j_env j)) (j_reverse j) (j_diff j) old new /\ file_at J (target (j_diff j)) new) /\
  (forall c, o = Val tt -> creation j c -> names I (target (j_diff j)) <> None -> names J (target (j_diff j)) = names I (target (j_diff j))) /\
  (forall c, o = Val tt -> creation j c -> fault_free (j_env j) -> names I (target (j_diff j)) = None -> file_at J (target (j_diff j)) c) /\
  (o <> Val tt -> names J (target (j_diff j)) = names I (target (j_diff j))).
Proof. exact p_C129_apart. Qed.
Print Assumptions C129_apart.

(* A run alone does what it does in the model of C99, whatever fails: it comes to an end, with the
   same outcome and the same names and files, and the states on the way are among those there. *)
Theorem C129_alone : forall E patch reverse I,
  (exists seen J q, at_once I [patch_run E patch reverse] seen J [q] /\ over q <> None) /\
  forall seen J q o, at_once I [patch_run E patch reverse] seen J [q] -> over q = Some o ->
  exists seen' J', patch_links E patch reverse I = (o, seen', J') /\ alike J J' /\
    forall h, In h seen -> exists h', In h' (I :: seen') /\ alike h h'.
Proof. exact p_C129_alone. Qed.
Print Assumptions C129_alone.

(* a creation, a change and a removal of N one after the other, with a change of F in between; the
   creation of N and a change of F in turns *)
Example C129_example :
  assorted open_files [job_create_n; job_change_n; job_remove_n; job_change_f] /\
  (exists seen J qs, at_once open_files (map started [job_create_n; job_change_n; job_remove_n; job_change_f]) seen J qs /\
     map over qs = [Some (Val tt); Some (Val tt); Some (Val tt); Some (Val tt)] /\ names J (bs "N") = None /\
     file_at J (bs "F") (bs "Z B C ") /\ file_at J (bs "G") (bs "A B C ") /\ exists h, In h seen /\ file_at h (bs "N") (bs "Z B ")) /\
  (assorted open_files [job_create_n; job_change_f] /\ NoDup (targets [job_create_n; job_change_f]) /\
   exists seen J qs, at_once open_files (map started [job_create_n; job_change_f]) seen J qs /\
     map over qs = [Some (Val tt); Some (Val tt)] /\ file_at J (bs "N") (bs "A B ") /\ file_at J (bs "F") (bs "Z B C ")).
Proof. exact e_C129_example. Qed.

(* Proof_Props_Builds.v - statements and proofs for C117. *)
From Coq Require Import String.
From Verif Require Import Base Model_Seq Model_Changes Model_IO Model_Text Model_Bytes Model_Json Model_Files Model_Log Model_Regex Model_Unified Cases Proof_Builds Proof_LogMain.

(* [true]: debug build (arithmetic overflow and debug_assert! panic), [false]: release build
   (arithmetic wraps around).  Result, bytes written and what is left of the writer are the same. *)
Lemma p_C117_text : forall clumps target reverse w,
  fst (text_apply_into true clumps target reverse w) <> Panicked ->
  text_apply_into false clumps target reverse w = text_apply_into true clumps target reverse w.
Proof. intros cs t rv w H. destruct (text_apply_b cs t rv w) as [E|E]; [contradiction|symmetry; exact E]. Qed.
Lemma p_C117_query : forall clumps target reverse,
  text_is_already_applied true clumps target reverse <> Panic ->
  text_is_already_applied false clumps target reverse = text_is_already_applied true clumps target reverse.
Proof. intros cs t rv H. destruct (text_query_b cs t rv) as [E|E]; [contradiction|symmetry; exact E]. Qed.
Lemma p_C117_bytes : forall clumps target reverse w,
  fst (byte_apply_into true clumps target reverse w) <> Panicked ->
  byte_apply_into false clumps target reverse w = byte_apply_into true clumps target reverse w.
Proof. intros cs t rv w H. destruct (byte_apply_b cs t rv w) as [E|E]; [contradiction|symmetry; exact E]. Qed.
(* reading a unified diff; [nd]: the decimal digits beyond ASCII *)
Lemma p_C117_unified : forall nd lines start,
  get_from_at nd true lines start <> Panic -> get_from_at nd false lines start = get_from_at nd true lines start.
Proof. intros nd ls i H. destruct (get_from_at_b nd ls i) as [E|E]; [contradiction|symmetry; exact E]. Qed.
(* pw_patch as a whole, whatever the patch file contains and whatever fails on the way: messages,
   exit status, every state of the file system *)
Lemma p_C117_program : forall tmp mode faults stdout patch reverse w,
  fst (snd (patch_main_logged (Env true tmp mode faults stdout) patch reverse w)) <> Abort ->
  patch_main_logged (Env false tmp mode faults stdout) patch reverse w =
  patch_main_logged (Env true tmp mode faults stdout) patch reverse w.
Proof.
  intros tmp mode flt so patch rv w H.
  destruct (patch_logged_b tmp mode flt so patch rv w) as [E|E]; [contradiction|symmetry; exact E].
Qed.
(* the same without the messages *)
Lemma p_C117_files : forall tmp mode faults stdout patch reverse w,
  fst (patch_main (Env true tmp mode faults stdout) patch reverse w) <> Abort ->
  patch_main (Env false tmp mode faults stdout) patch reverse w = patch_main (Env true tmp mode faults stdout) patch reverse w.
Proof.
  intros tmp mode flt so patch rv w H. rewrite <- !patch_main_unlogged in *. f_equal. now apply p_C117_program.
Qed.
(* so a release build panics only where a debug build does *)
Lemma p_C117_panics : forall clumps bclumps target btarget reverse w,
  (fst (text_apply_into false clumps target reverse w) = Panicked -> fst (text_apply_into true clumps target reverse w) = Panicked) /\
  (fst (byte_apply_into false bclumps btarget reverse w) = Panicked -> fst (byte_apply_into true bclumps btarget reverse w) = Panicked).
Proof.
  intros cs bcs t bt rv w. split; intros H.
  - destruct (text_apply_b cs t rv w) as [E|E]; [exact E|rewrite E; exact H].
  - destruct (byte_apply_b bcs bt rv w) as [E|E]; [exact E|rewrite E; exact H].
Qed.
(* a displaced clump in both builds; a diff with which the debug build panics and the release build
   does not, so the condition is needed *)
Lemma e_C117_example :
  (exists clumps, text_diff_clumps (L "A B C D E F ") (L "A B X Y E F ") 1 = Ok clumps /\
     text_apply_into true clumps (L "Q R A B C D E F ") false (Writer [] None)
       = (Done (Stats 0 1 0 0 0), Writer (concat (L "Q R A B X Y E F ")) None)) /\
  (exists clumps, text_diff_clumps [] (L "B ") 1 = Ok clumps /\
     fst (text_apply_into true clumps [] true (Writer [] None)) = Panicked /\
     fst (text_apply_into false clumps [] true (Writer [] None)) = Done (Stats 0 0 1 0 0)).
Proof.
  split; eexists.
  - split; [vm_compute; reflexivity|]. vm_compute. reflexivity.
  - split; [vm_compute; reflexivity|]. vm_compute. split; reflexivity.
Qed.

(* Properties_Builds.v - the property theorems and a concrete case beside each; proofs are in
   Proof_Props_Builds.v.  Generated by tools/mkthms.py. *)
From Coq Require Import String.
From Verif Require Import Proof_Props_Builds Base Model_Seq Model_Changes Model_IO Model_Text Model_Bytes Model_Json Model_Files Model_Log Model_Regex Model_Unified Cases Proof_Builds Proof_LogMain.

(* [true]: debug build (arithmetic overflow and debug_assert! panic), [false]: release build
   (arithmetic wraps around).  Result, bytes written and what is left of the writer are the same. *)
Theorem C117_text : forall clumps target reverse w,
  fst (text_apply_into true clumps target reverse w) <> Panicked ->
  text_apply_into false clumps target reverse w = text_apply_into true clumps target reverse w.
Proof. exact p_C117_text. Qed.
Print Assumptions C117_text.

Theorem C117_query : forall clumps target reverse,
  text_is_already_applied true clumps target reverse <> Panic ->
  text_is_already_applied false clumps target reverse = text_is_already_applied true clumps target reverse.
Proof. exact p_C117_query. Qed.
Print Assumptions C117_query.

Theorem C117_bytes : forall clumps target reverse w,
  fst (byte_apply_into true clumps target reverse w) <> Panicked ->
  byte_apply_into false clumps target reverse w = byte_apply_into true clumps target reverse w.
Proof. exact p_C117_bytes. Qed.
Print Assumptions C117_bytes.

(* reading a unified diff; [nd]: the decimal digits beyond ASCII *)
Theorem C117_unified : forall nd lines start,
  get_from_at nd true lines start <> Panic -> get_from_at nd false lines start = get_from_at nd true lines start.
Proof. exact p_C117_unified. Qed.
Print Assumptions C117_unified.

(* pw_patch as a whole, whatever the patch file contains and whatever fails on the way: messages,
   exit status, every state of the file system *)
Theorem C117_program : forall tmp mode faults stdout patch reverse w,
  fst (snd (patch_main_logged (Env true tmp mode faults stdout) patch reverse w)) <> Abort ->
  patch_main_logged (Env false tmp mode faults stdout) patch reverse w =
  patch_main_logged (Env true tmp mode faults stdout) patch reverse w.
Proof. exact p_C117_program. Qed.
Print Assumptions C117_program.

(* the same without the messages *)
Theorem C117_files : forall tmp mode faults stdout patch reverse w,
  fst (patch_main (Env true tmp mode faults stdout) patch reverse w) <> Abort ->
  patch_main (Env false tmp mode faults stdout) patch reverse w = patch_main (Env true tmp mode faults stdout) patch reverse w.
Proof. exact p_C117_files. Qed.
Print Assumptions C117_files.

(* so a release build panics only where a debug build does *)
Theorem C117_panics : forall clumps bclumps target btarget reverse w,
  (fst (text_apply_into false clumps target reverse w) = Panicked -> fst (text_apply_into true clumps target reverse w) = Panicked) /\
  (fst (byte_apply_into false bclumps btarget reverse w) = Panicked -> fst (byte_apply_into true bclumps btarget reverse w) = Panicked).
Proof. exact p_C117_panics. Qed.
Print Assumptions C117_panics.

(* a displaced clump in both builds; a diff with which the debug build panics and the release build
   does not, so the condition is needed *)
Example C117_example :
  (exists clumps, text_diff_clumps (L "A B C D E F ") (L "A B X Y E F ") 1 = Ok clumps /\
     text_apply_into true clumps (L "Q R A B C D E F ") false (Writer [] None)
       = (Done (Stats 0 1 0 0 0), Writer (concat (L "Q R A B X Y E F ")) None)) /\
  (exists clumps, text_diff_clumps [] (L "B ") 1 = Ok clumps /\
     fst (text_apply_into true clumps [] true (Writer [] None)) = Panicked /\
     fst (text_apply_into false clumps [] true (Writer [] None)) = Done (Stats 0 0 1 0 0)).
Proof. exact e_C117_example. Qed.

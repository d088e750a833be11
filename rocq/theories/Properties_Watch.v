(* Properties_Watch.v - the property theorems and a concrete case beside each; proofs are in
   Proof_Props_Watch.v.  Generated by tools/mkthms.py. *)
From Coq Require Import String.
From Verif Require Import Proof_Props_Watch Base Model_Seq Model_Changes Model_IO Model_Text Model_Bytes Model_Json Model_Files Model_Conc Model_Watch Spec Spec_Files Spec_Conc Spec_Watch Cases Proof_Seq Proof_Utf8 Proof_Json Proof_IO Proof_Text Proof_Bytes Proof_Diff Proof_Term Proof_Files Proof_Conc Proof_Watch Proof_Props_Files Proof_Props_Conc.

(* ------------------------------------------------------------------ C109 *)
(* As long as nothing changes, this is the diff of Model_Files.v, operation by operation. *)
Theorem C109_alone : forall E f before after context, diff_new E before after context (start f) =
  (fst (diff_while E (fun _ => f) before after context), World f [f] (snd (diff_while E (fun _ => f) before after context)) []).
Proof. exact p_C109_alone. Qed.
Print Assumptions C109_alone.

(* C109, full statement: a diff made while the patch tool is at work on the files is one that
   could have been made, without disturbance, at some moment.  It is false: the second file is read
   after the first.  Here both are patched in between, without any fault, and the diff is one of
   contents that the two files never had at the same time. *)
Theorem C109_one_moment_refuted : exists f js seen g qs E at_ before after context d n,
  orderly f js /\ Forall (fun j => fault_free (j_env j)) js /\ fault_free E /\ context <= 255 /\
  together f (map begun js) seen g qs /\ Forall (fun q => ended q = Some (Val tt)) qs /\ in_order (f :: seen) at_ /\
  (forall h, In h (f :: seen) -> (exists ls, text_of h before ls) /\ exists ls, text_of h after ls) /\
  diff_while E at_ before after context = (Val (Some d), n) /\
  forall h, In h (f :: seen) -> fst (diff_new E before after context (start h)) <> Val (Some d).
Proof. exact p_C109_one_moment_refuted. Qed.
Print Assumptions C109_one_moment_refuted.

(* Nor does the kind of the diff fit what it says: the reading as bytes comes after the attempt to
   read a text.  Here a file that is not UTF-8 is patched in between, and both contents that the
   diff has been made from are texts; it is a diff of bytes all the same. *)
Theorem C109_kind_refuted : exists f js seen g qs E at_ before after context d n h lb la,
  orderly f js /\ Forall (fun j => fault_free (j_env j)) js /\ fault_free E /\ context <= 255 /\
  together f (map begun js) seen g qs /\ Forall (fun q => ended q = Some (Val tt)) qs /\ in_order (f :: seen) at_ /\
  diff_while E at_ before after context = (Val (Some (ByteChange d)), n) /\
  In h (f :: seen) /\ text_of h before lb /\ text_of h after la /\ describes_at h h before after context (ByteChange d) /\
  forall h, In h (f :: seen) -> fst (diff_new E before after context (start h)) <> Val (Some (ByteChange d)).
Proof. exact p_C109_kind_refuted. Qed.
Print Assumptions C109_kind_refuted.

(* What does hold, whatever happens to the files and whatever fails: the program comes to an end
   after at most ten operations, with a diff or the report that there is none.  A diff describes
   what the first file held at one moment and the second file at one moment not before that.
   Missing: that these are the same moment, and that the kind fits. *)
Theorem C109_contents_partial : forall E at_ before after context, context <= 255 ->
  exists r n, diff_while E at_ before after context = (Val r, n) /\ n <= 10 /\
  forall d, r = Some d -> exists i j, i <= j < n /\ describes_at (at_ i) (at_ j) before after context d.
Proof. exact p_C109_contents_partial. Qed.
Print Assumptions C109_contents_partial.

(* If what happens is that the patch tool changes files: each of the two contents is what the file
   held at the beginning, or what complete patches have made of it - never half a patch. *)
Theorem C109_patched_partial : forall f js seen g qs E at_ before after context d n,
  orderly f js -> together f (map begun js) seen g qs -> in_order (f :: seen) at_ -> context <= 255 ->
  ~ In before (temps js) -> ~ In after (temps js) ->
  diff_while E at_ before after context = (Val (Some d), n) ->
  exists i j hb ha, i <= j /\ nth_error (f :: seen) i = Some hb /\ nth_error (f :: seen) j = Some ha /\
    describes_at hb ha before after context d /\ whole f js before (hb before) /\ whole f js after (ha after).
Proof. exact p_C109_patched_partial. Qed.
Print Assumptions C109_patched_partial.

(* And if at most one of two text files is being patched, the diff is one that could have been made
   without disturbance. *)
Theorem C109_one_moment_partial : forall f js seen g qs E at_ before after context d n,
  orderly f js -> together f (map begun js) seen g qs -> in_order (f :: seen) at_ -> context <= 255 -> fault_free E ->
  ~ In before (temps js) -> ~ In after (temps js) -> ~ In before (targets js) \/ ~ In after (targets js) ->
  (forall h, In h (f :: seen) -> (exists ls, text_of h before ls) /\ exists ls, text_of h after ls) ->
  diff_while E at_ before after context = (Val (Some d), n) ->
  exists h, In h (f :: seen) /\ fst (diff_new E before after context (start h)) = Val (Some d).
Proof. exact p_C109_one_moment_partial. Qed.
Print Assumptions C109_one_moment_partial.

(* N is patched while F and N are compared: the diff is that of the new N *)
Example C109_example : exists seen g qs at_ d n,
  orderly seen_files [job_n] /\ together seen_files (map begun [job_n]) seen g qs /\ in_order (seen_files :: seen) at_ /\
  diff_while (env_with (bs "T9")) at_ (bs "F") (bs "N") 1 = (Val (Some d), n) /\ n = 6 /\
  fst (diff_new (env_with (bs "T9")) (bs "F") (bs "N") 1 (start seen_files)) <> Val (Some d) /\
  fst (diff_new (env_with (bs "T9")) (bs "F") (bs "N") 1 (start g)) = Val (Some d) /\
  match d with TextChange t => List.length (td_clumps t) = 2 | _ => False end.
Proof. exact e_C109_example. Qed.

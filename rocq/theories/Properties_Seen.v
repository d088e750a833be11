(* Properties_Seen.v - the property theorems and a concrete case beside each; proofs are in
   Proof_Props_Seen.v.  Generated by tools/mkthms.py. *)
From Coq Require Import String.
From Verif Require Import Proof_Props_Seen Base Model_Seq Model_Changes Model_IO Model_Text Model_Bytes Model_Json Spec Spec_Outcome Cases Proof_Seq Proof_IO Proof_Arith Proof_Text Proof_Apply Proof_Bytes Proof_Outcome Proof_Seen Proof_Props_Outcome.

(* ------------------------------------------------------------------ C116 *)
(* C116, full statement: a patch that is reported as already applied, by the statistics or by the
   query, leaves the text as it is.  For the query it is false, also for the diff of two texts and the new one of them: old lines that
   fit are looked for first. *)
Theorem C116_query_refuted : forall dbg, exists b a clumps out,
  text_diff_clumps b a 1 = Ok clumps /\ text_is_already_applied dbg clumps a false = Ok true /\
  text_apply_into dbg clumps a false (Writer [] None) = (Done (Stats 1 0 0 0 0), Writer out None) /\ out <> concat a.
Proof. exact p_C116_query_refuted. Qed.
Print Assumptions C116_query_refuted.

(* If applying a patch reports every clump as already applied, exactly the text is written.
   Missing: the same if only the query says so, which is false. *)
Theorem C116_text_partial : forall dbg hs target reverse st out, Forall hunk_ok hs -> lines_fit hs -> fits_lines target ->
  text_apply_into dbg (map text_of_hunk hs) target reverse (Writer [] None) = (Done st, Writer out None) ->
  st_clean st = 0 -> st_fuzzy st = 0 -> st_failed st = 0 -> out = concat target.
Proof. exact p_C116_text_partial. Qed.
Print Assumptions C116_text_partial.

(* Byte patches have no statistics; they leave the data as they are if the old bytes of no clump
   are at their place.  Missing: as above. *)
Theorem C116_bytes_partial : forall dbg hs target reverse, bytes_fit target hs ->
  Forall (fun h => byte_will_apply (byte_of_hunk h) target reverse = false) hs ->
  byte_apply_into dbg (map byte_of_hunk hs) target reverse (Writer [] None) = (Done tt, Writer target None).
Proof. exact p_C116_bytes_partial. Qed.
Print Assumptions C116_bytes_partial.

(* one clump found in its place and one displaced, both already applied; and bytes *)
Example C116_example :
  let hs := [Hunk 1 1 0 (L "A B C ") 0 (L "A X C "); Hunk 1 1 4 (L "E F G ") 4 (L "E Y G ")] in
  let target := L "A X C D D E Y G H " in
  Forall hunk_ok hs /\ lines_fit hs /\ fits_lines target /\
  text_apply_into true (map text_of_hunk hs) target false (Writer [] None) = (Done (Stats 0 0 1 1 0), Writer (concat target) None) /\
  let bh := [Hunk 0 0 0 (str "ab") 0 (str "xy"); Hunk 0 0 4 (str "pq") 4 (str "rs")] in
  bytes_fit (str "xycdefg") bh /\ forallb (fun h => negb (byte_will_apply (byte_of_hunk h) (str "xycdefg") false)) bh = true /\
  byte_is_already_applied (byte_of_hunk (hd (Hunk 0 0 0 [] 0 []) bh)) (str "xycdefg") false = true.
Proof. exact e_C116_example. Qed.

(* Proof_Props_Merge.v - the property lemmas on patching texts that were edited elsewhere. *)
From Coq Require Import String.
From Verif Require Import Base Model_Seq Model_Changes Model_IO Model_Text Model_Bytes Model_Json Model_Files Spec Spec_Files Spec_Outcome Spec_Merge Cases Proof_Arith Proof_Seq Proof_Utf8 Proof_IO Proof_Text Proof_Apply Proof_Diff Proof_Files Proof_Outcome Proof_Merge Proof_Props_Text Proof_Props_Files.

(* ------------------------------------------------------------------ C93 *)
(* C93, full statement: if the old lines of all clumps of a diff are found in order in a text
   (edited elsewhere), each clump fitting at one place only, then patching that text replaces
   exactly these lines and rejects nothing.  It is false, even with the default context of 2:
   six lines inserted in front of the first of two clumps that follow each other closely are
   enough for it not to be found. *)
Lemma p_C93_merge_refuted : exists before after hs target moved out,
  text_diff_clumps before after 2 = Ok (map text_of_hunk hs) /\ target = L "P Q R S T U " ++ before /\
  Forall (fun h => fits_once h target) hs /\ merged anywhere target 0 0 hs moved out /\
  forall dbg, exists bytes, text_apply_into dbg (map text_of_hunk hs) target false (Writer [] None) = (Done (Stats 0 1 0 0 1), Writer bytes None) /\
    bytes <> concat out.
Proof.
  exists (L "A B C D E F G H I J "), (L "A B X V D E F G Y W I J "),
    [Hunk 2 2 0 (L "A B C D E ") 0 (L "A B X V D E "); Hunk 2 2 5 (L "F G H I J ") 6 (L "F G Y W I J ")],
    (L "P Q R S T U A B C D E F G H I J "), 1, (L "P Q R S T U A B X V D E F G Y W I J ").
  split; [vm_compute; reflexivity|]. split; [vm_compute; reflexivity|].
  assert (U1 : fits_once (Hunk 2 2 0 (L "A B C D E ") 0 (L "A B X V D E ")) (L "P Q R S T U A B C D E F G H I J ")) by (apply (once_check _ _ 6%Z); vm_compute; reflexivity).
  assert (U2 : fits_once (Hunk 2 2 5 (L "F G H I J ") 6 (L "F G Y W I J ")) (L "P Q R S T U A B C D E F G H I J ")) by (apply (once_check _ _ 11%Z); vm_compute; reflexivity).
  split; [repeat constructor; assumption|]. split.
  - apply (merged_at _ _ _ _ _ _ 6 _ 0 (L "F G Y W I J ")); [vm_compute; reflexivity|vm_compute; reflexivity|vm_compute; lia|apply best_of_once; [apply occurs_check; vm_compute; reflexivity|exact U1]|exact I|].
    apply (merged_at _ _ _ _ _ _ 11 _ 0 []); [vm_compute; reflexivity|vm_compute; reflexivity|vm_compute; lia|apply best_of_once; [apply occurs_check; vm_compute; reflexivity|exact U2]|exact I|].
    apply merged_stop; vm_compute; reflexivity.
  - intros dbg. eexists. destruct dbg; (split; [vm_compute; reflexivity|vm_compute; discriminate]).
Qed.
(* What does hold, for the diff of any two texts (together in memory) and any text: if each
   clump's old lines are found at its best place - other places may exist farther away from
   where it is expected - and within reach, patching replaces exactly these lines; the
   statistics tell how many clumps were not exactly where expected.
   Missing: clumps displaced forward out of reach. *)
Lemma p_C93_merge_partial : forall dbg before after context hs target moved out,
  context <= 255 -> fits_lines (before ++ after) -> fits_lines target ->
  text_diff_clumps before after context = Ok (map text_of_hunk hs) -> merged within_reach target 0 0 hs moved out ->
  text_apply_into dbg (map text_of_hunk hs) target false (Writer [] None) =
    (Done (Stats (length hs - moved) moved 0 0 0), Writer (concat out) None).
Proof.
  intros dbg b a context hs target moved out Hc Fb Ft E Hm.
  assert (Fb' : fits_lines b /\ fits_lines a) by (unfold fits_lines, zlen in *; rewrite app_length in Fb; lia).
  destruct (diff_facts_hs b a context hs Hc (proj1 Fb') (proj2 Fb') E) as (cs & E3 & Hcov & Hok & Hord).
  apply emits_run. apply text_apply_merged; auto. exact (cover_lines_fit _ _ _ _ _ Fb Hcov).
Qed.
(* the same for patches that do not come from the generator, and for patching in reverse *)
Lemma p_C93_merge_any_partial : forall dbg hs target moved out,
  Forall hunk_ok hs -> ordered hs -> lines_fit hs -> fits_lines target ->
  (merged within_reach target 0 0 hs moved out ->
   text_apply_into dbg (map text_of_hunk hs) target false (Writer [] None) =
     (Done (Stats (length hs - moved) moved 0 0 0), Writer (concat out) None)) /\
  (merged within_reach target 0 0 (map swap_hunk hs) moved out ->
   text_apply_into dbg (map text_of_hunk hs) target true (Writer [] None) =
     (Done (Stats (length hs - moved) moved 0 0 0), Writer (concat out) None)).
Proof.
  intros dbg hs target moved out Hok Hord Hf Ft. split; intros Hm.
  - apply emits_run. now apply text_apply_merged.
  - rewrite reverse_apply, <- (map_length swap_hunk hs). apply emits_run. apply text_apply_merged; auto;
      [now apply hunks_ok_swap|now apply ordered_swap|now apply lines_fit_swap].
Qed.
(* the patch tool does that to a file *)
Lemma p_C93_merge_file_partial : forall E f P d hs target moved out,
  fault_free E -> N.testbit (e_mode E) 8 = true -> holds_diff f P (TextChange d) -> f (e_tmp E) = None ->
  td_clumps d = map text_of_hunk hs -> Forall hunk_ok hs -> ordered hs -> lines_fit hs -> fits_lines target ->
  text_of f (td_before d) target -> merged within_reach target 0 0 hs moved out ->
  exists w, patch_main E P false (start f) = (Val tt, w) /\ content (w_fs w) (td_before d) = Some (concat out) /\
    forall p, p <> td_before d -> w_fs w p = f p.
Proof.
  intros E f P d hs target moved out FF He Hd Ht Ed Hok Hord Hf Ft (c & C1 & C2 & C3) Hm.
  destruct (way_change E P false (TextChange d) c (concat out) f FF He Hd Ht C1) as (g & w & W1 & W2 & W3 & _ & W5).
  - eapply patches_text; [exact C2|exact C3|]. rewrite Ed. exact (proj1 (p_C93_merge_any_partial _ hs target moved out Hok Hord Hf Ft) Hm).
  - exists w. subst g. auto.
Qed.
(* Lines inserted in front, changed between and removed after two clumps; the old lines of the
   second clump also occur farther away. *)
Lemma e_C93_example :
  let b := L "A B C D E F G H I J " in let a := L "A B X V D E F G H Y W J " in let target := L "P A B C D Q R S H I J H I J " in
  exists hs, text_diff_clumps b a 1 = Ok (map text_of_hunk hs) /\ length hs = 2 /\
    merged within_reach target 0 0 hs 1 (L "P A B X V D Q R S H Y W J H I J ") /\
    text_apply_into true (map text_of_hunk hs) target false (Writer [] None) = (Done (Stats 1 1 0 0 0), Writer (bs "P A B X V D Q R S H Y W J H I J ") None).
Proof.
  intros b a target. exists [Hunk 1 1 1 (L "B C D ") 1 (L "B X V D "); Hunk 1 1 7 (L "H I J ") 8 (L "H Y W J ")].
  split; [vm_compute; reflexivity|]. split; [reflexivity|]. split; [|vm_compute; reflexivity].
  apply (merged_at _ _ _ _ _ _ 2 _ 0 (L "Q R S H Y W J H I J ")); [vm_compute; reflexivity|vm_compute; reflexivity|vm_compute; lia| | |].
  - apply best_of_once; [apply occurs_check; vm_compute; reflexivity|]. apply (once_check _ _ 2%Z). vm_compute. reflexivity.
  - right. vm_compute. reflexivity.
  - apply (merged_at _ _ _ _ _ _ 8 _ 0 (L "H I J ")); [vm_compute; reflexivity|vm_compute; reflexivity|vm_compute; lia| | |].
    + split; [apply occurs_check; vm_compute; reflexivity|]. intros pos k Hk Ho. apply spots_complete in Ho; [|assumption]. vm_compute in Ho.
      destruct Ho as [<-|[<-|Ho]]; [left; reflexivity|right; left; vm_compute; reflexivity|]. repeat (destruct Ho as [<-|Ho]; [first [left; reflexivity|right; left; vm_compute; reflexivity]|]). destruct Ho.
    + left. vm_compute. discriminate.
    + apply merged_stop; vm_compute; reflexivity.
Qed.

(* ------------------------------------------------------------------ C94 *)
(* C94: if a text (edited elsewhere) was patched as in C93 and the new lines of every clump fit
   the result at one place only, then patching the result in reverse restores the text, with the
   same number of displaced clumps. *)
Lemma p_C94_undo_merge : forall dbg before after context hs target moved out,
  context <= 255 -> fits_lines (before ++ after) -> fits_lines target -> fits_lines out ->
  text_diff_clumps before after context = Ok (map text_of_hunk hs) -> merged within_reach target 0 0 hs moved out ->
  Forall (fun h => fits_once (swap_hunk h) out) hs ->
  text_apply_into dbg (map text_of_hunk hs) target false (Writer [] None) =
    (Done (Stats (length hs - moved) moved 0 0 0), Writer (concat out) None) /\
  text_apply_into dbg (map text_of_hunk hs) out true (Writer [] None) =
    (Done (Stats (length hs - moved) moved 0 0 0), Writer (concat target) None).
Proof.
  intros dbg b a context hs target moved out Hc Fb Ft Fo E Hm Hu. split; [eapply p_C93_merge_partial; eauto|].
  assert (Fb' : fits_lines b /\ fits_lines a) by (unfold fits_lines, zlen in *; rewrite app_length in Fb; lia).
  destruct (diff_facts_hs b a context hs Hc (proj1 Fb') (proj2 Fb') E) as (cs & E3 & Hcov & Hok & Hord).
  destruct (cover_level _ _ _ _ _ _ _ Hcov) as [Hl Hh].
  apply (p_C93_merge_any_partial dbg hs out moved target Hok Hord); [exact (cover_lines_fit _ _ _ _ _ Fb Hcov)|assumption|].
  apply (merged_undo target out hs 0 0 moved out Hm Hok Hl Hu (Nat.le_0_l _) [] 0%Z eq_refl).
  destruct hs as [|h hs]; [exact I|]. cbn [length]. lia.
Qed.
Lemma e_C94_example :
  let b := L "A B C D E F G H I J " in let a := L "A B X V D E F G H Y W J " in
  let target := L "P A B C D Q R S H I J " in let out := L "P A B X V D Q R S H Y W J " in
  exists hs, text_diff_clumps b a 1 = Ok (map text_of_hunk hs) /\ length hs = 2 /\ merged within_reach target 0 0 hs 1 out /\
    Forall (fun h => fits_once (swap_hunk h) out) hs /\
    text_apply_into true (map text_of_hunk hs) out true (Writer [] None) = (Done (Stats 1 1 0 0 0), Writer (bs "P A B C D Q R S H I J ") None).
Proof.
  intros b a target out. exists [Hunk 1 1 1 (L "B C D ") 1 (L "B X V D "); Hunk 1 1 7 (L "H I J ") 8 (L "H Y W J ")].
  split; [vm_compute; reflexivity|]. split; [reflexivity|]. split; [|split; [|vm_compute; reflexivity]].
  - apply (merged_at _ _ _ _ _ _ 2 _ 0 (L "Q R S H Y W J ")); [vm_compute; reflexivity|vm_compute; reflexivity|vm_compute; lia| | |].
    + apply best_of_once; [apply occurs_check; vm_compute; reflexivity|]. apply (once_check _ _ 2%Z). vm_compute. reflexivity.
    + right. vm_compute. reflexivity.
    + apply (merged_at _ _ _ _ _ _ 8 _ 0 []); [vm_compute; reflexivity|vm_compute; reflexivity|vm_compute; lia| | |].
      * apply best_of_once; [apply occurs_check; vm_compute; reflexivity|]. apply (once_check _ _ 8%Z). vm_compute. reflexivity.
      * left. vm_compute. discriminate.
      * apply merged_stop; vm_compute; reflexivity.
  - repeat constructor; [apply (once_check _ _ 2%Z)|apply (once_check _ _ 9%Z)]; vm_compute; reflexivity.
Qed.

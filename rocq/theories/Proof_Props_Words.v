(* Proof_Props_Words.v - the property lemmas on the texts of messages. *)
From Coq Require Import String.
From Verif Require Import Base Model_Seq Model_Changes Model_IO Model_Text Model_Bytes Model_Json Model_Files Model_Log Model_Words Spec Spec_Files Spec_Log Spec_Words Cases Proof_Files Proof_Words Proof_Props_Files.

(* ------------------------------------------------------------------ C124 *)
(* C124: the text of a message tells what has happened, to which file and why; a path cannot make it
   look like another message or break its line.
   Full statement of the first part, for both programs: if a program fails because of a file, the
   message names the file.  It is false of the diff tool: its messages are the same whichever of the
   two files cannot be read *)
Lemma p_C124_names_file_refuted : exists f g before after, before <> after /\
  content f before = None /\ content f after <> None /\ content g before <> None /\ content g after = None /\
  (forall p, p <> before -> p <> after -> f p = g p) /\
  forall dbg context, exists w w',
    diff_main_logged (calm_env dbg) before after context (start f) = ([Event Program Error DiffFailed], (Exit 1, w)) /\
    diff_main_logged (calm_env dbg) before after context (start g) = ([Event Program Error DiffFailed], (Exit 1, w')) /\ w_stdout w = w_stdout w'.
Proof.
  exists (fun p => if path_eqb p (bs "A") then Some (File 0 []) else if path_eqb p (bs "B") then Some (File rw (bs "x ")) else None),
         (fun p => if path_eqb p (bs "A") then Some (File rw (bs "x ")) else if path_eqb p (bs "B") then Some (File 0 []) else None), (bs "A"), (bs "B").
  split; [discriminate|]. split; [vm_compute; reflexivity|]. split; [vm_compute; discriminate|]. split; [vm_compute; discriminate|]. split; [vm_compute; reflexivity|].
  split.
  - intros p H1 H2. now rewrite (path_eqb_neq _ _ H1), (path_eqb_neq _ _ H2).
  - intros dbg context.
    match goal with |- exists w w', ?x = _ /\ ?y = _ /\ _ =>
      assert (Ex : (fst x, fst (snd x), w_stdout (snd (snd x))) = ([Event Program Error DiffFailed], Exit 1, [])) by (vm_compute; reflexivity);
      assert (Ey : (fst y, fst (snd y), w_stdout (snd (snd y))) = ([Event Program Error DiffFailed], Exit 1, [])) by (vm_compute; reflexivity);
      destruct x as [ev [o w]], y as [ev' [o' w']] end.
    cbn [fst snd] in Ex, Ey. injection Ex as -> -> E1. injection Ey as -> -> E2. exists w, w'. split; [reflexivity|]. split; [reflexivity|]. now rewrite E1.
Qed.

(* What does hold: the text determines the message - with the clump, the numbers and the path in it,
   whatever bytes the path consists of - and the text of the error *)
Lemma p_C124_told_apart_partial : forall printable single err err' m m', sayable m -> sayable m' ->
  words printable single err m = words printable single err' m' -> m = m' /\ (gives_reason m = true -> err = err').
Proof. intros. now apply (words_differ printable single). Qed.
(* all messages of the two programs are of this kind *)
Lemma p_C124_all_said : forall E,
  (forall patch reverse w, Forall (fun e => sayable (ev_message e)) (fst (patch_main_logged E patch reverse w))) /\
  (forall before after context w, Forall (fun e => sayable (ev_message e)) (fst (diff_main_logged E before after context w))).
Proof. intros E. split; [apply patch_tells|apply diff_tells]. Qed.
(* a path is never the reason for a line break or another control character *)
Lemma p_C124_one_line : forall printable single err m b, In b (words printable single err m) -> In b err \/ visible b.
Proof. intros printable single err m b H. exact (words_visible printable single m b err H). Qed.
(* a path that contains quotes, a line break, a letter beyond ASCII, and a byte that is not UTF-8 *)
Lemma e_C124_example : let p := str "a""b" ++ [x0a; xc3; xa9; xff; x1b] in
  words (fun _ => true) true (str "why") (OpeningFailed p) = str "Error opening ""a\""b\n" ++ [xc3; xa9] ++ str "\xFF\u{1b}"": why" /\
  words (fun _ => false) true (str "why") (OpeningFailed p) = str "Error opening ""a\""b\n\u{e9}\xFF\u{1b}"": why" /\
  words (fun _ => true) true [] (AboutClump 12 Applies (Some (1%Z, 0%Z)) (Some (-3)%Z)) = str "Clump #12 applies with (1, 0) reductions and offset -3." /\
  words (fun _ => true) true [] (PatchDone (Some (Stats 2 1 0 0 3))) = str "Statistics { clean: 2, fuzzy: 1, already_applied: 0, already_applied_fuzzy: 0, failed: 3 }" /\
  sayable (OpeningFailed p) /\ sayable (AboutClump 12 Applies (Some (1%Z, 0%Z)) (Some (-3)%Z)).
Proof. cbn zeta. split; [vm_compute; reflexivity|]. split; [vm_compute; reflexivity|]. split; [vm_compute; reflexivity|]. split; [vm_compute; reflexivity|]. now split. Qed.

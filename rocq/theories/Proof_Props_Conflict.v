(* Proof_Props_Conflict.v - the property lemmas on reading the conflicts of a patched text. *)
From Coq Require Import String.
From Verif Require Import Base Model_Seq Model_Changes Model_IO Model_Text Model_Bytes Model_Json Model_Files Spec Spec_Outcome Spec_Files Spec_Result Spec_Conflict Cases Proof_Seq Proof_Arith Proof_IO Proof_Text Proof_Files Proof_Outcome Proof_Result Proof_Conflicts Proof_ReadConflict Proof_Props_Gen Proof_Props_Text Proof_Props_Files Proof_Props_Outcome Proof_Props_Result.

Local Ltac vr := vm_compute; reflexivity.
Lemma unmarked_check ls : forallb (fun l => negb (existsb (list_eqb Byte.eqb l) marks)) ls = true -> Forall unmarked ls.
Proof.
  rewrite forallb_forall, Forall_forall. intros H l Hl Hm. specialize (H l Hl). apply negb_true_iff in H.
  assert (K : existsb (list_eqb Byte.eqb l) marks = true); [|congruence]. apply existsb_exists. exists l. split; [assumption|].
  now apply (list_eqb_lawful Byte.eqb byte_eqb_lawful).
Qed.
Lemma clear_literal ls : forallb looks_full ls = true -> forallb (fun l => negb (existsb (list_eqb Byte.eqb l) marks)) ls = true -> clear ls.
Proof. intros H1 H2. split; [now apply full_literal|now apply unmarked_check]. Qed.
Lemma lines_of_unique s ls ls' : lines_of s ls -> lines_of s ls' -> ls' = ls.
Proof. intros H H'. now rewrite (lines_of_split _ _ H), (lines_of_split _ _ H'). Qed.

Lemma read_lines_check p ls cs rest text rest' : text = p ++ ls -> rest' = p ++ rest ->
  forallb (fun l => negb (existsb (list_eqb Byte.eqb l) marks)) p = true -> conflicted ls cs rest -> conflicted text cs rest'.
Proof. intros -> -> H. apply conflicted_lines. now apply unmarked_check. Qed.
Lemma read_conflict_check old new ls cs rest text : text = mark x3c :: old ++ mark x3d :: new ++ mark x3e :: ls ->
  forallb (fun l => negb (existsb (list_eqb Byte.eqb l) marks)) (old ++ new) = true -> conflicted ls cs rest -> conflicted text ((old, new) :: cs) rest.
Proof. intros -> H. apply unmarked_check, Forall_app in H as [H1 H2]. now apply conflicted_conflict. Qed.
Lemma read_end_check p : forallb (fun l => negb (existsb (list_eqb Byte.eqb l) marks)) p = true -> conflicted p [] p.
Proof. intros H. rewrite <- (app_nil_r p). apply (conflicted_lines p [] [] []); [now apply unmarked_check|constructor]. Qed.

(* ------------------------------------------------------------------ C135 *)
(* C135, full statement: the rejected clumps can be read from the patched text - looking for the marks,
   one finds exactly one conflict for each of them, with its old and new lines - and taking the
   conflicts out leaves what the other clumps made of the text.  It is false: a diff that takes a conflict
   out of a text (someone has resolved it) has the marks among its lines; where it is rejected, the
   text cannot be read. *)
Lemma p_C135_read_refuted : exists before after target hs st out ls,
  text_diff_clumps before after 2 = Ok (map text_of_hunk hs) /\ Forall full_line before /\ Forall full_line after /\ clear target /\
  (exists cs rest, conflicted before cs rest) /\ clear after /\
  text_apply_into true (map text_of_hunk hs) target false (Writer [] None) = (Done st, Writer out None) /\ st_failed st = 1 /\ lines_of out ls /\
  forall cs rest, ~ conflicted ls cs rest.
Proof.
  exists (L "A <<<<<<< B ======= C >>>>>>> D "), (L "A C D "), (L "P Q R S T U V W X "),
    [Hunk 1 1 0 (L "A <<<<<<< B ======= C >>>>>>> D ") 0 (L "A C D ")], (Stats 0 0 0 0 1),
    (bs "<<<<<<< A <<<<<<< B ======= C >>>>>>> D ======= A C D >>>>>>> P Q R S T U V W X "), (L "<<<<<<< A <<<<<<< B ======= C >>>>>>> D ======= A C D >>>>>>> P Q R S T U V W X ").
  split; [vr|]. split; [now apply full_literal|]. split; [now apply full_literal|]. split; [now apply clear_literal|]. split.
  { exists [(L "B ", L "C ")], (L "A D "). apply (read_lines_check (L "A ") (L "<<<<<<< B ======= C >>>>>>> D ") _ (L "D ")); [vr|vr|vr|].
    apply (read_conflict_check (L "B ") (L "C ") (L "D ")); [vr|vr|]. apply read_end_check. vr. }
  split; [now apply clear_literal|]. split; [vr|]. split; [reflexivity|]. split; [apply p_C01_split_lines; vr|].
  assert (E : L "<<<<<<< A <<<<<<< B ======= C >>>>>>> D ======= A C D >>>>>>> P Q R S T U V W X " =
    mark x3c :: [x41; newline] :: mark x3c :: L "B ======= C >>>>>>> D ======= A C D >>>>>>> P Q R S T U V W X ") by vr. rewrite E.
  generalize (L "B ======= C >>>>>>> D ======= A C D >>>>>>> P Q R S T U V W X "). clear E. intros tail cs rest H.
  inversion H as [|l0 ls0 cs0 rest0 Hl0 K|old new ls cs0 rest0 Ho Hn K E]; subst; [apply Hl0; now left|].
  destruct old as [|x [|y old]]; [discriminate|discriminate|]. cbn [app] in E. injection E as _ Ey _. inversion Ho as [|? ? _ Ho2]; subst. inversion Ho2 as [|? ? Hy _]; subst. apply Hy. now left.
Qed.
(* And a conflict left by an earlier patch is counted again. *)
Lemma p_C135_count_refuted : exists hs target st out ls cs rest, Forall full_line target /\
  Forall (fun h => clear (h_old h) /\ clear (h_new h)) hs /\
  text_apply_into true (map text_of_hunk hs) target false (Writer [] None) = (Done st, Writer out None) /\ lines_of out ls /\
  conflicted ls cs rest /\ st_failed st = 1 /\ List.length cs = 2.
Proof.
  exists [Hunk 0 0 1 (L "B ") 1 (L "C ")], (L "A <<<<<<< X ======= Y >>>>>>> D "), (Stats 0 0 0 0 1),
    (bs "<<<<<<< B ======= C >>>>>>> A <<<<<<< X ======= Y >>>>>>> D "), (L "<<<<<<< B ======= C >>>>>>> A <<<<<<< X ======= Y >>>>>>> D "),
    [(L "B ", L "C "); (L "X ", L "Y ")], (L "A D ").
  split; [now apply full_literal|]. split; [constructor; [split; now apply clear_literal|constructor]|]. split; [vr|]. split; [apply p_C01_split_lines; vr|].
  split; [|split; reflexivity]. apply (read_conflict_check (L "B ") (L "C ") (L "A <<<<<<< X ======= Y >>>>>>> D ")); [vr|vr|].
  apply (read_lines_check (L "A ") (L "<<<<<<< X ======= Y >>>>>>> D ") _ (L "D ")); [vr|vr|vr|].
  apply (read_conflict_check (L "X ") (L "Y ") (L "D ")); [vr|vr|]. apply read_end_check. vr.
Qed.
(* A text can be read in one way only, and has a conflict exactly if it has a line <<<<<<<. *)
Lemma p_C135_reading : forall ls cs rest, conflicted ls cs rest ->
  (forall cs' rest', conflicted ls cs' rest' -> cs' = cs /\ rest' = rest) /\ (In (mark x3c) ls <-> cs <> []).
Proof. intros ls cs rest H. split; [now apply conflicted_unique|eapply read_none; exact H]. Qed.
(* What does hold: if all lines of the text and the patch end in a newline and none of them is a mark, the
   patched text is read in just this way: its conflicts are the rejected hunks, in order, as many as
   the statistics say, and the rest is what the other hunks made of the text.
   Missing: lines without a newline (see C114) and marks in the text or the patch. *)
Lemma p_C135_read_partial : forall dbg hs target st out, Forall hunk_ok hs -> lines_fit hs -> fits_lines target ->
  clear target -> Forall (fun h => clear (h_old h) /\ clear (h_new h)) hs ->
  text_apply_into dbg (map text_of_hunk hs) target false (Writer [] None) = (Done st, Writer out None) ->
  exists fates ls, outcome dbg target 0 0 hs (Some fates) out /\ st = tally fates /\ lines_of out ls /\
    conflicted ls (rejected hs fates) (settled target 0 hs fates) /\ List.length (rejected hs fates) = st_failed st.
Proof.
  intros dbg hs target st out H1 H2 H3 H4 H5 H. destruct (p_C73_outcome dbg hs target H1 H2 H3) as (r & out' & HO & _ & HE).
  rewrite HE in H. destruct r as [fates|]; [|discriminate]. injection H as <- ->.
  destruct (read_outcome _ _ _ _ _ _ _ HO H4 H5 fates eq_refl) as (ls & -> & F & K & N). exists fates, ls. auto 6 using full_lines.
Qed.
(* in reverse, with the hunks the other way round *)
Lemma p_C135_read_reverse_partial : forall dbg hs target st out, Forall hunk_ok hs -> lines_fit hs -> fits_lines target ->
  clear target -> Forall (fun h => clear (h_old h) /\ clear (h_new h)) hs ->
  text_apply_into dbg (map text_of_hunk hs) target true (Writer [] None) = (Done st, Writer out None) ->
  exists fates ls, outcome dbg target 0 0 (map swap_hunk hs) (Some fates) out /\ st = tally fates /\ lines_of out ls /\
    conflicted ls (rejected (map swap_hunk hs) fates) (settled target 0 (map swap_hunk hs) fates) /\
    List.length (rejected (map swap_hunk hs) fates) = st_failed st.
Proof.
  intros dbg hs target st out H1 H2 H3 H4 H5 H. rewrite reverse_apply in H. apply (p_C135_read_partial dbg (map swap_hunk hs) target); auto using hunks_ok_swap, lines_fit_swap.
  apply Forall_map. eapply Forall_impl; [|exact H5]. intros h [A B]. now split.
Qed.
(* The patch tool, which ends with status 0 and without an error message in such a case (C40, C84): the rejected
   hunks can be read from the file it leaves; there is none exactly if no line is <<<<<<<. *)
Lemma p_C135_file_partial : forall E f patch reverse w d hs target, patch_main E patch reverse (start f) = (Val tt, w) ->
  holds_diff f patch (TextChange d) -> td_clumps d = map text_of_hunk hs -> text_of f (td_before d) target ->
  Forall hunk_ok hs -> lines_fit hs -> fits_lines target -> clear target -> Forall (fun h => clear (h_old h) /\ clear (h_new h)) hs ->
  let hs' := if reverse then map swap_hunk hs else hs in
  exists fates out ls, outcome (e_dbg E) target 0 0 hs' (Some fates) out /\
    w_fs w (td_before d) = Some (File (e_mode E) out) /\ lines_of out ls /\
    conflicted ls (rejected hs' fates) (settled target 0 hs' fates) /\ (In (mark x3c) ls <-> In Rejected fates).
Proof.
  intros E f patch rv w d hs target H Hd Ed (c & T1 & T2 & T3) H1 H2 H3 H4 H5 hs'.
  destruct (p_C40_success_change_partial E f patch rv w (TextChange d) H Hd I) as (old & new & O1 & O2 & O3 & _). cbn [Spec_Files.target] in *.
  assert (old = c) by congruence. subst old. apply patches_text_inv in O2 as (_ & st & O2). rewrite <- (lines_of_split _ _ T3), Ed in O2.
  assert (R : forall fates ls, List.length (rejected hs' fates) = st_failed (tally fates) -> conflicted ls (rejected hs' fates) (settled target 0 hs' fates) ->
            (In (mark x3c) ls <-> In Rejected fates)).
  { intros fates ls N K. rewrite (read_none _ _ _ K). cbn [tally st_failed] in N. unfold how_many in N. split.
    - intros Hn. destruct (filter (fun x => match x with Rejected => true | _ => false end) fates) as [|x l] eqn:Ef; [destruct (rejected hs' fates); [congruence|discriminate]|].
      assert (Hx : In x (filter (fun x => match x with Rejected => true | _ => false end) fates)) by (rewrite Ef; now left). apply filter_In in Hx as [Hx Ex]. destruct x; try discriminate. assumption.
    - intros Hi Hn. assert (Hx : In Rejected (filter (fun x => match x with Rejected => true | _ => false end) fates)) by (apply filter_In; now split).
      rewrite Hn in N. destruct (filter (fun x => match x with Rejected => true | _ => false end) fates); [destruct Hx|discriminate]. }
  unfold hs' in *. destruct rv.
  - destruct (p_C135_read_reverse_partial _ hs target st new H1 H2 H3 H4 H5 O2) as (fates & ls & Q1 & -> & Q3 & Q4 & Q5). exists fates, new, ls. auto 6.
  - destruct (p_C135_read_partial _ hs target st new H1 H2 H3 H4 H5 O2) as (fates & ls & Q1 & -> & Q3 & Q4 & Q5). exists fates, new, ls. auto 6.
Qed.
(* one hunk put in, two rejected: two conflicts, and the text with the one hunk put in *)
Lemma e_C135_example :
  let hs := [Hunk 0 0 1 (L "B ") 1 (L "C "); Hunk 1 0 2 (L "P Q ") 2 (L "P R "); Hunk 0 0 9 (L "X ") 9 (L "Y ")] in
  let target := L "A B D E " in
  Forall hunk_ok hs /\ lines_fit hs /\ fits_lines target /\ clear target /\ Forall (fun h => clear (h_old h) /\ clear (h_new h)) hs /\
  exists out, text_apply_into true (map text_of_hunk hs) target false (Writer [] None) = (Done (Stats 1 0 0 0 2), Writer out None) /\
    lines_of out (L "A C <<<<<<< P Q ======= P R >>>>>>> <<<<<<< X ======= Y >>>>>>> D E ") /\
    conflicted (L "A C <<<<<<< P Q ======= P R >>>>>>> <<<<<<< X ======= Y >>>>>>> D E ") [(L "P Q ", L "P R "); (L "X ", L "Y ")] (L "A C D E ") /\
    let fates := [Placed false 0 Cleanly; Rejected; Rejected] in
    rejected hs fates = [(L "P Q ", L "P R "); (L "X ", L "Y ")] /\ settled target 0 hs fates = L "A C D E ".
Proof.
  cbv zeta. split; [repeat constructor; vm_compute; congruence|]. split; [vr|]. split; [vr|]. split; [now apply clear_literal|].
  split; [repeat (apply Forall_cons; [split; now apply clear_literal|]); apply Forall_nil|]. eexists. split; [vr|]. split; [apply p_C01_split_lines; vr|].
  split; [|split; vr]. apply (read_lines_check (L "A C ") (L "<<<<<<< P Q ======= P R >>>>>>> <<<<<<< X ======= Y >>>>>>> D E ") _ (L "D E ")); [vr|vr|vr|].
  apply (read_conflict_check (L "P Q ") (L "P R ") (L "<<<<<<< X ======= Y >>>>>>> D E ")); [vr|vr|].
  apply (read_conflict_check (L "X ") (L "Y ") (L "D E ")); [vr|vr|]. apply read_end_check. vr.
Qed.
(* the patch tool with the same patch *)
Lemma e_C135_file_example :
  let hs := [Hunk 0 0 1 (L "B ") 1 (L "C "); Hunk 1 0 2 (L "P Q ") 2 (L "P R "); Hunk 0 0 9 (L "X ") 9 (L "Y ")] in
  let f := files [(bs "A", bs "A B D E "); (bs "P", saved (TextChange (TextDiff (bs "A") (bs "B") (map text_of_hunk hs))))] in
  let run := patch_main (calm_env true) (bs "P") false (start f) in
  fst run = Val tt /\ w_fs (snd run) (bs "A") = Some (File rw (bs "A C <<<<<<< P Q ======= P R >>>>>>> <<<<<<< X ======= Y >>>>>>> D E ")).
Proof. intros hs f run. split; vr. Qed.

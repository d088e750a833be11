(* Proof_Props_Behind.v - the property lemmas on what is added behind a text. *)
From Coq Require Import String.
From Verif Require Import Base Model_Seq Model_Changes Model_IO Model_Text Model_Bytes Spec Spec_Outcome Spec_Result Spec_Behind Cases Proof_Seq Proof_IO Proof_Arith Proof_Apply Proof_Bytes Proof_Outcome Proof_Behind Proof_Behind2 Proof_Props_Gen Proof_Props_Outcome.

Local Ltac vr := vm_compute; reflexivity.

(* ------------------------------------------------------------------ C134 *)
(* C134, full statement: if a patch can be applied to a text, it can be applied to the text with more
   lines behind it, and the result has these lines behind it.  It is false: a clump that is not where
   it is expected can be found among the lines added, if this is nearer. *)
Lemma p_C134_behind_refuted : exists before after target more clumps out,
  text_diff_clumps before after 1 = Ok clumps /\
  text_apply_into true clumps target false (Writer [] None) = (Done (Stats 0 1 0 0 0), Writer out None) /\
  exists out', text_apply_into true clumps (target ++ more) false (Writer [] None) = (Done (Stats 0 1 0 0 0), Writer out' None) /\ out' <> out ++ List.concat more.
Proof.
  exists (L "Q R S A B C "), (L "Q R S A X Y B C "), (L "Q A B C "), (L "A B C "). eexists. eexists.
  split; [vr|]. split; [vr|]. eexists. split; [vr|]. vm_compute. discriminate.
Qed.

(* A byte clump that adds to the end without context is left out, and put in once something follows. *)
Lemma p_C134_bytes_refuted : exists before after more clumps out,
  byte_diff_clumps before after 0 = Ok clumps /\
  byte_apply_into true clumps before false (Writer [] None) = (Done tt, Writer out None) /\
  exists out', byte_apply_into true clumps (before ++ more) false (Writer [] None) = (Done tt, Writer out' None) /\ out' <> out ++ more.
Proof.
  exists (bs "AB"), (bs "ABX"), (bs "C"). eexists. eexists. split; [vr|]. split; [vr|]. eexists. split; [vr|]. vm_compute. discriminate.
Qed.

(* What does hold, for any clumps whatever, also such as no diff has, for any text and in both
   directions: if every clump is found where it is expected, the same happens with more lines behind
   the text, and the result is the same with these lines behind it.  Missing: clumps found elsewhere (see the next theorem). *)
Lemma p_C134_behind_partial : forall dbg clumps target more reverse st out,
  text_apply_into dbg clumps target reverse (Writer [] None) = (Done st, Writer out None) -> st_clean st = length clumps ->
  text_apply_into dbg clumps (target ++ more) reverse (Writer [] None) = (Done st, Writer (out ++ List.concat more) None).
Proof. intros. now apply text_behind. Qed.

(* Clumps found elsewhere, with less context, already applied or rejected: the same holds of every run
   that comes to an end, and the answer to the question whether the patch is already applied is the
   same, if each clump has some context and the lines added make no new place for its old or its new
   lines, not even with less context. *)
Lemma p_C134_elsewhere_partial : forall dbg hs target more, Forall hunk_ok hs -> lines_fit hs -> fits_lines (target ++ more) -> Forall (indifferent target more) hs ->
  (forall reverse st out, text_apply_into dbg (map text_of_hunk hs) target reverse (Writer [] None) = (Done st, Writer out None) ->
    text_apply_into dbg (map text_of_hunk hs) (target ++ more) reverse (Writer [] None) = (Done st, Writer (out ++ List.concat more) None)) /\
  (forall reverse answer, text_is_already_applied dbg (map text_of_hunk hs) target reverse = Ok answer ->
    text_is_already_applied dbg (map text_of_hunk hs) (target ++ more) reverse = Ok answer).
Proof.
  intros dbg hs target more Hok Hl Hf Hi. assert (Ht : fits_lines target) by (unfold fits_lines in *; rewrite zlen_app in Hf; pose proof (zlen_pos more); lia).
  assert (Hi' : Forall (indifferent target more) (map swap_hunk hs)).
  { apply Forall_map. eapply Forall_impl; [|exact Hi]. intros [l t b o a n] (C & N1 & N2). split; [exact C|]. split; assumption. }
  split; intros [|].
  - intros st out H. destruct (p_C73_outcome_reverse dbg hs _ Hok Hl Ht) as (r & o & O & _ & R). destruct (p_C73_outcome_reverse dbg hs _ Hok Hl Hf) as (r' & o' & _ & U & R').
    rewrite R in H. unfold delivered in H. cbn [w_room w_out] in H. destruct r as [l|]; [|discriminate H]. injection H as <- <-.
    destruct (U _ _ (outcome_more _ _ _ _ _ _ _ _ O (hunks_ok_swap _ Hok) Hi' _ eq_refl)) as [<- <-]. now rewrite R'.
  - intros st out H. destruct (p_C73_outcome dbg hs _ Hok Hl Ht) as (r & o & O & _ & R). destruct (p_C73_outcome dbg hs _ Hok Hl Hf) as (r' & o' & _ & U & R').
    rewrite R in H. unfold delivered in H. cbn [w_room w_out] in H. destruct r as [l|]; [|discriminate H]. injection H as <- <-.
    destruct (U _ _ (outcome_more _ _ _ _ _ _ _ _ O Hok Hi _ eq_refl)) as [<- <-]. now rewrite R'.
  - intros x H. destruct (p_C74_query_reverse dbg hs _ Hok Ht) as (r & O & _ & R). destruct (p_C74_query_reverse dbg hs _ Hok Hf) as (r' & _ & U & R').
    rewrite R in H. destruct r as [l|]; [|discriminate H]. injection H as ->.
    rewrite R', <- (U _ (all_seen_more _ _ _ _ _ _ O (hunks_ok_swap _ Hok) Hi' _ eq_refl)). reflexivity.
  - intros x H. destruct (p_C74_query dbg hs _ Hok Ht) as (r & O & _ & R). destruct (p_C74_query dbg hs _ Hok Hf) as (r' & _ & U & R').
    rewrite R in H. destruct r as [l|]; [|discriminate H]. injection H as ->.
    rewrite R', <- (U _ (all_seen_more _ _ _ _ _ _ O Hok Hi _ eq_refl)). reflexivity.
Qed.

(* Lines that are none of the lines of a clump with context make no place for it. *)
Lemma p_C134_foreign : forall target more h, hunk_ok h -> 0 < h_lead h + h_trail h -> foreign more h -> indifferent target more h.
Proof.
  intros target more h Hok C F. split; [assumption|]. split; [now apply foreign_no_place|]. apply foreign_no_place; [now apply hunk_ok_swap|exact C|].
  intros l Hl. destruct (F l Hl). now split.
Qed.

(* For bytes: if the old bytes of all clumps are at their places. *)
Lemma p_C134_bytes_partial : forall dbg clumps data more reverse out,
  Forall (fun c => old_bytes reverse c <> [] /\ occurs_at data (old_bytes reverse c) (sn_start (bc_side c reverse))) clumps ->
  byte_apply_into dbg clumps data reverse (Writer [] None) = (Done tt, Writer out None) ->
  byte_apply_into dbg clumps (data ++ more) reverse (Writer [] None) = (Done tt, Writer (out ++ more) None).
Proof.
  intros dbg cs data more r out F. apply byte_behind. eapply Forall_impl; [|exact F]. intros c [H1 H2].
  split; [destruct H2 as (p & -> & _); lia|now apply has_nonempty].
Qed.

(* A byte patch that is already applied to some data is so to the data with more behind. *)
Lemma p_C134_query : forall clumps data more reverse, Forall (fun c => (0 <= sn_start (bc_side c (negb reverse)))%Z) clumps ->
  byte_already_applied clumps data reverse = true -> byte_already_applied clumps (data ++ more) reverse = true.
Proof. intros. now apply byte_query_behind. Qed.

(* two clumps, the second at the end of the text; a line edited between them *)
Lemma e_C134_example : exists clumps bclumps,
  text_diff_clumps (L "A B C D E F G H ") (L "A X Y B C D E F G P Q H ") 1 = Ok clumps /\
  text_apply_into true clumps (L "A B C V E F G H ") false (Writer [] None) = (Done (Stats 2 0 0 0 0), Writer (bs "A X Y B C V E F G P Q H ") None) /\
  text_apply_into true clumps (L "A B C V E F G H " ++ L "A B G H Z") false (Writer [] None) = (Done (Stats 2 0 0 0 0), Writer (bs "A X Y B C V E F G P Q H A B G H Z") None) /\
  byte_diff_clumps (bs "ABCDEFGH") (bs "AXYBCDEFGPQH") 1 = Ok bclumps /\
  Forall (fun c => old_bytes false c <> [] /\ occurs_at (bs "ABCVEFGH") (old_bytes false c) (sn_start (bc_side c false))) bclumps /\
  byte_apply_into true bclumps (bs "ABCVEFGH") false (Writer [] None) = (Done tt, Writer (bs "AXYBCVEFGPQH") None) /\
  byte_already_applied bclumps (bs "AXYBCVEFGPQH") false = true.
Proof.
  eexists. eexists. split; [vr|]. split; [vr|]. split; [erewrite p_C134_behind_partial; [|vr|vr]; vr|]. split; [vr|].
  split; [|split; vr]. apply Forall_cons; [|apply Forall_cons; [|apply Forall_nil]].
  - split; [discriminate|]. exists 0. split; [|split]; vr || (vm_compute; lia).
  - split; [discriminate|]. exists 6. split; [|split]; vr || (vm_compute; lia).
Qed.

(* the patch of C73: a hunk displaced, one already applied, one that fits nowhere *)
Lemma e_C134_elsewhere_example :
  let hs := [Hunk 1 1 0 (L "A B C ") 0 (L "A X C "); Hunk 1 1 4 (L "E F G ") 4 (L "E Y G "); Hunk 1 0 9 (L "I P ") 9 (L "I Q ")] in
  let target := L "Z A B C D E Y G H " in
  Forall hunk_ok hs /\ lines_fit hs /\ fits_lines (target ++ L "V H W") /\ Forall (indifferent target (L "V H W")) hs /\
  text_apply_into true (map text_of_hunk hs) target false (Writer [] None) = (Done (Stats 0 1 1 0 1), Writer (bs "Z A X C D E Y G <<<<<<< I P ======= I Q >>>>>>> H ") None) /\
  text_apply_into true (map text_of_hunk hs) (target ++ L "V H W") false (Writer [] None) = (Done (Stats 0 1 1 0 1), Writer (bs "Z A X C D E Y G <<<<<<< I P ======= I Q >>>>>>> H V H W") None).
Proof.
  cbv zeta. set (hs := [_; _; _]). assert (Hok : Forall hunk_ok hs) by (repeat constructor; vm_compute; congruence || lia).
  assert (Hl : lines_fit hs) by vr. assert (Hf : fits_lines (L "Z A B C D E Y G H " ++ L "V H W")) by vr.
  assert (Hi : Forall (indifferent (L "Z A B C D E Y G H ") (L "V H W")) hs).
  { apply Forall_forall. intros h Hh. apply p_C134_foreign; [rewrite Forall_forall in Hok; auto|..].
    - destruct Hh as [<-|[<-|[<-|[]]]]; cbn; lia.
    - intros l Hl'. destruct Hh as [<-|[<-|[<-|[]]]]; vm_compute in Hl'; destruct Hl' as [<-|[<-|[<-|[]]]]; split; intros Q; vm_compute in Q; intuition discriminate. }
  do 4 (split; [assumption|]). split; [vr|]. destruct (p_C134_elsewhere_partial true _ _ _ Hok Hl Hf Hi) as [A _].
  rewrite (A false (Stats 0 1 1 0 1) (bs "Z A X C D E Y G <<<<<<< I P ======= I Q >>>>>>> H ")); vr.
Qed.

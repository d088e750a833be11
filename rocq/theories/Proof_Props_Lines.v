(* Proof_Props_Lines.v - the property lemmas on the lines of a patched text. *)
From Coq Require Import String.
From Verif Require Import Base Model_Seq Model_Changes Model_IO Model_Text Model_Bytes Spec Spec_Outcome Spec_Result Spec_Shape Cases Proof_Seq Proof_Changes Proof_Diff Proof_Text Proof_Bytes Proof_Shape Proof_Overlook Proof_Lines Proof_Apply Proof_Props_Gen Proof_Merge Proof_Props_Text Proof_Props_Outcome Proof_Props_Context Proof_Props_Select.

Local Ltac vr := vm_compute; reflexivity.

(* ------------------------------------------------------------------ C131 *)
(* C131, full statement: when every clump of a diff is applied or found applied, every line of the
   result is a line of the target or of the new text.  It is false: a diff that takes away the
   newline at the end of a text, applied cleanly to a text that goes on, makes one line of two. *)
Lemma p_C131_lines_refuted : exists before_text before after_text after target_text target clumps st out ls l,
  lines_of before_text before /\ lines_of after_text after /\ lines_of target_text target /\
  text_diff_clumps before after 3 = Ok clumps /\
  text_apply_into true clumps target false (Writer [] None) = (Done st, Writer out None) /\ st = Stats 1 0 0 0 0 /\
  lines_of out ls /\ In l ls /\ ~ In l target /\ ~ In l after.
Proof.
  do 2 eexists. do 2 eexists. do 2 eexists. do 4 eexists. exists (bs "cd ").
  split; [apply (p_C01_split_lines (bs "x c ")); vr|]. split; [apply (p_C01_split_lines (bs "x c")); vr|]. split; [apply (p_C01_split_lines (bs "x c d ")); vr|].
  split; [vr|]. split; [vr|]. split; [vr|]. split; [apply (p_C01_split_lines (bs "x cd ")); vr|].
  split; [right; now left|]. split; intros H; cbn in H; repeat destruct H as [H|H]; (discriminate H || exact H).
Qed.
(* It is also false when all lines of the new text end in a newline but there is no context: a line
   to be added after the last one is put right behind a last line that has no newline. *)
Lemma p_C131_no_context_refuted : exists before_text before after_text after target_text target clumps st out ls l,
  lines_of before_text before /\ lines_of after_text after /\ Forall full_line before /\ Forall full_line after /\ before <> [] /\ lines_of target_text target /\
  text_diff_clumps before after 0 = Ok clumps /\
  text_apply_into true clumps target false (Writer [] None) = (Done st, Writer out None) /\ st = Stats 1 0 0 0 0 /\
  lines_of out ls /\ In l ls /\ ~ In l target /\ ~ In l after.
Proof.
  assert (F : forall x, x <> newline -> full_line [x; newline]).
  { intros x Hx. split; exists [x]; [|reflexivity]. split; [intros [H|[]]; now apply Hx|now left]. }
  do 2 eexists. do 2 eexists. do 2 eexists. do 4 eexists. exists (bs "xy ").
  split; [apply (p_C01_split_lines (bs "x ")); vr|]. split; [apply (p_C01_split_lines (bs "x y ")); vr|].
  split; [repeat constructor; apply F; discriminate|]. split; [repeat constructor; apply F; discriminate|]. split; [discriminate|].
  split; [apply (p_C01_split_lines (bs "x")); vr|].
  split; [vr|]. split; [vr|]. split; [vr|]. split; [apply (p_C01_split_lines (bs "xy ")); vr|].
  split; [now left|]. split; intros H; cbn in H; repeat destruct H as [H|H]; (discriminate H || exact H).
Qed.
(* Applied to the very text it was made for, a patch writes whole lines of the two texts, as many as
   the new text has, and the last of them is that of the new text: so the result ends in a newline
   exactly if the new text does.  The same backwards. *)
Lemma p_C131_own_text : forall dbg before_text before after_text after context clumps,
  lines_of before_text before -> lines_of after_text after -> context <= 255 -> fits_lines before -> fits_lines after ->
  text_diff_clumps before after context = Ok clumps ->
  (exists ls, text_apply_into dbg clumps before false (Writer [] None) = (Done (Stats (List.length clumps) 0 0 0 0), Writer (List.concat ls) None) /\
     lines_of (List.concat ls) ls /\ List.length ls = List.length after /\ (forall l, In l ls -> In l before \/ In l after) /\
     (forall j, S j = List.length after -> nth_error ls j = nth_error after j)) /\
  (exists ls, text_apply_into dbg clumps after true (Writer [] None) = (Done (Stats (List.length clumps) 0 0 0 0), Writer (List.concat ls) None) /\
     lines_of (List.concat ls) ls /\ List.length ls = List.length before /\ (forall l, In l ls -> In l after \/ In l before) /\
     (forall j, S j = List.length before -> nth_error ls j = nth_error before j)).
Proof.
  intros dbg tb b ta a context clumps [_ Gb] [_ Ga] Hc Fb Fa E2. destruct (text_changes_spec b a) as (cs & E & Ht & Hne & Halt & _).
  pose proof (proj1 (proj1 p_C10_unchanged_is_unchanged_partial b a cs E)) as Hn.
  destruct (swap_proper _ _ _ (conj Ht (conj Halt Hne))) as (St & _ & Sne).
  destruct (p_C103_result dbg b a context clumps cs Hc Fb Fa E E2) as [(out & R & A) (out' & R' & A')]. split.
  - exists out. split; [exact A|]. destruct (result_lines b a out context cs Ht Hne Hn R Gb Ga) as (K1 & K2). split; [split; [reflexivity|exact K1]|exact K2].
  - exists out'. split; [exact A'|]. destruct (result_lines a b out' context _ St Sne (swap_nearly _ _ _ Hn) R' Ga Gb) as (K1 & K2). split; [split; [reflexivity|exact K1]|exact K2].
Qed.
(* Any patch and any target: the lines stay apart if every hunk has old lines and its new lines all
   end in newlines.  The last line of the target needs no newline. *)
Lemma p_C131_lines_partial : forall dbg hs target_text target st out, Forall hunk_ok hs -> lines_fit hs -> fits_lines target -> lines_of target_text target ->
  (Forall (fun h => h_old h <> [] /\ Forall full_line (h_new h)) hs ->
   text_apply_into dbg (map text_of_hunk hs) target false (Writer [] None) = (Done st, Writer out None) -> st_failed st = 0 ->
   exists ls, lines_of out ls /\ Forall (fun l => In l target \/ exists h, In h hs /\ In l (h_new h)) ls) /\
  (Forall (fun h => h_new h <> [] /\ Forall full_line (h_old h)) hs ->
   text_apply_into dbg (map text_of_hunk hs) target true (Writer [] None) = (Done st, Writer out None) -> st_failed st = 0 ->
   exists ls, lines_of out ls /\ Forall (fun l => In l target \/ exists h, In h hs /\ In l (h_old h)) ls).
Proof.
  intros dbg hs tt target st out H1 H2 H3 [_ G]. split; intros H4 H Hf.
  - destruct (p_C73_outcome dbg hs target H1 H2 H3) as (r & out' & HO & _ & HE).
    rewrite HE in H. destruct r as [fates|]; [|discriminate]. injection H as <- ->.
    destruct (outcome_lines dbg target G _ _ _ _ _ HO fates eq_refl (none_rejected _ Hf) H1 H4) as (ls & -> & K1 & K2 & _).
    exists ls. split; [split; [reflexivity|exact K1]|exact K2].
  - destruct (p_C73_outcome_reverse dbg hs target H1 H2 H3) as (r & out' & HO & _ & HE).
    rewrite HE in H. destruct r as [fates|]; [|discriminate]. injection H as <- ->.
    destruct (outcome_lines dbg target G _ _ _ _ _ HO fates eq_refl (none_rejected _ Hf) (hunks_ok_swap _ H1)) as (ls & -> & K1 & K2 & _).
    { apply Forall_map. eapply Forall_impl; [|exact H4]. now intros h. }
    exists ls. split; [split; [reflexivity|exact K1]|]. eapply Forall_impl; [|exact K2]. intros l [Hl|(h & Hh & Hl)]; [now left|right].
    apply in_map_iff in Hh as (g & <- & Hg). exists g. now split.
Qed.
(* So the statement holds of a diff made with context, if the text that the patch leads away from is
   not empty and all lines of the text it leads to end in newlines. *)
Lemma p_C131_diff_partial : forall dbg before after context clumps target_text target st out,
  1 <= context <= 255 -> fits_lines (before ++ after) -> text_diff_clumps before after context = Ok clumps ->
  fits_lines target -> lines_of target_text target ->
  (before <> [] -> Forall full_line after ->
   text_apply_into dbg clumps target false (Writer [] None) = (Done st, Writer out None) -> st_failed st = 0 ->
   exists ls, lines_of out ls /\ Forall (fun l => In l target \/ In l after) ls) /\
  (after <> [] -> Forall full_line before ->
   text_apply_into dbg clumps target true (Writer [] None) = (Done st, Writer out None) -> st_failed st = 0 ->
   exists ls, lines_of out ls /\ Forall (fun l => In l target \/ In l before) ls).
Proof.
  intros dbg b a context clumps tt target st out Hc Fba E Ft Lt. destruct (fits_app_lines _ _ Fba) as [Fb Fa]. destruct (diff_facts b a context clumps (proj2 Hc) Fb Fa E) as (cs & hs & -> & _ & Hcov & Hok & _).
  pose proof (cover_lines_fit _ _ _ _ _ Fba Hcov) as Hf. destruct (p_C131_lines_partial dbg hs tt target st out Hok Hf Ft Lt) as [K K'].
  assert (In_new : forall g x y hs', cover context g x y 0 0 hs' -> x <> [] -> Forall full_line y ->
            Forall (fun h => h_old h <> [] /\ Forall full_line (h_new h)) hs' /\ forall h l, In h hs' -> In l (h_new h) -> In l y).
  { intros g x y hs' C Hx Hy. pose proof (cover_old _ _ _ _ _ _ _ (proj1 Hc) Hx C) as C1. pose proof (cover_new _ _ _ _ _ _ _ C) as C2.
    rewrite !Forall_forall in *. split; [intros h Hh; split; [now apply C1|apply Forall_forall; intros l Hl; eapply Hy, C2; eassumption]|intros h l Hh; now apply C2]. }
  split; intros Hne Hfull.
  - destruct (In_new _ _ _ _ Hcov Hne Hfull) as [A1 A2]. intros H1 H2. destruct (K A1 H1 H2) as (ls & L1 & L2). exists ls. split; [assumption|].
    eapply Forall_impl; [|exact L2]. intros l [Hl|(h & Hh & Hl)]; [now left|right; eapply A2; eassumption].
  - destruct (In_new _ _ _ _ (cover_swap _ _ _ _ _ _ _ Hcov) Hne Hfull) as [A1 A2]. apply Forall_map in A1. intros H1 H2. destruct (K' A1 H1 H2) as (ls & L1 & L2). exists ls. split; [assumption|].
    eapply Forall_impl; [|exact L2]. intros l [Hl|(h & Hh & Hl)]; [now left|right]. apply (A2 (swap_hunk h) l); [now apply in_map|assumption].
Qed.
(* a target without a newline at its end, and with the changed line elsewhere: the patch is displaced,
   and the line that was the last one stays the last one *)
Lemma e_C131_example : let before := L "A B C D E " in let after := L "A B X Y D E " in let target := [bs "P "; bs "A "; bs "B "; bs "C "; bs "D "; bs "E "; bs "F"] in
  exists clumps out ls, text_diff_clumps before after 1 = Ok clumps /\ before <> [] /\ Forall full_line after /\ Forall full_line before /\ fits_lines (before ++ after) /\ fits_lines target /\
    lines_of (bs "P A B C D E F") target /\
    text_apply_into true clumps target false (Writer [] None) = (Done (Stats 0 1 0 0 0), Writer out None) /\
    out = bs "P A B X Y D E F" /\ lines_of out ls /\ ls = [bs "P "; bs "A "; bs "B "; bs "X "; bs "Y "; bs "D "; bs "E "; bs "F"].
Proof.
  assert (F : forall x, x <> newline -> full_line [x; newline]).
  { intros x Hx. split; exists [x]; [|reflexivity]. split; [intros [H|[]]; now apply Hx|now left]. }
  cbv zeta. do 3 eexists. split; [vr|]. split; [discriminate|]. split; [repeat constructor; apply F; discriminate|]. split; [repeat constructor; apply F; discriminate|].
  split; [vr|]. split; [vr|]. split; [apply p_C01_split_lines; vr|]. split; [vr|]. split; [vr|]. split; [apply p_C01_split_lines; vr|vr].
Qed.

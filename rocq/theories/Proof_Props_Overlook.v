(* Proof_Props_Overlook.v - the property lemmas on how much is overlooked. *)
From Coq Require Import String.
From Verif Require Import Base Model_Seq Model_Changes Model_IO Model_Text Model_Bytes Spec Spec_Shape Spec_Overlook Cases Proof_Seq Proof_Changes Proof_Diff Proof_Text Proof_Bytes Proof_Shape Proof_Overlook Proof_Props_Gen Proof_Props_Context.

Local Ltac vr := vm_compute; reflexivity.

Lemma no_clumps context m : change_clumps context [NoChange m] = Ok [].
Proof. reflexivity. Qed.

(* ------------------------------------------------------------------ C128 *)
(* C128: there is a bound on the number of changed lines (bytes) that a diff does not report:
     exists n, forall before after cs ds, text_changes before after = Ok cs -> NoDup ds ->
       (forall q, In q ds -> overlooked before after cs q) -> length ds <= n
   and at most half of what is reported as unchanged is changed.  The first part is false by any
   amount.  Whenever every other line of two equally long texts is the same line (say, an empty
   one), at the start and at the end as well, and they have no other line in common, the diff
   is empty; likewise for bytes. *)
Lemma p_C128_every_other :
  (forall (p : line) xs ys context, context <= 255 -> List.length xs = List.length ys -> ~ In p xs -> ~ In p ys -> (forall v, In v xs -> ~ In v ys) ->
     text_changes (spaced p xs) (spaced p ys) = Ok [NoChange (CS 0 0 (2 * List.length xs + 1))] /\
     text_diff_clumps (spaced p xs) (spaced p ys) context = Ok []) /\
  (forall (p : byte) xs ys context, context <= 255 -> List.length xs = List.length ys -> ~ In p xs -> ~ In p ys -> (forall v, In v xs -> ~ In v ys) ->
     byte_changes (spaced p xs) (spaced p ys) = Ok [NoChange (CS 0 0 (2 * List.length xs + 1))] /\
     byte_diff_clumps (spaced p xs) (spaced p ys) context = Ok []).
Proof.
  split; intros p xs ys context Hc H1 H2 H3 H4.
  - assert (E : text_changes (spaced p xs) (spaced p ys) = Ok [NoChange (CS 0 0 (2 * List.length xs + 1))]) by (apply (proj1 p_C72_changes_exact); now apply spaced_changes).
    split; [exact E|]. unfold text_diff_clumps. rewrite E. cbn [bind]. rewrite no_clumps. reflexivity.
  - assert (E : byte_changes (spaced p xs) (spaced p ys) = Ok [NoChange (CS 0 0 (2 * List.length xs + 1))]) by (apply (proj2 p_C72_changes_exact); now apply spaced_changes).
    split; [exact E|]. unfold byte_diff_clumps. rewrite E. cbn [bind]. rewrite no_clumps. reflexivity.
Qed.
Lemma spaced_wrong {T} (p : T) (v w : T) n : v <> w -> exists ds, wrong_items (spaced p (repeat v n)) (spaced p (repeat w n)) ds /\ List.length ds = n.
Proof.
  intros H. exists (map (fun k => 2 * k + 1) (seq 0 n)). split; [|now rewrite map_length, seq_length]. split.
  - apply NoDup_image; [intros; lia|apply seq_NoDup].
  - intros k Hk. apply in_map_iff in Hk as (t & <- & Ht). apply in_seq in Ht. apply spaced_differ.
    + now rewrite !repeat_length.
    + intros u U1 U2. apply repeat_spec in U1, U2. congruence.
    + rewrite repeat_length. lia.
Qed.
Lemma p_C128_bounded_refuted : forall n,
  (exists before after : list line, exists ds, wrong_items before after ds /\ List.length ds = n /\ List.length before = 2 * n + 1 /\ List.length after = 2 * n + 1 /\
     forall context, context <= 255 -> text_diff_clumps before after context = Ok []) /\
  (exists before after : list byte, exists ds, wrong_items before after ds /\ List.length ds = n /\ List.length before = 2 * n + 1 /\ List.length after = 2 * n + 1 /\
     forall context, context <= 255 -> byte_diff_clumps before after context = Ok []).
Proof.
  intros n. split.
  - exists (spaced (bs "A ") (repeat (bs "B ") n)), (spaced (bs "A ") (repeat (bs "C ") n)).
    destruct (spaced_wrong (bs "A ") (bs "B ") (bs "C ") n) as (ds & D1 & D2); [discriminate|]. exists ds. rewrite !spaced_length, !repeat_length.
    repeat (split; [assumption || reflexivity|]). intros context Hc. apply p_C128_every_other; [assumption|now rewrite !repeat_length|..].
    + intros K. apply repeat_spec in K. discriminate.
    + intros K. apply repeat_spec in K. discriminate.
    + intros v V1 V2. apply repeat_spec in V1, V2. subst v. discriminate.
  - exists (spaced x00 (repeat x41 n)), (spaced x00 (repeat x42 n)).
    destruct (spaced_wrong x00 x41 x42 n) as (ds & D1 & D2); [discriminate|]. exists ds. rewrite !spaced_length, !repeat_length.
    repeat (split; [assumption || reflexivity|]). intros context Hc. apply p_C128_every_other; [assumption|now rewrite !repeat_length|..].
    + intros K. apply repeat_spec in K. discriminate.
    + intros K. apply repeat_spec in K. discriminate.
    + intros v V1 V2. apply repeat_spec in V1, V2. subst v. discriminate.
Qed.
(* the second part: of the pairs reported as unchanged at most half are different *)
Lemma p_C128_half :
  (forall before after cs ds, text_changes before after = Ok cs -> NoDup ds -> (forall q, In q ds -> overlooked before after cs q) -> 2 * List.length ds <= kept_items cs) /\
  (forall before after cs ds, byte_changes before after = Ok cs -> NoDup ds -> (forall q, In q ds -> overlooked before after cs q) -> 2 * List.length ds <= kept_items cs).
Proof.
  split; intros b a cs ds E.
  - apply overlooked_bound. exact (proj1 (proj1 p_C10_unchanged_is_unchanged_partial b a cs E)).
  - apply overlooked_bound. exact (proj1 (proj2 p_C10_unchanged_is_unchanged_partial b a cs E)).
Qed.
(* so at most half of the lines of a patched text are not those of the new text (of the old one,
   for patching in reverse), whatever the number of context lines; likewise for bytes, with
   context and data that are not empty (see C31) *)
Lemma p_C128_patched_half : forall dbg before after context clumps,
  context <= 255 -> fits_lines before -> fits_lines after -> text_diff_clumps before after context = Ok clumps ->
  (exists out, text_apply_into dbg clumps before false (Writer [] None) = (Done (Stats (List.length clumps) 0 0 0 0), Writer (List.concat out) None) /\
     List.length out = List.length after /\ forall ds, wrong_items out after ds -> 2 * List.length ds <= List.length after) /\
  (exists out, text_apply_into dbg clumps after true (Writer [] None) = (Done (Stats (List.length clumps) 0 0 0 0), Writer (List.concat out) None) /\
     List.length out = List.length before /\ forall ds, wrong_items out before ds -> 2 * List.length ds <= List.length before).
Proof.
  intros dbg b a context clumps Hc Fb Fa E2. destruct (text_changes_spec b a) as (cs & E & Ht & Hne & Halt & _).
  pose proof (proj1 (proj1 p_C10_unchanged_is_unchanged_partial b a cs E)) as Hn.
  destruct (swap_proper _ _ _ (conj Ht (conj Halt Hne))) as (St & _ & Sne).
  destruct (p_C103_result dbg b a context clumps cs Hc Fb Fa E E2) as [(out & R & A) (out' & R' & A')]. split.
  - exists out. split; [exact A|]. split; [exact (proj1 R)|]. eapply result_wrong; [exact Ht|exact Hne|exact Hn|exact R].
  - exists out'. split; [exact A'|]. split; [exact (proj1 R')|]. eapply result_wrong; [exact St|exact Sne|apply swap_nearly, Hn|exact R'].
Qed.
Lemma p_C128_patched_half_bytes_partial : forall dbg before after context clumps,
  1 <= context <= 255 -> fits_bytes before -> fits_bytes after -> byte_diff_clumps before after context = Ok clumps ->
  (before <> [] -> exists out, byte_apply_into dbg clumps before false (Writer [] None) = (Done tt, Writer out None) /\
     List.length out = List.length after /\ forall ds, wrong_items out after ds -> 2 * List.length ds <= List.length after) /\
  (after <> [] -> exists out, byte_apply_into dbg clumps after true (Writer [] None) = (Done tt, Writer out None) /\
     List.length out = List.length before /\ forall ds, wrong_items out before ds -> 2 * List.length ds <= List.length before).
Proof.
  intros dbg b a context clumps Hc Fb Fa E2. destruct (byte_changes_spec b a) as (cs & E & Ht & Hne & Halt & _).
  pose proof (proj1 (proj2 p_C10_unchanged_is_unchanged_partial b a cs E)) as Hn.
  destruct (swap_proper _ _ _ (conj Ht (conj Halt Hne))) as (St & _ & Sne).
  destruct (p_C103_result_bytes_partial dbg b a context clumps cs Hc Fb Fa E E2) as [H H']. split; intros K.
  - destruct (H K) as (out & R & A). exists out. split; [exact A|]. split; [exact (proj1 R)|]. eapply result_wrong; [exact Ht|exact Hne|exact Hn|exact R].
  - destruct (H' K) as (out & R & A). exists out. split; [exact A|]. split; [exact (proj1 R)|]. eapply result_wrong; [exact St|exact Sne|apply swap_nearly, Hn|exact R].
Qed.
(* a double-spaced text and another one: no line but the empty ones is the same, and the diff is empty *)
Lemma e_C128_example : let b := spaced (bs "_ ") (L "one two three ") in let a := spaced (bs "_ ") (L "four five six ") in
  b = L "_ one _ two _ three _ " /\ a = L "_ four _ five _ six _ " /\
  text_diff_clumps b a 3 = Ok [] /\ text_changes b a = Ok [NoChange (CS 0 0 7)] /\
  wrong_items b a [1; 3; 5] /\ overlooked b a [NoChange (CS 0 0 7)] (3, 3) /\
  text_apply_into true [] b false (Writer [] None) = (Done (Stats 0 0 0 0 0), Writer (List.concat b) None).
Proof.
  cbv zeta. repeat (split; [vr|]). split; [|split; [|vr]].
  - split; [repeat constructor; cbn; intros H; repeat (destruct H as [H|H]; try discriminate); exact H|].
    intros k [<-|[<-|[<-|[]]]]; do 2 eexists; (split; [vr|split; [vr|discriminate]]).
  - split; [exists (CS 0 0 7), 3; cbn; repeat split; [now left|lia]|]. do 2 eexists; (split; [vr|split; [vr|discriminate]]).
Qed.

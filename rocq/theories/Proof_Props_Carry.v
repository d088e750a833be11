(* Proof_Props_Carry.v - the property lemmas on what printed unified diffs say. *)
From Coq Require Import String.
From Verif Require Import Base Model_Seq Model_Changes Model_IO Model_Text Model_Json Model_Regex Model_Unified Spec Spec_Unified Spec_Nearly Spec_Carry Cases Proof_Seq Proof_Diff Proof_Clumps Proof_Changes Proof_Carry Proof_Props_Gen Proof_Props_Unified.

Lemma nearly_faithful (b a r : list line) : nearly b a r -> no_isolated_mismatch b a -> r = a.
Proof.
  intros (Hl & H) N. apply nth_error_ext. intros k. destruct (Nat.lt_ge_cases k (length a)) as [L|L].
  - destruct (H k L) as [E|(x & y & _ & I & _)]; [assumption|]. now apply N in I.
  - rewrite !(proj2 (nth_error_None _ _)) by lia. reflexivity.
Qed.

(* ------------------------------------------------------------------ C127 *)
(* C127, full statement: the clumps printed for two texts, carried out as unified diffs are (the
   positions counted from 1), make the first text into the second.  It is false for two reasons:
   positions are counted from 0 (see C70), so that the lines are looked for in the wrong place ... *)
Lemma p_C127_carried_refuted : exists before after ts, no_isolated_mismatch before after /\
  unified_diff 1 before after = Ok ts /\ ~ exists r, carried unified_position 0 0 before ts r.
Proof.
  exists (L "A B C "), (L "A B X C "). eexists. split; [apply (no_isolated_check line_eqb); [exact line_eqb_lawful|vm_compute; reflexivity]|].
  split; [vm_compute; reflexivity|]. intros (r & H). inversion H as [|i j kept old new body t ts rest rest' M W E1 E2 Hh _ Hi Hj Ho Ht Hr].
  subst i j t ts r. cbn [ut_header ut_lines] in *.
  assert (B : body = [str " B" ++ [newline]; str "+X" ++ [newline]; str " C" ++ [newline]]).
  { apply (marker_body _ _ _ M) with (2 := W).
    - constructor; [now left|]. constructor; [now right|]. constructor; [now left|constructor].
    - left. split; [|reflexivity]. exists [str " B" ++ [newline]; str "+X" ++ [newline]], (str " C" ++ [newline]). split; [reflexivity|]. now exists (str " C"). }
  subst body. vm_compute in E1, E2. subst old new. apply header_read in Hh.
  destruct kept as [|k kept]; [cbn in Ho; discriminate Ho|].
  assert (Q : starts_and_lengths no_more_digits (str "@@ -1,2 +1,3 @@") 0 = DOk (Some (SLs (SL 1 2) (SL 1 3)))) by (vm_compute; reflexivity).
  match type of Hh with starts_and_lengths _ ?s _ = _ => change s with (str "@@ -1,2 +1,3 @@") in Hh end.
  rewrite Q in Hh. injection Hh as Hh _. cbn in Hh. lia.
Qed.
(* ... and changes are overlooked (see C10). *)
Lemma p_C127_complete_refuted : exists before after ts r, unified_diff 3 before after = Ok ts /\
  carried lines_before 0 0 before ts r /\ r <> after.
Proof.
  exists (L "A B C "), (L "A X C "), [], (L "A B C "). split; [vm_compute; reflexivity|]. split; [constructor|discriminate].
Qed.
(* What does hold, with the positions counted from 0: for any two texts the clumps can be carried
   out on the first one and give, whatever the number of context lines, one and the same text: the
   second one, except for lines that differ from their counterparts in isolation and stay as they
   are.  Missing: these lines, and the positions. *)
Lemma p_C127_carried_partial : forall before after,
  (Z.of_nat (length before) < two64)%Z -> (Z.of_nat (length after) < two64)%Z ->
  exists r, nearly before after r /\ (no_isolated_mismatch before after -> r = after) /\
    forall context, context <= 255 -> exists ts, unified_diff context before after = Ok ts /\ carried lines_before 0 0 before ts r.
Proof.
  intros b a Lb La. destruct (text_changes_spec b a) as (cs & E & Ht & Hne & Halt & Hfa).
  exists (settled b a cs).
  assert (N : nearly b a (settled b a cs)).
  { apply settled_nearly; try assumption. now apply (proj1 p_C10_unchanged_is_unchanged_partial b a cs E). }
  split; [exact N|]. split; [now apply nearly_faithful|]. intros context Hc.
  destruct (change_clumps_spec context cs Halt) as (clumps & E2 & Hcl).
  pose proof (clumps_of_spreadc _ _ _ _ _ Hcl Ht) as Hs.
  destruct (p_C45_printed_partial b a context Hc Lb La) as (hs & ts & _ & Eu & _). exists ts. split; [exact Eu|].
  assert (Et : unified_texts b a clumps = Ok ts) by (unfold unified_diff in Eu; rewrite E in Eu; cbn [bind] in Eu; rewrite E2 in Eu; exact Eu).
  exact (spreadc_carried b a cs Ht Hne context Hc Lb La 0 0 clumps ts Hs Et).
Qed.
(* what clumps make of a text is determined by them, and they can be undone: they make it of no
   other text *)
Lemma p_C127_determined : forall number, number = lines_before \/ number = unified_position ->
  forall before ts r, carried number 0 0 before ts r ->
  (forall r', carried number 0 0 before ts r' -> r' = r) /\ (forall before', carried number 0 0 before' ts r -> before' = before).
Proof.
  intros number Hn before ts r H.
  assert (T : telling number).
  { intros s s' n E. destruct Hn as [-> | ->]; [exact E|]. unfold unified_position in E. destruct (n =? 0); lia. }
  split; [intros r' H'; symmetry|intros b' H'; symmetry]; [eapply carried_result|eapply carried_origin]; eauto.
Qed.
Lemma e_C127_example :
  let b := L "A B C D E F G " in let a := L "A B X Y E F G H" in exists t1 t2,
  no_isolated_mismatch b a /\ unified_diff 1 b a = Ok [t1; t2] /\
  ut_header t1 = str "@@ -1,4 +1,4 @@" /\ ut_lines t1 = [str " B" ++ [newline]; str "+X" ++ [newline]; str "+Y" ++ [newline]; str "-C" ++ [newline]; str "-D" ++ [newline]; str " E" ++ [newline]] /\
  carried lines_before 0 0 b [t1; t2] a /\
  forall b', carried lines_before 0 0 b' [t1; t2] a -> b' = b.
Proof.
  cbv zeta.
  assert (N : no_isolated_mismatch (L "A B C D E F G ") (L "A B X Y E F G H")) by (apply (no_isolated_check line_eqb); [exact line_eqb_lawful|vm_compute; reflexivity]).
  destruct (p_C127_carried_partial (L "A B C D E F G ") (L "A B X Y E F G H") eq_refl eq_refl) as (r & _ & Hr & H). rewrite (Hr N) in H. clear Hr.
  destruct (H 1 ltac:(lia)) as (ts & E & C).
  destruct e_C45_example as [_ E']. rewrite E' in E. injection E as <-.
  do 2 eexists. split; [exact N|]. split; [exact E'|]. split; [reflexivity|]. split; [reflexivity|]. split; [exact C|].
  eapply p_C127_determined; [now left|exact C].
Qed.

(* Proof_Props_Reread.v - the property lemmas on reading a whole unified diff. *)
From Coq Require Import String.
From Verif Require Import Base Model_Seq Model_Changes Model_IO Model_Text Model_Json Model_Regex Model_Unified Spec Spec_Unified Spec_Nearly Spec_Carry Spec_Reread Cases Proof_Seq Proof_Diff Proof_Clumps Proof_Changes Proof_Unified Proof_UClump Proof_Carry Proof_Reread Proof_Props_Gen Proof_Props_Unified Proof_Props_Carry.

Local Ltac vr := vm_compute; reflexivity.

(* ------------------------------------------------------------------ C133 *)
(* C133, full statement: the clumps of a printed unified diff, written to a file one after another,
   can be read from its lines one after another, each starting where the one before ends, up to
   the end of the file; and what is read, carried out on the first text, gives the second.  It is
   false: if a line without a newline is printed before another, the file cannot be read ... *)
Lemma p_C133_reread_refuted : exists before_text before after_text after ts, lines_of before_text before /\ lines_of after_text after /\
  no_isolated_mismatch before after /\ unified_diff 1 before after = Ok ts /\
  ~ exists cs, clumps_from no_more_digits true (split_lines (all_written ts)) 0 cs.
Proof.
  exists (bs "A"), (L "A"), (bs "B C "), (L "B C "). eexists. split; [apply p_C01_split_lines; vr|]. split; [apply p_C01_split_lines; vr|].
  split; [apply (no_isolated_check line_eqb); [exact line_eqb_lawful|vr]|]. split; [vr|].
  intros (cs & H). inversion H as [|i c cs' E _]; vm_compute in E; discriminate.
Qed.
(* ... and the line printed last, if it is kept, gets a newline it does not have: what is read says
   that the newline is to be added, which the second text does not have. *)
Lemma p_C133_last_line_refuted : exists before_text before after_text after ts cs, lines_of before_text before /\ lines_of after_text after /\
  no_isolated_mismatch before after /\ unified_diff 1 before after = Ok ts /\
  clumps_from no_more_digits true (split_lines (all_written ts)) 0 cs /\ ~ carried_out 0 0 before cs after.
Proof.
  exists (bs "X A"), (L "X A"), (bs "Y Z A"), (L "Y Z A"). eexists. eexists. split; [apply p_C01_split_lines; vr|]. split; [apply p_C01_split_lines; vr|].
  split; [apply (no_isolated_check line_eqb); [exact line_eqb_lawful|vr]|]. split; [vr|].
  split.
  { eapply clumps_more; [vr|]. cbn [uc_consumed]. match goal with |- clumps_from _ _ ?l ?n _ => replace n with (length l) by vr end. constructor. }
  intros H. inversion H as [|i j kept c cs rest rest' Hh Hc Hi Hj Ho Hcs Hn]; subst. clear H Hh. inversion Hc; subst.
  apply (f_equal (@List.rev line)) in Ho, Hn. cbn [uc_before uc_after] in *. rewrite !rev_app_distr in Ho, Hn.
  destruct (List.rev rest') as [|l r] eqn:E; cbn in Ho, Hn; rewrite ?E in *; cbn in Ho, Hn; [discriminate Hn|].
  apply (f_equal (@List.length line)) in Ho. cbn in Ho. rewrite ?app_length in Ho. cbn in Ho. lia.
Qed.

(* What does hold (in the debug build with at most 128 lines of context): if in every clump all
   printed lines have their newline, or all but the last and this is an old or new line that does
   not end in a blank, the whole file is read, after whatever lines stand in front, and in one way
   only; the clumps read have the printed old and new lines; and carried out on the first text they
   give the second one, except for lines that differ from their counterparts in isolation and stay
   as they are.  If all lines of both texts end in a newline so do all printed lines.  Positions
   are counted from 0.  Missing: other texts without a newline at the end, debug builds with more
   context, lines that are overlooked. *)
Lemma p_C133_reread_partial : forall before_text before after_text after, lines_of before_text before -> lines_of after_text after ->
  (Z.of_nat (length before) < two64)%Z -> (Z.of_nat (length after) < two64)%Z ->
  exists r, nearly before after r /\ (no_isolated_mismatch before after -> r = after) /\
    forall nd dbg context front, digit_table nd -> context <= 255 -> (dbg = true -> context <= 128) ->
    exists ts, unified_diff context before after = Ok ts /\
      (Forall ends_in_newline before -> Forall ends_in_newline after -> Forall full_clump ts) /\
      (Forall (fun t => full_clump t \/ open_clump t) ts -> exists cs,
        clumps_from nd dbg (front ++ split_lines (all_written ts)) (length front) cs /\
        (forall cs', clumps_from nd dbg (front ++ split_lines (all_written ts)) (length front) cs' -> cs' = cs) /\
        map (fun c => (uc_before c, uc_after c)) cs = map (fun t => (old_lines (ut_lines t), new_lines (ut_lines t))) ts /\
        carried_out 0 0 before cs r).
Proof.
  intros bt b at_ a Hb Ha Lb La. destruct (p_C127_carried_partial b a Lb La) as (r & R1 & R2 & R3). exists r. split; [assumption|]. split; [assumption|].
  intros nd dbg context front Hnd Hc Hd.
  destruct (diff_readable nd dbg b a context Hnd Hc Hd) as (ts & E & F & N); try assumption; [apply Hb|apply Ha|]. exists ts. split; [assumption|]. split; [assumption|].
  intros S. assert (F' : Forall (readable nd dbg) ts) by (rewrite Forall_forall in *; auto).
  destruct (R3 context Hc) as (ts' & E' & C). rewrite E in E'. injection E' as <-.
  destruct (reread nd dbg _ _ _ _ _ C F' front) as (cs & K1 & K2 & K3). exists cs. rewrite (split_written nd dbg) by assumption.
  split; [assumption|]. split; [intros cs' H'; now apply (clumps_from_unique _ _ _ _ _ K1)|]. auto.
Qed.

(* two clumps behind the two lines with the names of the files; the new text has no newline at its end *)
Lemma e_C133_example : let b := L "A B C D E F G " in let a := L "A B X Y E F G H" in let front := [str "--- a" ++ [newline]; str "+++ b" ++ [newline]] in
  exists t1 t2 c1 c2, lines_of (bs "A B C D E F G ") b /\ lines_of (bs "A B X Y E F G H") a /\ no_isolated_mismatch b a /\
    unified_diff 1 b a = Ok [t1; t2] /\ full_clump t1 /\ open_clump t2 /\ clumps_from no_more_digits true (front ++ split_lines (all_written [t1; t2])) 2 [c1; c2] /\
    uc_consumed c1 = 7 /\ unmark (uc_before c1) = L "B C D E " /\ unmark (uc_after c2) = L "G H" /\ carried_out 0 0 b [c1; c2] a.
Proof.
  cbv zeta. assert (N : no_isolated_mismatch (L "A B C D E F G ") (L "A B X Y E F G H")) by (apply (no_isolated_check line_eqb); [exact line_eqb_lawful|vr]).
  assert (Hb : lines_of (bs "A B C D E F G ") (L "A B C D E F G ")) by (apply p_C01_split_lines; vr). assert (Ha : lines_of (bs "A B X Y E F G H") (L "A B X Y E F G H")) by (apply p_C01_split_lines; vr).
  assert (K : forall ls, forallb ends_with_newline ls = true -> Forall ends_in_newline ls).
  { intros ls H. apply Forall_forall. intros x Hx. apply ends_with_newline_iff. rewrite forallb_forall in H. auto. }
  destruct (p_C133_reread_partial _ _ _ _ Hb Ha eq_refl eq_refl) as (r & _ & Hr & H). rewrite (Hr N) in H.
  destruct (H no_more_digits true 1 [str "--- a" ++ [newline]; str "+++ b" ++ [newline]]) as (ts & E & _ & C); [apply no_more_digits_table|lia|intros _; lia|].
  destruct e_C45_example as [_ E']. rewrite E' in E. injection E as <-.
  assert (F1 : full_clump (UText (str "@@ -1,4 +1,4 @@") [str " B" ++ [newline]; str "+X" ++ [newline]; str "+Y" ++ [newline]; str "-C" ++ [newline]; str "-D" ++ [newline]; str " E" ++ [newline]])) by (apply K; vr).
  assert (F2 : open_clump (UText (str "@@ -6 +6,2 @@") [str " G" ++ [newline]; str "+H"; [newline; x5c; newline]])).
  { exists [str " G" ++ [newline]], (str "+H"). split; [reflexivity|]. split; [apply K; vr|]. split; [rewrite <- ends_with_newline_iff; discriminate|]. split; [reflexivity|].
    intros p c Q. change (chars (str "+H")) with ([single x2b] ++ [single x48]) in Q. apply app_inj_tail in Q as [_ <-]. intros (n & Hn & B). unfold encodes, utf8_encode in B.
    destruct (n <? 128)%N; [injection B as B; vm_compute in B; subst n; lia|]. destruct (n <? 2048)%N; [discriminate B|]. destruct (n <? 65536)%N; discriminate B. }
  destruct C as (cs & C1 & _ & C2 & C3); [constructor; [now left|constructor; [now right|constructor]]|].
  destruct cs as [|c1 [|c2 [|c3 cs]]]; try discriminate C2.
  do 2 eexists. exists c1, c2. do 3 (split; [assumption|]). split; [exact E'|]. split; [exact F1|]. split; [exact F2|]. split; [exact C1|].
  split; [inversion C1 as [|? ? ? G _]; subst; vm_compute in G; injection G as <-; reflexivity|].
  injection C2 as Q1 Q2 Q3 Q4. rewrite Q1, Q4. split; [vr|]. split; [vr|exact C3].
Qed.

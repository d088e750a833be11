(* Proof_Lines.v - that the lines of a patched text stay apart (C131). *)
From Verif Require Import Base Model_Seq Model_Changes Model_IO Model_Text Model_Bytes Spec Spec_Outcome Spec_Result Spec_Shape Spec_Overlook Proof_Seq Proof_Arith Proof_IO Proof_Diff Proof_Changes Proof_Blocks Proof_Result Proof_Conflicts Proof_Outcome Proof_Overlook Proof_Props_Select.

(* ------------------------------------------------------------------ the text the patch was made for *)
Definition line_eq_dec : forall l l' : line, {l = l'} + {l <> l'} := list_eq_dec Byte.byte_eq_dec.

(* every line written is the one wanted or one with others after it in both texts *)
Lemma result_line (b a out : list line) context cs j v :
  tiles 0 0 cs (length b) (length a) -> Forall non_empty cs ->
  (forall m, In (NoChange m) cs -> nearly_common b a (cs_b m) (cs_a m) (cs_n m)) ->
  result_of context cs b a out -> nth_error out j = Some v ->
  nth_error a j = Some v \/ exists i, nth_error b i = Some v /\ S i < length b /\ S j < length a.
Proof.
  intros Ht Hne Hc (R1 & R2 & R3) Hv.
  assert (D : {nth_error out j = nth_error a j} + {nth_error out j <> nth_error a j}) by (decide equality; apply line_eq_dec).
  destruct D as [D|D]; [left; congruence|right].
  assert (B : forall i, beyond_context context cs i j -> reported_same cs i j).
  { intros i (pre & x & post & t & -> & B1 & B2 & B3 & _). exists x, t. split; [apply in_or_app; right; now left|]. repeat split; assumption. }
  destruct (find (fun q => snd q =? j) (reported cs)) as [[i k']|] eqn:Ef.
  - apply find_some in Ef as [E1 E2]. cbn in E2. apply Nat.eqb_eq in E2 as ->. apply reported_in in E1. cbn [fst snd] in E1.
    assert (D' : {nth_error out j = nth_error b i} + {nth_error out j <> nth_error b i}) by (decide equality; apply line_eq_dec).
    destruct D' as [D'|D'].
    + exists i. split; [congruence|]. destruct E1 as (x & t & X1 & X2 & X3 & X4). subst i j. destruct (Hc x X1 t X2) as [(u & U1 & U2)|(_ & _ & _ & (u & U1 & U2))].
      * exfalso. congruence.
      * replace (cs_b x + S t) with (S (cs_b x + t)) in U1 by lia. replace (cs_a x + S t) with (S (cs_a x + t)) in U2 by lia.
        split; apply nth_error_Some; congruence.
    + exfalso. apply D, R3. intros i' B'. assert (i' = i) as -> by (eapply reported_unique; [| |exact (B _ B')|exact E1]; eassumption). apply D', R2, B'.
  - exfalso. apply D, R3. intros i B'. apply B in B'. pose proof (find_none _ _ Ef (i, j)) as N. cbn in N. rewrite Nat.eqb_refl in N. discriminate N. now apply reported_in.
Qed.
Lemma good_nth ls i l : good ls -> nth_error ls i = Some l -> is_line l /\ (S i < length ls -> ends_in_newline l).
Proof.
  intros [H1 H2] H. split; [rewrite Forall_forall in H1; eapply H1, nth_error_In, H|]. intros L. apply nth_error_split in H as (pre & post & -> & Hp).
  apply (H2 pre l post eq_refl). intros ->. rewrite app_length in L. cbn in L. lia.
Qed.
Lemma result_lines (b a out : list line) context cs :
  tiles 0 0 cs (length b) (length a) -> Forall non_empty cs ->
  (forall m, In (NoChange m) cs -> nearly_common b a (cs_b m) (cs_a m) (cs_n m)) ->
  result_of context cs b a out -> good b -> good a ->
  good out /\ length out = length a /\ (forall l, In l out -> In l b \/ In l a) /\
  (forall j, S j = length a -> nth_error out j = nth_error a j).
Proof.
  intros Ht Hne Hc R Gb Ga. pose proof (proj1 R) as R1.
  assert (K := fun j v => result_line b a out context cs j v Ht Hne Hc R).
  split; [split|split; [assumption|split]].
  - apply Forall_forall. intros l Hl. apply In_nth_error in Hl as (j & Hj). destruct (K j l Hj) as [A|(i & A & _)]; [exact (proj1 (good_nth _ _ _ Ga A))|exact (proj1 (good_nth _ _ _ Gb A))].
  - intros pre l post E Hp. assert (Hj : nth_error out (length pre) = Some l) by (rewrite E, nth_error_app2, Nat.sub_diag by lia; reflexivity).
    assert (L : S (length pre) < length a) by (rewrite <- R1, E, app_length; cbn; destruct post; [contradiction|cbn; lia]).
    destruct (K _ l Hj) as [A|(i & A & Hi & _)]; [exact (proj2 (good_nth _ _ _ Ga A) L)|exact (proj2 (good_nth _ _ _ Gb A) Hi)].
  - intros l Hl. apply In_nth_error in Hl as (j & Hj). destruct (K j l Hj) as [A|(i & A & _)]; [right|left]; eapply nth_error_In, A.
  - intros j Hj. destruct (nth_error out j) as [v|] eqn:E; [|apply nth_error_None in E; lia]. destruct (K j v E) as [A|(i & _ & _ & A)]; [congruence|lia].
Qed.

(* ------------------------------------------------------------------ any text *)
Section Any.
  Variable dbg : bool.
  Variable target : list line.
  Hypothesis G : good target.

  Lemma outcome_past from offset hs r out : outcome dbg target from offset hs r out -> length target < from -> r = None.
  Proof.
    induction 1 as [from offset Hf|from offset Hf|from offset h rest fuzzy shift w r out Hfate Hw Ho IH|from offset h rest fuzzy shift w Hfate Hw|from offset h rest fuzzy shift w r out Hfate Ho IH|from offset h rest r out Hfate Ho IH|from offset h rest Hfate];
      intros L; try reflexivity; [lia| | |]; rewrite IH by lia; reflexivity.
  Qed.
  Lemma kept_some h pos w : hunk_ok h -> h_old h <> [] -> decision h target pos (Some w) -> 1 <= kept_count (h_old h) w.
  Proof.
    intros (O1 & _) N H. assert (1 <= length (h_old h)) by (destruct (h_old h); [contradiction|cbn; lia]). unfold kept_count.
    inversion H; subst; cbn [cut_lead cut_trail]; [lia|]. rewrite !Nat2Z.id. lia.
  Qed.
  Lemma outcome_lines from offset hs r out : outcome dbg target from offset hs r out -> forall fates, r = Some fates ->
    ~ In Rejected fates -> Forall hunk_ok hs -> Forall (fun h => h_old h <> [] /\ Forall full_line (h_new h)) hs ->
    exists ls, out = concat ls /\ good ls /\ Forall (fun l => In l target \/ exists h, In h hs /\ In l (h_new h)) ls /\ (length target <= from -> ls = []).
  Proof.
    induction 1 as [from offset Hf|from offset Hf|from offset h rest fuzzy shift w r out Hfate Hw Ho IH|from offset h rest fuzzy shift w Hfate Hw|from offset h rest fuzzy shift w r out Hfate Ho IH|from offset h rest r out Hfate Ho IH|from offset h rest Hfate];
      intros fates E Hno Hok Hn; try discriminate.
    - exists (skipn from target). split; [reflexivity|]. split; [now apply good_skipn|]. split; [|intros L; now apply skipn_all2].
      apply Forall_forall. intros l Hl. left. rewrite <- (firstn_skipn from target). apply in_or_app. now right.
    - destruct r as [fs|]; [|discriminate]. injection E as <-. inversion Hok as [|? ? O1 O2]; subst. inversion Hn as [|? ? [N1 N1'] N2]; subst.
      destruct (IH fs eq_refl) as (ls & -> & Gl & Fl & _); [intros Hi; apply Hno; now right|assumption|assumption|].
      pose proof (kept_some h _ w O1 N1 (fate_placed _ _ _ _ _ _ _ _ _ Hfate)) as K.
      assert (L : Nat.max from (kept_from (h_b h) shift w) + kept_count (h_old h) w <= length target).
      { destruct (Nat.le_gt_cases (Nat.max from (kept_from (h_b h) shift w) + kept_count (h_old h) w) (length target)) as [|C]; [assumption|].
        pose proof (outcome_past _ _ _ _ _ Ho C). discriminate. }
      assert (W : forall l, In l (written h w) -> In l (h_new h)) by (destruct w as [|p]; [auto|]; intros l; apply in_sub).
      exists (sub target from (kept_from (h_b h) shift w) ++ written h w ++ ls). split; [now rewrite !concat_app|]. split; [|split].
      + apply good_app; [apply good_sub; [assumption|lia]|]. apply good_app; [|assumption]. apply Forall_forall. intros l Hl. rewrite Forall_forall in N1'. apply N1', W, Hl.
      + apply Forall_app. split; [apply Forall_forall; intros l Hl; left; eapply in_sub, Hl|]. apply Forall_app. split.
        * apply Forall_forall. intros l Hl. right. exists h. split; [now left|now apply W].
        * eapply Forall_impl; [|exact Fl]. intros l [Hl|(g & Hg & Hl)]; [now left|right; exists g; split; [now right|assumption]].
      + intros L'. lia.
    - destruct r as [fs|]; [|discriminate]. injection E as <-. inversion Hok as [|? ? O1 O2]; subst. inversion Hn as [|? ? N1 N2]; subst.
      destruct (IH fs eq_refl) as (ls & -> & Gl & Fl & El); [intros Hi; apply Hno; now right|assumption|assumption|].
      set (to := kept_from (h_a h) shift w + kept_count (h_new h) w) in *.
      assert (L : Nat.max from to <= length target).
      { destruct (Nat.le_gt_cases (Nat.max from to) (length target)) as [|C]; [assumption|]. pose proof (outcome_past _ _ _ _ _ Ho C). discriminate. }
      exists (sub target from to ++ ls). split; [now rewrite concat_app|]. split; [|split].
      + destruct (Nat.eq_dec to (length target)) as [->|Ht]; [|apply good_app; [apply good_sub; [assumption|lia]|assumption]].
        rewrite El by lia. rewrite app_nil_r, sub_all. now apply good_skipn.
      + apply Forall_app. split; [apply Forall_forall; intros l Hl; left; eapply in_sub, Hl|].
        eapply Forall_impl; [|exact Fl]. intros l [Hl|(g & Hg & Hl)]; [now left|right; exists g; split; [now right|assumption]].
      + intros L'. rewrite El by lia. rewrite app_nil_r. unfold sub. now rewrite skipn_all2, firstn_nil by assumption.
    - destruct r as [fs|]; [|discriminate]. injection E as <-. exfalso. apply Hno. now left.
  Qed.
End Any.
Lemma none_rejected fates : st_failed (tally fates) = 0 -> ~ In Rejected fates.
Proof.
  unfold tally, how_many. cbn [st_failed]. intros H Hi. apply length_zero_iff_nil in H.
  assert (K : In Rejected []) by (rewrite <- H; apply filter_In; split; [assumption|reflexivity]). destruct K.
Qed.

(* ------------------------------------------------------------------ the hunks of a diff *)
(* with context and something to be found, every hunk has old lines, and its new lines are lines of the new text *)
Lemma cover_old context g (b a : list line) i j hs : 1 <= context -> b <> [] -> cover context g b a i j hs ->
  Forall (fun h => h_old h <> []) hs.
Proof.
  intros Hc Hb. assert (0 < length b) by (destruct b; [contradiction|cbn; lia]).
  induction 1; constructor; auto. cbn [h_old]. intros E. apply (f_equal (@length _)) in E. rewrite sub_length in E by lia. cbn in E. lia.
Qed.
Lemma cover_new context g (b a : list line) i j hs : cover context g b a i j hs -> Forall (fun h => forall l, In l (h_new h) -> In l a) hs.
Proof. induction 1; constructor; auto. cbn [h_new]. intros x. apply in_sub. Qed.

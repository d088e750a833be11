(* Proof_Props_Context.v - the property lemmas on the number of context lines. *)
From Coq Require Import String.
From Verif Require Import Base Model_Seq Model_Changes Model_IO Model_Text Model_Bytes Spec Spec_Shape Cases Proof_Seq Proof_Changes Proof_Clumps Proof_IO Proof_Diff Proof_Arith Proof_Text Proof_Apply Proof_Bytes Proof_Shape Proof_Context Proof_Props_Gen Proof_Props_Text Proof_Props_Bytes.

Local Ltac vr := vm_compute; reflexivity.

Lemma beyond_fewer c c' cs i j : c <= c' -> beyond_context c' cs i j -> beyond_context c cs i j.
Proof. intros H (pre & m & post & p & -> & H1 & H2 & H3 & H4 & H5). exists pre, m, post, p. repeat (split; [assumption || reflexivity|]). split; [destruct H4; [now left|right; lia]|destruct H5; [now left|right; lia]]. Qed.
Lemma beyond_dec c cs j : (exists i, beyond_context c cs i j) \/ (forall i, ~ beyond_context c cs i j).
Proof.
  assert (G : forall f, (exists i, beyondf c f cs i j) \/ (forall i, ~ beyondf c f cs i j)).
  { induction cs as [|x cs IH]; intros f.
    - right. intros i (pre & m & post & p & E & _). destruct pre; discriminate.
    - destruct (IH true) as [(i & H)|H]; [left; exists i; apply beyondf_cons; now right|].
      assert (D : (exists m p, x = NoChange m /\ p < cs_n m /\ j = cs_a m + p /\ (f = false \/ c <= p) /\ (cs = [] \/ p + c < cs_n m)) \/
        ~ (exists m p, x = NoChange m /\ p < cs_n m /\ j = cs_a m + p /\ (f = false \/ c <= p) /\ (cs = [] \/ p + c < cs_n m))).
      { destruct x as [m| | |]; [|right; intros (m & p & E & _); discriminate..].
        destruct (le_lt_dec (cs_a m) j) as [L1|L1]; [|right; intros (m' & p & E & _ & -> & _); injection E as <-; lia].
        destruct (le_lt_dec (cs_n m) (j - cs_a m)) as [L2|L2]; [right; intros (m' & p & E & L & -> & _); injection E as <-; lia|].
        assert (D1 : {f = false \/ c <= j - cs_a m} + {~ (f = false \/ c <= j - cs_a m)}).
        { destruct f; [|left; now left]. destruct (le_lt_dec c (j - cs_a m)); [left; now right|right; intros [?|?]; [discriminate|lia]]. }
        assert (D2 : {cs = [] \/ j - cs_a m + c < cs_n m} + {~ (cs = [] \/ j - cs_a m + c < cs_n m)}).
        { destruct cs as [|y cs]; [left; now left|]. destruct (le_lt_dec (cs_n m) (j - cs_a m + c)); [right; intros [?|?]; [discriminate|lia]|left; now right]. }
        destruct D1 as [D1|D1]; [destruct D2 as [D2|D2]|].
        - left. exists m, (j - cs_a m). repeat (split; [reflexivity || assumption || lia|]). assumption.
        - right. intros (m' & p & E & L & -> & _ & H'). injection E as <-. apply D2. now replace (cs_a m + p - cs_a m) with p by lia.
        - right. intros (m' & p & E & L & -> & H' & _). injection E as <-. apply D1. now replace (cs_a m + p - cs_a m) with p by lia. }
      destruct D as [(m & p & -> & H1 & H2 & H3)|D].
      + left. exists (cs_b m + p). apply beyondf_cons. left. exists m, p. tauto.
      + right. intros i Hi. apply beyondf_cons in Hi as [(m & p & E & H1 & _ & H2 & H3)|Hi]; [|exact (H i Hi)]. apply D. exists m, p. tauto. }
  destruct (G false) as [(i & H)|H]; [left; exists i; now apply beyondf_false|right; intros i Hi; apply (H i); now apply beyondf_false].
Qed.
Lemma result_more {T} c c' cs (b a out out' : list T) : c <= c' -> result_of c cs b a out -> result_of c' cs b a out' ->
  forall j, nth_error out j = nth_error a j -> nth_error out' j = nth_error a j.
Proof.
  intros Hc (_ & R1 & R2) (_ & R1' & R2') j H. destruct (beyond_dec c' cs j) as [(i & Hi)|Hn]; [|now apply R2'].
  rewrite (R1' _ _ Hi), <- H. symmetry. apply R1. eapply beyond_fewer; eauto.
Qed.
Lemma result_new {T} c cs (b a out : list T) : result_of c cs b a out -> (forall i j, ~ beyond_context c cs i j) -> out = a.
Proof. intros (_ & _ & R) H. apply nth_error_ext. intros j. apply R. intros i. apply H. Qed.
Lemma beyond_enough c cs i j : (exists x, In x cs /\ real x = true) -> (forall m, In (NoChange m) cs -> cs_n m <= c) -> ~ beyond_context c cs i j.
Proof.
  intros (x & X1 & X2) H (pre & m & post & p & -> & H1 & _ & _ & H4 & H5). assert (cs_n m <= c) by (apply H, in_or_app; right; now left).
  destruct H4 as [->|H4]; [|lia]. destruct H5 as [->|H5]; [|lia]. destruct X1 as [<-|[]]. discriminate.
Qed.

(* ------------------------------------------------------------------ C103 *)
(* C103, full statement: the result of patching a text with a diff made from it is the same for
   every number of context lines.  It is false: what the generator overlooks is put right if it
   lies in the context of a change, and otherwise not. *)
Lemma p_C103_any_context_refuted : exists b a clumps1 clumps3,
  text_diff_clumps b a 1 = Ok clumps1 /\ text_diff_clumps b a 3 = Ok clumps3 /\
  forall dbg, exists out1 out3,
    text_apply_into dbg clumps1 b false (Writer [] None) = (Done (Stats (length clumps1) 0 0 0 0), Writer out1 None) /\
    text_apply_into dbg clumps3 b false (Writer [] None) = (Done (Stats (length clumps3) 0 0 0 0), Writer out3 None) /\ out1 <> out3.
Proof.
  exists (L "A B C X D "), (L "A B C Y D E "). do 2 eexists. split; [vr|]. split; [vr|]. intros dbg.
  exists (bs "A B C X D E "), (bs "A B C Y D E "). split; [destruct dbg; vr|]. split; [destruct dbg; vr|]. discriminate.
Qed.
(* What does hold: exactly which lines are put in.  The result has the lines of [after], except for
   those reported as unchanged and [context] or more lines away from every change, which stay. *)
Lemma p_C103_result : forall dbg before after context clumps cs,
  context <= 255 -> fits_lines before -> fits_lines after -> text_changes before after = Ok cs -> text_diff_clumps before after context = Ok clumps ->
  (exists out, result_of context cs before after out /\
     text_apply_into dbg clumps before false (Writer [] None) = (Done (Stats (length clumps) 0 0 0 0), Writer (List.concat out) None)) /\
  (exists out, result_of context (map swap_range_change cs) after before out /\
     text_apply_into dbg clumps after true (Writer [] None) = (Done (Stats (length clumps) 0 0 0 0), Writer (List.concat out) None)).
Proof.
  intros dbg b a context clumps cs Hc Fb Fa E1 E2. destruct (p_C20_own_text dbg b a context clumps Hc Fb Fa E2) as (hs & -> & A1 & A2).
  destruct (text_diff_result b a context cs hs Hc E1 E2 map_text_of_hunk_inj) as (cl & C1 & C2 & Hp).
  destruct (hunks_result b a context cs cl hs Hc Hp C1 C2) as [(R1 & R2 & R3) (S1 & S2 & S3)]. split.
  - exists (patched b 0 hs). split; [now repeat split|assumption].
  - exists (patched a 0 (map swap_hunk hs)). split; [|assumption]. split; [assumption|]. split.
    + intros j i H. apply (proj1 (swap_beyond _ _ _ _)) in H. now apply S2.
    + intros i H. apply S3. intros j Hj. apply (H j). now apply swap_beyond.
Qed.
Lemma p_C103_result_bytes_partial : forall dbg before after context clumps cs,
  1 <= context <= 255 -> fits_bytes before -> fits_bytes after -> byte_changes before after = Ok cs -> byte_diff_clumps before after context = Ok clumps ->
  (before <> [] -> exists out, result_of context cs before after out /\ byte_apply_into dbg clumps before false (Writer [] None) = (Done tt, Writer out None)) /\
  (after <> [] -> exists out, result_of context (map swap_range_change cs) after before out /\ byte_apply_into dbg clumps after true (Writer [] None) = (Done tt, Writer out None)).
Proof.
  intros dbg b a context clumps cs Hc Fb Fa E1 E2. destruct (bdiff_facts b a context clumps (proj2 Hc) E2) as (cs' & hs & -> & E3 & Hcov & Hord).
  destruct (byte_diff_result b a context cs hs (proj2 Hc) E1 E2 map_byte_of_hunk_inj) as (cl & C1 & C2 & Hp).
  destruct (hunks_result b a context cs cl hs (proj2 Hc) Hp C1 C2) as [(R1 & R2 & R3) (S1 & S2 & S3)]. split; intros Hne.
  - exists (patched b 0 hs). split; [now repeat split|]. apply emits_run. eapply byte_apply_own; eauto. eapply cover_starts_inside; [exact (proj1 Hc)|exact Hne|exact Hcov].
  - exists (patched a 0 (map swap_hunk hs)). split.
    + split; [assumption|]. split.
      * intros j i H. apply (proj1 (swap_beyond _ _ _ _)) in H. now apply S2.
      * intros i H. apply S3. intros j Hj. apply (H j). now apply swap_beyond.
    + rewrite breverse_apply. apply cover_swap in Hcov. apply emits_run. eapply byte_apply_own; eauto. eapply cover_starts_inside; [exact (proj1 Hc)|exact Hne|exact Hcov].
Qed.
(* so a line that comes out as in [after] does so with more context as well, and with a context as long
   as the longest block reported as unchanged the result is [after], if any change is reported.
   Missing: that more context makes no difference. *)
Lemma p_C103_more_context_partial : forall dbg before after context context' clumps clumps',
  context <= context' <= 255 -> fits_lines before -> fits_lines after ->
  text_diff_clumps before after context = Ok clumps -> text_diff_clumps before after context' = Ok clumps' ->
  exists out out',
    text_apply_into dbg clumps before false (Writer [] None) = (Done (Stats (length clumps) 0 0 0 0), Writer (List.concat out) None) /\
    text_apply_into dbg clumps' before false (Writer [] None) = (Done (Stats (length clumps') 0 0 0 0), Writer (List.concat out') None) /\
    length out = length after /\ length out' = length after /\
    forall j, nth_error out j = nth_error after j -> nth_error out' j = nth_error after j.
Proof.
  intros dbg b a c c' cl cl' Hc Fb Fa E E'. destruct (text_changes_spec b a) as (cs & E1 & _).
  destruct (p_C103_result dbg b a c cl cs) as [(out & R & A) _]; auto; [lia|]. destruct (p_C103_result dbg b a c' cl' cs) as [(out' & R' & A') _]; auto; [lia|].
  exists out, out'. split; [assumption|]. split; [assumption|]. split; [exact (proj1 R)|]. split; [exact (proj1 R')|]. exact (result_more _ _ _ _ _ _ _ (proj1 Hc) R R').
Qed.
Lemma p_C103_enough_context_partial : forall dbg before after context clumps cs,
  context <= 255 -> fits_lines before -> fits_lines after -> text_changes before after = Ok cs -> text_diff_clumps before after context = Ok clumps ->
  clumps <> [] -> (forall m, In (NoChange m) cs -> cs_n m <= context) ->
  text_apply_into dbg clumps before false (Writer [] None) = (Done (Stats (length clumps) 0 0 0 0), Writer (List.concat after) None) /\
  text_apply_into dbg clumps after true (Writer [] None) = (Done (Stats (length clumps) 0 0 0 0), Writer (List.concat before) None).
Proof.
  intros dbg b a c cl cs Hc Fb Fa E1 E2 Hne Hm. destruct (p_C103_result dbg b a c cl cs Hc Fb Fa E1 E2) as [(out & R & A) (out' & R' & A')].
  assert (Hr : exists x, In x cs /\ real x = true).
  { destruct (existsb real cs) eqn:Ex; [apply existsb_exists in Ex as (x & X1 & X2); eauto|]. exfalso.
    assert (Hall : forall x, In x cs -> real x = false) by (intros x Hx; destruct (real x) eqn:Er; [|reflexivity]; rewrite <- Ex; symmetry; apply existsb_exists; eauto).
    destruct (text_changes_spec b a) as (cs' & E & _ & _ & Halt & _). rewrite E1 in E. injection E as <-.
    apply Hne. unfold text_diff_clumps in E2. rewrite E1 in E2. cbn [bind] in E2. destruct cs as [|x cs]; [cbn in E2; congruence|].
    assert (real x = false) by (apply Hall; now left). destruct x as [m| | |]; try discriminate. destruct cs as [|y cs].
    - cbn in E2. congruence.
    - exfalso. apply (Halt [] (NoChange m) y cs eq_refl). rewrite (Hall y); [reflexivity|right; now left]. }
  rewrite (result_new c cs b a out R) in A by (intros i j; now apply beyond_enough).
  rewrite (result_new c _ a b out' R') in A'; [now split|].
  intros i j H. apply (proj1 (swap_beyond _ _ _ _)) in H. revert H. now apply beyond_enough.
Qed.
Lemma e_C103_example : let b := L "A B C X D " in let a := L "A B C Y D E " in let cs := [NoChange (CS 0 0 5); Insert 5 (Range 5 6)] in
  text_changes b a = Ok cs /\
  result_of 1 cs b a (L "A B C X D E ") /\ result_of 2 cs b a (L "A B C Y D E ") /\ L "A B C X D E " <> L "A B C Y D E ".
Proof.
  intros b a cs. split; [vr|].
  assert (G : forall c i j, beyond_context c cs i j <-> i = j /\ i + c < 5).
  { intros c i j. split.
    - intros (pre & m & post & p & E & H1 & -> & -> & H4 & H5). destruct pre as [|x [|y [|]]]; try discriminate. cbn in E. injection E as <- <-. cbn in *. destruct H5 as [H5|H5]; [discriminate|]. lia.
    - intros [<- H]. exists [], (CS 0 0 5), [Insert 5 (Range 5 6)], i. cbn. repeat split; auto; lia. }
  split; [|split]; [split; [reflexivity|split]|split; [reflexivity|split]|discriminate].
  - intros i j H. apply G in H as [<- H]. do 4 (destruct i as [|i]; [vr|]). lia.
  - intros j H. do 4 (destruct j as [|j]; [exfalso; match goal with |- False => eapply H; apply G; split; [reflexivity|]; cbn; lia end|]). do 3 (destruct j as [|j]; [vr|]). vr.
  - intros i j H. apply G in H as [<- H]. do 3 (destruct i as [|i]; [vr|]). lia.
  - intros j H. do 6 (destruct j as [|j]; [vr|]). vr.
Qed.

(* Proof_Props_Text.v - the property lemmas on applying text patches. *)
From Coq Require Import String.
From Verif Require Import Base Model_Seq Model_Changes Model_IO Model_Text Model_Bytes Spec Spec_Nearly Cases Proof_Seq Proof_Changes Proof_Clumps Proof_IO Proof_Diff Proof_Arith Proof_Text Proof_Nearby Proof_Apply Proof_Fuzzy Proof_Contained Proof_Term Proof_Nearly Proof_Props_Gen.

(* ---------------- auxiliary ---------------- *)
Lemma text_of_hunk_inj h h' : text_of_hunk h = text_of_hunk h' -> h = h'.
Proof.
  destruct h, h'. unfold text_of_hunk. cbn. intros H. injection H. intros. f_equal; try assumption; now apply Nat2Z.inj.
Qed.
Lemma map_text_of_hunk_inj hs hs' : map text_of_hunk hs = map text_of_hunk hs' -> hs = hs'.
Proof.
  revert hs'. induction hs as [|h hs IH]; intros [|h' hs'] H; try discriminate; [reflexivity|].
  cbn [map] in H. assert (E1 : text_of_hunk h = text_of_hunk h') by congruence.
  assert (E2 : map text_of_hunk hs = map text_of_hunk hs') by congruence.
  f_equal; [now apply text_of_hunk_inj|now apply IH].
Qed.
(* everything known about the diff of two texts *)
Lemma diff_facts b a context clumps : context <= 255 -> fits_lines b -> fits_lines a ->
  text_diff_clumps b a context = Ok clumps ->
  exists cs hs, clumps = map text_of_hunk hs /\ text_changes b a = Ok cs /\ cover context (unchanged cs) b a 0 0 hs /\
    Forall hunk_ok hs /\ ordered hs.
Proof.
  intros Hc Fb Fa E. destruct (text_diff_spec b a context Hc) as (cs & cl & hs & E1 & _ & _ & _ & E5 & E6).
  rewrite E in E5. injection E5 as ->. exists cs, hs. split; [reflexivity|]. split; [assumption|]. split; [assumption|]. split; [exact (cover_ok _ _ _ _ _ _ _ Fb Fa Hc E6)|exact (cover_ordered _ _ _ _ _ _ _ E6)].
Qed.
Lemma diff_facts_hs b a context hs : context <= 255 -> fits_lines b -> fits_lines a ->
  text_diff_clumps b a context = Ok (map text_of_hunk hs) ->
  exists cs, text_changes b a = Ok cs /\ cover context (unchanged cs) b a 0 0 hs /\ Forall hunk_ok hs /\ ordered hs.
Proof.
  intros Hc Fb Fa E. destruct (diff_facts b a context _ Hc Fb Fa E) as (cs & hs' & Eh & E1 & E2 & E3 & E4).
  apply map_text_of_hunk_inj in Eh as ->. eauto.
Qed.
Lemma patched_cover_conv context g (b a : list line) i j hs : cover context g b a i j hs -> patched b i hs = skipn j a ->
  cover context (equal_gap b a) b a i j hs.
Proof.
  induction 1 as [i j d Hg E1 E2|i j d i' j' l t rest Hg H1 H2 H3 H4 H5 H6 H7 H8 H9 Hc IH]; intros E.
  - cbn [patched] in E. econstructor; eauto. unfold equal_gap. rewrite E1, E2, !sub_all. exact E.
  - cbn [patched h_b h_old h_new] in E.
    assert (Ei : i + d + length (sub b (i + d) i') = i') by (rewrite sub_length by assumption; lia).
    rewrite Ei in E.
    rewrite <- (sub_skipn a j (j + d)) in E by lia. rewrite <- (sub_skipn a (j + d) j') in E by lia.
    assert (HA : forall (T : Type) (x y u v : list T), length x = length y -> x ++ u = y ++ v -> x = y /\ u = v).
    { intros T x. induction x as [|e x IHx]; intros [|f y] u v Hl Hxy; try discriminate; [auto|].
      injection Hl as Hl. cbn in Hxy. injection Hxy as -> Hxy. destruct (IHx y u v Hl Hxy) as [-> ->]. auto. }
    apply HA in E as [G1 E]; [|rewrite !sub_length by lia; lia].
    apply HA in E as [_ E]; [|reflexivity].
    econstructor; eauto.
Qed.
Lemma faithful_patched context cs (b a : list line) hs : faithful b a cs -> cover context (unchanged cs) b a 0 0 hs ->
  patched b 0 hs = a.
Proof.
  intros Hf Hc. change a with (skipn 0 a) at 1. eapply patched_cover. eapply cover_mono; [|exact Hc].
  intros x y d. now apply unchanged_equal.
Qed.
Lemma faithful_patched_rev context cs (b a : list line) hs : faithful b a cs -> cover context (unchanged cs) b a 0 0 hs ->
  patched a 0 (map swap_hunk hs) = b.
Proof.
  intros Hf Hc. change b with (skipn 0 b) at 1. eapply patched_cover. apply cover_swap in Hc. eapply cover_mono; [|exact Hc].
  intros x y d Hu. apply equal_gap_sym. cbn in Hu. eapply unchanged_equal; eauto.
Qed.
Lemma reverse_apply dbg hs target w :
  text_apply_into dbg (map text_of_hunk hs) target true w = text_apply_into dbg (map text_of_hunk (map swap_hunk hs)) target false w.
Proof. rewrite <- map_swap_hunk. symmetry. apply text_apply_into_swap. Qed.
Lemma hunks_ok_swap hs : Forall (@hunk_ok line) hs -> Forall hunk_ok (map swap_hunk hs).
Proof. induction 1; constructor; auto. now apply hunk_ok_swap. Qed.

(* deciding the conditions on concrete cases *)
Definition fits_check (h : hunk line) (target : list line) : bool :=
  existsb (fun k => existsb (fun p => list_eqb line_eqb (sub target p (p + length (trimmed h k))) (trimmed h k))
                            (seq 0 (S (length target)))) (seq 0 (S (Nat.max (h_lead h) (h_trail h)))).
Lemma fits_check_false h target : fits_check h target = false -> ~ fits_somewhere h target.
Proof.
  intros H (pos & k & Hk & p & _ & Hp & E).
  assert (fits_check h target = true); [|congruence].
  apply existsb_exists. exists k. split; [apply in_seq; destruct Hk; lia|].
  apply existsb_exists. exists p. split; [apply in_seq; lia|]. now apply (list_eqb_lawful line_eqb line_eqb_lawful).
Qed.
Lemma fits_lines_small (s : list line) : (length s <= 1000)%nat -> fits_lines s.
Proof. unfold fits_lines, zlen, two63. lia. Qed.

(* ------------------------------------------------------------------ C18 *)
(* C18, full statement: for all texts b, a and contexts, applying the diff of b and a to b
   writes exactly a.  It is false (a changed line can be missing from the diff, see C10). *)
Lemma p_C18_patch_gives_new_refuted : exists before after context clumps,
  text_diff_clumps before after context = Ok clumps /\
  forall dbg, exists out, text_apply_into dbg clumps before false (Writer [] None) = (Done (Stats (length clumps) 0 0 0 0), Writer out None) /\
    out <> concat after.
Proof.
  exists (L "A B C X D "), (L "A B C Y D E "), 1. eexists. split; [vm_compute; reflexivity|].
  intros dbg. exists (bs "A B C X D E "). destruct dbg; vm_compute; (split; [reflexivity|discriminate]).
Qed.
(* What does hold: applying always succeeds cleanly, and writes exactly [after] if every
   block reported unchanged is unchanged, in particular without isolated mismatches.
   Missing: changes that the generator overlooks. *)
Lemma p_C18_patch_gives_new_partial : forall dbg before after context clumps cs,
  context <= 255 -> fits_lines before -> fits_lines after ->
  text_changes before after = Ok cs -> text_diff_clumps before after context = Ok clumps ->
  faithful before after cs \/ no_isolated_mismatch before after ->
  text_apply_into dbg clumps before false (Writer [] None) = (Done (Stats (length clumps) 0 0 0 0), Writer (concat after) None).
Proof.
  intros dbg b a context clumps cs Hc Fb Fa E1 E2 Hf.
  destruct (diff_facts b a context clumps Hc Fb Fa E2) as (cs' & hs & -> & E3 & Hcov & Hok & Hord). rewrite E1 in E3. injection E3 as <-.
  assert (Hf' : faithful b a cs) by (destruct Hf as [?|Hno]; [assumption|exact (proj2 (proj1 p_C10_unchanged_is_unchanged_partial b a cs E1) Hno)]).
  rewrite map_length, <- (faithful_patched context cs b a hs Hf' Hcov). apply emits_run. eapply text_apply_own; eauto.
Qed.
(* the same on file contents: if the files are valid texts, patching the first content gives
   the second byte for byte *)
Lemma p_C18_patch_file_partial : forall dbg tb ta before after context clumps,
  context <= 255 -> lines_of tb before -> lines_of ta after -> fits_lines before -> fits_lines after ->
  no_isolated_mismatch before after -> text_diff_clumps before after context = Ok clumps ->
  text_apply_into dbg clumps before false (Writer [] None) = (Done (Stats (length clumps) 0 0 0 0), Writer ta None).
Proof.
  intros dbg tb ta b a context clumps Hc Hb Ha Fb Fa Hno E.
  destruct (text_changes_spec b a) as (cs & E1 & _). rewrite <- (proj1 Ha).
  eapply p_C18_patch_gives_new_partial; eauto.
Qed.
(* for all texts, without conditions: the patch applies cleanly and the result has the lines of
   [after], except for lines that are still those of [before], each different from its
   counterpart and directly between two equal pairs of lines *)
Lemma p_C18_patch_nearly_new_partial : forall dbg before after context clumps,
  context <= 255 -> fits_lines before -> fits_lines after -> text_diff_clumps before after context = Ok clumps ->
  exists out, nearly before after out /\
    text_apply_into dbg clumps before false (Writer [] None) = (Done (Stats (length clumps) 0 0 0 0), Writer (concat out) None).
Proof.
  intros dbg b a context clumps Hc Fb Fa E. destruct (diff_facts b a context clumps Hc Fb Fa E) as (cs & hs & -> & E3 & Hcov & Hok & Hord).
  exists (patched b 0 hs). split; [eapply patched_is_nearly; [|exact Hcov]; exact (proj1 (proj1 p_C10_unchanged_is_unchanged_partial b a cs E3))|].
  rewrite map_length. apply emits_run. eapply text_apply_own; eauto.
Qed.
Lemma e_C18_nearly_example :
  let b := L "A B C X D " in let a := L "A B C Y D E " in
  isolated b a 2 2 /\ nearly b a (L "A B C X D E ") /\
  exists clumps, text_diff_clumps b a 1 = Ok clumps /\
    text_apply_into true clumps b false (Writer [] None) = (Done (Stats 1 0 0 0 0), Writer (bs "A B C X D E ") None).
Proof.
  split; [|split; [|eexists; split; [vm_compute; reflexivity|]; vm_compute; reflexivity]].
  - vm_compute. split; [eexists; split; reflexivity|]. split; [do 2 eexists; split; [reflexivity|]; split; [reflexivity|discriminate]|eexists; split; reflexivity].
  - split; [vm_compute; reflexivity|]. intros k Hk. replace (length _) with 6 in Hk by (vm_compute; reflexivity).
    destruct (Nat.eq_dec k 3) as [->|Hn].
    + right. exists 2, 2. split; [reflexivity|]. split; [|vm_compute; reflexivity].
      vm_compute. split; [eexists; split; reflexivity|]. split; [do 2 eexists; split; [reflexivity|]; split; [reflexivity|discriminate]|eexists; split; reflexivity].
    + left. do 6 (destruct k as [|k]; [vm_compute; reflexivity || lia|]). lia.
Qed.
Lemma e_C18_example :
  let b := L "A B C D E F G" in let a := L "X B C Y Z E F G " in
  no_isolated_mismatch b a /\ fits_lines b /\ fits_lines a /\ lines_of (bs "A B C D E F G") b /\
  exists clumps, text_diff_clumps b a 1 = Ok clumps /\ length clumps = 3 /\
    text_apply_into true clumps b false (Writer [] None) = (Done (Stats 3 0 0 0 0), Writer (bs "X B C Y Z E F G ") None).
Proof.
  split; [apply (no_isolated_check line_eqb); [exact line_eqb_lawful|vm_compute; reflexivity]|].
  split; [apply fits_lines_small; cbn; lia|]. split; [apply fits_lines_small; cbn; lia|].
  split; [apply split_lines_lines_of|]. eexists. split; [vm_compute; reflexivity|]. vm_compute. split; reflexivity.
Qed.

(* ------------------------------------------------------------------ C19 *)
(* C19, full statement: applying the diff of b and a in reverse to a writes exactly b.
   It is false for the same reason. *)
Lemma p_C19_reverse_gives_old_refuted : exists before after context clumps,
  text_diff_clumps before after context = Ok clumps /\
  forall dbg, exists out, text_apply_into dbg clumps after true (Writer [] None) = (Done (Stats (length clumps) 0 0 0 0), Writer out None) /\
    out <> concat before.
Proof.
  exists (L "A B C X D "), (L "A B C Y D E "), 1. eexists. split; [vm_compute; reflexivity|].
  intros dbg. exists (bs "A B C Y D "). destruct dbg; vm_compute; (split; [reflexivity|discriminate]).
Qed.
(* What does hold, under the same condition as C18.  Missing: overlooked changes. *)
Lemma p_C19_reverse_gives_old_partial : forall dbg before after context clumps cs,
  context <= 255 -> fits_lines before -> fits_lines after ->
  text_changes before after = Ok cs -> text_diff_clumps before after context = Ok clumps ->
  faithful before after cs \/ no_isolated_mismatch before after ->
  text_apply_into dbg clumps after true (Writer [] None) = (Done (Stats (length clumps) 0 0 0 0), Writer (concat before) None).
Proof.
  intros dbg b a context clumps cs Hc Fb Fa E1 E2 Hf.
  destruct (diff_facts b a context clumps Hc Fb Fa E2) as (cs' & hs & -> & E3 & Hcov & Hok & Hord). rewrite E1 in E3. injection E3 as <-.
  assert (Hf' : faithful b a cs) by (destruct Hf as [?|Hno]; [assumption|exact (proj2 (proj1 p_C10_unchanged_is_unchanged_partial b a cs E1) Hno)]).
  rewrite reverse_apply, map_length, <- (faithful_patched_rev context cs b a hs Hf' Hcov).
  rewrite <- (map_length swap_hunk hs). apply emits_run. eapply text_apply_own; [exact Fa|now apply hunks_ok_swap|apply cover_swap, Hcov].
Qed.
(* for all texts, without conditions, as for C18 *)
Lemma p_C19_reverse_nearly_old_partial : forall dbg before after context clumps,
  context <= 255 -> fits_lines before -> fits_lines after -> text_diff_clumps before after context = Ok clumps ->
  exists out, nearly after before out /\
    text_apply_into dbg clumps after true (Writer [] None) = (Done (Stats (length clumps) 0 0 0 0), Writer (concat out) None).
Proof.
  intros dbg b a context clumps Hc Fb Fa E. destruct (diff_facts b a context clumps Hc Fb Fa E) as (cs & hs & -> & E3 & Hcov & Hok & Hord).
  exists (patched a 0 (map swap_hunk hs)). split; [eapply patched_is_nearly_rev; [|exact Hcov]; exact (proj1 (proj1 p_C10_unchanged_is_unchanged_partial b a cs E3))|].
  rewrite reverse_apply, map_length, <- (map_length swap_hunk hs). apply emits_run. eapply text_apply_own; [exact Fa|now apply hunks_ok_swap|apply cover_swap, Hcov].
Qed.
Lemma e_C19_example :
  let b := L "A B C D E F G" in let a := L "X B C Y Z E F G " in
  exists clumps, text_diff_clumps b a 1 = Ok clumps /\
    text_apply_into true clumps a true (Writer [] None) = (Done (Stats 3 0 0 0 0), Writer (bs "A B C D E F G") None).
Proof. eexists. split; [vm_compute; reflexivity|]. vm_compute. reflexivity. Qed.

(* ------------------------------------------------------------------ C20 *)
(* C20: for all texts, a text diff applies cleanly to the text it was made from and replaces
   exactly the lines of each clump; likewise in reverse for the other text. *)
Lemma p_C20_own_text : forall dbg before after context clumps,
  context <= 255 -> fits_lines before -> fits_lines after -> text_diff_clumps before after context = Ok clumps ->
  exists hs, clumps = map text_of_hunk hs /\
    text_apply_into dbg clumps before false (Writer [] None) = (Done (Stats (length clumps) 0 0 0 0), Writer (concat (patched before 0 hs)) None) /\
    text_apply_into dbg clumps after true (Writer [] None) = (Done (Stats (length clumps) 0 0 0 0), Writer (concat (patched after 0 (map swap_hunk hs))) None).
Proof.
  intros dbg b a context clumps Hc Fb Fa E.
  destruct (diff_facts b a context clumps Hc Fb Fa E) as (cs & hs & -> & E3 & Hcov & Hok & Hord).
  exists hs. split; [reflexivity|]. rewrite map_length. split.
  - apply emits_run. eapply text_apply_own; eauto.
  - rewrite reverse_apply, <- (map_length swap_hunk hs). apply emits_run. eapply text_apply_own; [exact Fa|now apply hunks_ok_swap|apply cover_swap, Hcov].
Qed.
(* and the result is the other text exactly when every line left out of the diff is the same
   on both sides *)
Lemma p_C20_own_text_exact : forall before after context hs,
  context <= 255 -> fits_lines before -> fits_lines after -> text_diff_clumps before after context = Ok (map text_of_hunk hs) ->
  (patched before 0 hs = after <-> cover context (equal_gap before after) before after 0 0 hs).
Proof.
  intros b a context hs Hc Fb Fa E. destruct (diff_facts_hs b a context hs Hc Fb Fa E) as (cs & E3 & Hcov & Hok & Hord).
  split; intros H.
  - eapply patched_cover_conv; [exact Hcov|exact H].
  - change a with (skipn 0 a) at 1. eapply patched_cover. exact H.
Qed.
Lemma e_C20_example :
  text_diff_clumps (L "A B C X D ") (L "A B C Y D E ") 1 = Ok (map text_of_hunk [Hunk 1 0 4 (L "D ") 4 (L "D E ")]) /\
  patched (L "A B C X D ") 0 [Hunk 1 0 4 (L "D ") 4 (L "D E ")] = L "A B C X D E ".
Proof. vm_compute. split; reflexivity. Qed.

(* ------------------------------------------------------------------ C21 *)
(* C21: for all texts, the diff of b and a is recognised as already applied to a, and in
   reverse as already applied to b. *)
Lemma p_C21_already_applied : forall dbg before after context clumps,
  context <= 255 -> fits_lines before -> fits_lines after -> text_diff_clumps before after context = Ok clumps ->
  text_is_already_applied dbg clumps after false = Ok true /\
  text_is_already_applied dbg clumps before true = Ok true.
Proof.
  intros dbg b a context clumps Hc Fb Fa E.
  destruct (diff_facts b a context clumps Hc Fb Fa E) as (cs & hs & -> & E3 & Hcov & Hok & Hord).
  unfold text_is_already_applied. split.
  - change false with (negb true). rewrite <- text_already_applied_swap, map_swap_hunk. eapply already_own; [now apply hunks_ok_swap|apply cover_swap, Hcov].
  - eapply already_own; eauto.
Qed.
Lemma e_C21_example :
  let b := L "A B C D E F G" in let a := L "X B C Y Z E F G " in
  exists clumps, text_diff_clumps b a 1 = Ok clumps /\ text_is_already_applied true clumps a false = Ok true /\
    text_is_already_applied true clumps b false = Ok false.
Proof. eexists. split; [vm_compute; reflexivity|]. vm_compute. split; reflexivity. Qed.

(* ------------------------------------------------------------------ C22 *)
(* C22, full statement: applying the diff of b and a to a writes a unchanged, counting all
   clumps as already applied.  It is false: an addition is applied again ... *)
Lemma p_C22_reapply_refuted : exists before after context clumps,
  text_diff_clumps before after context = Ok clumps /\
  forall dbg, text_apply_into dbg clumps after false (Writer [] None) = (Done (Stats 1 0 0 0 0), Writer (concat (after ++ after)) None) /\
    after <> [].
Proof.
  exists [], (L "A "), 3. eexists. split; [vm_compute; reflexivity|]. intros []; vm_compute; (split; [reflexivity|discriminate]).
Qed.
(* ... and re-applying can panic in both build modes *)
Lemma p_C22_reapply_panics_refuted : exists before after context clumps,
  text_diff_clumps before after context = Ok clumps /\
  forall dbg, fst (text_apply_into dbg clumps after false (Writer [] None)) = Panicked.
Proof.
  exists (L "A A A "), (L "B A A "), 1. eexists. split; [vm_compute; reflexivity|]. intros []; vm_compute; reflexivity.
Qed.
(* What does hold: if no clump fits the new text (even with reduced context), re-applying
   leaves it alone.  The condition on core_length is needed for debug builds only (C27).
   Missing: clumps that also fit the new text. *)
Lemma p_C22_reapply_partial : forall dbg before after context hs,
  context <= 255 -> fits_lines before -> fits_lines after ->
  text_diff_clumps before after context = Ok (map text_of_hunk hs) ->
  Forall (fun h => ~ fits_somewhere h after /\ (dbg = true -> (core_length h <= zlen after)%Z)) hs ->
  text_apply_into dbg (map text_of_hunk hs) after false (Writer [] None) = (Done (Stats 0 0 (length hs) 0 0), Writer (concat after) None).
Proof.
  intros dbg b a context hs Hc Fb Fa E HF. destruct (diff_facts_hs b a context hs Hc Fb Fa E) as (cs & E3 & Hcov & Hok & Hord).
  apply emits_run. eapply text_apply_again; eauto.
Qed.
Lemma e_C22_example :
  let b := L "A B C D E F G" in let a := L "X B C Y Z E F G " in
  let hs := [Hunk 0 1 0 (L "A B ") 0 (L "X B "); Hunk 1 1 2 (L "C D E ") 2 (L "C Y Z E "); Hunk 1 0 5 (L "F G") 6 (L "F G ")] in
  text_diff_clumps b a 1 = Ok (map text_of_hunk hs) /\
  Forall (fun h => ~ fits_somewhere h a /\ (true = true -> (core_length h <= zlen a)%Z)) hs.
Proof.
  split; [vm_compute; reflexivity|]. repeat constructor; try (apply fits_check_false; vm_compute; reflexivity); vm_compute; discriminate.
Qed.

(* ------------------------------------------------------------------ C23 *)
(* C23: whenever applying any list of clumps finishes, the counters add up to its length. *)
Lemma p_C23_all_accounted : forall dbg clumps target reverse w st w',
  text_apply_into dbg clumps target reverse w = (Done st, w') -> stats_total st = length clumps.
Proof. intros dbg clumps target reverse w st w'. apply text_apply_total. Qed.
Lemma e_C23_example :
  let clumps := map text_of_hunk [Hunk 0 0 0 (L "A ") 0 (L "B "); Hunk 0 0 4 (L "Q ") 4 (L "R ")] in
  exists out, text_apply_into true clumps (L "A P P P ") false (Writer [] None) = (Done (Stats 1 0 0 0 1), Writer out None).
Proof. eexists. vm_compute. reflexivity. Qed.

(* ------------------------------------------------------------------ C24 *)
(* C24: the applicability decision is the one specified, forward and reverse, and the
   specification determines it. *)
Lemma p_C24_decision : forall dbg h target offset, hunk_ok h -> (- (2 * two61) <= offset <= 2 * two61)%Z ->
  (exists x, will_apply dbg (text_of_hunk h) target offset false = Ok x /\ decision h target (Z.of_nat (h_b h) + offset) x) /\
  (exists x, will_apply dbg (text_of_hunk h) target offset true = Ok x /\ decision (swap_hunk h) target (Z.of_nat (h_a h) + offset) x).
Proof.
  intros dbg h target offset Hok Ho. split.
  - apply will_apply_spec; [assumption|lia|lia].
  - apply will_apply_rev; assumption.
Qed.
Lemma p_C24_decision_unique : forall h target pos x y, decision h target pos x -> decision h target pos y -> x = y.
Proof. exact decision_unique. Qed.
(* two lines of context, the outermost leading one altered in the target *)
Lemma e_C24_example :
  let h := Hunk 2 2 1 (L "Q R X S T ") 1 (L "Q R Y S T ") in
  hunk_ok h /\ will_apply true (text_of_hunk h) (L "P q R X S T ") 0 false = Ok (Some (WithReductions (1, 1)%Z)) /\
  will_apply true (text_of_hunk h) (L "P Q R X S T ") 0 false = Ok (Some Cleanly) /\
  will_apply true (text_of_hunk h) (L "P q r X S T ") 0 false = Ok None /\
  will_apply true (text_of_hunk h) (L "q R X S T ") (-1) false = Ok (Some (WithReductions (1, 1)%Z)).
Proof. split; [unfold hunk_ok; vm_compute; repeat split; repeat constructor; discriminate|]. vm_compute. repeat split. Qed.

(* ------------------------------------------------------------------ C25 *)
(* C25: the nearby search returns the nearest applicable position in its window (backward
   first), or nothing if there is none.  The last hypothesis concerns debug builds only: the
   limit of the search must not be negative (otherwise the subtraction panics, C27). *)
Lemma p_C25_nearest : forall dbg h next target consumed offset,
  hunk_ok h -> match next with Some x => hunk_ok x | None => True end -> fits_lines target ->
  (- two61 <= offset < two61 - 255)%Z -> (0 <= consumed < two61)%Z ->
  (dbg = true -> (0 <= search_limit h target next offset)%Z) ->
  exists x, will_apply_nearby dbg (text_of_hunk h) target consumed (option_map text_of_hunk next) offset false = Ok x /\
    nearest h target (Z.of_nat (h_b h) + offset) consumed (search_limit h target next offset) x.
Proof.
  intros dbg h next target n o Hok Hnx Ft Ho Hn Hd. apply will_apply_nearby_spec; auto.
Qed.
Lemma p_C25_nearest_reverse : forall dbg h next target consumed offset,
  hunk_ok h -> match next with Some x => hunk_ok x | None => True end -> fits_lines target ->
  (- two61 <= offset < two61 - 255)%Z -> (0 <= consumed < two61)%Z ->
  (dbg = true -> (0 <= search_limit (swap_hunk h) target (option_map swap_hunk next) offset)%Z) ->
  exists x, will_apply_nearby dbg (text_of_hunk h) target consumed (option_map text_of_hunk next) offset true = Ok x /\
    nearest (swap_hunk h) target (Z.of_nat (h_a h) + offset) consumed (search_limit (swap_hunk h) target (option_map swap_hunk next) offset) x.
Proof.
  intros dbg h next target n o Hok Hnx Ft Ho Hn Hd.
  destruct (nearby_cases_rev dbg target Ft h n next o Hok Hnx Ho Hn) as [H|(-> & Hl & _)]; [exact H|].
  exfalso. apply Hl. right. now apply Hd.
Qed.
Lemma p_C25_nearest_unique : forall h target expected lowest limit x y,
  nearest h target expected lowest limit x -> nearest h target expected lowest limit y -> x = y.
Proof. exact nearest_unique. Qed.
(* the nearest is taken; of two equally near candidates the backward one, if not consumed *)
Lemma e_C25_example :
  let h := Hunk 0 0 3 (L "X ") 3 (L "Y ") in
  hunk_ok h /\ will_apply_nearby true (text_of_hunk h) (L "X X A B X P ") 0 None 0 false = Ok (Some (1%Z, Cleanly)) /\
  will_apply_nearby true (text_of_hunk h) (L "A X A B C X P Q ") 0 None 0 false = Ok (Some ((-2)%Z, Cleanly)) /\
  will_apply_nearby true (text_of_hunk h) (L "A X A B C X P Q ") 2 None 0 false = Ok (Some (2%Z, Cleanly)).
Proof. split; [unfold hunk_ok; vm_compute; repeat split; repeat constructor; discriminate|]. vm_compute. repeat split. Qed.

(* ------------------------------------------------------------------ C26 *)
(* C26, full statement: applying with reductions (r,s) writes the after-lines of the clump
   without the first r and last s lines (sub (h_new h) r (length - s)).
   It is false: the positions of the after file are used to index the clump's own lines
   (apply_text.rs:73-90 with changes.rs:30-39), so the wrong lines are written ... *)
Lemma p_C26_reduced_lines_refuted : exists before after context h target r s out,
  text_diff_clumps before after context = Ok [text_of_hunk h] /\
  forall dbg, will_apply dbg (text_of_hunk h) target 0 false = Ok (Some (WithReductions (Z.of_nat r, Z.of_nat s))) /\
    after_write_into dbg (text_of_hunk h) (Some (Z.of_nat r, Z.of_nat s)) false (Writer [] None) = (Done tt, Writer out None) /\
    out <> concat (sub (h_new h) r (length (h_new h) - s)).
Proof.
  exists (L "P Q R X S T "), (L "P Q R Y Z S T "), 2, (Hunk 2 2 1 (L "Q R X S T ") 1 (L "Q R Y Z S T ")), (L "P q R X S T "), 1, 1.
  eexists. split; [vm_compute; reflexivity|]. intros []; (split; [vm_compute; reflexivity|]; split; [vm_compute; reflexivity|]); vm_compute; discriminate.
Qed.
(* ... or the slice is out of bounds and the program panics *)
Lemma p_C26_reduced_lines_panic_refuted : exists before after context h target r s,
  text_diff_clumps before after context = Ok [text_of_hunk h] /\
  forall dbg, will_apply dbg (text_of_hunk h) target 0 false = Ok (Some (WithReductions (Z.of_nat r, Z.of_nat s))) /\
    fst (after_write_into dbg (text_of_hunk h) (Some (Z.of_nat r, Z.of_nat s)) false (Writer [] None)) = Panicked.
Proof.
  exists (L "O P Q R X S T "), (L "O P Q R Y Z S T "), 2, (Hunk 2 2 2 (L "Q R X S T ") 2 (L "Q R Y Z S T ")), (L "O P q R X S T "), 1, 1.
  split; [vm_compute; reflexivity|]. intros []; (split; vm_compute; reflexivity).
Qed.
(* What does hold, for every clump and every reduction k >= 1: exactly [shown_window h k] is
   written if the after position of the clump does not exceed the trailing reduction, and
   otherwise it panics; the window is the right one for clumps at the start of the file.
   Missing: the right lines at any other position. *)
Lemma p_C26_reduced_lines_partial : forall dbg h k, hunk_ok h -> 1 <= k ->
  let r := Nat.min k (h_lead h) in let s := Nat.min k (h_trail h) in
  after_write_into dbg (text_of_hunk h) (Some (Z.of_nat r, Z.of_nat s)) false (Writer [] None) =
    (if h_a h <=? s then (Done tt, Writer (concat (shown_window h k)) None) else (Panicked, Writer [] None)) /\
  (h_a h = 0 -> shown_window h k = sub (h_new h) r (length (h_new h) - s)).
Proof.
  intros dbg h k Hok Hk r s. split.
  - subst r s. rewrite (emits_run _ _ _ (emits_after_write_reduced dbg h Hok k Hk)). destruct (h_a h <=? Nat.min k (h_trail h)); reflexivity.
  - intros H. unfold shown_window. destruct k as [|k]; [lia|]. rewrite H. reflexivity.
Qed.
(* without reductions the after-lines are written as they are *)
Lemma p_C26_no_reduction : forall dbg h,
  after_write_into dbg (text_of_hunk h) None false (Writer [] None) = (Done tt, Writer (concat (h_new h)) None).
Proof. intros dbg h. exact (emits_run _ _ _ (emits_after_write dbg h)). Qed.
Lemma e_C26_example :
  let h := Hunk 2 2 0 (L "Q R X S T ") 0 (L "Q R Y Z S T ") in
  after_write_into true (text_of_hunk h) (Some (1, 1)%Z) false (Writer [] None) = (Done tt, Writer (bs "R Y Z S ") None).
Proof. vm_compute. reflexivity. Qed.

(* ------------------------------------------------------------------ C27 *)
(* C27, full statement: applying a text diff to any text never panics.  It is false, in both
   build modes ... *)
Lemma p_C27_no_panic_refuted : exists before after context clumps target,
  text_diff_clumps before after context = Ok clumps /\
  forall dbg, fst (text_apply_into dbg clumps target false (Writer [] None)) = Panicked.
Proof.
  exists (L "D B A "), (L "D C A A "), 2. eexists. exists (L "D C A "). split; [vm_compute; reflexivity|]. intros []; vm_compute; reflexivity.
Qed.
(* ... and, in debug builds, even when the target is empty *)
Lemma p_C27_no_panic_debug_refuted : exists before after context clumps,
  text_diff_clumps before after context = Ok clumps /\
  fst (text_apply_into true clumps [] true (Writer [] None)) = Panicked /\
  fst (text_apply_into false clumps [] true (Writer [] None)) = Done (Stats 0 0 1 0 0).
Proof. exists [], (L "B "), 1. eexists. split; [vm_compute; reflexivity|]. vm_compute. split; reflexivity. Qed.
(* What does hold: no panic for a diff whose clumps are [calm] on the target (see Spec.v; in a
   release build: no clump is seen as already applied, and context <= 1 suffices for the rest).
   Missing: reduced context at positions > trailing reduction, already-applied clumps, and
   debug underflow. *)
Lemma p_C27_no_panic_partial : forall dbg before after context hs target,
  context <= 255 -> fits_lines before -> fits_lines after -> fits_lines target ->
  text_diff_clumps before after context = Ok (map text_of_hunk hs) ->
  Forall (calm dbg target) hs ->
  exists out st, text_apply_into dbg (map text_of_hunk hs) target false (Writer [] None) = (Done st, Writer out None) /\
    st_already st = 0 /\ st_already_fuzzy st = 0.
Proof.
  intros dbg b a context hs target Hc Fb Fa Ft E Hq. destruct (diff_facts_hs b a context hs Hc Fb Fa E) as (cs & E3 & Hcov & Hok & Hord).
  now apply text_apply_quiet.
Qed.
Lemma e_C27_example :
  let b := L "A B C D E F G " in let a := L "A B X Y D E F Z " in let target := L "P Q A B C D E f G " in
  let hs := [Hunk 1 1 1 (L "B C D ") 1 (L "B X Y D "); Hunk 1 0 5 (L "F G ") 6 (L "F Z ")] in
  text_diff_clumps b a 1 = Ok (map text_of_hunk hs) /\ Forall (calm true target) hs /\
  exists out, text_apply_into true (map text_of_hunk hs) target false (Writer [] None) = (Done (Stats 0 1 0 0 1), Writer out None).
Proof.
  split; [vm_compute; reflexivity|]. split; [|eexists; vm_compute; reflexivity].
  repeat constructor; try (apply fits_check_false; vm_compute; reflexivity); try (vm_compute; discriminate); try (cbn; lia);
  try (cbn; intros pos k H1 [H2|H2] _; cbn in H2; lia).
Qed.

(* ------------------------------------------------------------------ C28 *)
(* C28, full statement: if no clump is counted as already applied, the output is the target
   with each placed clump's matched lines replaced by its trimmed new lines and conflict
   blocks inserted: rendered trimmed_new target 0 hs out.
   It is false (C26): a line of the target is lost and another doubled. *)
Lemma p_C28_nothing_lost_refuted : exists before after context hs target out,
  text_diff_clumps before after context = Ok (map text_of_hunk hs) /\
  (forall dbg, text_apply_into dbg (map text_of_hunk hs) target false (Writer [] None) = (Done (Stats 0 1 0 0 0), Writer out None)) /\
  In (bs "R ") target /\ ~ In (bs "R ") (split_lines out) /\ ~ rendered trimmed_new target 0 hs out.
Proof.
  exists (L "P Q R X S T "), (L "P Q R Y Z S T "), 2, [Hunk 2 2 1 (L "Q R X S T ") 1 (L "Q R Y Z S T ")], (L "P q R X S T "), (bs "P q Y Z S T T ").
  split; [vm_compute; reflexivity|]. split; [intros []; vm_compute; reflexivity|].
  split; [vm_compute; tauto|]. split.
  - intros H. vm_compute in H. repeat destruct H as [H|H]; try discriminate. exact H.
  - intros H.
    inversion H as [|? ? k p ? out' Hk Hle Hfit Hocc Hrest E1 E2 Eo|? ? ? out' Hrest E1 E2 Eo]; subst.
    + destruct Hk as [->|Hk]; [|cbn in Hk; assert (k = 0 \/ k = 1) as [->| ->] by lia].
      1,2: destruct p as [|[|[|p]]]; [..|cbn in Hfit; lia]; vm_compute in Hocc; discriminate Hocc.
      destruct p as [|[|[|[|p]]]]; [..|cbn in Hfit; lia]; vm_compute in Hocc; try discriminate Hocc.
      inversion Hrest; subst. vm_compute in Eo. discriminate Eo.
Qed.
(* What does hold for every diff: the output is the target with the matched lines replaced by
   what C26 says is written, and nothing else is lost or reordered; with context <= 1 or
   clumps at the start of the file those are the right lines.
   Missing: the right lines for reduced context elsewhere. *)
Lemma p_C28_nothing_lost_partial : forall dbg before after context hs target out st,
  context <= 255 -> fits_lines before -> fits_lines after -> fits_lines target ->
  text_diff_clumps before after context = Ok (map text_of_hunk hs) ->
  text_apply_into dbg (map text_of_hunk hs) target false (Writer [] None) = (Done st, Writer out None) ->
  st_already st = 0 -> st_already_fuzzy st = 0 ->
  rendered shown_window target 0 hs out /\
  (Forall (fun h => Nat.max (h_lead h) (h_trail h) <= 1 \/ h_a h = 0) hs -> rendered trimmed_new target 0 hs out) /\
  (st_fuzzy st = 0 -> st_failed st = 0 -> st_clean st = length hs).
Proof.
  intros dbg b a context hs target out st Hc Fb Fa Ft E Hr S1 S2. destruct (diff_facts_hs b a context hs Hc Fb Fa E) as (cs & E3 & Hcov & Hok & Hord).
  assert (HR : rendered shown_window target 0 hs out) by (eapply text_apply_rendered; eauto).
  split; [assumption|]. split; [intros HF; now apply rendered_right|].
  intros S3 S4. apply text_apply_total in Hr. unfold stats_total in Hr. rewrite map_length in Hr. lia.
Qed.
(* if no clump fits the target in either direction, all are counted as failed and the output
   is the conflict blocks followed by the whole target *)
Lemma p_C28_no_clump_fits_partial : forall dbg before after context hs target,
  context <= 255 -> fits_lines before -> fits_lines after -> fits_lines target ->
  text_diff_clumps before after context = Ok (map text_of_hunk hs) ->
  Forall (calm dbg target) hs -> Forall (fun h => ~ fits_somewhere h target) hs ->
  text_apply_into dbg (map text_of_hunk hs) target false (Writer [] None) =
    (Done (Stats 0 0 0 0 (length hs)), Writer (concat (map conflict_block hs) ++ concat target) None).
Proof.
  intros dbg b a context hs target Hc Fb Fa Ft E Hq Hnm. destruct (diff_facts_hs b a context hs Hc Fb Fa E) as (cs & E3 & Hcov & Hok & Hord).
  now apply text_apply_nomatch.
Qed.
Lemma e_C28_example :
  let b := L "A B C D E F G " in let a := L "A B X Y D E F Z " in let target := L "P Q A B C D E f G " in
  let hs := [Hunk 1 1 1 (L "B C D ") 1 (L "B X Y D "); Hunk 1 0 5 (L "F G ") 6 (L "F Z ")] in
  text_apply_into true (map text_of_hunk hs) target false (Writer [] None) =
    (Done (Stats 0 1 0 0 1), Writer (bs "P Q A B X Y D <<<<<<< F G ======= F Z >>>>>>> E f G ") None) /\
  Forall (fun h => Nat.max (h_lead h) (h_trail h) <= 1 \/ h_a h = 0) hs.
Proof. split; [vm_compute; reflexivity|]. repeat constructor. Qed.

(* ------------------------------------------------------------------ C29 *)
(* C29: for every list of clumps and every target there are fixed bytes [o] and a fixed
   outcome [r] such that a writer with enough room gets all of [o] and the outcome is [r],
   and a writer that fails earlier gets a prefix of [o] and the outcome is the I/O error. *)
Lemma emitting_statement {A} (m : io A) : emitting m -> exists o r, r <> IoErr /\
  (forall out, m (Writer out None) = (r, Writer (out ++ o) None)) /\
  (forall out n, m (Writer out (Some n)) =
     if length o <=? n then (r, Writer (out ++ o) (Some (n - length o))) else (IoErr, Writer (out ++ firstn n o) (Some 0))).
Proof.
  intros (o & r & Hr & H). exists o, r. split; [assumption|]. split.
  - intros out. rewrite H. reflexivity.
  - intros out n. rewrite H. reflexivity.
Qed.
Lemma p_C29_write_errors : forall dbg clumps target reverse, exists o r, r <> IoErr /\
  (forall out, text_apply_into dbg clumps target reverse (Writer out None) = (r, Writer (out ++ o) None)) /\
  (forall out n, text_apply_into dbg clumps target reverse (Writer out (Some n)) =
     if length o <=? n then (r, Writer (out ++ o) (Some (n - length o))) else (IoErr, Writer (out ++ firstn n o) (Some 0))).
Proof. intros dbg clumps target reverse. apply emitting_statement, emitting_text_apply. Qed.
Lemma e_C29_example :
  let clumps := map text_of_hunk [Hunk 0 0 1 (L "B ") 1 (L "XY ")] in
  text_apply_into true clumps (L "A B C ") false (Writer [] (Some 4)) = (IoErr, Writer (bs "A XY") (Some 0)) /\
  text_apply_into true clumps (L "A B C ") false (Writer [] (Some 7)) = (Done (Stats 1 0 0 0 0), Writer (bs "A XY C ") (Some 0)).
Proof. vm_compute. split; reflexivity. Qed.

(* ------------------------------------------------------------------ C30 *)
(* C30: applying in reverse is applying the swapped clumps forward, in every respect. *)
Lemma p_C30_reverse_is_swap : forall dbg clumps target,
  (forall w, text_apply_into dbg clumps target true w = text_apply_into dbg (map swap_clump clumps) target false w) /\
  text_is_already_applied dbg clumps target true = text_is_already_applied dbg (map swap_clump clumps) target false.
Proof.
  intros dbg clumps target. split.
  - intros w. now rewrite text_apply_into_swap.
  - unfold text_is_already_applied. now rewrite text_already_applied_swap.
Qed.
Lemma e_C30_example :
  let clumps := map text_of_hunk [Hunk 0 0 1 (L "B ") 1 (L "X Y ")] in
  text_apply_into true clumps (L "A X Y C ") true (Writer [] None) = (Done (Stats 1 0 0 0 0), Writer (bs "A B C ") None).
Proof. vm_compute. reflexivity. Qed.

(* ------------------------------------------------------------------ C50 *)
(* C50, full statement: if non-empty lines [prefix] are put in front of the text and the only
   clump's before-lines occur only at the displaced place, patching gives prefix ++ after and
   counts one fuzzy clump.  It is false: the forward search stops before the last position. *)
Lemma p_C50_displaced_refuted : exists before after context h prefix,
  text_diff_clumps before after context = Ok [text_of_hunk h] /\ prefix <> [] /\
  (forall pos k, admissible h k -> occurs_trimmed h (prefix ++ before) pos k -> pos = Z.of_nat (length prefix + h_b h)) /\
  (forall dbg, exists out, text_apply_into dbg [text_of_hunk h] (prefix ++ before) false (Writer [] None) = (Done (Stats 0 0 0 0 1), Writer out None)).
Proof.
  exists (L "A "), (L "B "), 0, (Hunk 0 0 0 (L "A ") 0 (L "B ")), (L "P "). split; [vm_compute; reflexivity|]. split; [discriminate|]. split.
  - intros pos k Hk (p & E & Hp & Ho). unfold admissible in Hk. cbn [h_lead h_trail] in *.
    assert (k = 0) as -> by (destruct Hk; [assumption|cbn in *; lia]). cbn in Hp, E. destruct p as [|[|p]]; [vm_compute in Ho; discriminate|cbn; lia|lia].
  - intros []; eexists; vm_compute; reflexivity.
Qed.
(* What does hold: displaced patching works whenever something of the original text follows
   the clump's changed lines (trailing context counts).  [patched before 0 [h]] is the new
   text under the conditions of C18.  Missing: a clump without trailing context at the end. *)
Lemma p_C50_displaced_partial : forall dbg before after context h prefix,
  context <= 255 -> fits_lines before -> fits_lines after -> fits_lines (prefix ++ before) ->
  text_diff_clumps before after context = Ok [text_of_hunk h] -> prefix <> [] ->
  (Z.of_nat (h_b h) + core_length h < zlen before)%Z ->
  (forall pos k, admissible h k -> occurs_trimmed h (prefix ++ before) pos k -> pos = Z.of_nat (length prefix + h_b h)) ->
  text_apply_into dbg [text_of_hunk h] (prefix ++ before) false (Writer [] None) =
    (Done (Stats 0 1 0 0 0), Writer (concat (prefix ++ patched before 0 [h])) None) /\
  (no_isolated_mismatch before after -> patched before 0 [h] = after).
Proof.
  intros dbg b a context h prefix Hc Fb Fa Ft E Hp Hlt Hu. change [text_of_hunk h] with (map text_of_hunk [h]) in E.
  destruct (diff_facts_hs b a context [h] Hc Fb Fa E) as (cs & E3 & Hcov & Hok & Hord). split.
  - apply emits_run. eapply text_apply_displaced; eauto. now inversion Hok.
  - intros Hno. eapply faithful_patched; [|exact Hcov]. exact (proj2 (proj1 p_C10_unchanged_is_unchanged_partial b a cs E3) Hno).
Qed.
Lemma e_C50_example :
  let b := L "A B C D " in let a := L "A X Y D " in let h := Hunk 1 1 0 (L "A B C D ") 0 (L "A X Y D ") in
  text_diff_clumps b a 1 = Ok [text_of_hunk h] /\ (Z.of_nat (h_b h) + core_length h < zlen b)%Z /\
  (forall pos k, admissible h k -> occurs_trimmed h (L "P Q " ++ b) pos k -> pos = Z.of_nat (length (L "P Q ") + h_b h)) /\
  text_apply_into true [text_of_hunk h] (L "P Q " ++ b) false (Writer [] None) = (Done (Stats 0 1 0 0 0), Writer (bs "P Q A X Y D ") None).
Proof.
  split; [vm_compute; reflexivity|]. split; [vm_compute; reflexivity|]. split; [|vm_compute; reflexivity].
  intros pos k Hk (p & E & Hp & Ho). unfold admissible in Hk. cbn [h_lead h_trail] in *.
  assert (k = 0) as -> by (destruct Hk; [assumption|cbn in *; lia]). cbn in Hp, E.
  destruct p as [|[|[|p]]]; [vm_compute in Ho; discriminate|vm_compute in Ho; discriminate|cbn; lia|lia].
Qed.

(* ------------------------------------------------------------------ C54 *)
(* C54: applying any text patch at all (not only one made by the generator) to any text comes
   to an end: the search never runs out of the rounds the model allows it, and allowing it
   more rounds changes nothing. *)
Lemma p_C54_terminates : forall dbg clumps target reverse, patch_fits clumps -> fits_lines target ->
  (forall w, fst (text_apply_into dbg clumps target reverse w) <> NoFuel) /\
  text_is_already_applied dbg clumps target reverse <> OutOfFuel.
Proof. intros. split; [intros w; now apply text_apply_term|apply text_already_term]. Qed.
Lemma p_C54_rounds_irrelevant : forall dbg c target consumed not_after offset reverse n, (0 <= consumed < two63)%Z ->
  nearby_fuel c consumed not_after offset reverse <= n ->
  nearby_loop dbg n c target consumed not_after offset reverse 1 false false =
  nearby_loop dbg (nearby_fuel c consumed not_after offset reverse) c target consumed not_after offset reverse 1 false false.
Proof.
  intros dbg c target consumed na offset reverse n Hc Hn. apply nearby_loop_more; [assumption|].
  assert (Hi : (- two63 < as_isize consumed)%Z) by (rewrite as_isize_id; consts; lia).
  apply nearby_loop_nofuel; auto; unfold nearby_fuel; lia.
Qed.
Lemma e_C54_example :
  let clumps := [TextClump (0, 0)%Z (Snippet 18446744073709551615%Z (L "A ")) (Snippet 7 (L "B "))] in
  patch_fits clumps /\ text_apply_into false clumps (L "A C D ") false sink = (Done (Stats 0 1 0 0 0), Writer (bs "B C D ") None) /\
  text_apply_into false clumps (L "C D E ") false sink = (Done (Stats 0 0 0 0 1), Writer (bs "<<<<<<< A ======= B >>>>>>> C D E ") None).
Proof. split; [split; [repeat apply Forall_cons; try apply Forall_nil; cbn; consts; lia|vm_compute; reflexivity]|vm_compute; split; reflexivity]. Qed.

(* ------------------------------------------------------------------ C55 *)
(* C55, full statement: the search for a displaced clump tries at most about as many positions
   as the text has lines.  It is false: a patch whose clump claims to be at line 2^62 keeps the
   search busy for 2^61 rounds on a one-line text. *)
Lemma p_C55_search_length_refuted : exists c target, patch_fits [c] /\ length target = 1 /\
  forall dbg n, (Z.of_nat n < two61)%Z -> nearby_not_after dbg c target None 0 false = Ok 0%Z /\
  ~ search_ends_within n dbg c target 0 0 0 false.
Proof.
  exists (TextClump (0, 0)%Z (Snippet (two61 + 1)%Z (L "A ")) (Snippet (two61 + 1)%Z [])), (L "B ").
  split; [split; [repeat apply Forall_cons; try apply Forall_nil; cbn; consts; lia|vm_compute; reflexivity]|]. split; [reflexivity|].
  intros dbg n Hn. split; [destruct dbg; vm_compute; reflexivity|]. intros H. apply H.
  apply (far_loop dbg (two61 + 1)%Z (bs "A ") (bs "B ")); try lia; consts; lia.
Qed.
(* What does hold: for a clump whose expected position lies within the text the search ends
   within length + 2 rounds. *)
Lemma p_C55_search_length_partial : forall dbg c target consumed not_after offset reverse, fits_lines target ->
  (0 <= consumed <= zlen target)%Z -> (0 <= not_after <= zlen target)%Z ->
  (0 <= as_isize (before_start c reverse) + offset <= zlen target)%Z ->
  search_ends_within (length target + 2) dbg c target consumed not_after offset reverse.
Proof.
  intros dbg c target n na o r Ft Hn Hna Hs. unfold search_ends_within. unfold fits_lines in Ft.
  assert (Hi : as_isize n = n) by (apply as_isize_id; consts; lia). assert (Hia : as_isize na = na) by (apply as_isize_id; consts; lia).
  apply nearby_loop_nofuel; auto; try lia.
  rewrite Hi, Hia. revert Hs. generalize (as_isize (before_start c r) + o)%Z. intros s Hs.
  change wrap_isize with as_isize. rewrite !as_isize_id by (consts; lia). unfold zlen in *. lia.
Qed.
Lemma e_C55_example :
  let c := TextClump (0, 0)%Z (Snippet 2 (L "A ")) (Snippet 2 (L "X ")) in
  search_ends_within 7 true c (L "A B C D E ") 0 4 0 false /\
  will_apply_nearby true c (L "A B C D E ") 0 None 0 false = Ok (Some (-2, Cleanly)%Z).
Proof. vm_compute. split; [discriminate|reflexivity]. Qed.

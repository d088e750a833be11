(* Proof_Props_Bytes.v - the property lemmas on applying byte patches. *)
From Coq Require Import String.
From Verif Require Import Base Model_Seq Model_Changes Model_IO Model_Text Model_Bytes Spec Spec_Nearly Cases Proof_Seq Proof_Changes Proof_Clumps Proof_IO Proof_Diff Proof_Arith Proof_Text Proof_Apply Proof_Bytes Proof_Nearly Proof_Props_Gen Proof_Props_Text.

(* ---------------- auxiliary ---------------- *)
Lemma byte_of_hunk_inj h h' : byte_of_hunk h = byte_of_hunk h' -> h = h'.
Proof.
  destruct h, h'. unfold byte_of_hunk. cbn. intros H. injection H. intros. f_equal; try assumption; now apply Nat2Z.inj.
Qed.
Lemma map_byte_of_hunk_inj hs hs' : map byte_of_hunk hs = map byte_of_hunk hs' -> hs = hs'.
Proof.
  revert hs'. induction hs as [|h hs IH]; intros [|h' hs'] H; try discriminate; [reflexivity|].
  cbn [map] in H. assert (E1 : byte_of_hunk h = byte_of_hunk h') by congruence.
  assert (E2 : map byte_of_hunk hs = map byte_of_hunk hs') by congruence.
  f_equal; [now apply byte_of_hunk_inj|now apply IH].
Qed.
Lemma bdiff_facts b a context clumps : context <= 255 -> byte_diff_clumps b a context = Ok clumps ->
  exists cs hs, clumps = map byte_of_hunk hs /\ byte_changes b a = Ok cs /\ cover context (unchanged cs) b a 0 0 hs /\ ordered hs.
Proof.
  intros Hc E. destruct (byte_diff_spec b a context Hc) as (cs & cl & hs & E1 & _ & _ & _ & E5 & E6).
  rewrite E in E5. injection E5 as ->. exists cs, hs. split; [reflexivity|]. split; [assumption|]. split; [assumption|].
  exact (cover_ordered _ _ _ _ _ _ _ E6).
Qed.
Lemma bdiff_facts_hs b a context hs : context <= 255 -> byte_diff_clumps b a context = Ok (map byte_of_hunk hs) ->
  exists cs, byte_changes b a = Ok cs /\ cover context (unchanged cs) b a 0 0 hs /\ ordered hs.
Proof.
  intros Hc E. destruct (bdiff_facts b a context _ Hc E) as (cs & hs' & Eh & E1 & E2 & E3).
  apply map_byte_of_hunk_inj in Eh as ->. eauto.
Qed.
Lemma bfaithful_patched context cs (b a : list byte) hs : faithful b a cs -> cover context (unchanged cs) b a 0 0 hs ->
  patched b 0 hs = a.
Proof.
  intros Hf Hc. change a with (skipn 0 a) at 1. eapply bpatched_cover. eapply cover_mono; [|exact Hc].
  intros x y d. now apply unchanged_equal.
Qed.
Lemma bfaithful_patched_rev context cs (b a : list byte) hs : faithful b a cs -> cover context (unchanged cs) b a 0 0 hs ->
  patched a 0 (map swap_hunk hs) = b.
Proof.
  intros Hf Hc. change b with (skipn 0 b) at 1. eapply bpatched_cover. apply cover_swap in Hc. eapply cover_mono; [|exact Hc].
  intros x y d Hu. apply equal_gap_sym. cbn in Hu. eapply unchanged_equal; eauto.
Qed.
Lemma breverse_apply dbg hs target w :
  byte_apply_into dbg (map byte_of_hunk hs) target true w = byte_apply_into dbg (map byte_of_hunk (map swap_hunk hs)) target false w.
Proof. rewrite <- map_swap_bhunk. symmetry. apply byte_apply_into_swap. Qed.

(* ------------------------------------------------------------------ C31 *)
(* C31, full statement: applying the byte diff of b and a to b writes exactly a.
   It is false: a changed byte can be missing from the diff (C10) ... *)
Lemma p_C31_patch_gives_new_bytes_refuted : exists before after context clumps,
  byte_diff_clumps before after context = Ok clumps /\
  forall dbg, exists out, byte_apply_into dbg clumps before false (Writer [] None) = (Done tt, Writer out None) /\ out <> after.
Proof.
  exists (bs "ABCXD"), (bs "ABCYDE"), 1. eexists. split; [vm_compute; reflexivity|].
  intros []; eexists; vm_compute; (split; [reflexivity|discriminate]).
Qed.
(* ... and a clump at the very end of the file (an empty file, or context 0) is never applied *)
Lemma p_C31_empty_file_refuted : exists after context clumps,
  byte_diff_clumps [] after context = Ok clumps /\ 1 <= context /\ after <> [] /\
  forall dbg, byte_apply_into dbg clumps [] false (Writer [] None) = (Done tt, Writer [] None).
Proof. exists (bs "AB"), 3. eexists. split; [vm_compute; reflexivity|]. split; [lia|]. split; [discriminate|]. intros []; vm_compute; reflexivity. Qed.
(* What does hold: with a non-empty file and at least one byte of context applying succeeds,
   and writes exactly [after] if every block reported unchanged is unchanged.
   Missing: overlooked changes, empty file, context 0. *)
Lemma p_C31_patch_gives_new_bytes_partial : forall dbg before after context clumps cs,
  1 <= context <= 255 -> before <> [] -> fits_bytes before ->
  byte_changes before after = Ok cs -> byte_diff_clumps before after context = Ok clumps ->
  faithful before after cs \/ no_isolated_mismatch before after ->
  byte_apply_into dbg clumps before false (Writer [] None) = (Done tt, Writer after None).
Proof.
  intros dbg b a context clumps cs Hc Hb Fb E1 E2 Hf.
  destruct (bdiff_facts b a context clumps (proj2 Hc) E2) as (cs' & hs & -> & E3 & Hcov & Hord). rewrite E1 in E3. injection E3 as <-.
  assert (Hf' : faithful b a cs) by (destruct Hf as [?|Hno]; [assumption|exact (proj2 (proj2 p_C10_unchanged_is_unchanged_partial b a cs E1) Hno)]).
  rewrite <- (bfaithful_patched context cs b a hs Hf' Hcov) at 1. apply emits_run.
  eapply byte_apply_own; eauto. eapply cover_starts_inside; [exact (proj1 Hc)|exact Hb|exact Hcov].
Qed.
(* for any context: exactly the clumps that start before the end of the file are applied *)
Lemma p_C31_any_context_partial : forall dbg before after context hs,
  context <= 255 -> fits_bytes before -> byte_diff_clumps before after context = Ok (map byte_of_hunk hs) ->
  Forall (fun h => h_b h < length before) hs ->
  byte_apply_into dbg (map byte_of_hunk hs) before false (Writer [] None) = (Done tt, Writer (patched before 0 hs) None).
Proof.
  intros dbg b a context hs Hc Fb E HF. destruct (bdiff_facts_hs b a context hs Hc E) as (cs & E3 & Hcov & Hord).
  apply emits_run. eapply byte_apply_own; eauto.
Qed.
(* whatever the generator overlooks: the result is [after], except for bytes that are still those
   of [before], each different from its counterpart and directly between two equal pairs *)
Lemma p_C31_patch_nearly_new_partial : forall dbg before after context clumps,
  1 <= context <= 255 -> before <> [] -> fits_bytes before -> byte_diff_clumps before after context = Ok clumps ->
  exists out, nearly before after out /\ byte_apply_into dbg clumps before false (Writer [] None) = (Done tt, Writer out None).
Proof.
  intros dbg b a context clumps Hc Hb Fb E. destruct (bdiff_facts b a context clumps (proj2 Hc) E) as (cs & hs & -> & E3 & Hcov & Hord).
  exists (patched b 0 hs). split; [eapply patched_is_nearly; [|exact Hcov]; exact (proj1 (proj2 p_C10_unchanged_is_unchanged_partial b a cs E3))|].
  apply emits_run. eapply byte_apply_own; eauto. eapply cover_starts_inside; [exact (proj1 Hc)|exact Hb|exact Hcov].
Qed.
Lemma e_C31_example :
  let b := bs "ABCDEFG" in let a := bs "XBCYZEFGH" in
  no_isolated_mismatch b a /\ exists clumps, byte_diff_clumps b a 1 = Ok clumps /\ length clumps = 3 /\
    byte_apply_into true clumps b false (Writer [] None) = (Done tt, Writer a None).
Proof.
  split; [apply (no_isolated_check Byte.eqb); [exact byte_eqb_lawful|vm_compute; reflexivity]|].
  eexists. split; [vm_compute; reflexivity|]. vm_compute. split; reflexivity.
Qed.

(* ------------------------------------------------------------------ C32 *)
(* C32, full statement: applying the byte diff of b and a in reverse to a writes exactly b.
   It is false for the same reasons. *)
Lemma p_C32_reverse_gives_old_bytes_refuted : exists before after context clumps,
  byte_diff_clumps before after context = Ok clumps /\
  forall dbg, exists out, byte_apply_into dbg clumps after true (Writer [] None) = (Done tt, Writer out None) /\ out <> before.
Proof.
  exists (bs "ABCXD"), (bs "ABCYDE"), 1. eexists. split; [vm_compute; reflexivity|].
  intros []; eexists; vm_compute; (split; [reflexivity|discriminate]).
Qed.
Lemma p_C32_empty_file_refuted : exists before context clumps,
  byte_diff_clumps before [] context = Ok clumps /\ 1 <= context /\ before <> [] /\
  forall dbg, byte_apply_into dbg clumps [] true (Writer [] None) = (Done tt, Writer [] None).
Proof. exists (bs "AB"), 3. eexists. split; [vm_compute; reflexivity|]. split; [lia|]. split; [discriminate|]. intros []; vm_compute; reflexivity. Qed.
(* What does hold, as for C31.  Missing: overlooked changes, empty file, context 0. *)
Lemma p_C32_reverse_gives_old_bytes_partial : forall dbg before after context clumps cs,
  1 <= context <= 255 -> after <> [] -> fits_bytes after ->
  byte_changes before after = Ok cs -> byte_diff_clumps before after context = Ok clumps ->
  faithful before after cs \/ no_isolated_mismatch before after ->
  byte_apply_into dbg clumps after true (Writer [] None) = (Done tt, Writer before None).
Proof.
  intros dbg b a context clumps cs Hc Ha Fa E1 E2 Hf.
  destruct (bdiff_facts b a context clumps (proj2 Hc) E2) as (cs' & hs & -> & E3 & Hcov & Hord). rewrite E1 in E3. injection E3 as <-.
  assert (Hf' : faithful b a cs) by (destruct Hf as [?|Hno]; [assumption|exact (proj2 (proj2 p_C10_unchanged_is_unchanged_partial b a cs E1) Hno)]).
  rewrite breverse_apply, <- (bfaithful_patched_rev context cs b a hs Hf' Hcov) at 1. apply cover_swap in Hcov. apply emits_run.
  eapply byte_apply_own; eauto. eapply cover_starts_inside; [exact (proj1 Hc)|exact Ha|exact Hcov].
Qed.
Lemma p_C32_reverse_nearly_old_partial : forall dbg before after context clumps,
  1 <= context <= 255 -> after <> [] -> fits_bytes after -> byte_diff_clumps before after context = Ok clumps ->
  exists out, nearly after before out /\ byte_apply_into dbg clumps after true (Writer [] None) = (Done tt, Writer out None).
Proof.
  intros dbg b a context clumps Hc Ha Fa E. destruct (bdiff_facts b a context clumps (proj2 Hc) E) as (cs & hs & -> & E3 & Hcov & Hord).
  exists (patched a 0 (map swap_hunk hs)). split; [eapply patched_is_nearly_rev; [|exact Hcov]; exact (proj1 (proj2 p_C10_unchanged_is_unchanged_partial b a cs E3))|].
  rewrite breverse_apply. apply cover_swap in Hcov. apply emits_run. eapply byte_apply_own; eauto.
  eapply cover_starts_inside; [exact (proj1 Hc)|exact Ha|exact Hcov].
Qed.
Lemma e_C32_example :
  let b := bs "ABCDEFG" in let a := bs "XBCYZEFGH" in
  exists clumps, byte_diff_clumps b a 1 = Ok clumps /\ byte_apply_into true clumps a true (Writer [] None) = (Done tt, Writer b None).
Proof. eexists. split; [vm_compute; reflexivity|]. vm_compute. reflexivity. Qed.

(* ------------------------------------------------------------------ C33 *)
(* C33, full statement: the byte diff of b and a is recognised as already applied to a.
   It is false if a is empty. *)
Lemma p_C33_already_applied_bytes_refuted : exists before after context clumps,
  byte_diff_clumps before after context = Ok clumps /\ byte_already_applied clumps after false = false.
Proof. exists (bs "AB"), [], 3. eexists. split; [vm_compute; reflexivity|]. vm_compute. reflexivity. Qed.
(* Missing: empty file, context 0. *)
Lemma p_C33_already_applied_bytes_partial : forall before after context clumps,
  1 <= context <= 255 -> byte_diff_clumps before after context = Ok clumps ->
  (after <> [] -> byte_already_applied clumps after false = true) /\
  (before <> [] -> byte_already_applied clumps before true = true).
Proof.
  intros b a context clumps Hc E.
  destruct (bdiff_facts b a context clumps (proj2 Hc) E) as (cs & hs & -> & E3 & Hcov & Hord). split; intros Hne.
  - change false with (negb true). rewrite <- byte_already_applied_swap, map_swap_bhunk. apply cover_swap in Hcov.
    eapply byte_already_own; [exact Hcov|]. eapply cover_starts_inside; [exact (proj1 Hc)|exact Hne|exact Hcov].
  - eapply byte_already_own; [exact Hcov|]. eapply cover_starts_inside; [exact (proj1 Hc)|exact Hne|exact Hcov].
Qed.
Lemma e_C33_example :
  let b := bs "ABCDEFG" in let a := bs "XBCYZEFGH" in
  exists clumps, byte_diff_clumps b a 1 = Ok clumps /\ byte_already_applied clumps a false = true /\ byte_already_applied clumps b false = false.
Proof. eexists. split; [vm_compute; reflexivity|]. vm_compute. split; reflexivity. Qed.

(* ------------------------------------------------------------------ C34 *)
(* C34, full statement: the test answers yes exactly when the items occur at the position.
   It is false: no items at the end position. *)
Lemma p_C34_subsequence_refuted : exists (s items : list byte) pos,
  occurs_at s items pos /\ has_subsequence_at_z Byte.eqb s items pos = false.
Proof. exists (bs "AB"), [], 2%Z. split; [|vm_compute; reflexivity]. exists 2. cbn. repeat split. lia. Qed.
(* Missing: empty item list at the end position, which is the only exception. *)
Lemma p_C34_subsequence_partial : forall (T : Type) (eqb : T -> T -> bool) (s items : list T) pos,
  (forall x y, eqb x y = true <-> x = y) -> (0 <= pos)%Z ->
  (has_subsequence_at_z eqb s items pos = true <-> occurs_at s items pos /\ ~ (items = [] /\ pos = zlen s)).
Proof.
  intros T eqb s items pos Heq Hp. rewrite (has_subsequence_spec eqb Heq s items pos Hp). split.
  - intros [H1 H2]. split; [assumption|]. intros [_ ->]. lia.
  - intros [H1 H2]. split; [|assumption]. destruct H1 as (p & -> & H3 & _). unfold zlen in *.
    destruct items as [|x items]; [|cbn in H3; lia]. destruct (Nat.eq_dec p (length s)) as [->|]; [exfalso; apply H2; auto|cbn in H3; lia].
Qed.
Lemma e_C34_example :
  has_subsequence_at_z Byte.eqb (bs "ABCAB") (bs "AB") 3 = true /\ has_subsequence_at_z Byte.eqb (bs "ABCAB") (bs "AB") 1 = false /\
  has_subsequence_at_z Byte.eqb (bs "ABCAB") (bs "ABC") 3 = false /\ has_subsequence_at_z Byte.eqb (bs "ABCAB") [] 4 = true.
Proof. vm_compute. repeat split. Qed.

(* ------------------------------------------------------------------ C35 *)
(* C35: for every byte patch and target: if neither side of any clump occurs at its place,
   the output is the target and no error is reported. *)
Lemma p_C35_no_match : forall dbg clumps target reverse,
  Forall (fun c => (0 <= sn_start (bc_before c))%Z /\ (0 <= sn_start (bc_after c))%Z /\
    ~ occurs_at target (sn_items (bc_before c)) (sn_start (bc_before c)) /\
    ~ occurs_at target (sn_items (bc_after c)) (sn_start (bc_after c))) clumps ->
  byte_apply_into dbg clumps target reverse (Writer [] None) = (Done tt, Writer target None).
Proof.
  intros dbg clumps target reverse HF. apply emits_run, byte_apply_no_match.
  eapply Forall_impl; [|exact HF]. intros c (P1 & P2 & N1 & N2).
  assert (HN : forall (sn : snippet byte), (0 <= sn_start sn)%Z -> ~ occurs_at target (sn_items sn) (sn_start sn) ->
    has_subsequence_at_z Byte.eqb target (sn_items sn) (sn_start sn) = false).
  { intros sn Hp Hn. apply not_true_is_false. intros H. apply has_subsequence_spec in H as [_ H]; [auto|apply byte_eqb_lawful|assumption]. }
  unfold byte_will_apply, byte_is_already_applied. destruct reverse; cbn [bc_side negb]; split; apply HN; assumption.
Qed.
Lemma e_C35_example :
  let clumps := map byte_of_hunk [Hunk 1 1 0 (bs "AXC") 0 (bs "AYYC"); Hunk 0 0 9 (bs "Q") 10 (bs "")] in
  byte_apply_into true clumps (bs "ABCD") false (Writer [] None) = (Done tt, Writer (bs "ABCD") None).
Proof. vm_compute. reflexivity. Qed.

(* ------------------------------------------------------------------ C36 *)
(* C36: as C29, for byte patches. *)
Lemma p_C36_write_errors_bytes : forall dbg clumps target reverse, exists o r, r <> IoErr /\
  (forall out, byte_apply_into dbg clumps target reverse (Writer out None) = (r, Writer (out ++ o) None)) /\
  (forall out n, byte_apply_into dbg clumps target reverse (Writer out (Some n)) =
     if length o <=? n then (r, Writer (out ++ o) (Some (n - length o))) else (IoErr, Writer (out ++ firstn n o) (Some 0))).
Proof. intros dbg clumps target reverse. apply emitting_statement, emitting_byte_apply. Qed.
Lemma e_C36_example :
  let clumps := map byte_of_hunk [Hunk 0 0 1 (bs "B") 1 (bs "XY")] in
  byte_apply_into true clumps (bs "ABC") false (Writer [] (Some 2)) = (IoErr, Writer (bs "AX") (Some 0)) /\
  byte_apply_into true clumps (bs "ABC") false (Writer [] (Some 4)) = (Done tt, Writer (bs "AXYC") (Some 0)).
Proof. vm_compute. split; reflexivity. Qed.

(* ------------------------------------------------------------------ C51 *)
(* C51, full statement: applying a byte diff to any data never panics.  It is false, in both
   build modes, even for the data the diff leads to. *)
Lemma p_C51_no_panic_bytes_refuted : exists before after context clumps,
  byte_diff_clumps before after context = Ok clumps /\
  forall dbg, fst (byte_apply_into dbg clumps after false (Writer [] None)) = Panicked.
Proof. exists (bs "AAA"), (bs "BAA"), 1. eexists. split; [vm_compute; reflexivity|]. intros []; vm_compute; reflexivity. Qed.
(* What does hold: if no clump is already applied (unless it applies), exactly the clumps
   whose old bytes are found at their place are replaced.
   Missing: clumps that apply and others that are already applied in the same data. *)
Lemma p_C51_no_panic_bytes_partial : forall dbg before after context hs target,
  context <= 255 -> fits_bytes target -> byte_diff_clumps before after context = Ok (map byte_of_hunk hs) ->
  Forall (fun h => matches_at target (h_old h) (h_b h) = true \/ matches_at target (h_new h) (h_a h) = false) hs ->
  byte_apply_into dbg (map byte_of_hunk hs) target false (Writer [] None) =
    (Done tt, Writer (patched target 0 (filter (fun h => matches_at target (h_old h) (h_b h)) hs)) None).
Proof.
  intros dbg b a context hs target Hc Ft E HF. destruct (bdiff_facts_hs b a context hs Hc E) as (cs & E3 & Hcov & Hord).
  apply emits_run. now apply byte_apply_matching.
Qed.
Lemma e_C51_example :
  let b := bs "ABCDEFG" in let a := bs "XBCYZEFGH" in let target := bs "ABCQEFG" in
  let hs := [Hunk 0 1 0 (bs "AB") 0 (bs "XB"); Hunk 1 1 2 (bs "CDE") 2 (bs "CYZE"); Hunk 1 0 6 (bs "G") 7 (bs "GH")] in
  byte_diff_clumps b a 1 = Ok (map byte_of_hunk hs) /\
  Forall (fun h => matches_at target (h_old h) (h_b h) = true \/ matches_at target (h_new h) (h_a h) = false) hs /\
  byte_apply_into true (map byte_of_hunk hs) target false (Writer [] None) = (Done tt, Writer (bs "XBCQEFGH") None).
Proof.
  split; [vm_compute; reflexivity|]. split; [|vm_compute; reflexivity]. repeat apply Forall_cons; try apply Forall_nil; vm_compute; auto.
Qed.

(* ------------------------------------------------------------------ C52 *)
(* C52, full statement: applying the byte diff of b and a to a writes a unchanged.
   It is false: C51 shows a panic; here the data are silently changed. *)
Lemma p_C52_reapply_bytes_refuted : exists before after context clumps,
  byte_diff_clumps before after context = Ok clumps /\ 1 <= context /\
  forall dbg, exists out, byte_apply_into dbg clumps after false (Writer [] None) = (Done tt, Writer out None) /\ out <> after.
Proof.
  exists (bs "A"), (bs "AA"), 1. eexists. split; [vm_compute; reflexivity|]. split; [lia|].
  intros []; eexists; vm_compute; (split; [reflexivity|discriminate]).
Qed.
(* What does hold: for any target in which no clump applies, the output is the target;
   so re-applying is harmless if no clump's old bytes are at their place in the new data.
   Missing: clumps that also apply to the new data. *)
Lemma p_C52_reapply_bytes_partial : forall dbg before after context hs target,
  context <= 255 -> fits_bytes target -> byte_diff_clumps before after context = Ok (map byte_of_hunk hs) ->
  Forall (fun h => matches_at target (h_old h) (h_b h) = false) hs ->
  byte_apply_into dbg (map byte_of_hunk hs) target false (Writer [] None) = (Done tt, Writer target None).
Proof.
  intros dbg b a context hs target Hc Ft E HF. destruct (bdiff_facts_hs b a context hs Hc E) as (cs & E3 & Hcov & Hord).
  apply emits_run. now apply byte_apply_none.
Qed.
Lemma e_C52_example :
  let b := bs "ABCDEFG" in let a := bs "XBCYZEFGH" in
  let hs := [Hunk 0 1 0 (bs "AB") 0 (bs "XB"); Hunk 1 1 2 (bs "CDE") 2 (bs "CYZE"); Hunk 1 0 6 (bs "G") 7 (bs "GH")] in
  Forall (fun h => matches_at a (h_old h) (h_b h) = false) hs /\
  byte_apply_into true (map byte_of_hunk hs) a false (Writer [] None) = (Done tt, Writer a None).
Proof. split; [repeat constructor|vm_compute; reflexivity]. Qed.

(* ------------------------------------------------------------------ C53 *)
(* C53: applying a byte patch in reverse is applying the swapped patch forward. *)
Lemma p_C53_reverse_is_swap_bytes : forall dbg clumps target,
  (forall w, byte_apply_into dbg clumps target true w = byte_apply_into dbg (map swap_bclump clumps) target false w) /\
  byte_already_applied clumps target true = byte_already_applied (map swap_bclump clumps) target false.
Proof.
  intros dbg clumps target. split.
  - intros w. now rewrite byte_apply_into_swap.
  - now rewrite byte_already_applied_swap.
Qed.
Lemma e_C53_example :
  let clumps := map byte_of_hunk [Hunk 0 0 1 (bs "B") 1 (bs "XY")] in
  byte_apply_into true clumps (bs "AXYC") true (Writer [] None) = (Done tt, Writer (bs "ABC") None).
Proof. vm_compute. reflexivity. Qed.

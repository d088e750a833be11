(* Proof_Props_Seen.v - patches of which every clump is reported as already applied. *)
From Coq Require Import String.
From Verif Require Import Base Model_Seq Model_Changes Model_IO Model_Text Model_Bytes Model_Json Spec Spec_Outcome Cases Proof_Seq Proof_IO Proof_Arith Proof_Text Proof_Apply Proof_Bytes Proof_Outcome Proof_Seen Proof_Props_Outcome.

(* ------------------------------------------------------------------ C116 *)
(* C116, full statement: a patch that is reported as already applied, by the statistics or by the
   query, leaves the text as it is.  For the query it is false, also for the diff of two texts and the new one of them: old lines that
   fit are looked for first. *)
Lemma p_C116_query_refuted : forall dbg, exists b a clumps out,
  text_diff_clumps b a 1 = Ok clumps /\ text_is_already_applied dbg clumps a false = Ok true /\
  text_apply_into dbg clumps a false (Writer [] None) = (Done (Stats 1 0 0 0 0), Writer out None) /\ out <> concat a.
Proof. intros dbg. exists (L "x "), (L "x x "). eexists _, _. destruct dbg; (split; [vm_compute; reflexivity|]; split; [vm_compute; reflexivity|]; split; [vm_compute; reflexivity|]; discriminate). Qed.

(* If applying a patch reports every clump as already applied, exactly the text is written.
   Missing: the same if only the query says so, which is false. *)
Lemma p_C116_text_partial : forall dbg hs target reverse st out, Forall hunk_ok hs -> lines_fit hs -> fits_lines target ->
  text_apply_into dbg (map text_of_hunk hs) target reverse (Writer [] None) = (Done st, Writer out None) ->
  st_clean st = 0 -> st_fuzzy st = 0 -> st_failed st = 0 -> out = concat target.
Proof.
  intros dbg hs target reverse st out H1 H2 H3 E C1 C2 C3.
  assert (X : exists gs r o, outcome dbg target 0 0 gs r o /\ forall w, text_apply_into dbg (map text_of_hunk hs) target reverse w = delivered (match r with Some l => Done (tally l) | None => Panicked end) o w).
  { destruct reverse; [destruct (p_C73_outcome_reverse dbg hs target H1 H2 H3) as (r & o & A & _ & B)|destruct (p_C73_outcome dbg hs target H1 H2 H3) as (r & o & A & _ & B)]; eauto. }
  destruct X as (gs & r & o & A & B). rewrite B in E. unfold delivered in E. cbn [w_room w_out app] in E. destruct r as [l|]; [|discriminate]. injection E as <- <-.
  apply (outcome_seen_all _ _ _ _ _ _ _ A l eq_refl). apply tally_seen; auto. exact (outcome_no_underflow _ _ _ _ _ _ _ A l eq_refl).
Qed.

(* Byte patches have no statistics; they leave the data as they are if the old bytes of no clump
   are at their place.  Missing: as above. *)
Lemma p_C116_bytes_partial : forall dbg hs target reverse, bytes_fit target hs ->
  Forall (fun h => byte_will_apply (byte_of_hunk h) target reverse = false) hs ->
  byte_apply_into dbg (map byte_of_hunk hs) target reverse (Writer [] None) = (Done tt, Writer target None).
Proof.
  assert (F : forall (target : list byte) gs n, n <= List.length target -> Forall (fun g => matches_at target (h_old g) (h_b g) = false) gs ->
    byte_outcome target n gs = (true, skipn n target)).
  { intros target gs n Hn H. revert n Hn. induction H as [|g gs Hg _ IH]; intros n Hn; cbn [byte_outcome].
    - now rewrite (proj2 (Nat.leb_le _ _) Hn).
    - rewrite Hg. destruct (matches_at target (h_new g) (h_a g)) eqn:E; [|now apply IH]. apply matches_at_true in E.
      destruct E as (_ & p & Ep & Hp & _). apply Nat2Z.inj in Ep as <-. rewrite IH by lia. now rewrite sub_then. }
  intros dbg hs target reverse Hf H. destruct (p_C75_byte_outcome dbg hs target Hf) as [A B].
  destruct reverse; [rewrite B|rewrite A]; rewrite F; try reflexivity; try lia.
  - apply Forall_map. eapply Forall_impl; [|exact H]. intros h Hh. rewrite <- will_apply_matches. exact Hh.
  - eapply Forall_impl; [|exact H]. intros h Hh. now rewrite <- will_apply_matches.
Qed.

(* one clump found in its place and one displaced, both already applied; and bytes *)
Lemma e_C116_example :
  let hs := [Hunk 1 1 0 (L "A B C ") 0 (L "A X C "); Hunk 1 1 4 (L "E F G ") 4 (L "E Y G ")] in
  let target := L "A X C D D E Y G H " in
  Forall hunk_ok hs /\ lines_fit hs /\ fits_lines target /\
  text_apply_into true (map text_of_hunk hs) target false (Writer [] None) = (Done (Stats 0 0 1 1 0), Writer (concat target) None) /\
  let bh := [Hunk 0 0 0 (str "ab") 0 (str "xy"); Hunk 0 0 4 (str "pq") 4 (str "rs")] in
  bytes_fit (str "xycdefg") bh /\ forallb (fun h => negb (byte_will_apply (byte_of_hunk h) (str "xycdefg") false)) bh = true /\
  byte_is_already_applied (byte_of_hunk (hd (Hunk 0 0 0 [] 0 []) bh)) (str "xycdefg") false = true.
Proof. intros hs target. split; [repeat constructor; vm_compute; lia|]. split; [vm_compute; reflexivity|]. split; [vm_compute; reflexivity|]. split; [vm_compute; reflexivity|]. vm_compute. repeat split. Qed.

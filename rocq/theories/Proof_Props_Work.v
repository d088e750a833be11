(* Proof_Props_Work.v - how long it takes to apply a text patch. *)
From Coq Require Import String.
From Verif Require Import Base Model_Seq Model_Changes Model_IO Model_Text Model_Cost Model_Work Spec Spec_Outcome Spec_Work Cases Proof_Seq Proof_IO Proof_Arith Proof_Text Proof_Apply Proof_Fuzzy Proof_Diff Proof_Merge Proof_Work Proof_Props_Text.
Local Open Scope Z_scope.

(* ------------------------------------------------------------------ C111 *)
(* The counting changes no result. *)
Lemma p_C111_same : forall dbg clumps target reverse w,
  snd (text_apply_into_c dbg clumps target reverse w) = text_apply_into dbg clumps target reverse w.
Proof. intros. apply apply_same. Qed.

(* C111, full statement: the number of comparisons and rounds made when a text patch is applied is
   at most proportional to the size of the patch and of the text.  It is false: one clump of one
   line, with a text of one line, makes it as large as the line number the clump states. *)
Lemma p_C111_work_refuted : forall dbg n w, Z.of_nat n < 2 ^ 60 ->
  exists c l, sn_items (tc_before c) = [bs "x "] /\ sn_items (tc_after c) = [bs "y "] /\ l = bs "z " /\ tc_context c = (0, 0) /\
    sn_start (tc_before c) = Z.of_nat n /\ sn_start (tc_after c) = Z.of_nat n /\
    (n <= fst (text_apply_into_c dbg [c] [l] false w))%nat.
Proof.
  intros dbg n w Hn. exists (text_of_hunk (Hunk 0 0 n [bs "x "] n [bs "y "])), (bs "z "). do 6 (split; [reflexivity|]).
  assert (Hok : hunk_ok (Hunk 0 0 n [bs "x "] n [bs "y "])).
  { unfold hunk_ok, two61. change (2 ^ 60) with 1152921504606846976 in Hn. cbn [h_lead h_trail h_b h_a h_old h_new List.length]. lia. }
  apply (far_work dbg _ Hok).
  - vm_compute. reflexivity.
  - intros o Ho. destruct (will_apply_spec dbg _ Hok [bs "z "] o) as (x & E & D); [consts; lia..|]. rewrite E. f_equal.
    inversion D as [(p & _ & H1 & H2)|k _ K1 K2| ]; [|cbn in K2; lia|reflexivity].
    cbn [h_old List.length] in *. assert (p = 0%nat) as -> by lia. discriminate H2.
  - vm_compute. discriminate.
Qed.

(* What does hold: a patch with hunks that lie within the first m lines, with at most k lines of
   context, takes at most 2 * ((k + 1) + (t + m + k + 3) * (2 k + 3)) for each hunk, where t is the
   number of lines of the text - forwards and backwards, whatever the text is.
   Missing: a bound that does not depend on the line numbers stated, which is false. *)
Lemma p_C111_work_partial : forall dbg hs target reverse w m k, Forall hunk_ok hs -> Forall (within m k) hs -> Z.of_nat m < 2 ^ 61 ->
  fits_lines target -> lines_fit hs ->
  (fst (text_apply_into_c dbg (map text_of_hunk hs) target reverse w) <=
     List.length hs * (2 * (k + 1 + (List.length target + m + k + 3) * (2 * k + 3))))%nat.
Proof.
  intros dbg hs target reverse w m k Hok Hw Hm Ft Hf.
  assert (E : (step_work target m k = 2 * (k + 1 + (List.length target + m + k + 3) * (2 * k + 3)))%nat) by (unfold step_work; replace (S (S k + S k)) with (2 * k + 3)%nat by lia; lia).
  rewrite <- E. change (2 ^ 61) with two61 in Hm. destruct reverse; [|apply apply_le; auto].
  change true with (negb false). rewrite <- apply_c_swap. rewrite map_map. rewrite (map_ext _ (fun h => text_of_hunk (swap_hunk h))) by apply swap_clump_hunk.
  rewrite <- map_map. rewrite <- (map_length swap_hunk hs). apply apply_le; auto.
  - apply Forall_map. eapply Forall_impl; [|exact Hok]. intros h. apply hunk_ok_swap.
  - apply Forall_map. eapply Forall_impl; [|exact Hw]. intros h. apply within_swap.
  - now apply lines_fit_swap.
Qed.

(* In particular a saved diff of two texts: the work is at most proportional to the number of
   clumps, to the number of lines of the three texts together, and to the context. *)
Lemma p_C111_diff_partial : forall dbg b a context clumps target reverse w, (context <= 255)%nat -> fits_lines (b ++ a) -> fits_lines target ->
  text_diff_clumps b a context = Ok clumps ->
  (fst (text_apply_into_c dbg clumps target reverse w) <=
     List.length clumps * (2 * (context + 1 + (List.length target + Nat.max (List.length b) (List.length a) + context + 3) * (2 * context + 3))))%nat.
Proof.
  intros dbg b a context clumps target reverse w Hc Fba Ft H.
  destruct (text_diff_spec b a context Hc) as (cs & cls & hs & _ & _ & _ & _ & E & Hcov). rewrite E in H. injection H as <-. rewrite map_length.
  assert (Fb : fits_lines b /\ fits_lines a). { revert Fba. unfold fits_lines, zlen. rewrite app_length. lia. } destruct Fb as [Fb Fa].
  apply p_C111_work_partial; auto.
  - exact (cover_ok _ _ _ _ _ _ _ Fb Fa Hc Hcov).
  - eapply cover_within; eauto.
  - revert Fb Fa. unfold fits_lines, zlen. change (2 ^ 61) with two61. clear. consts. lia.
  - eapply cover_lines_fit; eauto.
Qed.

(* The text a diff was made from takes one comparison for each clump, and so does the new text
   when the diff is applied in reverse. *)
Lemma p_C111_own_text : forall dbg b a context clumps, (context <= 255)%nat -> fits_lines b -> fits_lines a ->
  text_diff_clumps b a context = Ok clumps ->
  fst (text_apply_into_c dbg clumps b false (Writer [] None)) = List.length clumps /\
  fst (text_apply_into_c dbg clumps a true (Writer [] None)) = List.length clumps.
Proof.
  intros dbg b a context clumps Hc Fb Fa H. destruct (p_C20_own_text dbg b a context clumps Hc Fb Fa H) as (hs & _ & H1 & H2).
  split; eapply apply_clean; eauto.
Qed.

(* The search for another place: if there is none, every place from the one reached on up to the
   limit is tried with every possible context, one further round being needed to see the end. *)
Lemma p_C111_search : forall dbg h target next n o, hunk_ok h -> fits_lines target -> (forall x, next = Some x -> hunk_ok x) ->
  - 2 ^ 61 <= o < 2 ^ 61 - 255 -> 0 <= n < 2 ^ 61 ->
  will_apply_nearby dbg (text_of_hunk h) target n (option_map text_of_hunk next) o false = Ok None ->
  let expected := Z.of_nat (h_b h) + o in
  let before := Z.to_nat (expected - n) in
  let beyond := Z.to_nat (search_limit h target next o - 1 - expected) in
  let tries := Nat.max 1 (Nat.max (h_lead h) (h_trail h)) in
  fst (will_apply_nearby_c dbg (text_of_hunk h) target n (option_map text_of_hunk next) o false) =
    (Nat.max before beyond + 1 + (before + beyond) * tries)%nat.
Proof.
  intros dbg h target next n o Hok Ft Hx Ho Hn H. change (2 ^ 61) with two61 in *. apply nearby_exact; auto. destruct next; [now apply Hx|exact I].
Qed.

(* two clumps that fit nowhere in a text of four lines: 38 where at most 2 * (2 * (2 + 17 * 5)) are
   claimed; both fit at once in the text they were made from; and a clump that states line 100 *)
Lemma e_C111_example : exists clumps,
  text_diff_clumps (L "a b c d e f g ") (L "a B B c d e G G g ") 1 = Ok clumps /\ List.length clumps = 2%nat /\
  fst (text_apply_into_c false clumps (L "p q r s ") false (Writer [] None)) = 38%nat /\
  fst (text_apply_into_c false clumps (L "a b c d e f g ") false (Writer [] None)) = 2%nat /\
  fst (text_apply_into_c true [text_of_hunk (Hunk 0 0 100 [bs "x "] 100 [bs "y "])] (L "z ") false (Writer [] None)) = 404%nat.
Proof. eexists. split; [vm_compute; reflexivity|]. vm_compute. repeat split. Qed.

(* Proof_Props_Fewer.v - the property lemmas on diffs with fewer context lines. *)
From Coq Require Import String.
From Verif Require Import Base Model_Seq Model_Changes Model_IO Model_Text Model_Bytes Model_Json Model_Files Spec Spec_Shape Spec_Outcome Spec_Merge Spec_Files Cases Proof_Seq Proof_Changes Proof_Clumps Proof_IO Proof_Diff Proof_Arith Proof_Text Proof_Apply Proof_Bytes Proof_Shape Proof_Context Proof_Outcome Proof_Merge Proof_Fewer Proof_Files Proof_Props_Gen Proof_Props_Text Proof_Props_Bytes Proof_Props_Outcome Proof_Props_Files.

Local Ltac vr := vm_compute; reflexivity.

Lemma filter_length_le {A} (p : A -> bool) l : length (filter p l) <= length l.
Proof. induction l as [|x l IH]; [apply le_n|]. cbn. destruct (p x); cbn; lia. Qed.
(* all clumps are where they are expected if and only if the statistics say so *)
Lemma occurs_in_place {T} (t : list T) h : occurs_at t (h_old h) (Z.of_nat (h_b h) + 0) <-> in_place t h.
Proof.
  unfold in_place. split.
  - intros (p & E & H1 & H2). assert (p = h_b h) by lia. subst p. now split.
  - intros [H1 H2]. exists (h_b h). split; [lia|now split].
Qed.
Lemma in_place_outcome dbg t : forall hs from, Forall (in_place t) hs -> ordered hs -> (match hs with h :: _ => from <= h_b h | [] => from <= length t end) ->
  outcome dbg t from 0 hs (Some (map (fun _ => Placed false 0 Cleanly) hs)) (List.concat (patched t from hs)).
Proof.
  induction hs as [|h hs IH]; intros from HF Ho Hf; [now apply outcome_end|]. inversion HF as [|? ? H1 H2]; subst. destruct Ho as [O1 O2].
  cbn [map patched]. rewrite !concat_app. change (h_new h) with (written h Cleanly).
  assert (Ek : kept_from (h_b h) 0 Cleanly = h_b h) by (unfold kept_from; cbn [cut_lead]; lia). rewrite <- Ek at 1.
  change (Some (?x :: ?l)) with (option_map (cons x) (Some l)).
  eapply (outcome_placed _ _ _ _ _ _ false 0%Z Cleanly (Some _)); [apply (fate_here _ _ _ _ _ _ Cleanly); constructor; now apply occurs_in_place|now left|].
  rewrite Ek. unfold kept_count. cbn [cut_lead cut_trail]. rewrite !Nat.sub_0_r, Nat.max_r by assumption. apply IH; [assumption|assumption|]. destruct hs; [exact (proj1 H1)|apply O1].
Qed.
Lemma tally_all {A} (l : list A) : tally (map (fun _ => Placed false 0 Cleanly) l) = Stats (length l) 0 0 0 0.
Proof. unfold tally, how_many. induction l as [|x l IH]; [reflexivity|]. cbn [map filter length] in *. injection IH as E1 E2 E3 E4 E5. now rewrite E1, E2, E3, E4, E5. Qed.
Lemma outcome_in_place dbg t from hs r out : outcome dbg t from 0 hs r out -> forall l, r = Some l -> length l = length hs /\
  (length (filter (fun f => match f with Placed false _ _ => true | _ => false end) l) = length l -> Forall (in_place t) hs).
Proof.
  intros H. remember 0%Z as o eqn:Eo.
  assert (G : forall l, r = Some l -> length l = length hs /\ (o = 0%Z -> length (filter (fun f => match f with Placed false _ _ => true | _ => false end) l) = length l -> Forall (in_place t) hs)).
  { clear Eo. induction H as [| |from o h rest fuzzy shift w r out HF Hw H IH| |from o h rest fuzzy shift w r out HF H IH|from o h rest r out HF H IH|]; intros l E; try discriminate.
    - injection E as <-. split; [reflexivity|intros; constructor].
    - destruct r as [l'|]; [|discriminate]. injection E as <-. destruct (IH l' eq_refl) as [I1 I2]. split; [cbn; now rewrite I1|]. intros -> K. cbn [filter length] in K.
      assert (Hle : length (filter (fun f => match f with Placed false _ _ => true | _ => false end) l') <= length l') by apply filter_length_le.
      destruct fuzzy; [lia|]. inversion HF; subst. destruct w; [|discriminate]. match goal with Hd : decision _ _ _ _ |- _ => inversion Hd; subst end.
      constructor; [now apply occurs_in_place|]. apply I2; [reflexivity|cbn in K; lia].
    - destruct r as [l'|]; [|discriminate]. injection E as <-. destruct (IH l' eq_refl) as [I1 _]. split; [cbn; now rewrite I1|]. intros _ K. cbn [filter length] in K.
      assert (Hle : length (filter (fun f => match f with Placed false _ _ => true | _ => false end) l') <= length l') by apply filter_length_le. lia.
    - destruct r as [l'|]; [|discriminate]. injection E as <-. destruct (IH l' eq_refl) as [I1 _]. split; [cbn; now rewrite I1|]. intros _ K. cbn [filter length] in K.
      assert (Hle : length (filter (fun f => match f with Placed false _ _ => true | _ => false end) l') <= length l') by apply filter_length_le. lia. }
  intros l E. destruct (G l E) as [G1 G2]. split; [assumption|now apply G2].
Qed.
Lemma text_in_place dbg hs t : Forall hunk_ok hs -> ordered hs -> lines_fit hs -> fits_lines t -> 
  (Forall (in_place t) hs -> text_apply_into dbg (map text_of_hunk hs) t false (Writer [] None) = (Done (Stats (length hs) 0 0 0 0), Writer (List.concat (patched t 0 hs)) None)) /\
  (forall bytes, text_apply_into dbg (map text_of_hunk hs) t false (Writer [] None) = (Done (Stats (length hs) 0 0 0 0), Writer bytes None) -> Forall (in_place t) hs /\ bytes = List.concat (patched t 0 hs)).
Proof.
  intros Hok Ho Hf Ft. destruct (text_outcome dbg hs t Hok Hf Ft) as (r & out & HO & HE). apply emits_run in HE.
  assert (G : Forall (in_place t) hs -> text_apply_into dbg (map text_of_hunk hs) t false (Writer [] None) = (Done (Stats (length hs) 0 0 0 0), Writer (List.concat (patched t 0 hs)) None)).
  { intros HF. pose proof (in_place_outcome dbg t hs 0 HF Ho ltac:(destruct hs; lia)) as HO'. destruct (outcome_unique _ _ _ _ _ _ _ HO _ _ HO') as [-> ->]. now rewrite tally_all in HE. }
  split; [assumption|]. intros bytes E. assert (HF : Forall (in_place t) hs).
  { rewrite E in HE. destruct r as [l|]; [|discriminate]. unfold tally, how_many in HE. injection HE as E1 _ _ _ _ _. destruct (outcome_in_place _ _ _ _ _ _ HO l eq_refl) as [L K]. apply K. now rewrite L, <- E1. }
  split; [assumption|]. rewrite (G HF) in E. now injection E as <-.
Qed.

Lemma in_place_bytes t : forall hs from, Forall (in_place t) hs -> Forall (fun h => h_old h <> []) hs -> ordered hs -> (match hs with h :: _ => from <= h_b h | [] => from <= length t end) ->
  byte_outcome t from hs = (true, patched t from hs).
Proof.
  induction hs as [|h hs IH]; intros from HF Hn Ho Hf; cbn [byte_outcome patched]; [now rewrite (proj2 (Nat.leb_le _ _) Hf)|].
  inversion HF as [|? ? H1 H2]; subst. inversion Hn as [|? ? N1 N2]; subst. destruct Ho as [O1 O2].
  rewrite (proj2 (matches_at_true t (h_old h) (h_b h))).
  - rewrite Nat.max_r by assumption. rewrite IH; auto. destruct hs; [exact (proj1 H1)|apply O1].
  - split; [destruct H1 as [H1 _]; destruct (h_old h); [congruence|cbn in H1; lia]|]. apply occurs_in_place in H1. now rewrite Z.add_0_r in H1.
Qed.

Lemma ordered_swap_any {T} (hs : list (hunk T)) : ordered hs -> ordered (map swap_hunk hs).
Proof. induction hs as [|h [|n rest] IH]; cbn [map ordered]; auto. intros [[H1 H2] H3]. split; [split; assumption|]. now apply IH. Qed.
(* the hunks of the swapped diff *)
Lemma swap_hunks {T} (b a : list T) context cs clumps hs : proper (length b) (length a) cs -> change_clumps context cs = Ok clumps -> map_res (hunk_from b a) clumps = Ok hs ->
  proper (length a) (length b) (map swap_range_change cs) /\ change_clumps context (map swap_range_change cs) = Ok (map (map swap_range_change) clumps) /\
  map_res (hunk_from a b) (map (map swap_range_change) clumps) = Ok (map swap_hunk hs).
Proof.
  intros Hp E1 E2. split; [now apply swap_proper|]. split; [rewrite swap_change_clumps, E1; reflexivity|].
  rewrite map_res_map. eapply map_res_swap; [|exact E2]. intros c h H. unfold hunk_from in *. rewrite swap_ranges, swap_context.
  destruct (clump_ranges c) as [br ar]. cbn [fst snd]. destruct (clump_context_lengths c) as [c1 c2].
  destruct (extract_snippet b br) as [sb| |]; try discriminate. cbn [bind] in H. destruct (extract_snippet a ar) as [sa| |]; try discriminate. cbn [bind] in *. now injection H as <-.
Qed.
Lemma clumps_of_ok {T} (b a : list T) context cs clumps : proper (length b) (length a) cs -> change_clumps context cs = Ok clumps -> clumps_of context cs clumps.
Proof. intros Hp E. destruct (change_clumps_spec context cs (proj1 (proj2 Hp))) as (cl & C1 & C2). congruence. Qed.

(* ------------------------------------------------------------------ C118 *)
(* C118, full statement: where a diff applies cleanly, the diff of the same texts with fewer context
   lines applies cleanly and gives the same result.  It is false: what the generator overlooks is put
   right if it lies in the context. *)
Lemma p_C118_same_result_refuted : exists before after target hs hs' out out',
  text_diff_clumps before after 1 = Ok (map text_of_hunk hs) /\ text_diff_clumps before after 3 = Ok (map text_of_hunk hs') /\ target <> before /\
  forall dbg,
    text_apply_into dbg (map text_of_hunk hs') target false (Writer [] None) = (Done (Stats (length hs') 0 0 0 0), Writer out' None) /\
    text_apply_into dbg (map text_of_hunk hs) target false (Writer [] None) = (Done (Stats (length hs) 0 0 0 0), Writer out None) /\ out <> out'.
Proof.
  exists (L "A B C X D "), (L "A B C Y D E "), (L "Q B C X D "),
    [Hunk 1 0 4 (L "D ") 4 (L "D E ")], [Hunk 3 0 2 (L "C X D ") 2 (L "C Y D E ")], (bs "Q B C X D E "), (bs "Q B C Y D E ").
  split; [vr|]. split; [vr|]. split; [discriminate|]. intros dbg. split; [destruct dbg; vr|]. split; [destruct dbg; vr|]. discriminate.
Qed.
(* What does hold: where the diff with more context applies with every clump exactly where it is
   expected - to any text, not only the one it was made from - so does the one with less, and it
   replaces the old lines of its clumps by the new ones.  In reverse too.
   Missing: the result is the same. *)
Lemma p_C118_clean_partial : forall dbg before after context context' hs hs' target out',
  context <= context' <= 255 -> fits_lines (before ++ after) -> fits_lines target ->
  text_diff_clumps before after context = Ok (map text_of_hunk hs) -> text_diff_clumps before after context' = Ok (map text_of_hunk hs') ->
  (text_apply_into dbg (map text_of_hunk hs') target false (Writer [] None) = (Done (Stats (length hs') 0 0 0 0), Writer out' None) ->
   text_apply_into dbg (map text_of_hunk hs) target false (Writer [] None) = (Done (Stats (length hs) 0 0 0 0), Writer (List.concat (patched target 0 hs)) None)) /\
  (text_apply_into dbg (map text_of_hunk hs') target true (Writer [] None) = (Done (Stats (length hs') 0 0 0 0), Writer out' None) ->
   text_apply_into dbg (map text_of_hunk hs) target true (Writer [] None) = (Done (Stats (length hs) 0 0 0 0), Writer (List.concat (patched target 0 (map swap_hunk hs))) None)).
Proof.
  intros dbg b a c c' hs hs' t out' Hle Fb Ft E E'.
  assert (Fb' : fits_lines b /\ fits_lines a) by (unfold fits_lines, zlen in *; rewrite app_length in Fb; lia).
  destruct (diff_facts_hs b a c hs ltac:(lia) (proj1 Fb') (proj2 Fb') E) as (cs & E1 & Hcov & Hok & Hord).
  destruct (diff_facts_hs b a c' hs' ltac:(lia) (proj1 Fb') (proj2 Fb') E') as (cs' & E1' & Hcov' & Hok' & Hord'). rewrite E1 in E1'. injection E1' as <-.
  pose proof (cover_lines_fit _ _ _ _ _ Fb Hcov) as Hf. pose proof (cover_lines_fit _ _ _ _ _ Fb Hcov') as Hf'.
  destruct (text_diff_result b a c cs hs ltac:(lia) E1 E map_text_of_hunk_inj) as (cl & C1 & C2 & Hp).
  destruct (text_diff_result b a c' cs hs' ltac:(lia) E1 E' map_text_of_hunk_inj) as (cl' & C1' & C2' & _). split; intros H.
  - apply (text_in_place dbg hs' t Hok' Hord' Hf' Ft) in H as [HF _]. apply text_in_place; auto.
    apply (fewer_places b a t c c' Hle cs Hp cl hs cl' hs'); eauto using clumps_of_ok.
  - rewrite reverse_apply in H |- *. rewrite <- (map_length swap_hunk hs') in H. rewrite <- (map_length swap_hunk hs).
    apply (text_in_place dbg (map swap_hunk hs') t (hunks_ok_swap _ Hok') (ordered_swap _ Hord') (lines_fit_swap _ Hf') Ft) in H as [HF _].
    apply text_in_place; auto; [now apply hunks_ok_swap|now apply ordered_swap|now apply lines_fit_swap|].
    destruct (swap_hunks b a c cs cl hs Hp C1 C2) as (S1 & S2 & S3). destruct (swap_hunks b a c' cs cl' hs' Hp C1' C2') as (_ & S2' & S3').
    apply (fewer_places a b t c c' Hle _ S1 _ _ _ (map swap_hunk hs') (clumps_of_ok a b _ _ _ S1 S2) S3 (clumps_of_ok a b _ _ _ S1 S2') S3' HF).
Qed.
(* and the result is the same if nothing is overlooked between the two contexts: every line reported as
   unchanged and left out of the clumps with less context is the same in both texts, or left out of
   the ones with more context as well *)
Lemma p_C118_same_result_partial : forall dbg before after context context' hs hs' cs target out',
  context <= context' <= 255 -> fits_lines (before ++ after) -> fits_lines target -> text_changes before after = Ok cs ->
  text_diff_clumps before after context = Ok (map text_of_hunk hs) -> text_diff_clumps before after context' = Ok (map text_of_hunk hs') ->
  (forall i j, beyond_context context cs i j -> beyond_context context' cs i j \/ nth_error before i = nth_error after j) ->
  (text_apply_into dbg (map text_of_hunk hs') target false (Writer [] None) = (Done (Stats (length hs') 0 0 0 0), Writer out' None) ->
   text_apply_into dbg (map text_of_hunk hs) target false (Writer [] None) = (Done (Stats (length hs) 0 0 0 0), Writer out' None)) /\
  (text_apply_into dbg (map text_of_hunk hs') target true (Writer [] None) = (Done (Stats (length hs') 0 0 0 0), Writer out' None) ->
   text_apply_into dbg (map text_of_hunk hs) target true (Writer [] None) = (Done (Stats (length hs) 0 0 0 0), Writer out' None)).
Proof.
  intros dbg b a c c' hs hs' cs t out' Hle Fb Ft E1 E E' Hsame.
  destruct (p_C118_clean_partial dbg b a c c' hs hs' t out' Hle Fb Ft E E') as [P1 P2].
  assert (Fb' : fits_lines b /\ fits_lines a) by (unfold fits_lines, zlen in *; rewrite app_length in Fb; lia).
  destruct (diff_facts_hs b a c' hs' ltac:(lia) (proj1 Fb') (proj2 Fb') E') as (cs' & E1' & Hcov' & Hok' & Hord'). rewrite E1 in E1'. injection E1' as <-.
  pose proof (cover_lines_fit _ _ _ _ _ Fb Hcov') as Hf'.
  destruct (text_diff_result b a c cs hs ltac:(lia) E1 E map_text_of_hunk_inj) as (cl & C1 & C2 & Hp).
  destruct (text_diff_result b a c' cs hs' ltac:(lia) E1 E' map_text_of_hunk_inj) as (cl' & C1' & C2' & _). split; intros H.
  - rewrite (P1 H). apply (text_in_place dbg hs' t Hok' Hord' Hf' Ft) in H as [HF ->].
    now rewrite (fewer_result b a t c c' cs cl hs cl' hs' Hle Hp (clumps_of_ok b a _ _ _ Hp C1) C2 (clumps_of_ok b a _ _ _ Hp C1') C2' HF Hsame).
  - rewrite (P2 H). rewrite reverse_apply in H. rewrite <- (map_length swap_hunk hs') in H.
    apply (text_in_place dbg (map swap_hunk hs') t (hunks_ok_swap _ Hok') (ordered_swap _ Hord') (lines_fit_swap _ Hf') Ft) in H as [HF ->].
    destruct (swap_hunks b a c cs cl hs Hp C1 C2) as (S1 & S2 & S3). destruct (swap_hunks b a c' cs cl' hs' Hp C1' C2') as (_ & S2' & S3').
    rewrite (fewer_result a b t c c' _ _ (map swap_hunk hs) _ (map swap_hunk hs') Hle S1 (clumps_of_ok a b _ _ _ S1 S2) S3 (clumps_of_ok a b _ _ _ S1 S2') S3' HF); [reflexivity|].
    intros j i K. apply (proj1 (swap_beyond _ _ _ _)) in K. destruct (Hsame i j K) as [K2|K2]; [left; now apply swap_beyond|right; now symmetry].
Qed.
(* For byte patches, where nothing is said about the clumps in the end: if all old bytes of the clumps
   with more context are at their places, so are those with less, and the patch replaces them. *)
Lemma p_C118_bytes_partial : forall dbg before after context context' hs hs' cs target,
  context <= context' <= 255 -> bytes_fit target hs -> bytes_fit target hs' -> byte_changes before after = Ok cs ->
  byte_diff_clumps before after context = Ok (map byte_of_hunk hs) -> byte_diff_clumps before after context' = Ok (map byte_of_hunk hs') ->
  Forall (fun h => h_old h <> []) hs -> Forall (fun h => occurs_at target (h_old h) (Z.of_nat (h_b h))) hs' ->
  byte_apply_into dbg (map byte_of_hunk hs) target false (Writer [] None) = (Done tt, Writer (patched target 0 hs) None) /\
  ((forall i j, beyond_context context cs i j -> beyond_context context' cs i j \/ nth_error before i = nth_error after j) ->
   Forall (fun h => h_old h <> []) hs' ->
   byte_apply_into dbg (map byte_of_hunk hs') target false (Writer [] None) = (Done tt, Writer (patched target 0 hs) None)).
Proof.
  intros dbg b a c c' hs hs' cs t Hle Fb Fb' E1 E E' Hne HF.
  destruct (byte_diff_result b a c cs hs ltac:(lia) E1 E map_byte_of_hunk_inj) as (cl & C1 & C2 & Hp).
  destruct (byte_diff_result b a c' cs hs' ltac:(lia) E1 E' map_byte_of_hunk_inj) as (cl' & C1' & C2' & _).
  destruct (bdiff_facts_hs b a c hs ltac:(lia) E) as (_ & _ & _ & Hord). destruct (bdiff_facts_hs b a c' hs' ltac:(lia) E') as (_ & _ & _ & Hord').
  assert (HF' : Forall (in_place t) hs') by (eapply Forall_impl; [|exact HF]; intros h Hh; apply occurs_in_place; now rewrite Z.add_0_r).
  assert (HP : Forall (in_place t) hs) by (apply (fewer_places b a t c c' Hle cs Hp cl hs cl' hs'); eauto using clumps_of_ok). split.
  - rewrite (proj1 (p_C75_byte_outcome dbg hs t Fb)), (in_place_bytes t hs 0 HP Hne Hord) by (destruct hs; lia). reflexivity.
  - intros Hsame Hne'. rewrite (proj1 (p_C75_byte_outcome dbg hs' t Fb')), (in_place_bytes t hs' 0 HF' Hne' Hord') by (destruct hs'; lia).
    now rewrite (fewer_result b a t c c' cs cl hs cl' hs' Hle Hp (clumps_of_ok b a _ _ _ Hp C1) C2 (clumps_of_ok b a _ _ _ Hp C1') C2' HF' Hsame).
Qed.
(* In reverse, the new bytes of the clumps being at their places. *)
Lemma p_C118_bytes_reverse_partial : forall dbg before after context context' hs hs' cs target,
  context <= context' <= 255 -> bytes_fit target hs -> bytes_fit target hs' -> byte_changes before after = Ok cs ->
  byte_diff_clumps before after context = Ok (map byte_of_hunk hs) -> byte_diff_clumps before after context' = Ok (map byte_of_hunk hs') ->
  Forall (fun h => h_new h <> []) hs -> Forall (fun h => occurs_at target (h_new h) (Z.of_nat (h_a h))) hs' ->
  byte_apply_into dbg (map byte_of_hunk hs) target true (Writer [] None) = (Done tt, Writer (patched target 0 (map swap_hunk hs)) None) /\
  ((forall i j, beyond_context context cs i j -> beyond_context context' cs i j \/ nth_error before i = nth_error after j) ->
   Forall (fun h => h_new h <> []) hs' ->
   byte_apply_into dbg (map byte_of_hunk hs') target true (Writer [] None) = (Done tt, Writer (patched target 0 (map swap_hunk hs)) None)).
Proof.
  intros dbg b a c c' hs hs' cs t Hle Fb Fb' E1 E E' Hne HF.
  destruct (byte_diff_result b a c cs hs ltac:(lia) E1 E map_byte_of_hunk_inj) as (cl & C1 & C2 & Hp).
  destruct (byte_diff_result b a c' cs hs' ltac:(lia) E1 E' map_byte_of_hunk_inj) as (cl' & C1' & C2' & _).
  destruct (bdiff_facts_hs b a c hs ltac:(lia) E) as (_ & _ & _ & Hord). destruct (bdiff_facts_hs b a c' hs' ltac:(lia) E') as (_ & _ & _ & Hord').
  apply ordered_swap_any in Hord. apply ordered_swap_any in Hord'.
  destruct (swap_hunks b a c cs cl hs Hp C1 C2) as (S1 & S2 & S3). destruct (swap_hunks b a c' cs cl' hs' Hp C1' C2') as (_ & S2' & S3').
  assert (N : forall l : list (hunk byte), Forall (fun h => h_new h <> []) l -> Forall (fun h => h_old h <> []) (map swap_hunk l)) by (intros l Hl; apply Forall_map; exact Hl).
  assert (HF' : Forall (in_place t) (map swap_hunk hs')) by (apply Forall_map; eapply Forall_impl; [|exact HF]; intros h Hh; apply occurs_in_place; now rewrite Z.add_0_r).
  assert (HP : Forall (in_place t) (map swap_hunk hs))
    by exact (fewer_places a b t c c' Hle _ S1 _ _ _ (map swap_hunk hs') (clumps_of_ok a b _ _ _ S1 S2) S3 (clumps_of_ok a b _ _ _ S1 S2') S3' HF').
  split.
  - rewrite (proj2 (p_C75_byte_outcome dbg hs t Fb)), (in_place_bytes t _ 0 HP (N _ Hne) Hord) by (destruct (map swap_hunk hs); lia). reflexivity.
  - intros Hsame Hne'. rewrite (proj2 (p_C75_byte_outcome dbg hs' t Fb')), (in_place_bytes t _ 0 HF' (N _ Hne') Hord') by (destruct (map swap_hunk hs'); lia).
    rewrite (fewer_result a b t c c' _ _ (map swap_hunk hs) _ (map swap_hunk hs') Hle S1 (clumps_of_ok a b _ _ _ S1 S2) S3 (clumps_of_ok a b _ _ _ S1 S2') S3' HF'); [reflexivity|].
    intros j i K. apply (proj1 (swap_beyond _ _ _ _)) in K. destruct (Hsame i j K) as [K2|K2]; [left; now apply swap_beyond|right; now symmetry].
Qed.
(* The patch tool: of two saved diffs of the same texts, the one with less context does to a file what
   the one with more context does, if that applies cleanly. *)
Lemma p_C118_file_partial : forall E f P P' d d' reverse before after context context' cs target out',
  fault_free E -> N.testbit (e_mode E) 8 = true -> f (e_tmp E) = None ->
  holds_diff f P (TextChange d) -> holds_diff f P' (TextChange d') -> td_before d' = td_before d ->
  context <= context' <= 255 -> fits_lines (before ++ after) -> fits_lines target -> text_of f (td_before d) target -> text_changes before after = Ok cs ->
  text_diff_clumps before after context = Ok (td_clumps d) -> text_diff_clumps before after context' = Ok (td_clumps d') ->
  (forall i j, beyond_context context cs i j -> beyond_context context' cs i j \/ nth_error before i = nth_error after j) ->
  text_apply_into (e_dbg E) (td_clumps d') target reverse (Writer [] None) = (Done (Stats (length (td_clumps d')) 0 0 0 0), Writer out' None) ->
  exists w w', patch_main E P reverse (start f) = (Val tt, w) /\ patch_main E P' reverse (start f) = (Val tt, w') /\
    content (w_fs w) (td_before d) = Some out' /\ content (w_fs w') (td_before d) = Some out' /\
    forall p, p <> td_before d -> w_fs w p = f p /\ w_fs w' p = f p.
Proof.
  intros E f P P' d d' rv b a c c' cs t out' FF He Ht Hd Hd' Ep Hle Fb Ft (s & T1 & T2 & T3) E1 D D' Hsame H.
  destruct (proj1 p_C49_snippets b a c ltac:(lia)) as (cs1 & hs & _ & X & _). rewrite X in D. injection D as D.
  destruct (proj1 p_C49_snippets b a c' ltac:(lia)) as (cs2 & hs' & _ & X' & _). rewrite X' in D'. injection D' as D'.
  destruct (p_C118_same_result_partial (e_dbg E) b a c c' hs hs' cs t out' Hle Fb Ft E1 X X' Hsame) as [Q1 Q2].
  assert (H2 : text_apply_into (e_dbg E) (td_clumps d) t rv (Writer [] None) = (Done (Stats (length hs) 0 0 0 0), Writer out' None)).
  { rewrite <- D' in H. rewrite map_length in H. rewrite <- D. destruct rv; auto. }
  destruct (way_change E P rv (TextChange d) s out' f FF He Hd Ht T1) as (g & w & W1 & W2 & W3 & _ & W5); [eapply patches_text; eassumption|].
  destruct (way_change E P' rv (TextChange d') s out' f FF He Hd' Ht) as (g' & w' & W1' & W2' & W3' & _ & W5'); [cbn [Spec_Files.target]; now rewrite Ep|eapply patches_text; eassumption|].
  cbn [Spec_Files.target] in *. rewrite Ep in *. subst g g'. exists w, w'. auto 8.
Qed.
(* Two changes far apart, in a text edited at its start, between them and at its end; the diffs with 1
   and with 2 context lines apply cleanly with the same result, while the one with 3 does not. *)
Lemma e_C118_example :
  let b := L "A B C D E F G H I J K L M N " in let a := L "A B C X Y F G H I J V W M N " in let target := L "Q B C D E F G R I J K L M N S " in
  exists hs1 hs2 hs3,
  text_diff_clumps b a 1 = Ok (map text_of_hunk hs1) /\ text_diff_clumps b a 2 = Ok (map text_of_hunk hs2) /\ text_diff_clumps b a 3 = Ok (map text_of_hunk hs3) /\
  fits_lines (b ++ a) /\ fits_lines target /\ length hs1 = 2 /\
  text_apply_into true (map text_of_hunk hs1) target false (Writer [] None) = (Done (Stats 2 0 0 0 0), Writer (bs "Q B C X Y F G R I J V W M N S ") None) /\
  text_apply_into true (map text_of_hunk hs2) target false (Writer [] None) = (Done (Stats 2 0 0 0 0), Writer (bs "Q B C X Y F G R I J V W M N S ") None) /\
  text_apply_into true (map text_of_hunk hs3) target false (Writer [] None) <> (Done (Stats (length hs3) 0 0 0 0), Writer (bs "Q B C X Y F G R I J V W M N S ") None).
Proof.
  intros b a target.
  exists [Hunk 1 1 2 (L "C D E F ") 2 (L "C X Y F "); Hunk 1 1 9 (L "J K L M ") 9 (L "J V W M ")],
    [Hunk 2 2 1 (L "B C D E F G ") 1 (L "B C X Y F G "); Hunk 2 2 8 (L "I J K L M N ") 8 (L "I J V W M N ")],
    [Hunk 3 2 0 (L "A B C D E F G H I J K L M N ") 0 (L "A B C X Y F G H I J V W M N ")].
  split; [vr|]. split; [vr|]. split; [vr|]. split; [vm_compute; reflexivity|]. split; [vm_compute; reflexivity|]. split; [reflexivity|].
  split; [vr|]. split; [vr|]. vm_compute. discriminate.
Qed.
Lemma e_C118_bytes_example :
  let b := bs "abcdefghij" in let a := bs "abcXYfghij" in let target := bs "QRcdefghZZZ" in
  byte_changes b a = Ok [NoChange (CS 0 0 3); Replace (Range 3 5) (Range 3 5); NoChange (CS 5 5 5)] /\
  exists hs hs', byte_diff_clumps b a 0 = Ok (map byte_of_hunk hs) /\ byte_diff_clumps b a 1 = Ok (map byte_of_hunk hs') /\
  Forall (fun h => h_old h <> []) hs /\ Forall (fun h => occurs_at target (h_old h) (Z.of_nat (h_b h))) hs' /\
  byte_apply_into false (map byte_of_hunk hs) target false (Writer [] None) = (Done tt, Writer (bs "QRcXYfghZZZ") None).
Proof.
  intros b a target. split; [vr|]. exists [Hunk 0 0 3 (bs "de") 3 (bs "XY")], [Hunk 1 1 2 (bs "cdef") 2 (bs "cXYf")].
  split; [vr|]. split; [vr|]. split; [repeat constructor; discriminate|]. split; [|vr].
  constructor; [|constructor]. exists 2. split; [reflexivity|]. split; [vm_compute; repeat constructor|vr].
Qed.
Lemma nothing_overlooked : exists cs, text_changes (L "A B C D E F G H ") (L "A B C X Y F G H ") = Ok cs /\
  forall i j, beyond_context 1 cs i j -> beyond_context 2 cs i j \/ nth_error (L "A B C D E F G H ") i = nth_error (L "A B C X Y F G H ") j.
Proof.
  eexists. split; [vr|]. intros i j (pre & m & post & p & E & H1 & H2 & H3 & _). right.
  destruct pre as [|x1 [|x2 [|x3 [|x4 pre]]]]; cbn [app] in E; try discriminate; injection E as E; subst; cbn [cs_b cs_a cs_n Nat.add] in *; try discriminate.
  - do 3 (destruct p as [|p]; [vr|]). lia.
  - subst. cbn in *. do 3 (destruct p as [|p]; [vr|]). lia.
Qed.
Lemma e_C118_file_example :
  let clumps c := match text_diff_clumps (L "A B C D E F G H ") (L "A B C X Y F G H ") c with Ok l => l | _ => [] end in
  let d c := TextDiff (bs "A") (bs "B") (clumps c) in
  let f := files [(bs "A", bs "Q B C D E F G R "); (bs "P", saved (TextChange (d 1))); (bs "O", saved (TextChange (d 2)))] in
  List.length (clumps 1) = 1 /\ clumps 1 <> clumps 2 /\
  (exists cs, text_changes (L "A B C D E F G H ") (L "A B C X Y F G H ") = Ok cs /\
     forall i j, beyond_context 1 cs i j -> beyond_context 2 cs i j \/ nth_error (L "A B C D E F G H ") i = nth_error (L "A B C X Y F G H ") j) /\
  text_apply_into true (clumps 2) (L "Q B C D E F G R ") false (Writer [] None) = (Done (Stats 1 0 0 0 0), Writer (bs "Q B C X Y F G R ") None) /\
  let run patch := patch_main (calm_env true) patch false (start f) in
  fst (run (bs "P")) = Val tt /\ fst (run (bs "O")) = Val tt /\
  content (w_fs (snd (run (bs "P")))) (bs "A") = Some (bs "Q B C X Y F G R ") /\ content (w_fs (snd (run (bs "O")))) (bs "A") = Some (bs "Q B C X Y F G R ").
Proof.
  intros clumps d f. split; [vr|]. split; [vm_compute; discriminate|]. split.
  { exact nothing_overlooked. }
  split; [vr|].
  intros run. split; [vr|]. split; [vr|]. split; vr.
Qed.
Lemma e_C118_bytes_reverse_example :
  let b := bs "abcdefghij" in let a := bs "abcXYfghij" in let target := bs "QRcXYfghZZZ" in
  exists hs hs', byte_diff_clumps b a 0 = Ok (map byte_of_hunk hs) /\ byte_diff_clumps b a 1 = Ok (map byte_of_hunk hs') /\
  Forall (fun h => h_new h <> []) hs /\ Forall (fun h => occurs_at target (h_new h) (Z.of_nat (h_a h))) hs' /\
  byte_apply_into false (map byte_of_hunk hs) target true (Writer [] None) = (Done tt, Writer (bs "QRcdefghZZZ") None).
Proof.
  intros b a target. exists [Hunk 0 0 3 (bs "de") 3 (bs "XY")], [Hunk 1 1 2 (bs "cdef") 2 (bs "cXYf")].
  split; [vr|]. split; [vr|]. split; [repeat constructor; discriminate|]. split; [|vr].
  constructor; [|constructor]. exists 2. split; [reflexivity|]. split; [vm_compute; repeat constructor|vr].
Qed.

(* Proof_Props_Ends.v - the property lemmas on byte patches and the end of the data. *)
From Coq Require Import String.
From Verif Require Import Base Model_Seq Model_Changes Model_IO Model_Text Model_Bytes Spec Spec_Shape Spec_Outcome Cases Proof_Seq Proof_Changes Proof_Clumps Proof_IO Proof_Diff Proof_Arith Proof_Text Proof_Apply Proof_Bytes Proof_Shape Proof_Context Proof_Outcome Proof_Fewer Proof_Props_Text Proof_Props_Bytes Proof_Props_Outcome Proof_Props_Fewer.

Local Ltac vr := vm_compute; reflexivity.

Section Ends.
  Variable t : list byte.
  Local Notation inside := (fun h : hunk byte => h_b h <? length t).

  (* hunks at the end are passed over *)
  Lemma outside_skipped : forall hs from, from <= length t -> Forall (fun h : hunk byte => (h_b h <? length t) = false) hs -> byte_outcome t from hs = (true, skipn from t).
  Proof.
    induction hs as [|h hs IH]; intros from Hf HF; cbn [byte_outcome]; [now rewrite (proj2 (Nat.leb_le _ _) Hf)|].
    inversion HF as [|? ? H1 H2]; subst. replace (matches_at t (h_old h) (h_b h)) with false by (symmetry; unfold matches_at; cbv beta in H1; now rewrite H1).
    destruct (matches_at t (h_new h) (h_a h)) eqn:E; [|now apply IH].
    apply matches_at_true in E as (_ & q & Hq & E & _). apply Nat2Z.inj in Hq as <-. rewrite IH by (assumption || lia). f_equal.
    destruct (Nat.le_gt_cases from (h_a h + length (h_new h))) as [L|L].
    - rewrite Nat.max_r by assumption. now apply sub_rest.
    - rewrite Nat.max_l by lia. now rewrite sub_empty by lia.
  Qed.
  Lemma ends_outcome : forall hs from, Forall (in_place t) hs -> ordered hs -> (match hs with h :: _ => from <= h_b h | [] => True end) -> from <= length t ->
    byte_outcome t from hs = (true, patched t from (filter inside hs)) /\
    patched t from hs = patched t from (filter inside hs) ++ concat (map h_new (filter (fun h : hunk byte => negb (h_b h <? length t)) hs)).
  Proof.
    induction hs as [|h hs IH]; intros from HF Ho Hf Hl; [split; [now apply outside_skipped|cbn; now rewrite app_nil_r]|].
    inversion HF as [|? ? H1 H2]; subst. pose proof Ho as [O1 O2]. destruct (h_b h <? length t) eqn:Ei.
    - cbn [byte_outcome filter negb]. rewrite Ei. cbn [patched negb]. apply Nat.ltb_lt in Ei.
      destruct (IH (h_b h + length (h_old h)) H2 O2) as [I1 I2]; [destruct hs; [exact I|apply O1]|exact (proj1 H1)|].
      rewrite (proj2 (matches_at_true t (h_old h) (h_b h))) by (split; [assumption|]; rewrite <- (Z.add_0_r (Z.of_nat _)); now apply occurs_in_place).
      rewrite Nat.max_r, I1 by assumption. split; [reflexivity|]. rewrite I2, <- !app_assoc. reflexivity.
    - assert (HA : Forall (fun g : hunk byte => (h_b g <? length t) = false) (h :: hs)).
      { clear - HF Ho Ei. revert h HF Ho Ei. induction hs as [|g hs IH]; intros h HF Ho Ei; constructor; auto.
        inversion HF as [|? ? _ H2]; subst. destruct Ho as [[O1 _] O2]. apply IH; auto. apply Nat.ltb_ge in Ei. apply Nat.ltb_ge. lia. }
      assert (E1 : filter inside (h :: hs) = []) by (clear - HA; induction HA as [|x l K _ IH]; [reflexivity|cbn [filter]; now rewrite K]).
      assert (E2 : filter (fun g : hunk byte => negb (h_b g <? length t)) (h :: hs) = h :: hs) by (clear - HA; induction HA as [|x l K _ IH]; [reflexivity|cbn [filter]; rewrite K; cbn [negb]; now rewrite IH]).
      rewrite outside_skipped by assumption. rewrite E1, E2. split; [reflexivity|]. clear E1 E2 IH.
      assert (G : forall l from, Forall (in_place t) l -> Forall (fun g : hunk byte => (h_b g <? length t) = false) l -> from <= length t -> patched t from l = skipn from t ++ concat (map h_new l)).
      { induction l as [|x l IH]; intros fr K1 K2 K3; [cbn; now rewrite app_nil_r|]. inversion K1 as [|? ? K4 K5]; subst. inversion K2 as [|? ? K6 K7]; subst.
        destruct K4 as [K4 _]. apply Nat.ltb_ge in K6. cbn [patched map concat]. rewrite IH by (assumption || lia).
        replace (h_b x) with (length t) by lia. rewrite sub_all. do 2 f_equal. rewrite skipn_all2 by lia. reflexivity. }
      now apply G.
  Qed.
End Ends.

Lemma cover_total_any {T} context g (b a : list T) i j hs : cover context g b a i j hs ->
  fold_right (fun h n => length (h_old h) + length (h_new h) + n) 0 hs + i + j <= length b + length a.
Proof.
  induction 1 as [i j d Hg H1 H2|i j d i' j' l t rest Hg H1 H2 H3 H4 H5 H6 H7 H8 H9 H IH]; cbn [fold_right h_old h_new]; [lia|].
  rewrite !sub_length by assumption. lia.
Qed.
Lemma cover_in_place {T} context g (b a : list T) i j hs : cover context g b a i j hs -> Forall (in_place b) hs.
Proof.
  induction 1 as [i j d Hg H1 H2|i j d i' j' l t rest Hg H1 H2 H3 H4 H5 H6 H7 H8 H9 H IH]; constructor; [|assumption].
  unfold in_place. cbn [h_b h_old]. rewrite sub_length by assumption. replace (i + d + (i' - (i + d))) with i' by lia. split; [assumption|reflexivity].
Qed.

(* ------------------------------------------------------------------ C119 *)
(* C119, full statement: a byte patch puts in everything when applied to the data it was made from.
   It is false without context: what is put in at the end is lost, without a sign. *)
Lemma p_C119_end_refuted : exists before after clumps, before <> [] /\ byte_diff_clumps before after 0 = Ok clumps /\
  length clumps = 2 /\ forall dbg, exists out, byte_apply_into dbg clumps before false (Writer [] None) = (Done tt, Writer out None) /\ out <> after /\ out ++ bs "Z" = after.
Proof.
  exists (bs "abcdefg"), (bs "aXYdefgZ"). eexists. split; [discriminate|]. split; [vr|]. split; [reflexivity|]. intros dbg. exists (bs "aXYdefg"). split; [destruct dbg; vr|]. split; [discriminate|reflexivity].
Qed.
(* What does hold, for every context and all data, also empty: exactly the clumps that start before the
   end are applied, and with the new bytes of the others added at the end the result would be the one
   told by C103; and there is no other if there is context and the data are not empty.
   Missing: the clumps at the end. *)
Lemma p_C119_partial : forall dbg before after context hs cs,
  context <= 255 -> fits_bytes (before ++ after) -> byte_changes before after = Ok cs -> byte_diff_clumps before after context = Ok (map byte_of_hunk hs) ->
  (exists out, result_of context cs before after (out ++ List.concat (map h_new (filter (fun h => negb (h_b h <? length before)) hs))) /\
     byte_apply_into dbg (map byte_of_hunk hs) before false (Writer [] None) = (Done tt, Writer out None)) /\
  (exists out, result_of context (map swap_range_change cs) after before (out ++ List.concat (map h_old (filter (fun h => negb (h_a h <? length after)) hs))) /\
     byte_apply_into dbg (map byte_of_hunk hs) after true (Writer [] None) = (Done tt, Writer out None)) /\
  (1 <= context -> before <> [] -> filter (fun h => negb (h_b h <? length before)) hs = []) /\
  (1 <= context -> after <> [] -> filter (fun h => negb (h_a h <? length after)) hs = []).
Proof.
  assert (G : forall dbg b a context hs cs clumps gap, context <= 255 -> (2 * Z.of_nat (length b + length a) < two64)%Z -> proper (length b) (length a) cs -> change_clumps context cs = Ok clumps -> map_res (hunk_from b a) clumps = Ok hs ->
    cover context gap b a 0 0 hs -> ordered hs ->
    (exists out, result_of context cs b a (out ++ List.concat (map h_new (filter (fun h => negb (h_b h <? length b)) hs))) /\
       byte_apply_into dbg (map byte_of_hunk hs) b false (Writer [] None) = (Done tt, Writer out None)) /\
    (1 <= context -> b <> [] -> filter (fun h => negb (h_b h <? length b)) hs = [])).
  { intros dbg b a context hs cs clumps gap Hc Fb Hp C1 C2 Hcov Ho. split.
    - destruct (ends_outcome b hs 0 (cover_in_place _ _ _ _ _ _ _ Hcov) Ho) as [E1 E2]; [destruct hs; lia|lia|].
      exists (patched b 0 (filter (fun h => h_b h <? length b) hs)). split.
      + rewrite <- E2. destruct (hunks_result b a context cs clumps hs Hc Hp C1 C2) as [R _]. exact R.
      + assert (Fh : bytes_fit b hs) by (unfold bytes_fit; pose proof (cover_total_any _ _ _ _ _ _ _ Hcov); lia).
        rewrite (proj1 (p_C75_byte_outcome dbg hs b Fh)), E1. reflexivity.
    - intros H1 H2. pose proof (cover_starts_inside _ _ _ _ _ _ _ H1 H2 Hcov) as HF. clear - HF. induction HF as [|h l H _ IH]; [reflexivity|].
      cbn [filter]. now rewrite (proj2 (Nat.ltb_lt _ _) H). }
  intros dbg b a context hs cs Hc Fb E1 E2. destruct (bdiff_facts_hs b a context hs Hc E2) as (cs' & E3 & Hcov & Hord). rewrite E1 in E3. injection E3 as <-.
  destruct (byte_diff_result b a context cs hs Hc E1 E2 map_byte_of_hunk_inj) as (cl & C1 & C2 & Hp).
  assert (F : (2 * Z.of_nat (length b + length a) < two64)%Z) by (unfold fits_bytes, zlen in Fb; rewrite app_length in Fb; revert Fb; consts; lia).
  destruct (G dbg b a context hs cs cl _ Hc F Hp C1 C2 Hcov Hord) as [G1 G2].
  destruct (swap_hunks b a context cs cl hs Hp C1 C2) as (S1 & S2 & S3).
  apply cover_swap in Hcov. destruct (G dbg a b context (map swap_hunk hs) _ _ _ Hc ltac:(lia) S1 S2 S3 Hcov (cover_ordered _ _ _ _ _ _ _ Hcov)) as [(out & G3 & G4) G5].
  assert (K : forall n (l : list (hunk byte)), map h_new (filter (fun h => negb (h_b h <? n)) (map swap_hunk l)) = map h_old (filter (fun h => negb (h_a h <? n)) l) /\
    (filter (fun h => negb (h_b h <? n)) (map swap_hunk l) = [] -> filter (fun h => negb (h_a h <? n)) l = [])).
  { clear. intros n l. induction l as [|h l [I1 I2]]; [split; auto|]. cbn [map filter swap_hunk h_b]. destruct (negb (h_a h <? n)); cbn [map]; [split; [now rewrite I1|discriminate]|now split]. }
  split; [assumption|]. split; [|split; [assumption|]].
  - exists out. rewrite (proj1 (K _ _)) in G3. split; [assumption|]. now rewrite breverse_apply.
  - intros H1 H2. apply (proj2 (K _ _)). now apply G5.
Qed.
(* without context, two clumps, the second at the end; and the other way round *)
Lemma e_C119_example : let b := bs "abcdefg" in let a := bs "aXYdefgZ" in
  fits_bytes (b ++ a) /\ exists hs cs, byte_changes b a = Ok cs /\ byte_diff_clumps b a 0 = Ok (map byte_of_hunk hs) /\
  map h_new (filter (fun h => negb (h_b h <? length b)) hs) = [bs "Z"] /\ filter (fun h => negb (h_a h <? length a)) hs = [] /\
  byte_apply_into true (map byte_of_hunk hs) b false (Writer [] None) = (Done tt, Writer (bs "aXYdefg") None) /\
  byte_apply_into true (map byte_of_hunk hs) a true (Writer [] None) = (Done tt, Writer b None).
Proof.
  intros b a. split; [vr|]. exists [Hunk 0 0 1 (bs "bc") 1 (bs "XY"); Hunk 0 0 7 [] 7 (bs "Z")].
  eexists. split; [vr|]. split; [vr|]. split; [vr|]. split; [vr|]. split; vr.
Qed.

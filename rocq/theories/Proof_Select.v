(* Proof_Select.v - applying some of the clumps of a diff. *)
From Verif Require Import Base Model_Seq Model_Changes Model_IO Model_Text Model_Bytes Spec Spec_Shape Proof_Seq Proof_Changes Proof_Clumps Proof_IO Proof_Diff Proof_Arith Proof_Text Proof_Nearby Proof_Apply Proof_Bytes.

(* hunks in order from [i] on, each of them at its place in the target *)
Fixpoint placed {T} (target : list T) (i : nat) (hs : list (hunk T)) : Prop :=
  match hs with
  | [] => i <= length target
  | h :: rest => i <= h_b h /\ h_b h + length (h_old h) <= length target /\
      sub target (h_b h) (h_b h + length (h_old h)) = h_old h /\ placed target (h_b h + length (h_old h)) rest
  end.

Lemma placed_earlier {T} (target : list T) i i' hs : i' <= i -> placed target i hs -> placed target i' hs.
Proof. intros H. destruct hs as [|h hs]; cbn; [lia|]. intros (H1 & H2). split; [lia|assumption]. Qed.
Lemma placed_inside {T} (target : list T) hs : forall i, placed target i hs -> i <= length target.
Proof. induction hs as [|h hs IH]; intros i; cbn; [auto|]. intros (H1 & H2 & _). lia. Qed.
Lemma cover_placed {T} context g (b a : list T) i j hs : cover context g b a i j hs -> placed b i hs.
Proof.
  induction 1 as [i j d Hg H1 H2|i j d i' j' l t rest Hg H1 H2 H3 H4 H5 H6 H7 H8 H9 H IH]; cbn; [lia|].
  rewrite sub_length by lia. replace (i + d + (i' - (i + d))) with i' by lia. repeat split; auto; lia.
Qed.
Lemma placed_parts {T} (target : list T) hs c r : parts hs c r -> forall i, placed target i hs -> placed target i c /\ placed target i r.
Proof.
  induction 1 as [|h l c r H IH|h l c r H IH]; intros i; cbn [placed]; [auto|..]; intros (H1 & H2 & H3 & H4); destruct (IH _ H4) as [P1 P2].
  - split; [now repeat split|]. eapply placed_earlier; [|exact P2]. lia.
  - split; [|now repeat split]. eapply placed_earlier; [|exact P1]. lia.
Qed.
Lemma patched_from {T} (target : list T) i i' hs : i <= i' -> placed target i' hs -> patched target i hs = sub target i i' ++ patched target i' hs.
Proof.
  intros H. destruct hs as [|h hs]; cbn [placed patched].
  - intros L. rewrite <- !sub_all, sub_app by lia. reflexivity.
  - intros (H1 & _). rewrite (app_assoc (sub _ _ _) (sub _ _ _)), sub_app by lia. reflexivity.
Qed.

Lemma sub_mid {T} (p x y : list T) i k : length p = i -> length x = k - i -> sub (p ++ x ++ y) i k = x.
Proof.
  intros H1 H2. unfold sub. rewrite skipn_app, skipn_all2 by lia. replace (i - length p) with 0 by lia. cbn [skipn app].
  rewrite firstn_app, firstn_all2 by lia. replace (k - i - length x) with 0 by lia. cbn [firstn]. apply app_nil_r.
Qed.

Lemma steady_is_parts {T} (hs c r : list (hunk T)) : steady_parts hs c r -> parts hs c r.
Proof. induction 1 as [l| |]; [induction l|..]; now constructor. Qed.
(* the first list in place, then the second, is the whole *)
Lemma steady_twice {T} (b : list T) hs c r : steady_parts hs c r -> forall i P, length P = i -> placed b i hs ->
  placed (P ++ patched b i c) i r /\ patched (P ++ patched b i c) i r = patched b i hs.
Proof.
  induction 1 as [l|h l c r Hl H IH|h l c r H IH]; intros i P HP Hp.
  - split; [cbn; rewrite app_length; lia|]. cbn [patched]. now rewrite <- HP, skipn_app, skipn_all, Nat.sub_diag.
  - cbn [placed] in Hp. destruct Hp as (H1 & H2 & H3 & H4). set (k := h_b h + length (h_old h)) in *. cbn [patched]. fold k.
    destruct (IH k (P ++ sub b i (h_b h) ++ h_new h)) as [I1 I2]; [rewrite !app_length, sub_length by lia; lia|assumption|].
    rewrite <- !app_assoc in I1, I2. split; [eapply placed_earlier; [|exact I1]; lia|].
    assert (Es : sub (P ++ sub b i (h_b h) ++ h_new h ++ patched b k c) i k = sub b i (h_b h) ++ h_new h).
    { rewrite (app_assoc (sub b _ _)). apply sub_mid; [assumption|]. rewrite app_length, sub_length by lia. lia. }
    rewrite (patched_from _ i k) by (lia || assumption). rewrite I2, Es, <- app_assoc. reflexivity.
  - cbn [placed] in Hp. destruct Hp as (H1 & H2 & H3 & H4). set (k := h_b h + length (h_old h)) in *.
    assert (Hc : placed b k c) by exact (proj1 (placed_parts _ _ _ _ (steady_is_parts _ _ _ H) _ H4)).
    destruct (IH k (P ++ sub b i k)) as [I1 I2]; [rewrite app_length, sub_length by lia; lia|assumption|].
    assert (Ec : P ++ patched b i c = (P ++ sub b i k) ++ patched b k c) by (rewrite <- app_assoc; f_equal; apply patched_from; [lia|assumption]).
    rewrite Ec. cbn [placed patched]. fold k. rewrite I2.
    assert (Es : forall x y, i <= x -> x <= y -> y <= k -> sub ((P ++ sub b i k) ++ patched b k c) x y = sub b x y).
    { intros x y X1 X2 X3. apply nth_error_ext. intros t. rewrite !sub_nth. destruct (Nat.ltb_spec t (y - x)) as [L|L]; [|reflexivity].
      rewrite nth_error_app1 by (rewrite app_length, sub_length; lia). rewrite nth_error_app2 by lia. rewrite sub_nth, HP.
      rewrite (proj2 (Nat.ltb_lt _ _)) by lia. f_equal. lia. }
    rewrite !Es by lia. split; [|reflexivity]. repeat split; auto; [|unfold k in *; assumption..].
    rewrite !app_length, sub_length by lia. lia.
Qed.

(* ---------------- applying ---------------- *)
Local Open Scope Z_scope.
Section PlacedText.
  Variable dbg : bool.
  Variable b : list line.
  Hypothesis Fb : fits_lines b.

  Lemma apply_clumps_placed hs : Forall hunk_ok hs -> forall i st, placed b i hs ->
    exists out e st', emits (apply_clumps dbg b false (map text_of_hunk hs) (Z.of_nat i) 0 st) out (Done (Z.of_nat e, st')) /\
      (e <= length b)%nat /\ out ++ concat (skipn e b) = concat (patched b i hs) /\
      st' = Stats (st_clean st + length hs) (st_fuzzy st) (st_already st) (st_already_fuzzy st) (st_failed st).
  Proof.
    induction 1 as [|h hs O1 O2 IH]; intros i st Hp.
    - exists [], i, st. cbn [map apply_clumps patched]. split; [apply emits_ret|]. split; [exact Hp|]. split; [reflexivity|].
      simpl. rewrite Nat.add_0_r. destruct st; reflexivity.
    - cbn [placed] in Hp. destruct Hp as (P1 & P2 & P3 & P4).
      destruct (IH _ (add_clean st) P4) as (out & e & st' & E & He & Eo & Est).
      exists ((concat (sub b i (h_b h)) ++ concat (h_new h)) ++ out), e, st'. split; [|split; [assumption|split]].
      + cbn [map apply_clumps]. apply (emits_bind _ _ _ (Z.of_nat (h_b h + length (h_old h)), 0, add_clean st)); [|exact E]. unfold apply_step.
        eapply emits_lift_bind.
        * apply (clean_decision h b (h_b h)); auto; try (consts; lia).
        * cbv beta iota. rewrite <- (app_nil_r (_ ++ concat (h_new h))).
          eapply emits_bind; [apply (emits_apply_clean dbg h O1 b Fb i 0 (h_b h)); lia|].
          cbv beta iota. apply emits_ret.
      + cbn [patched]. rewrite !concat_app, <- Eo, <- !app_assoc. reflexivity.
      + subst st'. cbn [length st_clean st_fuzzy st_already st_already_fuzzy st_failed add_clean]. f_equal. lia.
  Qed.
  Lemma text_apply_placed hs : Forall hunk_ok hs -> placed b 0 hs ->
    emits (text_apply_into dbg (map text_of_hunk hs) b false) (concat (patched b 0 hs)) (Done (Stats (length hs) 0 0 0 0)).
  Proof.
    intros Hok H. destruct (apply_clumps_placed hs Hok 0%nat stats0 H) as (out & e & st' & E & He & Eo & Est).
    rewrite <- Eo. unfold text_apply_into. eapply emits_bind; [exact E|]. rewrite <- (app_nil_r (concat (skipn e b))).
    eapply emits_bind; [now apply (emits_write_remainder write_lines (@concat byte) emits_write_lines)|].
    subst st'. simpl. apply emits_ret.
  Qed.
End PlacedText.

Section PlacedBytes.
  Variable dbg : bool.
  Variable b : list byte.
  Hypothesis Fb : fits_bytes b.

  Lemma byte_clumps_placed hs : forall i, placed b i hs -> Forall (fun h => h_b h < length b)%nat hs ->
    exists out e, emits (byte_apply_clumps dbg b false (map byte_of_hunk hs) (Z.of_nat i)) out (Done (Z.of_nat e)) /\
      (e <= length b)%nat /\ out ++ skipn e b = patched b i hs.
  Proof.
    induction hs as [|h hs IH]; intros i Hp Hlt.
    - exists [], i. cbn [map byte_apply_clumps patched]. split; [apply emits_ret|]. split; [exact Hp|reflexivity].
    - cbn [placed] in Hp. destruct Hp as (P1 & P2 & P3 & P4). inversion Hlt as [|? ? L1 L2]; subst.
      destruct (IH _ P4 L2) as (out & e & E & He & Eo).
      assert (Hw : byte_will_apply (byte_of_hunk h) b false = true).
      { unfold byte_will_apply. cbn [bc_side byte_of_hunk bc_before sn_items sn_start]. unfold fits_bytes in Fb.
        apply has_subsequence_spec; [apply byte_eqb_lawful|lia|]. split; [unfold zlen; lia|]. exists (h_b h). repeat split; assumption. }
      exists ((sub b i (h_b h) ++ h_new h) ++ out), e. split; [|split; [assumption|]].
      + cbn [map byte_apply_clumps]. rewrite Hw.
        apply (emits_bind _ _ _ (Z.of_nat (h_b h + length (h_old h)))); [|exact E]. unfold byte_clump_apply_into.
        eapply emits_bind.
        * apply (emits_write_into_upto write_all id emits_write_bytes dbg b i (h_b h)); try reflexivity; lia.
        * rewrite <- (app_nil_r (h_new h)). eapply emits_bind; [apply emits_write_all|].
          unfold advance_consumed_by, fits_bytes, zlen in *. cbn [bc_side byte_of_hunk bc_before sn_items].
          rewrite uadd_ok by (consts; lia).
          replace (Z.of_nat (h_b h) + Z.of_nat (length (h_old h))) with (Z.of_nat (h_b h + length (h_old h))) by lia. apply (emits_lift (Ok _)).
      + cbn [patched]. rewrite <- Eo, <- !app_assoc. reflexivity.
  Qed.
  Lemma byte_apply_placed hs : placed b 0 hs -> Forall (fun h => h_b h < length b)%nat hs ->
    emits (byte_apply_into dbg (map byte_of_hunk hs) b false) (patched b 0 hs) (Done tt).
  Proof.
    intros H Hlt. destruct (byte_clumps_placed hs 0%nat H Hlt) as (out & e & E & He & Eo).
    rewrite <- Eo. unfold byte_apply_into. eapply emits_bind; [exact E|]. rewrite <- (app_nil_r (skipn e b)).
    eapply emits_bind; [|apply emits_ret]. now apply (emits_write_remainder write_all id emits_write_bytes).
  Qed.
End PlacedBytes.

(* Proof_Contained.v - equal inputs, one input inside the other (C11, C13). *)
From Verif Require Import Base Model_Seq Model_Changes Model_IO Model_Text Model_Bytes Spec
  Proof_Seq Proof_Lcs Proof_Changes Proof_Clumps Proof_Diff.


Lemma common_block_app {T} (pre s post : list T) : common_block s (pre ++ s ++ post) 0 (length pre) (length s).
Proof.
  intros t Ht. destruct (nth_error s t) as [v|] eqn:E; [|apply nth_error_None in E; lia].
  exists v. split; [assumption|]. rewrite nth_error_app2 by lia. rewrite nth_error_app1 by lia.
  now replace (length pre + t - length pre) with t by lia.
Qed.
Lemma common_block_app' {T} (pre s post : list T) : common_block (pre ++ s ++ post) s (length pre) 0 (length s).
Proof. intros t Ht. destruct (common_block_app pre s post t Ht) as (v & H1 & H2). exists v. auto. Qed.

Section Contained.
  Context {T : Type} (eqb : T -> T -> bool).
  Hypothesis Heqb : lawful eqb.
  Variable indices : list T -> T -> option (list nat).
  Hypothesis Hind : forall s x, index_spec s x (indices s x).
  Notation gen b a := (generate eqb (indices b) b a).

  Lemma generate_inside s after y0 : s <> [] -> common_block s after 0 y0 (length s) -> y0 + length s <= length after ->
    exists y, gen s after = Ok (after_extra (length s) y (length after)) /\ common_block s after 0 y (length s) /\
      y + length s <= length after /\
      (forall y', y' + length s <= length after -> common_block s after 0 y' (length s) -> y <= y').
  Proof.
    intros Hs Hc Hl. assert (0 < length s) by (destruct s; [contradiction|simpl; lia]).
    destruct (lcs_spec eqb Heqb (indices s) s after (Hind s) (range_from s 0) (range_from after 0)) as [[E Hno]|(x & y & n & ext & E & (F1 & F2 & F3) & Hext & _)].
    - unfold in_bounds. simpl. lia.
    - unfold in_bounds. simpl. lia.
    - exfalso. apply (Hno 0 y0); [unfold inside; simpl; lia..|]. specialize (Hc 0 ltac:(lia)). now rewrite !Nat.add_0_r in Hc.
    - destruct F2 as ((I1 & I2) & (I3 & I4) & Hb). simpl in I1, I2, I3, I4.
      destruct (F3 0 y0 (length s)) as [F4 _]; [repeat split; simpl; try lia; assumption|].
      assert (x = 0 /\ n = length s) as [-> ->] by lia.
      assert (ext = 0) as ->.
      { destruct Hext as [|(_ & (_ & J) & _)]; [assumption|]. simpl in J. lia. }
      rewrite Nat.add_0_r in E. exists y.
      split.
      + rewrite (generate_single _ _ _ _ _ _ _ E) by (simpl; lia). unfold after_extra, gap_change. rewrite Nat.add_0_l, !Nat.ltb_irrefl. reflexivity.
      + split; [assumption|]. split; [assumption|]. intros y' Hy' Hc'. destruct (F3 0 y' (length s)) as [_ F5]; [repeat split; simpl; try lia; assumption|].
        specialize (F5 eq_refl). lia.
  Qed.
  Lemma generate_around before s x0 : s <> [] -> common_block before s x0 0 (length s) -> x0 + length s <= length before ->
    exists x, gen before s = Ok (before_extra (length s) x (length before)) /\ common_block before s x 0 (length s) /\
      x + length s <= length before /\
      (forall x', x' + length s <= length before -> common_block before s x' 0 (length s) -> x <= x').
  Proof.
    intros Hs Hc Hl. assert (0 < length s) by (destruct s; [contradiction|simpl; lia]).
    destruct (lcs_spec eqb Heqb (indices before) before s (Hind before) (range_from before 0) (range_from s 0)) as [[E Hno]|(x & y & n & ext & E & (F1 & F2 & F3) & Hext & _)].
    - unfold in_bounds. simpl. lia.
    - unfold in_bounds. simpl. lia.
    - exfalso. apply (Hno x0 0); [unfold inside; simpl; lia..|]. specialize (Hc 0 ltac:(lia)). now rewrite !Nat.add_0_r in Hc.
    - destruct F2 as ((I1 & I2) & (I3 & I4) & Hb). simpl in I1, I2, I3, I4.
      destruct (F3 x0 0 (length s)) as [F4 _]; [repeat split; simpl; try lia; assumption|].
      assert (y = 0 /\ n = length s) as [-> ->] by lia.
      assert (ext = 0) as ->.
      { destruct Hext as [|(_ & _ & (_ & J) & _)]; [assumption|]. simpl in J. lia. }
      rewrite Nat.add_0_r in E. exists x.
      split.
      + rewrite (generate_single _ _ _ _ _ _ _ E) by (simpl; lia). unfold before_extra, gap_change. rewrite Nat.add_0_l, !Nat.ltb_irrefl.
        rewrite !andb_false_r. cbn [app]. reflexivity.
      + split; [assumption|]. split; [assumption|]. intros x' Hx' Hc'. destruct (F3 x' 0 (length s)) as [_ F5]; [repeat split; simpl; try lia; assumption|].
        specialize (F5 eq_refl). lia.
  Qed.
  Lemma generate_empty_before after : gen [] after = Ok (if 0 <? length after then [Insert 0 (Range 0 (length after))] else []).
  Proof.
    destruct (lcs_spec eqb Heqb (indices []) [] after (Hind []) (range_from (@nil T) 0) (range_from after 0)) as [[E Hno]|(x & y & n & ext & E & (F1 & ((I1 & I2) & _) & F3) & _)].
    - unfold in_bounds. simpl. lia.
    - unfold in_bounds. simpl. lia.
    - unfold generate, longest_common_subsequences, lcs_fuel. simpl length. cbn [lcs_loop Nat.mul Nat.add]. rewrite E. reflexivity.
    - simpl in I2. lia.
  Qed.
  Lemma generate_same s : gen s s = Ok (match s with [] => [] | _ => [NoChange (CS 0 0 (length s))] end).
  Proof.
    destruct s as [|v s]; [apply generate_empty_before|].
    destruct (generate_inside (v :: s) (v :: s) 0) as (y & E & _ & Hy & _); [discriminate| |lia|].
    - intros t Ht. destruct (nth_error (v :: s) t) as [w|] eqn:Ew; [|apply nth_error_None in Ew; lia]. exists w. auto.
    - rewrite E. assert (y = 0) as -> by lia. unfold after_extra. simpl. now rewrite Nat.ltb_irrefl.
  Qed.
End Contained.

Lemma clumps_same {T} (s : list T) context :
  change_clumps context (match s with [] => [] | _ => [NoChange (CS 0 0 (length s))] end) = Ok [].
Proof. destruct s; reflexivity. Qed.

Lemma text_diff_same s context : text_diff_clumps s s context = Ok [].
Proof.
  unfold text_diff_clumps, text_changes.
  rewrite (generate_same line_eqb line_eqb_lawful (fun b => string_indices_of (string_generate_from b)) (fun s x => string_indices_spec s x)).
  cbn [bind]. rewrite clumps_same. reflexivity.
Qed.
Lemma byte_diff_same s context : byte_diff_clumps s s context = Ok [].
Proof.
  unfold byte_diff_clumps, byte_changes.
  rewrite (generate_same Byte.eqb byte_eqb_lawful (fun b => byte_indices_of (byte_generate_from b)) (fun s x => byte_indices_spec s x)).
  cbn [bind]. rewrite clumps_same. reflexivity.
Qed.

(* a faithful diff without hunks means equal inputs *)
Lemma cover_empty_equal {T} context (b a : list T) : cover context (equal_gap b a) b a 0 0 [] -> b = a.
Proof.
  inversion 1 as [i j d Hg H1 H2|]. unfold equal_gap in Hg.
  pose proof (sub_all b 0) as Sb. pose proof (sub_all a 0) as Sa. simpl in *. rewrite <- Sb, <- Sa, <- H1, <- H2. exact Hg.
Qed.

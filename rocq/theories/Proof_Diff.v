(* Proof_Diff.v - from clumps of changes to patches. *)
From Verif Require Import Base Model_Seq Model_Changes Model_IO Model_Text Model_Bytes Spec Proof_Seq Proof_Lcs Proof_Changes Proof_Clumps.

Lemma extract_snippet_ok {T} (s : list T) i n : i <= n -> n <= length s ->
  extract_snippet s (Range i n) = Ok (Snippet (Z.of_nat i) (sub s i n)).
Proof. intros H1 H2. unfold extract_snippet. cbn [r_start r_end]. now rewrite slice_ok. Qed.

Lemma skipn_skipn {T} (l : list T) x y : skipn x (skipn y l) = skipn (x + y) l.
Proof. apply nth_error_ext. intros i. rewrite !nth_error_skipn. f_equal. lia. Qed.
Lemma sub_length {T} (s : list T) i n : n <= length s -> length (sub s i n) = n - i.
Proof. intros H. unfold sub. rewrite firstn_length, skipn_length. lia. Qed.
Lemma sub_app {T} (s : list T) i j n : i <= j -> j <= n -> sub s i j ++ sub s j n = sub s i n.
Proof.
  intros H1 H2. unfold sub. rewrite <- (firstn_skipn (j - i) (firstn (n - i) (skipn i s))).
  rewrite firstn_firstn, skipn_firstn_comm. replace (Nat.min (j - i) (n - i)) with (j - i) by lia.
  rewrite skipn_skipn. replace (j - i + i) with j by lia. now replace (n - i - (j - i)) with (n - j) by lia.
Qed.
Lemma sub_all {T} (s : list T) i : sub s i (length s) = skipn i s.
Proof. unfold sub. apply firstn_all2. rewrite skipn_length. lia. Qed.
Lemma sub_nth {T} (s : list T) i n t : nth_error (sub s i n) t = if t <? n - i then nth_error s (i + t) else None.
Proof. unfold sub. now rewrite nth_error_firstn, nth_error_skipn. Qed.

Lemma tiles_forward_app l1 l2 i j n m : Forall forward (l1 ++ l2) -> tiles i j (l1 ++ l2) n m ->
  exists x y, tiles i j l1 x y /\ tiles x y l2 n m /\ i <= x <= n /\ j <= y <= m.
Proof.
  intros Hf Ht. apply Forall_app in Hf as [F1 F2]. apply tiles_app_inv in Ht as (x & y & T1 & T2).
  exists x, y. pose proof (tiles_le _ _ _ _ _ F1 T1). pose proof (tiles_le _ _ _ _ _ F2 T2). repeat split; auto; lia.
Qed.

(* a run of changes containing a non-empty real change grows on at least one side *)
Lemma tiles_grows i j c n m : Forall non_empty c -> (exists x tl, c = x :: tl /\ real x = true) -> tiles i j c n m ->
  i <= n /\ j <= m /\ (i < n \/ j < m).
Proof.
  intros Hn (x & tl & -> & Hx) Ht. inversion Hn as [|? ? N1 N2]; subst.
  inversion Ht as [|? ? ? ? ? ? A1 A2 A3]; subst.
  assert (F : Forall forward tl) by (eapply Forall_impl; [|exact N2]; intros; now apply b_from_to).
  pose proof (tiles_le _ _ _ _ _ F A3). destruct x; simpl in *; try discriminate; lia.
Qed.

Section Cover.
  Context {T : Type} {C : Type} (of_hunk : hunk T -> C) (clump_from : list T -> list T -> clump -> res C).
  Hypothesis Hfrom : forall b a c, clump_from b a c =
    let (br, ar) := clump_ranges c in
    let (cs, ce) := clump_context_lengths c in
    let! sb := extract_snippet b br in
    let! sa := extract_snippet a ar in
    Ok (of_hunk (Hunk cs ce (r_start br) (sn_items sb) (r_start ar) (sn_items sa))).
  Variables b a : list T.
  Variable context : nat.
  Hypothesis Hctx : context <= 255.
  Variable all : list change.
  Hypothesis Hne : Forall non_empty all.

  Lemma spreadc_cover i j clumps : spreadc context all (length b) (length a) i j clumps ->
    i <= length b /\ j <= length a /\
    exists hs, map_res (clump_from b a) clumps = Ok (map of_hunk hs) /\ cover context (unchanged all) b a i j hs.
  Proof.
    intros H. pose proof (spreadc_forward _ _ _ _ _ _ _ Hne H) as Hfw. revert Hfw.
    induction H as [i j d Hu H1 H2|i j d p body q i' j' rest Hu Hb Ht Hp Hq Hx H IH]; intros Hfw.
    - split; [lia|]. split; [lia|]. exists []. split; [reflexivity|]. econstructor; eauto.
    - inversion Hfw as [|? ? F1 F2]; subst. destruct (IH F2) as (B1 & B2 & hs & E & Hc).
      set (c := lead context p ++ body ++ trail context q) in *.
      assert (Hcne : c <> []).
      { destruct Hb as ((x & tl & -> & _) & _). unfold c. destruct (lead context p); discriminate. }
      pose proof (tiles_le _ _ _ _ _ F1 Ht) as [L1 L2].
      split; [lia|]. split; [lia|].
      set (l := match p with Some m => Nat.min context (cs_n m) | None => 0 end).
      set (t := match q with Some m => Nat.min context (cs_n m) | None => 0 end).
      exists (Hunk l t (i + d) (sub b (i + d) i') (j + d) (sub a (j + d) j') :: hs). split.
      + cbn [map_res map]. rewrite Hfrom, (clump_ranges_tiles _ _ _ _ _ Hcne Ht).
        unfold c. rewrite clump_context_lengths_shape by assumption. fold l t.
        rewrite !extract_snippet_ok by lia. cbn [bind r_start sn_items]. rewrite E. reflexivity.
      + rewrite Forall_forall in Hne.
        (* the context lengths fit *)
        assert (Hfit : i + d + l + t <= i' /\ j + d + l + t <= j' /\ (i + d + l + t < i' \/ j + d + l + t < j')).
        { unfold c in Ht, F1. apply tiles_forward_app in Ht as (x & y & T1 & T2 & X1 & X2); [|assumption].
          apply Forall_app in F1 as [_ F1]. apply tiles_forward_app in T2 as (x2 & y2 & T2 & T3 & X3 & X4); [|assumption].
          assert (Hl : x = i + d + l /\ y = j + d + l).
          { destruct p as [m|]; simpl in T1; [|inversion T1; subst; unfold l; lia].
            inversion T1 as [|? ? ? ? ? ? A1 A2 A3]; subst. inversion A3; subst. simpl in *. unfold l. lia. }
          assert (Ht' : i' = x2 + t /\ j' = y2 + t).
          { destruct q as [m|]; simpl in T3; [|inversion T3; subst; unfold t; lia].
            inversion T3 as [|? ? ? ? ? ? A1 A2 A3]; subst. inversion A3; subst. simpl in *. unfold t. lia. }
          destruct Hb as (Hb1 & _).
          assert (Hnb : Forall non_empty body) by (apply Forall_forall; auto).
          pose proof (tiles_grows _ _ _ _ _ Hnb Hb1 T2). lia. }
        apply cover_cons; auto; try lia; try tauto.
        * unfold l. destruct p; lia.
        * unfold t. destruct q; lia.
        * unfold l. destruct p as [m|]; [|intros _; right; lia]. pose proof (Hne _ Hp) as Hm. simpl in Hm. lia.
        * unfold t. destruct q as [m|]; [|intros _; right; lia]. pose proof (Hne _ Hq) as Hm. simpl in Hm. lia.
  Qed.
End Cover.

Lemma text_changes_spec b a : exists cs, text_changes b a = Ok cs /\
    tiles 0 0 cs (length b) (length a) /\ Forall non_empty cs /\ alternating cs /\
    (no_isolated_mismatch b a -> faithful b a cs).
Proof. apply generate_spec; [apply line_eqb_lawful|]. intros x. apply string_indices_spec. Qed.
Lemma byte_changes_spec b a : exists cs, byte_changes b a = Ok cs /\
    tiles 0 0 cs (length b) (length a) /\ Forall non_empty cs /\ alternating cs /\
    (no_isolated_mismatch b a -> faithful b a cs).
Proof. apply generate_spec; [apply byte_eqb_lawful|]. intros x. apply byte_indices_spec. Qed.

Lemma text_clump_from_hunk b a c : text_clump_from b a c =
    let (br, ar) := clump_ranges c in
    let (cs, ce) := clump_context_lengths c in
    let! sb := extract_snippet b br in
    let! sa := extract_snippet a ar in
    Ok (text_of_hunk (Hunk cs ce (r_start br) (sn_items sb) (r_start ar) (sn_items sa))).
Proof.
  unfold text_clump_from, extract_snippet. destruct (clump_ranges c) as [br ar], (clump_context_lengths c) as [cs ce].
  destruct (slice b (r_start br) (r_end br)); [|reflexivity..].
  destruct (slice a (r_start ar) (r_end ar)); reflexivity.
Qed.
Lemma byte_clump_from_hunk b a c : byte_clump_from b a c =
    let (br, ar) := clump_ranges c in
    let (cs, ce) := clump_context_lengths c in
    let! sb := extract_snippet b br in
    let! sa := extract_snippet a ar in
    Ok (byte_of_hunk (Hunk cs ce (r_start br) (sn_items sb) (r_start ar) (sn_items sa))).
Proof.
  unfold byte_clump_from, extract_snippet. destruct (clump_ranges c) as [br ar], (clump_context_lengths c) as [cs ce].
  destruct (slice b (r_start br) (r_end br)); [|reflexivity..].
  destruct (slice a (r_start ar) (r_end ar)); reflexivity.
Qed.

Lemma text_diff_spec b a context : context <= 255 ->
  exists cs clumps hs, text_changes b a = Ok cs /\ change_clumps context cs = Ok clumps /\
    clumps_of context cs clumps /\ spread cs 0 0 clumps (length b) (length a) /\
    text_diff_clumps b a context = Ok (map text_of_hunk hs) /\
    cover context (unchanged cs) b a 0 0 hs.
Proof.
  intros Hc. destruct (text_changes_spec b a) as (cs & E & Ht & Hne & Halt & _).
  destruct (change_clumps_spec context cs Halt) as (clumps & E2 & Hcl).
  pose proof (clumps_of_spreadc _ _ _ _ _ Hcl Ht) as Hs.
  destruct (spreadc_cover text_of_hunk text_clump_from text_clump_from_hunk b a context Hc cs Hne 0 0 clumps Hs) as (_ & _ & hs & E3 & Hcov).
  exists cs, clumps, hs. split; [assumption|]. split; [assumption|]. split; [assumption|]. split; [eapply spreadc_spread; eauto|].
  split; [|assumption]. unfold text_diff_clumps. rewrite E. cbn [bind]. rewrite E2. cbn [bind]. assumption.
Qed.

Lemma byte_diff_spec b a context : context <= 255 ->
  exists cs clumps hs, byte_changes b a = Ok cs /\ change_clumps context cs = Ok clumps /\
    clumps_of context cs clumps /\ spread cs 0 0 clumps (length b) (length a) /\
    byte_diff_clumps b a context = Ok (map byte_of_hunk hs) /\
    cover context (unchanged cs) b a 0 0 hs.
Proof.
  intros Hc. destruct (byte_changes_spec b a) as (cs & E & Ht & Hne & Halt & _).
  destruct (change_clumps_spec context cs Halt) as (clumps & E2 & Hcl).
  pose proof (clumps_of_spreadc _ _ _ _ _ Hcl Ht) as Hs.
  destruct (spreadc_cover byte_of_hunk byte_clump_from byte_clump_from_hunk b a context Hc cs Hne 0 0 clumps Hs) as (_ & _ & hs & E3 & Hcov).
  exists cs, clumps, hs. split; [assumption|]. split; [assumption|]. split; [assumption|]. split; [eapply spreadc_spread; eauto|].
  split; [|assumption]. unfold byte_diff_clumps. rewrite E. cbn [bind]. rewrite E2. cbn [bind]. assumption.
Qed.

(* ---------------- faithful gaps ---------------- *)
(* d items of b at i equal d items of a at j *)

Lemma common_block_sub {T} (b a : list T) i j d : common_block b a i j d -> sub b i (i + d) = sub a j (j + d).
Proof.
  intros H. apply nth_error_ext. intros t. rewrite !sub_nth. replace (i + d - i) with d by lia. replace (j + d - j) with d by lia.
  destruct (Nat.ltb_spec t d) as [Ht|Ht]; [|reflexivity]. destruct (H t Ht) as (v & -> & ->). reflexivity.
Qed.

Lemma cover_mono {T} context (g1 g2 : nat -> nat -> nat -> Prop) (b a : list T) i j hs :
  (forall x y d, g1 x y d -> g2 x y d) -> cover context g1 b a i j hs -> cover context g2 b a i j hs.
Proof. intros Hg. induction 1; econstructor; eauto. Qed.

Lemma unchanged_equal {T} (b a : list T) cs i j d : faithful b a cs -> unchanged cs i j d -> equal_gap b a i j d.
Proof.
  intros Hf [->|(m & p & Hin & -> & -> & Hd)].
  - unfold equal_gap, sub. rewrite !Nat.add_0_r, !Nat.sub_diag. reflexivity.
  - apply common_block_sub. apply block_sub with (n := cs_n m); auto.
Qed.

Lemma cover_swap {T} context g (b a : list T) i j hs : cover context g b a i j hs ->
  cover context (fun x y d => g y x d) a b j i (map swap_hunk hs).
Proof.
  induction 1 as [i j d Hg H1 H2|i j d i' j' l t rest Hg H1 H2 H3 H4 H5 H6 H7 H8 H9 H IH]; cbn [map].
  - econstructor; eauto.
  - unfold swap_hunk at 1. cbn. apply cover_cons; auto; try tauto; intros; destruct H8 || destruct H9; try tauto; lia.
Qed.
Lemma cover_bounds {T} context g (b a : list T) i j hs : cover context g b a i j hs -> i <= length b /\ j <= length a.
Proof. induction 1; lia. Qed.
Lemma equal_gap_sym {T} (b a : list T) i j d : equal_gap b a i j d -> equal_gap a b j i d.
Proof. unfold equal_gap. congruence. Qed.

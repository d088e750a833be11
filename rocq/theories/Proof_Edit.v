(* Proof_Edit.v - the changes between sequences of which one is the other edited in one place. *)
From Verif Require Import Base Model_Seq Model_Changes Model_IO Model_Text Model_Bytes Spec Spec_Edit Proof_Seq Proof_Lcs Proof_Blocks Proof_Clumps Proof_Diff.

Section Edit.
  Context {T : Type}.
  Variables p y x s : list T.
  Notation b := (p ++ y ++ s).
  Notation a := (p ++ x ++ s).
  Notation P := (length p).
  Notation Y := (length y).
  Notation X := (length x).
  Notation S' := (length s).
  Hypothesis Hfresh : fresh_edit p y x s.
  Hypothesis Hnim : no_isolated_mismatch b a.

  Lemma len_b : length b = P + Y + S'. Proof. rewrite !app_length. lia. Qed.
  Lemma len_a : length a = P + X + S'. Proof. rewrite !app_length. lia. Qed.
  Lemma some_edit : 0 < Y \/ 0 < X.
  Proof. destruct Hfresh as (_ & _ & [H|H]); [left; destruct y|right; destruct x]; try contradiction; cbn [length]; lia. Qed.
  Lemma same_bounds i j : same_at b a i j -> i < P + Y + S' /\ j < P + X + S'.
  Proof. intros (v & H1 & H2). rewrite <- len_b, <- len_a. split; apply nth_error_Some; congruence. Qed.
  Lemma outside_b i j : same_at b a i j -> i < P \/ P + Y <= i.
  Proof.
    intros (v & H1 & H2). destruct (Nat.lt_ge_cases i P) as [|Hi]; [now left|]. destruct (Nat.le_gt_cases (P + Y) i) as [|Hi']; [now right|]. exfalso.
    rewrite nth_error_app2 in H1 by assumption. rewrite nth_error_app1 in H1 by lia. destruct Hfresh as (F & _). apply nth_error_In in H1. apply (F v H1). now apply nth_error_In in H2.
  Qed.
  Lemma outside_a i j : same_at b a i j -> j < P \/ P + X <= j.
  Proof.
    intros (v & H1 & H2). destruct (Nat.lt_ge_cases j P) as [|Hi]; [now left|]. destruct (Nat.le_gt_cases (P + X) j) as [|Hi']; [now right|]. exfalso.
    rewrite nth_error_app2 in H2 by assumption. rewrite nth_error_app1 in H2 by lia. destruct Hfresh as (_ & F & _). apply nth_error_In in H2. apply (F v H2). now apply nth_error_In in H1.
  Qed.
  (* a common block lies on one side of the edited place *)
  Lemma block_b i j n : common_block b a i j n -> 0 < n -> 0 < Y -> i + n <= P \/ P + Y <= i.
  Proof.
    intros H Hn Hy. destruct (outside_b (i + 0) (j + 0)) as [H0|H0]; [apply H; lia| |lia].
    destruct (Nat.le_gt_cases (i + n) P) as [|Hi]; [lia|]. destruct (outside_b (i + (P - i)) (j + (P - i))) as [H1|H1]; [apply H; lia|lia..].
  Qed.
  Lemma block_a i j n : common_block b a i j n -> 0 < n -> 0 < X -> j + n <= P \/ P + X <= j.
  Proof.
    intros H Hn Hy. destruct (outside_a (i + 0) (j + 0)) as [H0|H0]; [apply H; lia| |lia].
    destruct (Nat.le_gt_cases (j + n) P) as [|Hi]; [lia|]. destruct (outside_a (i + (P - j)) (j + (P - j))) as [H1|H1]; [apply H; lia|lia..].
  Qed.
  Lemma block_ends i j n : common_block b a i j n -> 0 < n -> i + n <= P + Y + S' /\ j + n <= P + X + S'.
  Proof. intros H Hn. destruct (same_bounds (i + (n - 1)) (j + (n - 1))) as [H1 H2]; [apply H; lia|]. lia. Qed.
  Lemma block_p : common_block b a 0 0 P.
  Proof.
    intros t Ht. cbn [Nat.add]. unfold same_at. rewrite !nth_error_app1 by assumption. destruct (nth_error p t) as [v|] eqn:E; [now exists v|]. apply nth_error_None in E. lia.
  Qed.
  Lemma block_s : common_block b a (P + Y) (P + X) S'.
  Proof.
    intros t Ht. unfold same_at. rewrite (nth_error_app2 p) by lia. rewrite (nth_error_app2 y) by lia. rewrite (nth_error_app2 p (x ++ s)) by lia. rewrite (nth_error_app2 x) by lia.
    replace (P + Y + t - P - Y) with t by lia. replace (P + X + t - P - X) with t by lia.
    destruct (nth_error s t) as [v|] eqn:E; [now exists v|]. apply nth_error_None in E. lia.
  Qed.
  Lemma no_run rb ra : 0 < P -> run_of b a rb ra (0 + P + 1) (0 + P + 1) 0.
  Proof.
    intros HP. split; [lia|]. intros (_ & _ & H). destruct (same_bounds _ _ H) as [B1 B2].
    apply (Hnim (P - 1) (P - 1)). split; [|split].
    - apply (block_p (P - 1)). lia.
    - replace (S (P - 1)) with P by lia.
      destruct (nth_error b P) as [v|] eqn:Ev; [|apply nth_error_None in Ev; rewrite len_b in Ev; lia].
      destruct (nth_error a P) as [w|] eqn:Ew; [|apply nth_error_None in Ew; rewrite len_a in Ew; lia].
      exists v, w. repeat split; try assumption. intros <-. assert (Hs : same_at b a P P) by now exists v.
      pose proof (outside_b _ _ Hs). pose proof (outside_a _ _ Hs). pose proof some_edit. lia.
    - replace (S (S (P - 1))) with (0 + P + 1 + 0) by lia. exact H.
  Qed.
  Lemma gap_none : blocks_of b a (Range P (P + Y)) (Range P (P + X)) [].
  Proof.
    apply blocks_none. intros i j [H1 H2] [H3 H4] H. cbn [r_start r_end] in *. pose proof (outside_b _ _ H). lia.
  Qed.
  Lemma empty_none i j rb ra : r_end rb <= r_start rb \/ r_end ra <= r_start ra -> i = rb -> j = ra -> blocks_of b a i j [].
  Proof. intros H -> ->. apply blocks_none. intros i' j' [H1 H2] [H3 H4] _. lia. Qed.

  Hypothesis Hside : (y <> [] /\ x <> []) \/ S' <= P \/ only_at_end p s.
  (* a block equal to s in p ++ s *)
  Lemma only_end i : only_at_end p s -> (forall t, t < S' -> nth_error (p ++ s) (i + t) = nth_error s t) -> i <= P -> i = P.
  Proof.
    intros H Hs Hi. assert (E : p ++ s = firstn i (p ++ s) ++ s ++ skipn (i + S') (p ++ s)).
    { apply nth_error_ext. intros t. assert (Hl : length (firstn i (p ++ s)) = i) by (rewrite firstn_length, app_length; lia).
      remember (p ++ s) as l eqn:El. destruct (Nat.lt_ge_cases t i) as [Ht|Ht]; [rewrite nth_error_app1, nth_error_firstn by lia; destruct (Nat.ltb_spec t i); [reflexivity|lia]|].
      rewrite nth_error_app2 by lia. rewrite Hl. destruct (Nat.lt_ge_cases (t - i) S') as [Ht'|Ht'].
      - rewrite nth_error_app1 by assumption. rewrite <- Hs by assumption. f_equal. lia.
      - rewrite nth_error_app2 by assumption. rewrite nth_error_skipn. f_equal. lia. }
    apply H in E. rewrite <- E. rewrite firstn_length, app_length. lia.
  Qed.
  Lemma nth_s_b t : Y = 0 -> nth_error b t = nth_error (p ++ s) t.
  Proof. destruct y; [reflexivity|discriminate]. Qed.
  Lemma nth_s_a t : X = 0 -> nth_error a t = nth_error (p ++ s) t.
  Proof. destruct x; [reflexivity|discriminate]. Qed.

  Definition the_blocks : list common :=
    (if 0 <? P then [CS 0 0 P] else []) ++ (if 0 <? S' then [CS (P + Y) (P + X) S'] else []).
  Lemma blocks_right : blocks_of b a (Range P (P + Y + S')) (Range P (P + X + S')) (if 0 <? S' then [CS (P + Y) (P + X) S'] else []).
  Proof.
    destruct (Nat.ltb_spec 0 S') as [HS|HS].
    - replace [CS (P + Y) (P + X) S'] with ([] ++ CS (P + Y) (P + X) (S' + 0) :: []) by (cbn [app]; now rewrite Nat.add_0_r). apply blocks_some; cbn [r_start r_end].
      + split; [assumption|]. split; [unfold block_in, inside; cbn [r_start r_end]; repeat split; try lia; exact block_s|].
        intros i j n ([H1 H2] & [H3 H4] & H). cbn [r_start r_end] in *. destruct (Nat.eq_dec n 0) as [->|Hn]; [lia|].
        assert (A1 : 0 < Y -> i + n <= P \/ P + Y <= i) by (apply block_b with (j := j); [assumption|lia]).
        assert (A2 : 0 < X -> j + n <= P \/ P + X <= j) by (apply block_a with (i := i); [assumption|lia]). pose proof some_edit. lia.
      + split; [lia|]. cbn [r_end]. lia.
      + exact gap_none.
      + eapply empty_none; [|reflexivity..]. cbn [r_start r_end]. lia.
    - assert (E : S' = 0) by lia. rewrite E, !Nat.add_0_r. exact gap_none.
  Qed.
  Lemma blocks_left : blocks_of b a (Range 0 (P + Y)) (Range 0 (P + X)) (if 0 <? P then [CS 0 0 P] else []).
  Proof.
    destruct (Nat.ltb_spec 0 P) as [HP|HP].
    - replace [CS 0 0 P] with ([] ++ CS 0 0 (P + 0) :: []) by (cbn [app]; now rewrite Nat.add_0_r). apply blocks_some; cbn [r_start r_end].
      + split; [assumption|]. split; [unfold block_in, inside; cbn [r_start r_end]; repeat split; try lia; exact block_p|].
        intros i j n ([H1 H2] & [H3 H4] & H). cbn [r_start r_end] in *. destruct (Nat.eq_dec n 0) as [->|Hn]; [lia|].
        assert (A1 : 0 < Y -> i + n <= P \/ P + Y <= i) by (apply block_b with (j := j); [assumption|lia]).
        assert (A2 : 0 < X -> j + n <= P \/ P + X <= j) by (apply block_a with (i := i); [assumption|lia]). pose proof some_edit. lia.
      + now apply no_run.
      + eapply empty_none; [|reflexivity..]. cbn [r_start r_end]. lia.
      + rewrite !Nat.add_0_r. cbn [Nat.add]. exact gap_none.
    - assert (E : P = 0) by lia. pose proof gap_none as G. rewrite E in G |- *. exact G.
  Qed.
  Lemma the_blocks_of : blocks_of b a (Range 0 (length b)) (Range 0 (length a)) the_blocks.
  Proof.
    rewrite len_b, len_a. unfold the_blocks. destruct (Nat.le_gt_cases S' P) as [HSP|HSP].
    - destruct (Nat.ltb_spec 0 P) as [HP|HP].
      + change ([CS 0 0 P] ++ (if 0 <? S' then [CS (P + Y) (P + X) S'] else [])) with ([] ++ CS 0 0 P :: (if 0 <? S' then [CS (P + Y) (P + X) S'] else [])).
        rewrite <- (Nat.add_0_r P) at 3. apply blocks_some; cbn [r_start r_end].
        * split; [assumption|]. split; [unfold block_in, inside; cbn [r_start r_end]; repeat split; try lia; exact block_p|].
          intros i j n ([H1 H2] & [H3 H4] & H). cbn [r_start r_end] in *. destruct (Nat.eq_dec n 0) as [->|Hn]; [lia|].
          assert (A1 : 0 < Y -> i + n <= P \/ P + Y <= i) by (apply block_b with (j := j); [assumption|lia]).
          assert (A2 : 0 < X -> j + n <= P \/ P + X <= j) by (apply block_a with (i := i); [assumption|lia]). pose proof some_edit. lia.
        * now apply no_run.
        * eapply empty_none; [|reflexivity..]. cbn [r_start r_end]. lia.
        * rewrite !Nat.add_0_r. cbn [Nat.add]. exact blocks_right.
      + pose proof blocks_right as R. assert (E : P = 0) by lia. rewrite E in R |- *. exact R.
    - assert (E0 : (0 <? S') = true) by (apply Nat.ltb_lt; lia). rewrite E0. rewrite <- (Nat.add_0_r S') at 3. apply blocks_some; cbn [r_start r_end].
      + split; [lia|]. split; [unfold block_in, inside; cbn [r_start r_end]; repeat split; try lia; exact block_s|].
        intros i j n ([H1 H2] & [H3 H4] & H). cbn [r_start r_end] in *. destruct (Nat.lt_ge_cases n S') as [|Hn]; [now left|]. right.
        assert (A1 : 0 < Y -> i + n <= P \/ P + Y <= i) by (apply block_b with (j := j); [assumption|lia]).
        assert (A2 : 0 < X -> j + n <= P \/ P + X <= j) by (apply block_a with (i := i); [assumption|lia]). pose proof some_edit as Hse.
        assert (n = S') as -> by lia. split; [reflexivity|].
        destruct (Nat.eq_dec Y 0) as [EY|NY]; [|destruct (Nat.eq_dec X 0) as [EX|NX]; [|lia]].
        * assert (j = P + X) as -> by lia. right. split; [reflexivity|]. destruct Hside as [[Hy _]|[Hs|Hs]]; [destruct y; [contradiction|discriminate]|lia|].
          rewrite (only_end i); [lia|assumption| |lia]. intros t Ht. destruct (H t Ht) as (v & E1 & E2). rewrite nth_s_b in E1 by assumption. rewrite E1, <- E2.
          rewrite (nth_error_app2 p) by lia. rewrite (nth_error_app2 x) by lia. f_equal. lia.
        * assert (i = P + Y) as -> by lia. destruct (Nat.lt_trichotomy (P + X) j) as [|[->|Hj]]; [now left|right; lia|]. exfalso.
          destruct Hside as [[_ Hx]|[Hs|Hs]]; [destruct x; [contradiction|discriminate]|lia|].
          assert (j = P); [|lia]. apply only_end; [assumption| |lia]. intros t Ht. destruct (H t Ht) as (v & E1 & E2). rewrite nth_s_a in E2 by assumption. rewrite E2, <- E1.
          rewrite (nth_error_app2 p) by lia. rewrite (nth_error_app2 y) by lia. f_equal. lia.
      + split; [lia|]. cbn [r_end]. lia.
      + exact blocks_left.
      + eapply empty_none; [|reflexivity..]. cbn [r_start r_end]. lia.
  Qed.
  Lemma one_proper : proper (length b) (length a) (one_change P Y X S').
  Proof.
    rewrite len_b, len_a. pose proof some_edit as Hse. unfold one_change, proper.
    set (nP := P) in *. set (nS := S') in *. set (nY := Y) in *. set (nX := X) in *. clearbody nP nS nY nX.
    destruct (Nat.ltb_spec 0 nP) as [HP|HP], (Nat.ltb_spec 0 nS) as [HS|HS], nY as [|ny], nX as [|nx]; try lia; cbn [app].
    all: split; [|split].
    all: try (repeat (apply Forall_cons; [cbn; lia|]); now apply Forall_nil).
    all: try (intros [|c1 [|c2 [|c3 [|c4 pre]]]] u v post E; cbn [app] in E; try discriminate; injection E; intros; subst; cbn; discriminate).
    all: repeat (apply tiles_cons; [cbn; lia|cbn; lia|]); cbn [b_to a_to cs_b cs_a cs_n r_start r_end].
    all: match goal with |- tiles ?i ?j [] ?n ?m => replace n with i by lia; replace m with j by lia; constructor end.
  Qed.
  Lemma one_reported i j : reported_same (one_change P Y X S') i j <-> paired the_blocks i j.
  Proof.
    unfold reported_same, paired, one_change, the_blocks. split; intros (m & q & H & R); exists m, q; (split; [|exact R]); clear R.
    - apply in_app_or in H as [H|[H|H]].
      + apply in_or_app. left. destruct (0 <? P); [|contradiction]. destruct H as [H|[]]. injection H as <-. now left.
      + destruct Y, X; discriminate H.
      + apply in_or_app. right. destruct (0 <? S'); [|contradiction]. destruct H as [H|[]]. injection H as <-. now left.
    - apply in_app_or in H as [H|H]; apply in_or_app.
      + left. destruct (0 <? P); [|contradiction]. destruct H as [<-|[]]. now left.
      + right. right. destruct (0 <? S'); [|contradiction]. destruct H as [<-|[]]. now left.
  Qed.
  Lemma one_changes cs : proper (length b) (length a) cs -> (exists l, blocks_of b a (Range 0 (length b)) (Range 0 (length a)) l /\ forall i j, reported_same cs i j <-> paired l i j) ->
    cs = one_change P Y X S'.
  Proof.
    intros (Q1 & Q2 & Q3) (l & Bl & Rl). pose proof (blocks_of_unique _ _ _ _ _ _ Bl the_blocks_of) as ->.
    destruct one_proper as (P1 & P2 & P3). eapply changes_determined; eauto. intros u v. now rewrite Rl, one_reported.
  Qed.
End Edit.

(* ------------------------------------------------------------------ the clump *)
Definition one_change_of (np ny nx : nat) : change :=
  match ny, nx with
  | 0, _ => Insert np (Range np (np + nx))
  | _, 0 => Delete (Range np (np + ny)) np
  | _, _ => Replace (Range np (np + ny)) (Range np (np + nx))
  end.
Lemma one_clump context np ny nx ns : change_clumps context (one_change np ny nx ns) =
  Ok [(if 0 <? np then [NoChange (CS (np - context) (np - context) (Nat.min context np))] else []) ++ one_change_of np ny nx ::
      (if 0 <? ns then [NoChange (CS (np + ny) (np + nx) (Nat.min context ns))] else [])].
Proof.
  unfold change_clumps, one_change. fold (one_change_of np ny nx).
  assert (N : forall iter c, c <> [] -> clump_loop context iter [] = (c, [], None) -> clumps_collect (length iter + 2) context iter None = Ok [c]).
  { intros iter c Hc E. replace (length iter + 2) with (S (S (length iter))) by lia. cbn [clumps_collect]. unfold clump_next at 1. rewrite E. destruct c; [easy|]. reflexivity. }
  apply N; [destruct (0 <? np); discriminate|].
  assert (T1 : starts_trimmed (CS 0 0 np) context = CS (np - context) (np - context) (Nat.min context np)).
  { unfold starts_trimmed. cbn [cs_b cs_a cs_n]. f_equal; lia. }
  assert (T2 : ends_trimmed (CS (np + ny) (np + nx) ns) context = CS (np + ny) (np + nx) (Nat.min context ns)).
  { unfold ends_trimmed. cbn [cs_b cs_a cs_n]. f_equal; lia. }
  destruct (0 <? np), (0 <? ns); destruct ny, nx; unfold one_change_of in *; cbn [app clump_loop]; rewrite ?T1, ?T2; reflexivity.
Qed.
Lemma one_ranges context np ny nx ns : context <= 255 -> 0 < ny \/ 0 < nx ->
  let c := (if 0 <? np then [NoChange (CS (np - context) (np - context) (Nat.min context np))] else []) ++ one_change_of np ny nx ::
      (if 0 <? ns then [NoChange (CS (np + ny) (np + nx) (Nat.min context ns))] else []) in
  clump_ranges c = (Range (np - context) (np + ny + Nat.min context ns), Range (np - context) (np + nx + Nat.min context ns)) /\
  clump_context_lengths c = (Nat.min context np, Nat.min context ns).
Proof.
  intros Hc Hn c. unfold c. destruct (Nat.ltb_spec 0 np) as [HP|HP], (Nat.ltb_spec 0 ns) as [HS|HS]; cbn [app].
  all: unfold clump_ranges, clump_context_lengths, clump_starts, clump_ends, last_change, one_change_of; destruct ny, nx; try lia.
  all: cbn [map last r_start r_end cs_b cs_a cs_n cs_before_end cs_after_end].
  all: unfold cs_before_end, cs_after_end; cbn [cs_b cs_a cs_n]; rewrite ?Nat.mod_small by lia; split; [apply f_equal2; apply f_equal2; lia|apply f_equal2; lia].
Qed.
Lemma sub_edit {T} (p y s : list T) c : sub (p ++ y ++ s) (length p - c) (length p + length y + Nat.min c (length s)) = skipn (length p - c) p ++ y ++ firstn c s.
Proof.
  unfold sub. rewrite skipn_app. replace (length p - c - length p) with 0 by lia. cbn [skipn].
  replace (length p + length y + Nat.min c (length s) - (length p - c)) with (length (skipn (length p - c) p) + (length y + Nat.min c (length s))) by (rewrite skipn_length; lia).
  rewrite firstn_app_2. rewrite firstn_app_2. f_equal. f_equal. destruct (Nat.le_gt_cases c (length s)) as [H|H]; [now rewrite Nat.min_l|].
  rewrite Nat.min_r, firstn_all by lia. now rewrite firstn_all2 by lia.
Qed.

(* Proof_Blocks.v - which blocks the change generator reports (changes.rs:140-324). *)
From Verif Require Import Base Model_Seq Model_Changes Model_IO Model_Text Model_Bytes Spec Proof_Seq Proof_Lcs Proof_Changes.

(* ---------------- the choice of blocks is unique ---------------- *)
Section Unique.
  Context {T : Type} (before after : list T).

  Lemma first_longest_unique br ar x y n x' y' n' :
    first_longest before after br ar x y n -> first_longest before after br ar x' y' n' -> x = x' /\ y = y' /\ n = n'.
  Proof.
    intros (_ & B & H) (_ & B' & H'). specialize (H _ _ _ B'). specialize (H' _ _ _ B). lia.
  Qed.
  Lemma run_of_unique br ar x y e e' :
    run_of before after br ar x y e -> run_of before after br ar x y e' -> e = e'.
  Proof.
    intros [H1 H2] [H3 H4]. destruct (Nat.lt_trichotomy e e') as [H|[H|H]]; [|assumption|].
    - destruct (H2 (H3 e H)).
    - destruct (H4 (H1 e' H)).
  Qed.
  Lemma first_longest_same br ar x y n : first_longest before after br ar x y n ->
    inside br x 1 /\ inside ar y 1 /\ same_at before after x y.
  Proof.
    intros (Hn & ((A1 & A2) & (A3 & A4) & A5) & _). unfold inside. repeat split; try lia.
    specialize (A5 0 Hn). now rewrite !Nat.add_0_r in A5.
  Qed.
  Lemma blocks_of_unique br ar l l' : blocks_of before after br ar l -> blocks_of before after br ar l' -> l = l'.
  Proof.
    intros H. revert l'. induction H as [br ar Hno|br ar x y n e left right F R _ IHl _ IHr]; intros l' H'.
    - inversion H' as [|? ? x y n e left right F]; subst; [reflexivity|].
      apply first_longest_same in F as (F1 & F2 & F3). destruct (Hno _ _ F1 F2 F3).
    - inversion H' as [? ? Hno|? ? x' y' n' e' left' right' F' R' Hl Hr]; subst.
      + apply first_longest_same in F as (F1 & F2 & F3). destruct (Hno _ _ F1 F2 F3).
      + destruct (first_longest_unique _ _ _ _ _ _ _ _ F F') as (-> & -> & ->).
        assert (e = e') as -> by (eapply run_of_unique; eauto).
        rewrite (IHl _ Hl), (IHr _ Hr). reflexivity.
  Qed.

  (* ---------------- nothing in common between the blocks ---------------- *)
  Definition clear (i j x y : nat) : Prop :=
    forall u v, i <= u -> u < x -> j <= v -> v < y -> ~ same_at before after u v.
  Inductive gaps : nat -> nat -> list common -> nat -> nat -> Prop :=
  | gaps_nil i j n m : clear i j n m -> gaps i j [] n m
  | gaps_cons i j c l n m : clear i j (cs_b c) (cs_a c) -> gaps (cs_before_end c) (cs_after_end c) l n m ->
      gaps i j (c :: l) n m.
  Lemma gaps_mid i j l1 c l2 n m : gaps i j l1 (cs_b c) (cs_a c) ->
    gaps (cs_before_end c) (cs_after_end c) l2 n m -> gaps i j (l1 ++ c :: l2) n m.
  Proof.
    intros H H2. remember (cs_b c) as x eqn:Ex. remember (cs_a c) as y eqn:Ey.
    induction H as [i j x y H1|i j c0 l x y H1 H3 IH]; simpl.
    - subst. now constructor.
    - constructor; auto.
  Qed.
  Lemma blocks_gaps br ar l : blocks_of before after br ar l ->
    gaps (r_start br) (r_start ar) l (r_end br) (r_end ar).
  Proof.
    induction 1 as [br ar Hno|br ar x y n e left right F R _ IHl _ IHr].
    - constructor. intros u v H1 H2 H3 H4. apply Hno; split; lia.
    - apply gaps_mid; [assumption|]. unfold cs_before_end, cs_after_end. cbn [cs_b cs_a cs_n r_start r_end] in *.
      now rewrite !Nat.add_assoc.
  Qed.

  Lemma merge_from_gaps l : forall c i j n m, gaps i j (c :: l) n m -> gaps i j (merge_from c l) n m.
  Proof.
    induction l as [|d l IH]; intros c i j n m H; simpl; [assumption|].
    inversion H as [|? ? ? ? ? ? H1 H2]; subst. inversion H2 as [|? ? ? ? ? ? H3 H4]; subst.
    destruct ((cs_before_end c =? cs_b d) && (cs_after_end c =? cs_a d)) eqn:E.
    - apply andb_true_iff in E as [E1 E2]. apply Nat.eqb_eq in E1, E2. apply IH.
      constructor; [assumption|]. unfold cs_before_end, cs_after_end in *. simpl.
      now replace (cs_b c + (cs_n c + cs_n d)) with (cs_b d + cs_n d) by lia;
          replace (cs_a c + (cs_n c + cs_n d)) with (cs_a d + cs_n d) by lia.
    - constructor; [assumption|]. now apply IH.
  Qed.

  Lemma gap_replace i j x y rb ra : In (Replace rb ra) (gap_change i j x y) -> rb = Range i x /\ ra = Range j y.
  Proof.
    unfold gap_change. destruct (i <? x), (j <? y); simpl; intros [H|[]] || intros []; try discriminate.
    now injection H as <- <-.
  Qed.
  Lemma generate_loop_replace l : forall i j rb ra, gaps i j l (length before) (length after) ->
    In (Replace rb ra) (generate_loop before after l i j) ->
    clear (r_start rb) (r_start ra) (r_end rb) (r_end ra).
  Proof.
    induction l as [|c l IH]; intros i j rb ra H Hin; cbn [generate_loop] in Hin; inversion H; subst.
    - apply gap_replace in Hin as [-> ->]. assumption.
    - apply in_app_or in Hin as [Hin|[Hin|Hin]]; [apply gap_replace in Hin as [-> ->]; assumption|discriminate|].
      eapply IH; eauto.
  Qed.

  (* ---------------- merging keeps the pairs ---------------- *)
  Lemma merge_from_paired l : forall c i j, paired (merge_from c l) i j <-> paired (c :: l) i j.
  Proof.
    induction l as [|d l IH]; intros c i j; simpl; [reflexivity|].
    destruct ((cs_before_end c =? cs_b d) && (cs_after_end c =? cs_a d)) eqn:E.
    - apply andb_true_iff in E as [E1 E2]. apply Nat.eqb_eq in E1, E2. unfold cs_before_end, cs_after_end in *.
      rewrite IH. unfold paired. split.
      + intros (m & p & [<-|Hm] & H1 & H2 & H3); cbn [incr_size_moving_ends cs_b cs_a cs_n] in *.
        * destruct (Nat.lt_ge_cases p (cs_n c)).
          -- exists c, p. split; [now left|auto].
          -- exists d, (p - cs_n c). split; [right; now left|]. lia.
        * exists m, p. split; [right; now right|auto].
      + intros (m & p & [<-|[<-|Hm]] & H1 & H2 & H3).
        * exists (incr_size_moving_ends c (cs_n d)), p. split; [now left|]. simpl. lia.
        * exists (incr_size_moving_ends c (cs_n d)), (cs_n c + p). split; [now left|]. simpl. lia.
        * exists m, p. split; [now right|auto].
    - specialize (IH d i j). unfold paired in *. split.
      + intros (m & p & [<-|Hm] & H); [exists c, p; split; [now left|auto]|].
        assert (Hx : exists m p, In m (merge_from d l) /\ p < cs_n m /\ i = cs_b m + p /\ j = cs_a m + p) by eauto.
        apply IH in Hx as (m' & p' & Hm' & H'). exists m', p'. split; [now right|assumption].
      + intros (m & p & [<-|Hm] & H); [exists c, p; split; [now left|auto]|].
        assert (Hx : exists m p, In m (d :: l) /\ p < cs_n m /\ i = cs_b m + p /\ j = cs_a m + p) by eauto.
        apply IH in Hx as (m' & p' & Hm' & H'). exists m', p'. split; [now right|assumption].
  Qed.
End Unique.

(* ---------------- a change list is determined by what it reports unchanged ---------------- *)
Lemma tiles_from i j cs n m : tiles i j cs n m -> Forall non_empty cs ->
  i <= n /\ j <= m /\ (forall u v, reported_same cs u v -> i <= u /\ j <= v).
Proof.
  induction 1 as [i j|i j c cs n m H1 H2 H3 IH]; intros Hne.
  - split; [lia|]. split; [lia|]. intros u v (x & p & [] & _).
  - inversion Hne as [|? ? N1 N2]; subst. destruct (IH N2) as (I1 & I2 & I3).
    assert (b_from c <= b_to c /\ a_from c <= a_to c) by (destruct c; simpl in *; lia).
    split; [lia|]. split; [lia|]. intros u v (x & p & [->|Hx] & Hp & Hu & Hv); simpl in *; [lia|].
    destruct (I3 u v) as [J1 J2]; [exists x, p; auto|]. lia.
Qed.
Lemma tiles_moves i j c cs n m : tiles i j (c :: cs) n m -> non_empty c ->
  b_from c = i /\ a_from c = j /\ i <= b_to c /\ j <= a_to c /\ (i < b_to c \/ j < a_to c) /\ tiles (b_to c) (a_to c) cs n m.
Proof. intros H Hn. inversion H; subst. repeat split; auto; destruct c; simpl in *; lia. Qed.
Lemma alternating_tail c cs : alternating (c :: cs) -> alternating cs.
Proof. intros H pre x y post E. apply (H (c :: pre) x y post). now rewrite E. Qed.
Lemma alternating_head c d cs : alternating (c :: d :: cs) -> real c <> real d.
Proof. intros H. apply (H [] c d cs). reflexivity. Qed.

Lemma reported_cons m cs u v : reported_same (NoChange m :: cs) u v <->
  (exists p, p < cs_n m /\ u = cs_b m + p /\ v = cs_a m + p) \/ reported_same cs u v.
Proof.
  unfold reported_same. split.
  - intros (x & p & [Hx|Hx] & H0); [injection Hx as <-; left; eauto|right; eauto].
  - intros [(p & H)|(x & p & Hx & H)]; [exists m, p; split; [now left|auto]|exists x, p; split; [now right|auto]].
Qed.
Lemma reported_real c cs u v : real c = true -> (reported_same (c :: cs) u v <-> reported_same cs u v).
Proof.
  intros Hr. unfold reported_same. split.
  - intros (x & p & [->|Hx] & H); [discriminate|eauto].
  - intros (x & p & Hx & H). exists x, p. split; [now right|auto].
Qed.

(* after a real change, a list either ends or goes on with an unchanged block at its start *)
Lemma after_real c cs n m : alternating (c :: cs) -> real c = true -> tiles (b_to c) (a_to c) cs n m -> Forall non_empty cs ->
  (cs = [] /\ b_to c = n /\ a_to c = m) \/ reported_same cs (b_to c) (a_to c).
Proof.
  intros Ha Hr Ht Hne. destruct cs as [|d cs]; [left; inversion Ht; auto|right].
  apply alternating_head in Ha. destruct d as [x| | |]; simpl in Ha; try congruence.
  inversion Ht as [|? ? ? ? ? ? B A _]; subst. inversion Hne; subst. simpl in *.
  exists x, 0. split; [now left|]. lia.
Qed.

Lemma change_determined c d : real c = true -> real d = true -> non_empty c -> non_empty d ->
  b_from c = b_from d -> a_from c = a_from d -> b_to c = b_to d -> a_to c = a_to d -> c = d.
Proof.
  intros Rc Rd Nc Nd. destruct c as [|[? ?] ?|? [? ?]|[? ?] [? ?]], d as [|[? ?] ?|? [? ?]|[? ?] [? ?]]; simpl in *;
    try discriminate; intros; subst; try reflexivity; lia.
Qed.

Lemma changes_determined cs1 : forall cs2 i j n m,
  tiles i j cs1 n m -> tiles i j cs2 n m -> alternating cs1 -> alternating cs2 ->
  Forall non_empty cs1 -> Forall non_empty cs2 ->
  (forall u v, reported_same cs1 u v <-> reported_same cs2 u v) -> cs1 = cs2.
Proof.
  induction cs1 as [|c1 cs1 IH]; intros cs2 i j n m T1 T2 A1 A2 N1 N2 Heq.
  - inversion T1; subst. destruct cs2 as [|c2 cs2]; [reflexivity|]. exfalso. inversion N2; subst.
    apply tiles_moves in T2 as (_ & _ & M1 & M2 & M3 & T2); [|assumption].
    apply tiles_from in T2; [|assumption]. lia.
  - destruct cs2 as [|c2 cs2].
    { exfalso. inversion T2; subst. inversion N1; subst.
      apply tiles_moves in T1 as (_ & _ & M1 & M2 & M3 & T1); [|assumption].
      apply tiles_from in T1; [|assumption]. lia. }
    inversion N1 as [|? ? E1 F1]; subst. inversion N2 as [|? ? E2 F2]; subst.
    apply tiles_moves in T1 as (B1 & C1 & M1 & M2 & M3 & T1); [|assumption].
    apply tiles_moves in T2 as (B2 & C2 & L1 & L2 & L3 & T2); [|assumption].
    destruct (tiles_from _ _ _ _ _ T1 F1) as (G1 & G2 & G3). destruct (tiles_from _ _ _ _ _ T2 F2) as (K1 & K2 & K3).
    destruct (real c1) eqn:R1; destruct (real c2) eqn:R2.
    + (* two real changes *)
      assert (Heq' : forall u v, reported_same cs1 u v <-> reported_same cs2 u v).
      { intros u v. rewrite <- (reported_real c1 cs1), <- (reported_real c2 cs2) by assumption. apply Heq. }
      assert (b_to c1 = b_to c2 /\ a_to c1 = a_to c2) as [Eb Ea].
      { destruct (after_real _ _ _ _ A1 R1 T1 F1) as [(-> & X1 & X2)|X];
          destruct (after_real _ _ _ _ A2 R2 T2 F2) as [(-> & Y1 & Y2)|Y].
        - lia.
        - apply Heq' in Y. destruct Y as (? & ? & [] & _).
        - apply Heq' in X. destruct X as (? & ? & [] & _).
        - apply Heq' in X. apply Heq' in Y. apply K3 in X. apply G3 in Y. lia. }
      assert (c1 = c2) as -> by (apply change_determined; auto; lia).
      f_equal. eapply IH; eauto using alternating_tail.
    + (* the pair (i,j) is reported by the second only *)
      exfalso. destruct c2 as [x| | |]; try discriminate. simpl in *.
      assert (X : reported_same (NoChange x :: cs2) i j) by (apply reported_cons; left; exists 0; lia).
      apply Heq in X. rewrite reported_real in X by assumption. apply G3 in X. lia.
    + exfalso. destruct c1 as [x| | |]; try discriminate. simpl in *.
      assert (X : reported_same (NoChange x :: cs1) i j) by (apply reported_cons; left; exists 0; lia).
      apply Heq in X. rewrite reported_real in X by assumption. apply K3 in X. lia.
    + destruct c1 as [x| | |]; try discriminate. destruct c2 as [y| | |]; try discriminate. simpl in *.
      assert (cs_n x = cs_n y) as En.
      { destruct (Nat.lt_trichotomy (cs_n x) (cs_n y)) as [H|[H|H]]; [exfalso|assumption|exfalso].
        - assert (X : reported_same (NoChange y :: cs2) (i + cs_n x) (j + cs_n x)) by (apply reported_cons; left; exists (cs_n x); lia).
          apply Heq, reported_cons in X as [(p & X)|X]; [lia|].
          destruct cs1 as [|d cs1]; [destruct X as (? & ? & [] & _)|].
          apply alternating_head in A1. simpl in A1. destruct (real d) eqn:Rd; [|congruence]. inversion F1; subst.
          apply tiles_moves in T1 as (_ & _ & ? & ? & ? & T1); [|assumption].
          rewrite reported_real in X by assumption. apply (tiles_from _ _ _ _ _ T1) in X; [|assumption]. lia.
        - assert (X : reported_same (NoChange x :: cs1) (i + cs_n y) (j + cs_n y)) by (apply reported_cons; left; exists (cs_n y); lia).
          apply Heq, reported_cons in X as [(p & X)|X]; [lia|].
          destruct cs2 as [|d cs2]; [destruct X as (? & ? & [] & _)|].
          apply alternating_head in A2. simpl in A2. destruct (real d) eqn:Rd; [|congruence]. inversion F2; subst.
          apply tiles_moves in T2 as (_ & _ & ? & ? & ? & T2); [|assumption].
          rewrite reported_real in X by assumption. apply (tiles_from _ _ _ _ _ T2) in X; [|assumption]. lia. }
      assert (x = y) as -> by (destruct x, y; simpl in *; f_equal; lia).
      f_equal. eapply IH; eauto using alternating_tail.
      intros u v. specialize (Heq u v). rewrite !reported_cons in Heq. split; intros X.
      * pose proof (G3 _ _ X). destruct Heq as [Heq _]. destruct (Heq (or_intror X)) as [(p & Y)|Y]; [lia|assumption].
      * pose proof (K3 _ _ X). destruct Heq as [_ Heq]. destruct (Heq (or_intror X)) as [(p & Y)|Y]; [lia|assumption].
Qed.

Section Generate.
  Context {T : Type} (eqb : T -> T -> bool) (Heqb : lawful eqb).
  Variable indices : T -> option (list nat).
  Variables before after : list T.
  Hypothesis Hind : forall x, index_spec before x (indices x).
  Notation whole := (range_from before 0).
  Notation whole' := (range_from after 0).

  Lemma generate_blocks : exists cs l, generate eqb indices before after = Ok cs /\
    proper (length before) (length after) cs /\ blocks_of before after whole whole' l /\
    (forall i j, reported_same cs i j <-> paired l i j) /\
    (forall rb ra, In (Replace rb ra) cs -> clear before after (r_start rb) (r_start ra) (r_end rb) (r_end ra)).
  Proof.
    destruct (loop_spec eqb Heqb indices before after Hind) as (raw & l & E & P & Hc & Hg & Hb).
    unfold generate, longest_common_subsequences. rewrite E. cbn [bind].
    assert (Es : cs_sort raw = l).
    { apply sorted_perm_unique; [apply cs_sort_sorted|eapply chain_sorted; eauto|].
      rewrite <- P. symmetry. apply cs_sort_perm. }
    rewrite Es. destruct (merge_spec _ _ _ Hc) as [M1 M2].
    destruct (generate_loop_spec before after (merge_adjacent l) 0 0 None) as (G1 & G2 & G3 & G4); auto; try congruence.
    exists (generate_loop before after (merge_adjacent l) 0 0), l. split; [reflexivity|].
    split; [split; [assumption|]; split; [eapply alt_from_alternating; eauto|assumption]|].
    split; [assumption|]. split.
    - intros i j. assert (Hp : paired (merge_adjacent l) i j <-> paired l i j).
      { destruct l as [|c l']; [reflexivity|]. apply merge_from_paired. }
      rewrite <- Hp. unfold reported_same, paired. split; intros (m & p & Hm & H); exists m, p; (split; [now apply G4|assumption]).
    - intros rb ra Hin. apply blocks_gaps in Hb. cbn [range_from r_start r_end] in Hb.
      eapply generate_loop_replace; [|exact Hin]. destruct l as [|c l']; [assumption|]. now apply merge_from_gaps.
  Qed.

  Lemma generate_iff cs : generate eqb indices before after = Ok cs <->
    proper (length before) (length after) cs /\
    exists l, blocks_of before after whole whole' l /\ forall i j, reported_same cs i j <-> paired l i j.
  Proof.
    destruct generate_blocks as (cs' & l' & E & (P1 & P2 & P3) & B & R & _). split.
    - rewrite E. intros [= <-]. split; [now split|]. now exists l'.
    - intros ((Q1 & Q2 & Q3) & l & Bl & Rl). assert (l = l') as -> by (eapply blocks_of_unique; eauto).
      rewrite E. f_equal. eapply changes_determined; eauto. intros u v. now rewrite R, Rl.
  Qed.
End Generate.

(* Proof_Changes.v - work list, sorting, merging and change generation (changes.rs:212-324). *)
From Verif Require Import Base Model_Seq Model_Changes Model_IO Model_Text Model_Bytes Spec Proof_Seq Proof_Lcs.

(* ---------------- sorting ---------------- *)
Lemma cs_leb_le x y : cs_leb x y = true <-> block_le x y.
Proof.
  unfold cs_leb, block_le. destruct (Nat.eqb_spec (cs_b x) (cs_b y)).
  - destruct (Nat.eqb_spec (cs_a x) (cs_a y)).
    + rewrite Nat.leb_le. lia.
    + rewrite Nat.ltb_lt. lia.
  - rewrite Nat.ltb_lt. lia.
Qed.
Lemma block_le_antisym x y : block_le x y -> block_le y x -> x = y.
Proof. destruct x as [a b c], y as [d e f]; unfold block_le; simpl. intros H1 H2. f_equal; lia. Qed.
Lemma block_le_trans x y z : block_le x y -> block_le y z -> block_le x z.
Proof. unfold block_le. lia. Qed.

Lemma cs_insert_perm x l : Permutation (x :: l) (cs_insert x l).
Proof.
  induction l as [|y l IH]; simpl; [reflexivity|]. destruct (cs_leb x y); [reflexivity|].
  rewrite perm_swap. now constructor.
Qed.
Lemma cs_sort_perm l : Permutation l (cs_sort l).
Proof. induction l as [|x l IH]; simpl; [reflexivity|]. rewrite <- cs_insert_perm. now constructor. Qed.
Lemma cs_insert_sorted x l : StronglySorted block_le l -> StronglySorted block_le (cs_insert x l).
Proof.
  induction l as [|y l IH]; simpl; intros H; [repeat constructor|].
  inversion H as [|? ? H1 H2]; subst. destruct (cs_leb x y) eqn:E.
  - apply cs_leb_le in E. constructor; [assumption|]. constructor; [assumption|].
    eapply Forall_impl; [|exact H2]. intros z Hz. eapply block_le_trans; eauto.
  - constructor; [now apply IH|]. assert (Hyx : block_le y x).
    { assert (Hn : ~ block_le x y) by (rewrite <- cs_leb_le; congruence). unfold block_le in *. lia. }
    rewrite Forall_forall in *. intros z Hz. apply (Permutation_in _ (Permutation_sym (cs_insert_perm x l))) in Hz.
    destruct Hz as [<-|Hz]; auto.
Qed.
Lemma cs_sort_sorted l : StronglySorted block_le (cs_sort l).
Proof. induction l as [|x l IH]; simpl; [constructor|]. now apply cs_insert_sorted. Qed.

Lemma sorted_perm_unique l1 l2 :
  StronglySorted block_le l1 -> StronglySorted block_le l2 -> Permutation l1 l2 -> l1 = l2.
Proof.
  revert l2; induction l1 as [|x l1 IH]; intros l2 H1 H2 Hp; [now apply Permutation_nil in Hp|].
  destruct l2 as [|y l2]; [now apply Permutation_sym, Permutation_nil in Hp|].
  inversion H1 as [|? ? A1 A2]; subst. inversion H2 as [|? ? B1 B2]; subst.
  rewrite Forall_forall in A2, B2.
  assert (x = y) as ->.
  { assert (Hx : In x (y :: l2)) by (apply (Permutation_in _ Hp); now left).
    assert (Hy : In y (x :: l1)) by (apply (Permutation_in _ (Permutation_sym Hp)); now left).
    destruct Hx as [->|Hx]; [reflexivity|]. destruct Hy as [->|Hy]; [reflexivity|].
    apply block_le_antisym; auto. }
  f_equal. apply IH; auto. eapply Permutation_cons_inv; eauto.
Qed.

(* ---------------- chains of blocks ---------------- *)
Inductive chain : nat -> nat -> list common -> nat -> nat -> Prop :=
| chain_nil i j n m : i <= n -> j <= m -> chain i j [] n m
| chain_cons i j c l n m : i <= cs_b c -> j <= cs_a c -> 0 < cs_n c ->
    chain (cs_before_end c) (cs_after_end c) l n m -> chain i j (c :: l) n m.

Lemma chain_mid i j l1 c l2 n m : chain i j l1 (cs_b c) (cs_a c) -> 0 < cs_n c ->
  chain (cs_before_end c) (cs_after_end c) l2 n m -> chain i j (l1 ++ c :: l2) n m.
Proof.
  intros H Hn H2. remember (cs_b c) as x eqn:Ex. remember (cs_a c) as y eqn:Ey.
  induction H as [i j x y H1 H3|i j c0 l x y H1 H3 H4 H5 IH]; simpl.
  - subst. now constructor.
  - constructor; auto.
Qed.
Lemma chain_le i j l n m : chain i j l n m -> i <= n /\ j <= m.
Proof. induction 1 as [|i j c l n m H1 H2 H3 H4 IH]; [auto|]. unfold cs_before_end, cs_after_end in IH. lia. Qed.
Lemma chain_in i j l n m c : chain i j l n m -> In c l -> i <= cs_b c /\ j <= cs_a c /\ 0 < cs_n c /\ cs_before_end c <= n /\ cs_after_end c <= m.
Proof.
  induction 1 as [|i j d l n m H1 H2 H3 H4 IH]; intros Hin; [destruct Hin|].
  destruct Hin as [->|Hin].
  - apply chain_le in H4. repeat split; lia.
  - specialize (IH Hin). unfold cs_before_end, cs_after_end in *. lia.
Qed.
Lemma chain_sorted i j l n m : chain i j l n m -> StronglySorted block_le l.
Proof.
  induction 1 as [|i j d l n m H1 H2 H3 H4 IH]; constructor; auto.
  apply Forall_forall. intros c Hc. eapply chain_in in Hc; eauto. unfold block_le, cs_before_end in *. lia.
Qed.

Section Generate.
  Context {T : Type} (eqb : T -> T -> bool) (Heqb : lawful eqb).
  Variable indices : T -> option (list nat).
  Variables before after : list T.
  Hypothesis Hind : forall x, index_spec before x (indices x).

  Notation same := (same_at before after).
  Notation block := (common_block before after).
  Notation lcs := (longest_common_subsequence eqb indices before after).

  (* what every collected block satisfies: a genuinely common block followed, if the
     trailing extension fired, by one differing pair and further equal pairs *)
  Definition collected (c : common) : Prop :=
    exists n ext, cs_n c = n + ext /\ 0 < n /\ block (cs_b c) (cs_a c) n /\
      (ext = 0 \/ (differ_at before after (cs_b c + n) (cs_a c + n) /\
                   block (cs_b c + n + 1) (cs_a c + n + 1) ext)).

  Lemma collected_common c : no_isolated_mismatch before after -> collected c ->
    block (cs_b c) (cs_a c) (cs_n c).
  Proof.
    intros Hno (n & ext & E & Hn & Hb & [->|[Hd Hb2]]); [now rewrite E, Nat.add_0_r|].
    destruct (Nat.eq_dec ext 0) as [->|Hext]; [now rewrite E, Nat.add_0_r|]. exfalso.
    apply (Hno (cs_b c + (n - 1)) (cs_a c + (n - 1))). repeat split.
    - apply Hb. lia.
    - replace (S (cs_b c + (n - 1))) with (cs_b c + n) by lia. now replace (S (cs_a c + (n - 1))) with (cs_a c + n) by lia.
    - replace (S (S (cs_b c + (n - 1)))) with (cs_b c + n + 1 + 0) by lia.
      replace (S (S (cs_a c + (n - 1)))) with (cs_a c + n + 1 + 0) by lia. apply Hb2. lia.
  Qed.

  Lemma loop_pair : forall d br ar, r_end br - r_start br < d -> in_bounds before br -> in_bounds after ar ->
    exists l k, k <= 2 * (r_end br - r_start br) + 1 /\
      chain (r_start br) (r_start ar) l (r_end br) (r_end ar) /\ (Forall collected l /\ blocks_of before after br ar l) /\
      forall fuel rest raw, exists raw', Permutation raw' (raw ++ l) /\
        lcs_loop eqb indices before after (k + fuel) ((br, ar) :: rest) raw =
        lcs_loop eqb indices before after fuel rest raw'.
  Proof.
    induction d as [|d IH]; intros br ar Hd Hbr Har; [lia|].
    destruct (lcs_spec eqb Heqb indices before after Hind br ar Hbr Har) as [[E Hno]|(x & y & n & ext & E & Hf & Hext & Hrun)].
    - exists [], 1. split; [lia|]. split; [destruct Hbr, Har; now constructor|]. split; [split; [constructor|now constructor]|].
      intros fuel rest raw. exists raw. rewrite app_nil_r. split; [reflexivity|].
      cbn [Nat.add lcs_loop]. rewrite E. reflexivity.
    - assert (Hfl : first_longest before after br ar x y n).
      { destruct Hf as (F1 & F2 & F3). split; [assumption|]. split; [assumption|]. intros x' y' n' HB.
        destruct (F3 _ _ _ HB). lia. }
      assert (Hru : run_of before after br ar (x + n + 1) (y + n + 1) ext).
      { destruct Hf as (_ & ((J1 & _) & (J2 & _) & _) & _). split.
        - intros t Ht. destruct Hext as [->|(_ & [_ D1] & [_ D2] & D3)]; [lia|]. split; [lia|]. split; [lia|]. now apply D3.
        - intros (K1 & K2 & K3). apply Hrun; [split; lia|split; lia|assumption]. }
      destruct Hf as (Hn & (Hi1 & Hi2 & Hb) & _). destruct Hbr as [Hb1 Hb2], Har as [Ha1 Ha2].
      set (c := CS x y (n + ext)).
      assert (Hc : collected c).
      { exists n, ext. repeat split; auto. destruct Hext as [->|(D1 & _ & _ & D2)]; [now left|right; now split]. }
      assert (Hin : r_start br <= x /\ x + (n + ext) <= r_end br /\ r_start ar <= y /\ y + (n + ext) <= r_end ar).
      { destruct Hi1, Hi2. destruct Hext as [->|(_ & [D1 D2] & [D3 D4] & _)]; lia. }
      destruct Hin as (I1 & I2 & I3 & I4).
      (* left part *)
      assert (HL : exists l k, k <= (2 * (x - r_start br) + 1) /\ chain (r_start br) (r_start ar) l x y /\ (Forall collected l /\ blocks_of before after (Range (r_start br) x) (Range (r_start ar) y) l) /\
                forall fuel rest raw, exists raw', Permutation raw' (raw ++ l) /\
                  lcs_loop eqb indices before after (k + fuel)
                    (if (r_start br <? x) && (r_start ar <? y)
                     then (Range (r_start br) x, Range (r_start ar) y) :: rest else rest) raw =
                  lcs_loop eqb indices before after fuel rest raw').
      { destruct ((r_start br <? x) && (r_start ar <? y)) eqn:Ec.
        - destruct (IH (Range (r_start br) x) (Range (r_start ar) y)) as (l & k & K1 & K2 & K3 & K4).
          + simpl. lia.
          + split; simpl; lia.
          + split; simpl; lia.
          + exists l, k. auto.
        - exists [], 0. split; [lia|]. split; [constructor; lia|].
          split; [split; [constructor|constructor; unfold inside; cbn [r_start r_end]; intros; apply andb_false_iff in Ec; rewrite !Nat.ltb_ge in Ec; lia]|].
          intros fuel rest raw. exists raw. rewrite app_nil_r. now split. }
      assert (HR : exists l k, k <= (2 * (r_end br - (x + (n + ext))) + 1) /\
                chain (x + (n + ext)) (y + (n + ext)) l (r_end br) (r_end ar) /\ (Forall collected l /\ blocks_of before after (Range (x + (n + ext)) (r_end br)) (Range (y + (n + ext)) (r_end ar)) l) /\
                forall fuel rest raw, exists raw', Permutation raw' (raw ++ l) /\
                  lcs_loop eqb indices before after (k + fuel)
                    (if (x + (n + ext) <? r_end br) && (y + (n + ext) <? r_end ar)
                     then (Range (x + (n + ext)) (r_end br), Range (y + (n + ext)) (r_end ar)) :: rest else rest) raw =
                  lcs_loop eqb indices before after fuel rest raw').
      { destruct ((x + (n + ext) <? r_end br) && (y + (n + ext) <? r_end ar)) eqn:Ec.
        - destruct (IH (Range (x + (n + ext)) (r_end br)) (Range (y + (n + ext)) (r_end ar))) as (l & k & K1 & K2 & K3 & K4).
          + simpl. lia.
          + split; simpl; lia.
          + split; simpl; lia.
          + exists l, k. auto.
        - exists [], 0. split; [lia|]. split; [constructor; lia|].
          split; [split; [constructor|constructor; unfold inside; cbn [r_start r_end]; intros; apply andb_false_iff in Ec; rewrite !Nat.ltb_ge in Ec; lia]|].
          intros fuel rest raw. exists raw. rewrite app_nil_r. now split. }
      destruct HL as (l1 & k1 & L1 & L2 & (L3 & L5) & L4). destruct HR as (l2 & k2 & R1 & R2 & (R3 & R5) & R4).
      exists (l1 ++ c :: l2), (1 + k2 + k1). split; [lia|]. split.
      { apply chain_mid; auto. simpl. lia. }
      split.
      { split; [apply Forall_app; split; [assumption|constructor; assumption]|].
        apply blocks_some; try assumption. now rewrite <- !Nat.add_assoc. }
      intros fuel rest raw. cbn [Nat.add lcs_loop]. rewrite E. cbn [bind]. fold c.
      unfold cs_before_end, cs_after_end. change (cs_b c) with x. change (cs_a c) with y. change (cs_n c) with (n + ext).
      cbv zeta. rewrite <- Nat.add_assoc.
      edestruct R4 as (raw2 & P2 & ->).
      edestruct L4 as (raw1 & P1 & ->).
      exists raw1. split; [|reflexivity]. rewrite P1, P2.
      rewrite <- !app_assoc. apply Permutation_app_head. simpl.
      transitivity (c :: (l1 ++ l2)); [constructor; apply Permutation_app_comm|apply Permutation_middle].
  Qed.

  Lemma loop_spec : exists raw l, lcs_loop eqb indices before after (lcs_fuel before) [(range_from before 0, range_from after 0)] [] = Ok raw /\
    Permutation raw l /\ chain 0 0 l (length before) (length after) /\ Forall collected l /\
    blocks_of before after (range_from before 0) (range_from after 0) l.
  Proof.
    destruct (loop_pair (S (length before)) (range_from before 0) (range_from after 0)) as (l & k & K1 & K2 & (K3 & K5) & K4).
    - simpl. lia.
    - split; simpl; lia.
    - split; simpl; lia.
    - simpl in K1. unfold lcs_fuel.
      replace (2 * length before + 2) with (k + S (2 * length before + 1 - k)) by lia.
      destruct (K4 (S (2 * length before + 1 - k)) [] []) as (raw & P & E). rewrite E.
      exists raw, l. split; [reflexivity|]. split; [assumption|]. auto.
  Qed.

  (* ---------------- merging ---------------- *)
  Definition adjacent (x y : common) : Prop := cs_before_end x = cs_b y /\ cs_after_end x = cs_a y.
  Fixpoint separated (l : list common) : Prop :=
    match l with
    | [] => True
    | x :: tl => match tl with [] => True | y :: _ => ~ adjacent x y end /\ separated tl
    end.

  Lemma merge_from_head c l : exists c' l', merge_from c l = c' :: l' /\ cs_b c' = cs_b c /\ cs_a c' = cs_a c.
  Proof.
    revert c; induction l as [|d l IH]; intros c; simpl; [now exists c, []|].
    destruct ((cs_before_end c =? cs_b d) && (cs_after_end c =? cs_a d)).
    - destruct (IH (incr_size_moving_ends c (cs_n d))) as (c' & l' & -> & H1 & H2). now exists c', l'.
    - now exists c, (merge_from d l).
  Qed.

  Lemma merge_from_spec l : forall c i j n m, chain i j (c :: l) n m ->
    chain i j (merge_from c l) n m /\ separated (merge_from c l).
  Proof.
    induction l as [|d l IH]; intros c i j n m H; simpl.
    - split; [assumption|]. now split.
    - inversion H as [|? ? ? ? ? ? H1 H2 H3 H4]; subst. inversion H4 as [|? ? ? ? ? ? H5 H6 H7 H8]; subst.
      destruct ((cs_before_end c =? cs_b d) && (cs_after_end c =? cs_a d)) eqn:E.
      + apply andb_true_iff in E as [E1 E2]. apply Nat.eqb_eq in E1, E2.
        apply IH. constructor; simpl; try lia.
        unfold cs_before_end, cs_after_end in *. simpl.
        now replace (cs_b c + (cs_n c + cs_n d)) with (cs_b d + cs_n d) by lia;
            replace (cs_a c + (cs_n c + cs_n d)) with (cs_a d + cs_n d) by lia.
      + destruct (IH d _ _ _ _ H4) as [I1 I2]. split; [now constructor|].
        cbn [separated]. destruct (merge_from_head d l) as (c' & l' & Em & Hb & Ha). rewrite Em in *.
        split; [|assumption]. intros [E1 E2]. rewrite Hb in E1. rewrite Ha in E2.
        apply andb_false_iff in E. rewrite !Nat.eqb_neq in E. lia.
  Qed.

  Lemma merge_spec l n m : chain 0 0 l n m -> chain 0 0 (merge_adjacent l) n m /\ separated (merge_adjacent l).
  Proof. destruct l as [|c l]; intros H; [now split|]. now apply merge_from_spec. Qed.

  Notation common_c := (fun c => block (cs_b c) (cs_a c) (cs_n c)).
  Lemma merge_from_common l : forall c, common_c c -> Forall common_c l -> Forall common_c (merge_from c l).
  Proof.
    induction l as [|d l IH]; intros c Hc Hl; simpl; [now constructor|].
    inversion Hl as [|? ? H1 H2]; subst.
    destruct ((cs_before_end c =? cs_b d) && (cs_after_end c =? cs_a d)) eqn:E.
    - apply andb_true_iff in E as [E1 E2]. apply Nat.eqb_eq in E1, E2. unfold cs_before_end, cs_after_end in *.
      apply IH; [|assumption]. simpl. apply block_app; [assumption|]. now rewrite E1, E2.
    - constructor; [assumption|]. now apply IH.
  Qed.
  Lemma merge_common l : Forall common_c l -> Forall common_c (merge_adjacent l).
  Proof. destruct l as [|c l]; intros H; [assumption|]. inversion H; subst. now apply merge_from_common. Qed.

  (* ---------------- the change list ---------------- *)
  Lemma tiles_app i j l1 l2 x y n m : tiles i j l1 x y -> tiles x y l2 n m -> tiles i j (l1 ++ l2) n m.
  Proof. induction 1 as [|i j c l x y H1 H2 H3 IH]; intros H; [assumption|]. simpl. constructor; auto. Qed.

  Lemma gap_spec i j x y : i <= x -> j <= y ->
    tiles i j (gap_change i j x y) x y /\ Forall non_empty (gap_change i j x y) /\ Forall (fun c => real c = true) (gap_change i j x y) /\
    ((gap_change i j x y = [] /\ i = x /\ j = y) \/ exists c, gap_change i j x y = [c]).
  Proof.
    intros Hx Hy. unfold gap_change.
    destruct (Nat.ltb_spec i x); destruct (Nat.ltb_spec j y); simpl.
    - split; [repeat constructor|]. split; [repeat constructor; simpl; lia|]. split; [repeat constructor|right; eauto].
    - assert (j = y) by lia. subst. split; [repeat constructor|]. split; [repeat constructor; simpl; lia|]. split; [repeat constructor|right; eauto].
    - assert (i = x) by lia. subst. split; [repeat constructor|]. split; [repeat constructor; simpl; lia|]. split; [repeat constructor|right; eauto].
    - assert (i = x) by lia. assert (j = y) by lia. subst. split; [constructor|]. split; [constructor|]. split; [constructor|now left].
  Qed.

  Fixpoint alt_from (prev : option bool) (cs : list change) : Prop :=
    match cs with
    | [] => True
    | c :: tl => prev <> Some (real c) /\ alt_from (Some (real c)) tl
    end.
  Lemma alt_from_alternating prev cs : alt_from prev cs -> alternating cs.
  Proof.
    unfold alternating. revert prev; induction cs as [|c cs IH]; intros prev H pre x y post E; [destruct pre; discriminate|].
    destruct H as [H1 H2]. destruct pre as [|p pre]; simpl in E; injection E as E1 E2; subst.
    - destruct H2 as [H2 _]. congruence.
    - eapply IH; eauto.
  Qed.

  Lemma generate_loop_spec l : forall i j prev,
    chain i j l (length before) (length after) -> separated l ->
    (prev <> Some true) ->
    (prev = Some false -> match l with [] => True | c :: _ => ~ (cs_b c = i /\ cs_a c = j) end) ->
    tiles i j (generate_loop before after l i j) (length before) (length after) /\
    Forall non_empty (generate_loop before after l i j) /\
    alt_from prev (generate_loop before after l i j) /\
    (forall c, In (NoChange c) (generate_loop before after l i j) <-> In c l).
  Proof.
    induction l as [|c l IH]; intros i j prev H Hs Hp Hq; cbn [generate_loop].
    - inversion H; subst. destruct (gap_spec i j (length before) (length after)) as (G1 & G2 & G3 & G4); auto.
      repeat split; auto.
      + destruct G4 as [(E & _)|[c E]]; rewrite E; simpl; [trivial|].
        rewrite E in G3. inversion G3; subst. split; [congruence|trivial].
      + intros Hin. rewrite Forall_forall in G3. apply G3 in Hin. discriminate.
      + intros [].
    - inversion H as [|? ? ? ? ? ? H1 H2 H3 H4]; subst. destruct Hs as [Hs1 Hs2].
      destruct (gap_spec i j (cs_b c) (cs_a c)) as (G1 & G2 & G3 & G4); auto.
      destruct (IH (cs_before_end c) (cs_after_end c) (Some false)) as (I1 & I2 & I3 & I4); auto; [congruence| |].
      { intros _. destruct l as [|d l]; [trivial|]. intros [E1 E2]. apply Hs1. now split. }
      repeat split.
      + eapply tiles_app; [exact G1|]. now constructor.
      + apply Forall_app. split; [assumption|]. constructor; [assumption|assumption].
      + destruct G4 as [(E & -> & ->)|[g E]]; rewrite E; simpl.
        * split; [|assumption]. intros ->. now apply Hq.
        * rewrite E in G3. inversion G3; subst. split; [congruence|]. split; [congruence|assumption].
      + intros Hin. apply in_app_or in Hin as [Hin|[[= ->]|Hin]]; [|now left|right; now apply I4].
        rewrite Forall_forall in G3. apply G3 in Hin. discriminate.
      + intros [->|Hin]; apply in_or_app; right; [now left|right; now apply I4].
  Qed.

  (* ---------------- main results ---------------- *)
  Lemma lcses_spec : exists l, longest_common_subsequences eqb indices before after = Ok l /\
    chain 0 0 l (length before) (length after) /\ separated l /\
    (no_isolated_mismatch before after -> Forall common_c l).
  Proof.
    destruct loop_spec as (raw & l & E & P & Hc & Hg & _).
    unfold longest_common_subsequences. rewrite E. cbn [bind].
    assert (Es : cs_sort raw = l).
    { apply sorted_perm_unique; [apply cs_sort_sorted|eapply chain_sorted; eauto|].
      rewrite <- P. symmetry. apply cs_sort_perm. }
    rewrite Es. exists (merge_adjacent l). split; [reflexivity|].
    destruct (merge_spec _ _ _ Hc) as [M1 M2]. split; [assumption|]. split; [assumption|].
    intros Hno. apply merge_common. eapply Forall_impl; [|exact Hg]. intros c Hcc. now apply collected_common.
  Qed.

  Lemma generate_spec : exists cs, generate eqb indices before after = Ok cs /\
    tiles 0 0 cs (length before) (length after) /\ Forall non_empty cs /\ alternating cs /\
    (no_isolated_mismatch before after -> faithful before after cs).
  Proof.
    destruct lcses_spec as (l & E & Hc & Hs & Hf). unfold generate. rewrite E. cbn [bind].
    exists (generate_loop before after l 0 0). split; [reflexivity|].
    destruct (generate_loop_spec l 0 0 None) as (G1 & G2 & G3 & G4); auto; try congruence.
    split; [assumption|]. split; [assumption|]. split; [eapply alt_from_alternating; eauto|].
    intros Hno m Hm. apply G4 in Hm. specialize (Hf Hno). rewrite Forall_forall in Hf. now apply Hf.
  Qed.

  (* what an unchanged block may contain *)
  Notation nearly_c := (fun c => nearly_common before after (cs_b c) (cs_a c) (cs_n c)).
  Lemma collected_nearly c : collected c -> nearly_c c.
  Proof.
    intros (n & ext & E & Hn & Hb & Hext) t Ht. rewrite E in *.
    destruct (Nat.lt_ge_cases t n) as [H|H]; [left; now apply Hb|].
    destruct Hext as [->|[Hd Hb2]]; [lia|].
    destruct (Nat.eq_dec t n) as [->|Hne].
    - right. split; [exact Hd|]. split; [lia|]. split; [apply Hb; lia|].
      replace (cs_b c + S n) with (cs_b c + n + 1 + 0) by lia. replace (cs_a c + S n) with (cs_a c + n + 1 + 0) by lia. apply Hb2. lia.
    - left. replace (cs_b c + t) with (cs_b c + n + 1 + (t - n - 1)) by lia.
      replace (cs_a c + t) with (cs_a c + n + 1 + (t - n - 1)) by lia. apply Hb2. lia.
  Qed.
  Lemma nearly_app x y n m : nearly_common before after x y n -> nearly_common before after (x + n) (y + n) m ->
    nearly_common before after x y (n + m).
  Proof.
    intros H1 H2 t Ht. destruct (Nat.lt_ge_cases t n) as [H|H].
    - destruct (H1 t H) as [?|Hr]; [now left|now right].
    - destruct (H2 (t - n)) as [Hs|(Hd & H3 & H5 & H6)]; [lia| |].
      + left. replace (x + t) with (x + n + (t - n)) by lia. now replace (y + t) with (y + n + (t - n)) by lia.
      + right. split; [replace (x + t) with (x + n + (t - n)) by lia; now replace (y + t) with (y + n + (t - n)) by lia|].
        split; [lia|].
        split; [replace (x + (t - 1)) with (x + n + (t - n - 1)) by lia; now replace (y + (t - 1)) with (y + n + (t - n - 1)) by lia|].
        replace (x + S t) with (x + n + S (t - n)) by lia. now replace (y + S t) with (y + n + S (t - n)) by lia.
  Qed.
  Lemma merge_from_nearly l : forall c, nearly_c c -> Forall nearly_c l -> Forall nearly_c (merge_from c l).
  Proof.
    induction l as [|d l IH]; intros c Hc Hl; simpl; [now constructor|].
    inversion Hl as [|? ? H1 H2]; subst.
    destruct ((cs_before_end c =? cs_b d) && (cs_after_end c =? cs_a d)) eqn:E.
    - apply andb_true_iff in E as [E1 E2]. apply Nat.eqb_eq in E1, E2. unfold cs_before_end, cs_after_end in *.
      apply IH; [|assumption]. simpl. apply nearly_app; [assumption|]. now rewrite E1, E2.
    - constructor; [assumption|]. now apply IH.
  Qed.
  Lemma generate_nearly cs m : generate eqb indices before after = Ok cs -> In (NoChange m) cs ->
    nearly_common before after (cs_b m) (cs_a m) (cs_n m).
  Proof.
    destruct loop_spec as (raw & l & E & P & Hc & Hg & _).
    unfold generate, longest_common_subsequences. rewrite E. cbn [bind].
    assert (Es : cs_sort raw = l).
    { apply sorted_perm_unique; [apply cs_sort_sorted|eapply chain_sorted; eauto|].
      rewrite <- P. symmetry. apply cs_sort_perm. }
    rewrite Es. intros [= <-] Hm.
    destruct (merge_spec _ _ _ Hc) as [M1 M2].
    destruct (generate_loop_spec (merge_adjacent l) 0 0 None) as (_ & _ & _ & G4); auto; try congruence.
    apply G4 in Hm.
    assert (HF : Forall nearly_c (merge_adjacent l)).
    { destruct l as [|c l']; [constructor|]. inversion Hg; subst. apply merge_from_nearly; [now apply collected_nearly|].
      eapply Forall_impl; [|eassumption]. intros c' Hcc. now apply collected_nearly. }
    rewrite Forall_forall in HF. now apply HF.
  Qed.

  (* the outcome with any other sort *)
  Lemma generate_any_sort raw sorted :
    lcs_loop eqb indices before after (lcs_fuel before) [(range_from before 0, range_from after 0)] [] = Ok raw ->
    Permutation raw sorted -> StronglySorted block_le sorted ->
    generate eqb indices before after = Ok (generate_loop before after (merge_adjacent sorted) 0 0).
  Proof.
    intros E P S. unfold generate, longest_common_subsequences. rewrite E. cbn [bind].
    assert (cs_sort raw = sorted) as ->; [|reflexivity].
    apply sorted_perm_unique; [apply cs_sort_sorted|assumption|]. rewrite <- P. symmetry. apply cs_sort_perm.
  Qed.

  (* ---------------- one inside the other ---------------- *)
  Lemma generate_single x y n : lcs (range_from before 0) (range_from after 0) = Ok (Some (CS x y n)) ->
    (x = 0 \/ y = 0) -> (x + n = length before \/ y + n = length after) ->
    generate eqb indices before after = Ok (gap_change 0 0 x y ++ NoChange (CS x y n) ::
                                            gap_change (x + n) (y + n) (length before) (length after)).
  Proof.
    intros E Hl Hr. unfold generate, longest_common_subsequences, lcs_fuel.
    replace (2 * length before + 2) with (S (S (2 * length before))) by lia.
    cbn [lcs_loop]. rewrite E. cbn [bind]. unfold cs_before_end, cs_after_end. cbn [cs_b cs_a cs_n range_from r_start r_end].
    assert ((0 <? x) && (0 <? y) = false) as ->.
    { apply andb_false_iff. rewrite !Nat.ltb_ge. lia. }
    assert ((x + n <? length before) && (y + n <? length after) = false) as ->.
    { apply andb_false_iff. rewrite !Nat.ltb_ge. lia. }
    reflexivity.
  Qed.
End Generate.

(* Proof_Overlook.v - how many changes the generator overlooks. *)
From Verif Require Import Base Model_Seq Model_Changes Spec Spec_Shape Spec_Overlook Proof_Seq Proof_Changes Proof_Blocks.

(* ------------------------------------------------------------------ every other item *)
Lemma spaced_length {T} (p : T) xs : length (spaced p xs) = 2 * length xs + 1.
Proof. induction xs as [|x xs IH]; cbn [spaced length] in *; lia. Qed.
Lemma spaced_even {T} (p : T) xs k : k <= length xs -> nth_error (spaced p xs) (2 * k) = Some p.
Proof.
  revert k. induction xs as [|x xs IH]; intros [|k] H; cbn [spaced length] in *; try reflexivity; [lia|].
  replace (2 * S k) with (S (S (2 * k))) by lia. cbn [nth_error]. apply IH. lia.
Qed.
Lemma spaced_odd {T} (p : T) xs k : nth_error (spaced p xs) (2 * k + 1) = nth_error xs k.
Proof.
  revert k. induction xs as [|x xs IH]; intros k; cbn [spaced].
  - replace (2 * k + 1) with (S (2 * k)) by lia. cbn [nth_error]. now destruct (2 * k), k.
  - destruct k as [|k]; [reflexivity|]. replace (2 * S k + 1) with (S (S (2 * k + 1))) by lia. cbn [nth_error]. apply IH.
Qed.

Section Spaced.
  Context {T : Type} (p : T) (xs ys : list T).
  Hypothesis Hl : length xs = length ys.
  Hypothesis Hx : ~ In p xs.
  Hypothesis Hy : ~ In p ys.
  Hypothesis Hxy : forall v, In v xs -> ~ In v ys.
  Let b := spaced p xs.
  Let a := spaced p ys.
  Let N := length xs.

  Lemma spaced_same x y : same_at b a x y <-> exists i j, x = 2 * i /\ y = 2 * j /\ i <= N /\ j <= N.
  Proof.
    unfold same_at, b, a. split.
    - intros (v & H1 & H2).
      assert (L1 : x < 2 * N + 1) by (unfold N; rewrite <- (spaced_length p xs); apply nth_error_Some; congruence).
      assert (L2 : y < 2 * N + 1) by (unfold N; rewrite Hl, <- (spaced_length p ys); apply nth_error_Some; congruence).
      destruct (Nat.Even_or_Odd x) as [[i Ei]|[i Ei]]; destruct (Nat.Even_or_Odd y) as [[j Ej]|[j Ej]]; subst x y.
      + exists i, j. lia.
      + exfalso. rewrite spaced_even in H1 by (fold N; lia). rewrite spaced_odd in H2. injection H1 as <-. apply Hy. eapply nth_error_In, H2.
      + exfalso. rewrite spaced_even in H2 by (rewrite <- Hl; fold N; lia). rewrite spaced_odd in H1. injection H2 as <-. apply Hx. eapply nth_error_In, H1.
      + exfalso. rewrite spaced_odd in H1, H2. apply (Hxy v); eapply nth_error_In; eassumption.
    - intros (i & j & -> & -> & H1 & H2). exists p. split; apply spaced_even; [exact H1|]. rewrite <- Hl. exact H2.
  Qed.

  Lemma spaced_differ k : k < N -> differ_at b a (2 * k + 1) (2 * k + 1).
  Proof.
    intros H. unfold b, a. destruct (nth_error xs k) as [v|] eqn:E1; [|apply nth_error_None in E1; unfold N in H; lia].
    destruct (nth_error ys k) as [w|] eqn:E2; [|apply nth_error_None in E2; unfold N in H; lia].
    exists v, w. rewrite !spaced_odd. split; [assumption|]. split; [assumption|]. intros <-. apply (Hxy v); eapply nth_error_In; eassumption.
  Qed.

  Fixpoint spaced_blocks (k fuel : nat) : list common :=
    match fuel with 0 => [CS (2 * k) (2 * k) 1] | S f => CS (2 * k) (2 * k) 2 :: spaced_blocks (S k) f end.

  Lemma spaced_first k : k <= N -> first_longest b a (Range (2 * k) (2 * N + 1)) (Range (2 * k) (2 * N + 1)) (2 * k) (2 * k) 1.
  Proof.
    intros H. split; [lia|]. split.
    - unfold block_in, inside, common_block. cbn [r_start r_end]. split; [lia|]. split; [lia|]. intros t Ht. apply spaced_same. exists k, k. lia.
    - intros x y n' (I1 & I2 & C). unfold inside in *. cbn [r_start r_end] in *. destruct n' as [|[|n']]; [left; lia|right; lia|].
      exfalso. destruct (proj1 (spaced_same _ _) (C 0 ltac:(lia))) as (i & j & E1 & E2 & _). destruct (proj1 (spaced_same _ _) (C 1 ltac:(lia))) as (i' & j' & E3 & E4 & _). lia.
  Qed.

  Lemma spaced_blocks_of f k : k + f = N -> blocks_of b a (Range (2 * k) (2 * N + 1)) (Range (2 * k) (2 * N + 1)) (spaced_blocks k f).
  Proof.
    revert k. induction f as [|f IH]; intros k H; cbn [spaced_blocks].
    - change [CS (2 * k) (2 * k) 1] with ([] ++ CS (2 * k) (2 * k) (1 + 0) :: []). econstructor.
      + apply spaced_first. lia.
      + split; [lia|]. cbn [r_end]. lia.
      + constructor. intros x y I1 I2. unfold inside in *. cbn [r_start r_end] in *. lia.
      + constructor. intros x y I1 I2. unfold inside in *. cbn [r_start r_end] in *. lia.
    - change (CS (2 * k) (2 * k) 2 :: spaced_blocks (S k) f) with ([] ++ CS (2 * k) (2 * k) (1 + 1) :: spaced_blocks (S k) f). econstructor.
      + apply spaced_first. lia.
      + split; cbn [r_end].
        * intros t Ht. assert (t = 0) as -> by lia. split; [lia|]. split; [lia|]. apply spaced_same. exists (S k), (S k). lia.
        * intros (_ & _ & C). apply spaced_same in C as (i & j & E1 & _). lia.
      + constructor. intros x y I1 I2. unfold inside in *. cbn [r_start r_end] in *. lia.
      + cbn [r_end]. replace (2 * k + 1 + 1) with (2 * S k) by lia. apply IH. lia.
  Qed.

  Lemma spaced_paired f k i j : paired (spaced_blocks k f) i j <-> i = j /\ 2 * k <= i < 2 * (k + f) + 1.
  Proof.
    revert k. induction f as [|f IH]; intros k; cbn [spaced_blocks].
    - split.
      + intros (m & q & [<-|[]] & H). cbn in H. lia.
      + intros [<- H]. exists (CS (2 * k) (2 * k) 1), 0. split; [now left|]. cbn. lia.
    - split.
      + intros (m & q & [<-|Hin] & H); [cbn in H; lia|]. destruct (proj1 (IH (S k))) as [E1 E2]; [now exists m, q|]. lia.
      + intros [<- H]. destruct (Nat.lt_ge_cases i (2 * k + 2)) as [L|L].
        * exists (CS (2 * k) (2 * k) 2), (i - 2 * k). split; [now left|]. cbn. lia.
        * destruct (proj2 (IH (S k))) as (m & q & Hin & R); [split; [reflexivity|]; lia|]. exists m, q. split; [now right|exact R].
  Qed.

  Lemma spaced_changes : proper (length b) (length a) [NoChange (CS 0 0 (2 * N + 1))] /\
    exists l, blocks_of b a (Range 0 (length b)) (Range 0 (length a)) l /\ forall i j, reported_same [NoChange (CS 0 0 (2 * N + 1))] i j <-> paired l i j.
  Proof.
    assert (Lb : length b = 2 * N + 1) by apply spaced_length.
    assert (La : length a = 2 * N + 1) by (unfold a, N; rewrite Hl; apply spaced_length).
    rewrite Lb, La. split.
    - split; [|split].
      + constructor; [reflexivity..|]. constructor.
      + intros pre x y post E. apply (f_equal (@length _)) in E. rewrite app_length in E. cbn in E. lia.
      + constructor; [|constructor]. cbn. lia.
    - exists (spaced_blocks 0 N). split; [exact (spaced_blocks_of N 0 eq_refl)|]. intros i j. rewrite spaced_paired. split.
      + intros (m & q & [H|[]] & R). injection H as <-. cbn in R. lia.
      + intros [<- H]. exists (CS 0 0 (2 * N + 1)), i. split; [now left|]. cbn in *. lia.
  Qed.
End Spaced.

(* ------------------------------------------------------------------ counting *)
(* the pairs reported as unchanged *)
Definition block_pairs (c : change) : list (nat * nat) :=
  match c with NoChange m => map (fun p => (cs_b m + p, cs_a m + p)) (seq 0 (cs_n m)) | _ => [] end.
Definition reported (cs : list change) : list (nat * nat) := concat (map block_pairs cs).
Lemma reported_length cs : length (reported cs) = kept_items cs.
Proof.
  unfold reported, kept_items. induction cs as [|c cs IH]; [reflexivity|]. cbn [map concat list_sum fold_right]. rewrite app_length, IH. f_equal.
  destruct c; cbn [block_pairs]; [|reflexivity..]. now rewrite map_length, seq_length.
Qed.
Lemma reported_in cs q : In q (reported cs) <-> reported_same cs (fst q) (snd q).
Proof.
  unfold reported, reported_same. rewrite in_concat. setoid_rewrite in_map_iff. split.
  - intros (l & (c & <- & Hc) & Hq). destruct c as [m| | |]; try contradiction. cbn [block_pairs] in Hq. apply in_map_iff in Hq as (t & <- & Ht). apply in_seq in Ht.
    exists m, t. cbn. repeat split; [assumption|lia].
  - intros (m & t & Hm & Ht & E1 & E2). exists (block_pairs (NoChange m)). split; [now exists (NoChange m)|]. cbn [block_pairs]. apply in_map_iff. exists t.
    split; [destruct q; cbn in *; congruence|]. apply in_seq. lia.
Qed.
Lemma kept_before cs i j n m : tiles i j cs n m -> Forall non_empty cs -> kept_items cs + i <= n /\ kept_items cs + j <= m.
Proof.
  induction 1 as [|i j c cs n m E1 E2 H IH]; intros F; [cbn; lia|]. inversion F as [|? ? F1 F2]; subst. specialize (IH F2). unfold kept_items in *. cbn [map list_sum fold_right].
  fold (list_sum (map (fun c => match c with NoChange m => cs_n m | _ => 0 end) cs)). destruct c; cbn in *; lia.
Qed.

Lemma NoDup_both {A} (l l' : list A) : NoDup l -> NoDup l' -> (forall x, In x l -> ~ In x l') -> NoDup (l ++ l').
Proof.
  induction 1 as [|x l Hx Hl IH]; intros Hl' H; [exact Hl'|]. cbn [app]. constructor.
  - intros K. apply in_app_or in K as [K|K]; [contradiction|]. apply (H x); [now left|assumption].
  - apply IH; [assumption|]. intros y Hy. apply H. now right.
Qed.
Lemma NoDup_image {A B} (f : A -> B) l : (forall x y, In x l -> In y l -> f x = f y -> x = y) -> NoDup l -> NoDup (map f l).
Proof.
  intros H. induction 1 as [|x l Hx Hl IH]; [constructor|]. cbn [map]. constructor.
  - intros K. apply in_map_iff in K as (y & E & Hy). apply Hx. replace x with y; [assumption|]. apply H; [now right|now left|assumption].
  - apply IH. intros y z Hy Hz. apply H; now right.
Qed.
Lemma overlooked_bound {T} (b a : list T) (cs : list change) :
  (forall m, In (NoChange m) cs -> nearly_common b a (cs_b m) (cs_a m) (cs_n m)) ->
  forall ds, NoDup ds -> (forall q, In q ds -> overlooked b a cs q) -> 2 * length ds <= kept_items cs.
Proof.
  intros Hn ds Hd Ho. set (down := fun q : nat * nat => (fst q - 1, snd q - 1)).
  assert (P : forall q, In q ds -> 0 < fst q /\ 0 < snd q /\ same_at b a (fst q - 1) (snd q - 1) /\ reported_same cs (fst q - 1) (snd q - 1)).
  { intros q Hq. destruct (Ho q Hq) as ((m & t & Hm & Ht & E1 & E2) & (v & w & D1 & D2 & D3)). destruct (Hn m Hm t Ht) as [(u & U1 & U2)|(_ & H0 & H1 & _)].
    - rewrite <- E1 in U1. rewrite <- E2 in U2. congruence.
    - replace (cs_b m + (t - 1)) with (fst q - 1) in H1 by lia. replace (cs_a m + (t - 1)) with (snd q - 1) in H1 by lia.
      split; [lia|]. split; [lia|]. split; [exact H1|]. exists m, (t - 1). repeat split; [assumption|lia..]. }
  assert (Nd : NoDup (ds ++ map down ds)).
  { apply NoDup_both.
    - assumption.
    - apply NoDup_image; [|assumption]. intros q q' Hq Hq' E. destruct (P q Hq) as (A1 & A2 & _), (P q' Hq') as (B1 & B2 & _). unfold down in E. injection E as E1 E2. destruct q, q'; cbn in *. f_equal; lia.
    - intros q Hq Hq'. apply in_map_iff in Hq' as (q' & <- & Hq'). destruct (P q' Hq') as (_ & _ & (v & V1 & V2) & _). destruct (Ho _ Hq) as (_ & (x & y & X1 & X2 & X3)). cbn in X1, X2. congruence. }
  assert (I : incl (ds ++ map down ds) (reported cs)).
  { intros q Hq. apply reported_in. apply in_app_or in Hq as [Hq|Hq]; [exact (proj1 (Ho q Hq))|]. apply in_map_iff in Hq as (q' & <- & Hq'). exact (proj2 (proj2 (proj2 (P q' Hq')))). }
  pose proof (NoDup_incl_length Nd I) as H. rewrite reported_length, app_length, map_length in H. lia.
Qed.

Lemma reported_unique cs i j n m : Forall non_empty cs -> tiles i j cs n m -> forall u u' v, reported_same cs u v -> reported_same cs u' v -> u = u'.
Proof.
  intros F. revert i j. induction F as [|c cs F1 F2 IH]; intros i j Ht u u' v H H'.
  - destruct H as (x & t & [] & _).
  - inversion Ht as [|? ? ? ? ? ? E1 E2 H1]; subst. destruct (tiles_from _ _ _ _ _ H1 F2) as (_ & _ & R). destruct (real c) eqn:Er.
    + apply reported_real in H, H'; [|assumption..]. eapply IH; eassumption.
    + destruct c as [x| | |]; try discriminate. cbn in *. apply reported_cons in H as [(t & H)|H]; apply reported_cons in H' as [(t' & H')|H'].
      * lia.
      * apply R in H'. lia.
      * apply R in H. lia.
      * eapply IH; eassumption.
Qed.
Lemma result_wrong {T} (b a out : list T) context cs :
  tiles 0 0 cs (length b) (length a) -> Forall non_empty cs ->
  (forall m, In (NoChange m) cs -> nearly_common b a (cs_b m) (cs_a m) (cs_n m)) ->
  result_of context cs b a out -> forall ds, wrong_items out a ds -> 2 * length ds <= length a.
Proof.
  intros Ht Hn Hc (R1 & R2 & R3) ds (Nd & Hd).
  assert (P : exists qs, length qs = length ds /\ map snd qs = ds /\ forall q, In q qs -> overlooked b a cs q).
  { clear Nd. induction ds as [|k ds IH]; [exists []; split; [reflexivity|]; split; [reflexivity|]; intros q []|].
    destruct IH as (qs & L & M & Q); [intros x Hx; apply Hd; now right|].
    destruct (Hd k (or_introl eq_refl)) as (v & w & D1 & D2 & D3).
    assert (B : forall i, beyond_context context cs i k -> reported_same cs i k).
    { intros i (pre & x & post & t & -> & B1 & B2 & B3 & _). exists x, t. split; [apply in_or_app; right; now left|]. repeat split; assumption. }
    destruct (find (fun q => snd q =? k) (reported cs)) as [[i k']|] eqn:Ef.
    - apply find_some in Ef as [E1 E2]. cbn in E2. apply Nat.eqb_eq in E2 as ->. apply reported_in in E1. cbn [fst snd] in E1.
      exists ((i, k) :: qs). cbn [length map snd]. split; [lia|]. split; [congruence|]. intros q [<-|Hq]; [|now apply Q]. split; [exact E1|]. cbn [fst snd].
      pose proof E1 as (x & t & X1 & X2 & X3 & X4).
      assert (K : exists u, nth_error b i = Some u).
      { destruct (Hc x X1 t X2) as [(u & U1 & _)|((u & z & U1 & _) & _)]; exists u; now rewrite X3. }
      destruct K as (u & U). exists u, w. split; [assumption|]. split; [assumption|]. intros ->.
      apply D3. assert (K : nth_error out k = nth_error a k); [|congruence]. apply R3. intros i' B'. pose proof (B i' B') as E1'.
      assert (i' = i) as -> by (eapply reported_unique; eassumption). rewrite (R2 i k B') in D1. congruence.
    - exfalso. apply D3. assert (K : nth_error out k = nth_error a k); [|congruence]. apply R3. intros i B'. apply B in B'.
      pose proof (find_none _ _ Ef (i, k)) as N. cbn in N. rewrite Nat.eqb_refl in N. discriminate N. now apply reported_in. }
  destruct P as (qs & L & M & Q). rewrite <- L.
  assert (Nq : NoDup qs) by (apply (NoDup_map_inv snd); now rewrite M).
  pose proof (overlooked_bound b a cs Hc qs Nq Q). pose proof (kept_before cs 0 0 _ _ Ht Hn). lia.
Qed.
Lemma swap_nearly {T} (b a : list T) cs : (forall m, In (NoChange m) cs -> nearly_common b a (cs_b m) (cs_a m) (cs_n m)) ->
  forall m, In (NoChange m) (map swap_range_change cs) -> nearly_common a b (cs_b m) (cs_a m) (cs_n m).
Proof.
  assert (S : forall x y, same_at b a x y -> same_at a b y x) by (intros x y (v & V1 & V2); now exists v).
  intros H m Hm. apply in_map_iff in Hm as (c & E & Hc). destruct c as [x| | |]; try discriminate. cbn in E. injection E as <-. intros t Ht. cbn in *.
  destruct (H x Hc t Ht) as [K|((v & w & V1 & V2 & V3) & H0 & H1 & H2)]; [left; now apply S|]. right. split; [exists w, v; auto|]. split; [assumption|]. split; now apply S.
Qed.

(* Proof_Shape.v - how the change list depends on the inputs. *)
From Verif Require Import Base Model_Seq Model_Changes Model_IO Model_Text Model_Bytes Spec Spec_Shape Proof_Seq Proof_Lcs Proof_Changes Proof_Blocks Proof_Clumps Proof_Diff.

(* ------------------------------------------------------------------ only equality matters *)
Section Pattern.
  Context {T U : Type} (b a : list T) (b' a' : list U).
  Hypothesis Hs : forall x y, same_at b a x y <-> same_at b' a' x y.
  Lemma block_in_pattern br ar x y n : block_in b a br ar x y n <-> block_in b' a' br ar x y n.
  Proof. unfold block_in, common_block. now setoid_rewrite Hs. Qed.
  Lemma blocks_pattern br ar l : blocks_of b a br ar l -> blocks_of b' a' br ar l.
  Proof.
    induction 1 as [br ar Hno|br ar x y n e left right (F1 & F2 & F3) [R1 R2] _ IHl _ IHr].
    - constructor. intros x y H1 H2 H3. apply Hs in H3. now apply (Hno x y).
    - econstructor; [| |exact IHl|exact IHr].
      + split; [assumption|]. split; [now apply block_in_pattern|]. intros x' y' n' H. apply block_in_pattern in H. auto.
      + split; [intros t Ht; rewrite <- Hs; auto|]. now rewrite <- Hs.
  Qed.
End Pattern.

(* ------------------------------------------------------------------ exchanging the inputs *)
Section Swap.
  Context {T : Type} (b a : list T).
  Lemma same_at_swap x y : same_at b a x y <-> same_at a b y x.
  Proof. unfold same_at. split; intros (v & H1 & H2); exists v; auto. Qed.
  Lemma block_in_swap br ar x y n : block_in b a br ar x y n <-> block_in a b ar br y x n.
  Proof.
    unfold block_in, common_block. split; intros (H1 & H2 & H3); (split; [assumption|]); (split; [assumption|]); intros t Ht; apply same_at_swap; auto.
  Qed.
  Definition swap_cs (m : common) : common := CS (cs_a m) (cs_b m) (cs_n m).
  Lemma only_first br ar x y n : only_longest b a br ar x y n -> first_longest b a br ar x y n.
  Proof. intros (H1 & H2 & H3). split; [assumption|]. split; [assumption|]. intros x' y' n' H. apply H3 in H. lia. Qed.
  Lemma only_swap br ar x y n : only_longest b a br ar x y n -> first_longest a b ar br y x n.
  Proof.
    intros (H1 & H2 & H3). split; [assumption|]. split; [now apply block_in_swap|]. intros x' y' n' H. apply block_in_swap, H3 in H. lia.
  Qed.
  Lemma run_swap br ar x y e : run_of b a br ar x y e -> run_of a b ar br y x e.
  Proof.
    intros [H1 H2]. split.
    - intros t Ht. destruct (H1 t Ht) as (A & B & C). split; [assumption|]. split; [assumption|]. now apply same_at_swap.
    - intros (A & B & C). apply H2. split; [assumption|]. split; [assumption|]. now apply same_at_swap.
  Qed.
  Lemma untied_blocks br ar : untied b a br ar -> exists l, blocks_of b a br ar l /\ blocks_of a b ar br (map swap_cs l).
  Proof.
    induction 1 as [br ar Hno|br ar x y n e F R _ (l & L1 & L2) _ (r & R1 & R2)].
    - exists []. split; constructor; [assumption|]. intros x y H1 H2 H3. apply same_at_swap in H3. now apply (Hno y x).
    - exists (l ++ CS x y (n + e) :: r). split; [econstructor; eauto using only_first|]. rewrite map_app. cbn [map]. unfold swap_cs at 2. cbn [cs_a cs_b cs_n].
      econstructor; [now apply only_swap|now apply run_swap|assumption..].
  Qed.
End Swap.
Lemma swap_b_from c : b_from (swap_range_change c) = a_from c. Proof. now destruct c. Qed.
Lemma swap_a_from c : a_from (swap_range_change c) = b_from c. Proof. now destruct c. Qed.
Lemma swap_b_to c : b_to (swap_range_change c) = a_to c. Proof. now destruct c. Qed.
Lemma swap_a_to c : a_to (swap_range_change c) = b_to c. Proof. now destruct c. Qed.
Lemma swap_tiles i j cs n m : tiles i j cs n m -> tiles j i (map swap_range_change cs) m n.
Proof.
  induction 1 as [|i j c cs n m H1 H2 _ IH]; cbn [map]; constructor; rewrite ?swap_b_from, ?swap_a_from, ?swap_b_to, ?swap_a_to; auto.
Qed.
Lemma swap_real c : real (swap_range_change c) = real c. Proof. now destruct c. Qed.
Lemma swap_proper n m cs : proper n m cs -> proper m n (map swap_range_change cs).
Proof.
  intros (H1 & H2 & H3). split; [now apply swap_tiles|]. split.
  - intros pre x y post H. apply map_eq_app in H as (l1 & l2 & -> & <- & H). apply map_eq_cons in H as (x' & l3 & -> & <- & H).
    apply map_eq_cons in H as (y' & l4 & -> & <- & _). rewrite !swap_real. now apply (H2 l1 x' y' l4).
  - apply Forall_map. eapply Forall_impl; [|exact H3]. intros [m'|r p|p r|rb ra]; cbn; tauto.
Qed.
Lemma swap_reported cs i j : reported_same (map swap_range_change cs) i j <-> reported_same cs j i.
Proof.
  unfold reported_same. split.
  - intros (m & p & Hin & H1 & H2 & H3). apply in_map_iff in Hin as ([m'| | |] & E & Hin); try discriminate. injection E as <-. exists m', p. cbn in *. auto.
  - intros (m & p & Hin & H1 & H2 & H3). exists (CS (cs_a m) (cs_b m) (cs_n m)), p. split; [|auto]. now apply (in_map swap_range_change) in Hin.
Qed.
Lemma swap_paired l i j : paired (map swap_cs l) i j <-> paired l j i.
Proof.
  unfold paired. split.
  - intros (m & p & Hin & H1 & H2 & H3). apply in_map_iff in Hin as (m' & <- & Hin). exists m', p. cbn in *. auto.
  - intros (m & p & Hin & H1 & H2 & H3). exists (swap_cs m), p. split; [now apply in_map|auto].
Qed.

(* the clumps of the exchanged changes *)
Notation swap_all := (map swap_range_change).
Definition swap_triple (x : clump * list change * option common) : clump * list change * option common :=
  let '(c, l, s) := x in (swap_all c, swap_all l, option_map swap_cs s).
Lemma swap_starts m k : starts_trimmed (swap_cs m) k = swap_cs (starts_trimmed m k). Proof. reflexivity. Qed.
Lemma swap_clump_loop context iter : forall changes, clump_loop context (swap_all iter) (swap_all changes) = swap_triple (clump_loop context iter changes).
Proof.
  induction iter as [|c iter IH]; intros changes; [reflexivity|].
  destruct c as [m|r p|p r|rb ra]; cbn [map swap_range_change clump_loop].
  2-4: rewrite <- IH; now rewrite map_app.
  destruct changes as [|c0 changes]; cbn [map].
  - destruct iter as [|c1 iter]; [reflexivity|]. exact (IH [NoChange (starts_trimmed m context)]).
  - destruct iter as [|c1 iter]; cbn [map]; [cbn [swap_triple]; now rewrite map_app|].
    unfold split. cbn [cs_n]. destruct (context * 2 <=? cs_n m).
    + cbn [swap_triple map]. now rewrite map_app.
    + specialize (IH ((c0 :: changes) ++ [NoChange m])). rewrite map_app in IH. exact IH.
Qed.
Lemma swap_clump_next context iter stash :
  clump_next context (swap_all iter) (option_map swap_cs stash) =
  let '(c, l, s) := clump_next context iter stash in (option_map swap_all c, swap_all l, option_map swap_cs s).
Proof.
  unfold clump_next. assert (E : match option_map swap_cs stash with Some s => [NoChange s] | None => [] end = swap_all match stash with Some s => [NoChange s] | None => [] end) by now destruct stash.
  rewrite E, swap_clump_loop. destruct (clump_loop context iter _) as [[[|c cl] l] s]; reflexivity.
Qed.
Lemma swap_collect fuel context : forall iter stash,
  clumps_collect fuel context (swap_all iter) (option_map swap_cs stash) = let! l := clumps_collect fuel context iter stash in Ok (map swap_all l).
Proof.
  induction fuel as [|fuel IH]; intros iter stash; [reflexivity|]. cbn [clumps_collect]. rewrite swap_clump_next.
  destruct (clump_next context iter stash) as [[[c|] l] s]; cbn [option_map]; [|reflexivity]. rewrite IH. now destruct (clumps_collect fuel context l s).
Qed.
Lemma swap_change_clumps context cs : change_clumps context (swap_all cs) = let! l := change_clumps context cs in Ok (map swap_all l).
Proof. unfold change_clumps. rewrite map_length. apply (swap_collect _ _ _ None). Qed.
Lemma swap_last c : last_change (swap_all c) = option_map swap_range_change (last_change c).
Proof.
  unfold last_change. induction c as [|x c IH]; [reflexivity|]. destruct c as [|y c]; [reflexivity|]. exact IH.
Qed.
Lemma swap_ranges c : clump_ranges (swap_all c) = (snd (clump_ranges c), fst (clump_ranges c)).
Proof.
  unfold clump_ranges, clump_starts, clump_ends. rewrite swap_last. destruct c as [|x c]; [reflexivity|]. cbn [map].
  destruct (last_change (x :: c)) as [[]|]; destruct x; reflexivity.
Qed.
Lemma swap_context c : clump_context_lengths (swap_all c) = clump_context_lengths c.
Proof.
  unfold clump_context_lengths. rewrite swap_last. destruct c as [|x c]; [reflexivity|]. cbn [map]. destruct (last_change (x :: c)) as [[]|]; destruct x; reflexivity.
Qed.
Lemma map_res_swap {A B C} (f : A -> res B) (h : B -> C) (f' : A -> res C) l ys :
  (forall x y, f x = Ok y -> f' x = Ok (h y)) -> map_res f l = Ok ys -> map_res f' l = Ok (map h ys).
Proof.
  intros Hf. revert ys. induction l as [|x l IH]; intros ys H; cbn [map_res] in *; [now injection H as <-|].
  destruct (f x) as [y| |] eqn:E; try discriminate. cbn [bind] in H. destruct (map_res f l) as [zs| |]; try discriminate. injection H as <-.
  rewrite (Hf _ _ E). cbn [bind]. now rewrite (IH zs eq_refl).
Qed.
Lemma map_res_map {A B C} (f : B -> res C) (g : A -> B) l : map_res f (map g l) = map_res (fun x => f (g x)) l.
Proof. induction l as [|x l IH]; [reflexivity|]. cbn [map map_res]. now rewrite IH. Qed.

(* ------------------------------------------------------------------ how much is kept *)
Lemma crossing_tiles {T} (b a : list T) i0 j0 cs n m : tiles i0 j0 cs n m -> alternating cs -> Forall non_empty cs ->
  (forall rb ra, In (Replace rb ra) cs -> clear b a (r_start rb) (r_start ra) (r_end rb) (r_end ra)) ->
  forall i j, i0 <= i < n -> j0 <= j < m -> same_at b a i j -> exists i' j', reported_same cs i' j' /\ crossing i j i' j'.
Proof.
  induction 1 as [i0 j0|i0 j0 c cs n m Hb Ha Ht IH]; intros Halt Hne Hcl i j Hi Hj Hs; [lia|].
  assert (Hin : forall m', c = NoChange m' -> forall p, p < cs_n m' -> reported_same (c :: cs) (cs_b m' + p) (cs_a m' + p)).
  { intros m' -> p Hp. exists m', p. cbn. auto. }
  assert (Hnext : real c = true -> b_to c < n \/ a_to c < m -> reported_same (c :: cs) (b_to c) (a_to c)).
  { intros Hr Hlt. inversion Hne as [|? ? _ Hne1]; subst. inversion Ht as [i1 j1|i1 j1 c1 cs1 n1 m1' H1 H2 H3]; subst; [lia|]. inversion Hne1 as [|? ? Hn1 _]; subst.
    destruct c1 as [m1| | |]; try (exfalso; apply (Halt [] c _ cs1 eq_refl); now rewrite Hr).
    cbn in H1, H2, Hn1. exists m1, 0. cbn [In]. rewrite <- H1, <- H2, !Nat.add_0_r. auto. }
  assert (Hno : forall m', c = NoChange m' -> exists i' j', reported_same (c :: cs) i' j' /\ crossing i j i' j' \/ b_to c <= i /\ a_to c <= j).
  { intros m' ->. cbn in Hb, Ha. cbn [b_to a_to]. destruct (Nat.lt_ge_cases i (cs_b m' + cs_n m')) as [L|L].
    - exists (cs_b m' + (i - cs_b m')), (cs_a m' + (i - cs_b m')). left. split; [apply Hin; [reflexivity|lia]|]. unfold crossing. lia.
    - destruct (Nat.lt_ge_cases j (cs_a m' + cs_n m')) as [L'|L']; [|exists 0, 0; right; lia].
      exists (cs_b m' + (j - cs_a m')), (cs_a m' + (j - cs_a m')). left. split; [apply Hin; [reflexivity|lia]|]. unfold crossing. lia. }
  assert (Hlater : b_to c <= i -> a_to c <= j -> exists i' j', reported_same (c :: cs) i' j' /\ crossing i j i' j').
  { intros Bi Aj. destruct (IH) with (i := i) (j := j) as (i' & j' & (m' & p & R1 & R2) & R3); try lia; try assumption.
    - intros pre x y post E. apply (Halt (c :: pre) x y post). cbn. now rewrite E.
    - now inversion Hne.
    - intros rb ra R. apply Hcl. now right.
    - exists i', j'. split; [|assumption]. exists m', p. split; [now right|assumption]. }
  destruct (real c) eqn:Hr.
  - destruct (Nat.lt_ge_cases i (b_to c)) as [L|L]; destruct (Nat.lt_ge_cases j (a_to c)) as [L'|L'].
    + exfalso. destruct c as [m'|r p|p r|rb ra]; cbn in *; try lia; try discriminate. apply (Hcl rb ra (or_introl eq_refl) i j); try lia. assumption.
    + exists (b_to c), (a_to c). split; [apply Hnext; [reflexivity|lia]|]. unfold crossing. lia.
    + exists (b_to c), (a_to c). split; [apply Hnext; [reflexivity|lia]|]. unfold crossing. lia.
    + auto.
  - destruct c as [m'| | |]; try discriminate. destruct (Hno m' eq_refl) as (i' & j' & [H|[H1 H2]]); eauto.
Qed.
Lemma merge_contains l : forall new c, In c (new :: l) -> exists m, In m (merge_from new l) /\ cs_n c <= cs_n m.
Proof.
  induction l as [|d l IH]; intros new c Hin; cbn [merge_from].
  - destruct Hin as [<-|[]]. exists new. split; [now left|lia].
  - destruct (_ && _).
    + destruct Hin as [<-|[<-|Hin]].
      * destruct (IH _ _ (or_introl eq_refl) : exists m, In m (merge_from (incr_size_moving_ends new (cs_n d)) l) /\ _ <= _) as (m & M1 & M2). exists m. split; [assumption|]. cbn in M2. lia.
      * destruct (IH _ _ (or_introl eq_refl) : exists m, In m (merge_from (incr_size_moving_ends new (cs_n d)) l) /\ _ <= _) as (m & M1 & M2). exists m. split; [assumption|]. cbn in M2. lia.
      * destruct (IH (incr_size_moving_ends new (cs_n d)) c (or_intror Hin)) as (m & M). eauto.
    + destruct Hin as [<-|Hin]; [exists new; split; [now left|lia]|]. destruct (IH d c Hin) as (m & M1 & M2). exists m. split; [now right|assumption].
Qed.
Section Kept.
  Context {T : Type} (eqb : T -> T -> bool) (Heqb : lawful eqb).
  Variable indices : T -> option (list nat).
  Variables b a : list T.
  Hypothesis Hind : forall x, index_spec b x (indices x).
  Lemma generate_loop_in l : forall i j m, In m l -> In (NoChange m) (generate_loop b a l i j).
  Proof.
    induction l as [|c l IH]; intros i j m Hm; [contradiction|]. cbn [generate_loop]. apply in_or_app. right. destruct Hm as [->|Hm]; [now left|right; now apply IH].
  Qed.
  Lemma generate_keeps cs x y n : generate eqb indices b a = Ok cs -> 0 < n -> block_in b a (Range 0 (length b)) (Range 0 (length a)) x y n ->
    exists m, In (NoChange m) cs /\ n <= cs_n m.
  Proof.
    intros E Hn Hb. destruct (loop_spec eqb Heqb indices b a Hind) as (raw & l & E1 & P & Hc & Hg & Hl).
    unfold generate, longest_common_subsequences in E. rewrite E1 in E. cbn [bind] in E.
    assert (Es : cs_sort raw = l).
    { apply sorted_perm_unique; [apply cs_sort_sorted|eapply chain_sorted; eauto|]. rewrite <- P. symmetry. apply cs_sort_perm. }
    rewrite Es in E. injection E as <-.
    assert (Hc' : exists c, In c l /\ n <= cs_n c).
    { change (range_from b 0) with (Range 0 (length b)) in Hl. change (range_from a 0) with (Range 0 (length a)) in Hl.
      inversion Hl as [? ? Hno|? ? x' y' n' e l1 l2 F R]; subst.
      - destruct Hb as ((A1 & A2) & (A3 & A4) & A5). exfalso. apply (Hno x y); try (split; lia). specialize (A5 0 Hn). now rewrite !Nat.add_0_r in A5.
      - exists (CS x' y' (n' + e)). split; [apply in_or_app; right; now left|]. destruct F as (_ & _ & F). apply F in Hb. cbn. lia. }
    destruct Hc' as (c & C1 & C2). destruct l as [|c0 l]; [contradiction|]. destruct (merge_contains l c0 c C1) as (m & M1 & M2).
    exists m. split; [now apply generate_loop_in|lia].
  Qed.
  Lemma generate_crossing cs i j : generate eqb indices b a = Ok cs -> same_at b a i j -> exists i' j', reported_same cs i' j' /\ crossing i j i' j'.
  Proof.
    intros E Hs. destruct (generate_blocks eqb Heqb indices b a Hind) as (cs' & l & E' & (P1 & P2 & P3) & _ & _ & Hcl). rewrite E in E'. injection E' as <-.
    destruct Hs as (v & V1 & V2). assert (i < length b) by (apply nth_error_Some; congruence). assert (j < length a) by (apply nth_error_Some; congruence).
    eapply crossing_tiles; eauto; try lia. now exists v.
  Qed.
End Kept.

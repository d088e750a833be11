(* Proof_Props_Shape.v - the property lemmas on how a diff depends on its inputs. *)
From Coq Require Import String.
From Verif Require Import Base Model_Seq Model_Changes Model_IO Model_Text Model_Bytes Model_Json Spec Spec_Shape Cases Proof_Seq Proof_Lcs Proof_Changes Proof_Blocks Proof_Clumps Proof_Diff Proof_Shape Proof_Props_Gen.

Local Ltac vr := vm_compute; reflexivity.

(* ------------------------------------------------------------------ C100 *)
(* C100: the changes between two sequences are determined by which items of the one equal which
   items of the other: two pairs of texts, two pairs of byte strings, or a pair of texts and one of
   byte strings with the same pattern have the same changes. *)
Lemma p_C100_only_equality :
  (forall b a b' a' : list line, same_pattern b a b' a' -> text_changes b a = text_changes b' a') /\
  (forall b a b' a' : list byte, same_pattern b a b' a' -> byte_changes b a = byte_changes b' a') /\
  (forall (b a : list line) (b' a' : list byte), same_pattern b a b' a' -> text_changes b a = byte_changes b' a').
Proof.
  destruct p_C72_changes_exact as [HT HB].
  assert (K : forall (P : list change -> Prop) (r r' : res (list change)), (exists cs, r = Ok cs /\ P cs) -> (forall cs, P cs -> r' = Ok cs) -> r = r').
  { intros P r r' (cs & -> & H) H'. symmetry. now apply H'. }
  assert (G : forall T U (b a : list T) (b' a' : list U) cs, same_pattern b a b' a' ->
    (proper (length b) (length a) cs /\ exists blocks, blocks_of b a (Range 0 (length b)) (Range 0 (length a)) blocks /\ forall i j, reported_same cs i j <-> paired blocks i j) ->
    (proper (length b') (length a') cs /\ exists blocks, blocks_of b' a' (Range 0 (length b')) (Range 0 (length a')) blocks /\ forall i j, reported_same cs i j <-> paired blocks i j)).
  { intros T U b a b' a' cs (H1 & H2 & H3) (P & l & L1 & L2). rewrite <- H1, <- H2. split; [assumption|]. exists l. split; [|assumption]. now apply (blocks_pattern b a b' a' H3). }
  split; [|split]; intros b a b' a' H.
  - destruct (text_changes_spec b a) as (cs & E & _). rewrite E. symmetry. apply HT. apply (G _ _ b a); [assumption|]. now apply HT.
  - destruct (byte_changes_spec b a) as (cs & E & _). rewrite E. symmetry. apply HB. apply (G _ _ b a); [assumption|]. now apply HB.
  - destruct (text_changes_spec b a) as (cs & E & _). rewrite E. symmetry. apply HB. apply (G _ _ b a); [assumption|]. now apply HT.
Qed.
(* in particular if every line is replaced by another, different ones by different ones *)
Lemma p_C100_renaming : forall (f : line -> line) b a, (forall x y, In x b -> In y a -> f x = f y -> x = y) ->
  text_changes (map f b) (map f a) = text_changes b a.
Proof.
  intros f b a Hf. symmetry. apply p_C100_only_equality. split; [now rewrite map_length|]. split; [now rewrite map_length|].
  intros x y. split; intros (v & V1 & V2).
  - exists (f v). now rewrite !nth_error_map, V1, V2.
  - rewrite nth_error_map in V1, V2. destruct (nth_error b x) as [u|] eqn:E1; [|discriminate]. destruct (nth_error a y) as [w|] eqn:E2; [|discriminate].
    cbn in V1, V2. exists u. split; [assumption|]. rewrite (Hf u w); [assumption|eapply nth_error_In; eassumption..|congruence].
Qed.
Lemma e_C100_example :
  text_changes (L "A B C D ") (L "A X C ") = byte_changes (bs "1234") (bs "193") /\
  text_changes (map (cons x23) (L "A B C D ")) (map (cons x23) (L "A X C ")) = text_changes (L "A B C D ") (L "A X C ") /\
  text_changes (L "A B C D ") (L "A X C ") = Ok [NoChange (CS 0 0 3); Delete (Range 3 4) 3].
Proof. split; [|split]; vr. Qed.

(* ------------------------------------------------------------------ C101 *)
(* C101, full statement: diffing two texts in the other order gives the same changes seen from
   the other side.  It is false: of two equally long blocks the one found first is kept. *)
Lemma p_C101_exchange_refuted : exists b a cs, text_changes b a = Ok cs /\ text_changes a b <> Ok (map swap_range_change cs).
Proof. exists (L "A B "), (L "B A "). eexists. split; [vr|]. vm_compute. discriminate. Qed.
Lemma p_C101_exchange_bytes_refuted : exists b a cs, byte_changes b a = Ok cs /\ byte_changes a b <> Ok (map swap_range_change cs).
Proof. exists (bs "AB"), (bs "BA"). eexists. split; [vr|]. vm_compute. discriminate. Qed.
Lemma exchange_any {T} (eqb : T -> T -> bool) (Heqb : lawful eqb) ind ind' b a cs :
  (forall x, index_spec b x (ind x)) -> (forall x, index_spec a x (ind' x)) -> untied b a (Range 0 (length b)) (Range 0 (length a)) ->
  generate eqb ind b a = Ok cs -> generate eqb ind' a b = Ok (map swap_range_change cs).
Proof.
  intros H1 H2 Hu E. apply (generate_iff eqb Heqb ind b a H1) in E as (P & l & L1 & L2). apply (generate_iff eqb Heqb ind' a b H2).
  split; [now apply swap_proper|]. destruct (untied_blocks b a _ _ Hu) as (l' & M1 & M2). assert (l = l') as -> by (eapply blocks_of_unique; eauto).
  exists (map swap_cs l'). split; [assumption|]. intros i j. rewrite swap_reported, swap_paired. apply L2.
Qed.
(* What does hold: it is so if at no step there are two longest common blocks, and then the diffs
   with any context are those with the sides of every clump exchanged.  Missing: ties. *)
Lemma p_C101_exchange_partial :
  (forall b a cs, untied b a (Range 0 (length b)) (Range 0 (length a)) -> text_changes b a = Ok cs ->
     text_changes a b = Ok (map swap_range_change cs) /\
     forall context clumps, text_diff_clumps b a context = Ok clumps -> text_diff_clumps a b context = Ok (map swap_clump clumps)) /\
  (forall b a cs, untied b a (Range 0 (length b)) (Range 0 (length a)) -> byte_changes b a = Ok cs ->
     byte_changes a b = Ok (map swap_range_change cs) /\
     forall context clumps, byte_diff_clumps b a context = Ok clumps -> byte_diff_clumps a b context = Ok (map swap_bclump clumps)).
Proof.
  split; intros b a cs Hu E.
  - assert (E' : text_changes a b = Ok (map swap_range_change cs)) by exact (exchange_any _ line_eqb_lawful _ _ b a cs (string_indices_spec b) (string_indices_spec a) Hu E).
    split; [assumption|]. intros context clumps H. unfold text_diff_clumps in *. rewrite E in H. rewrite E'. cbn [bind] in *. rewrite swap_change_clumps.
    destruct (change_clumps context cs) as [l| |]; try discriminate. cbn [bind] in *. rewrite map_res_map.
    apply map_res_swap with (f := text_clump_from b a); try assumption. intros c y Hc. unfold text_clump_from in *. rewrite swap_ranges, swap_context.
    destruct (clump_ranges c) as [br ar]. cbn [fst snd]. destruct (clump_context_lengths c) as [c1 c2].
    destruct (extract_snippet b br) as [sb| |]; try discriminate. cbn [bind] in Hc. destruct (extract_snippet a ar) as [sa| |]; try discriminate. cbn [bind] in *. now injection Hc as <-.
  - assert (E' : byte_changes a b = Ok (map swap_range_change cs)) by exact (exchange_any _ byte_eqb_lawful _ _ b a cs (byte_indices_spec b) (byte_indices_spec a) Hu E).
    split; [assumption|]. intros context clumps H. unfold byte_diff_clumps in *. rewrite E in H. rewrite E'. cbn [bind] in *. rewrite swap_change_clumps.
    destruct (change_clumps context cs) as [l| |]; try discriminate. cbn [bind] in *. rewrite map_res_map.
    apply map_res_swap with (f := byte_clump_from b a); try assumption. intros c y Hc. unfold byte_clump_from in *. rewrite swap_ranges, swap_context.
    destruct (clump_ranges c) as [br ar]. cbn [fst snd]. destruct (clump_context_lengths c) as [c1 c2].
    destruct (extract_snippet b br) as [sb| |]; try discriminate. cbn [bind] in Hc. destruct (extract_snippet a ar) as [sa| |]; try discriminate. cbn [bind] in *. now injection Hc as <-.
Qed.

(* ------------------------------------------------------------------ C102 *)
(* C102, full statement: a diff reports as unchanged as many lines as the longest common
   subsequence of the two texts has, so that no shorter diff exists.  It is false, by any amount:
   there are texts with a common subsequence of n lines of which a single line is kept. *)
Definition moved_before (n : nat) : list line := repeat (bs "x ") n ++ [bs "z "].
Definition pairs (n : nat) : list line := List.concat (repeat [bs "x "; bs "w "] n).
Definition moved_after (n : nat) : list line := bs "z " :: pairs n.
Lemma nth_before n x v : nth_error (moved_before n) x = Some v -> (x < n /\ v = bs "x ") \/ (x = n /\ v = bs "z ").
Proof.
  unfold moved_before. intros H. destruct (Nat.lt_ge_cases x n) as [L|L].
  - rewrite nth_error_app1 in H by now rewrite repeat_length. apply nth_error_In, repeat_spec in H. auto.
  - rewrite nth_error_app2 in H by now rewrite repeat_length. rewrite repeat_length in H. destruct (x - n) as [|k] eqn:Ek; [|destruct k; discriminate]. injection H as <-. right. split; [lia|reflexivity].
Qed.
Lemma nth_pairs n : forall k, nth_error (pairs n) (2 * k) = (if k <? n then Some (bs "x ") else None) /\
  nth_error (pairs n) (2 * k + 1) = (if k <? n then Some (bs "w ") else None).
Proof.
  induction n as [|n IH]; intros k; [split; [now destruct (2 * k)|now destruct (2 * k + 1)]|]. change (pairs (S n)) with (bs "x " :: bs "w " :: pairs n).
  destruct k as [|k]; [now split|]. replace (2 * S k) with (S (S (2 * k))) by lia. cbn [Nat.add app nth_error].
  change (S k <? S n) with (k <? n). exact (IH k).
Qed.
Lemma pairs_length n : List.length (pairs n) = 2 * n.
Proof. induction n as [|n IH]; [reflexivity|]. change (pairs (S n)) with (bs "x " :: bs "w " :: pairs n). cbn [List.length]. rewrite IH. lia. Qed.
Lemma p_C102_minimal_refuted : forall n, exists b a cs ps, text_changes b a = Ok cs /\ common_seq b a ps /\ List.length ps = n /\ kept_items cs = 1.
Proof.
  intros n. set (b := moved_before n). set (a := moved_after n).
  assert (Lb : List.length b = n + 1) by (unfold b, moved_before; now rewrite app_length, repeat_length).
  assert (La : List.length a = S (2 * n)).
  { unfold a, moved_after. cbn [List.length]. f_equal. apply pairs_length. }
  assert (Hs : forall x y, same_at b a x y <-> (x = n /\ y = 0) \/ (x < n /\ exists k, k < n /\ y = S (2 * k))).
  { intros x y. split.
    - intros (v & V1 & V2). apply nth_before in V1. destruct y as [|y].
      + cbn in V2. injection V2 as <-. destruct V1 as [[_ E]|[-> _]]; [discriminate E|]. now left.
      + change (nth_error (pairs n) y = Some v) in V2. destruct (Nat.Even_or_Odd y) as [[k ->]|[k ->]]; destruct (nth_pairs n k) as [N1 N2].
        * rewrite N1 in V2. destruct (Nat.ltb_spec k n); [|discriminate]. injection V2 as <-. destruct V1 as [[H1 _]|[_ E]]; [right; eauto|discriminate E].
        * rewrite N2 in V2. destruct (k <? n); [|discriminate]. injection V2 as <-. destruct V1 as [[_ E]|[_ E]]; discriminate E.
    - intros [[-> ->]|(H1 & k & H2 & ->)].
      + exists (bs "z "). split; [|reflexivity]. unfold b, moved_before. rewrite nth_error_app2 by now rewrite repeat_length. now rewrite repeat_length, Nat.sub_diag.
      + exists (bs "x "). split.
        * unfold b, moved_before. rewrite nth_error_app1 by now rewrite repeat_length. now apply nth_error_repeat.
        * change (nth_error (pairs n) (2 * k) = Some (bs "x ")). rewrite (proj1 (nth_pairs n k)). now rewrite (proj2 (Nat.ltb_lt k n)). }
  exists b, a, ((if 0 <? n then [Delete (Range 0 n) 0] else []) ++ NoChange (CS n 0 1) :: (if 0 <? n then [Insert (n + 1) (Range 1 (S (2 * n)))] else [])).
  exists (map (fun k => (k, S (2 * k))) (seq 0 n)). split; [|split; [|split]].
  - apply p_C72_changes_exact. split.
    + split; [|split].
      * rewrite Lb, La. destruct n; cbn [Nat.ltb Nat.leb app]; repeat (constructor; cbn; try lia).
        all: match goal with |- tiles ?i ?j [] ?k ?l => replace i with k by lia; replace j with l by lia; constructor | _ => idtac end.
      * intros pre u v post E. destruct n; cbn [Nat.ltb Nat.leb app] in E.
        -- destruct pre as [|? [|]]; discriminate.
        -- destruct pre as [|p1 [|p2 [|p3 [|]]]]; cbn [app] in E; try discriminate; injection E as; subst; discriminate.
      * destruct n; cbn [Nat.ltb Nat.leb app]; repeat (apply Forall_cons; [cbn; lia|]); apply Forall_nil.
    + exists [CS n 0 1]. split.
      * apply (blocks_some b a _ _ n 0 1 0 [] []).
        -- split; [lia|]. split.
           ++ split; [split; cbn; lia|]. split; [split; cbn; lia|]. intros t Ht. apply Hs. left. lia.
           ++ intros x' y' n' ((A1 & A2) & (A3 & A4) & A5). destruct n' as [|[|n']]; [lia| |].
              ** right. split; [reflexivity|]. specialize (A5 0 ltac:(lia)). rewrite !Nat.add_0_r in A5. apply Hs in A5. destruct A5 as [[-> ->]|(H1 & k & H2 & ->)]; lia.
              ** exfalso. pose proof (A5 0 ltac:(lia)) as B1. pose proof (A5 1 ltac:(lia)) as B2. apply Hs in B1, B2.
                 destruct B1 as [B1|(B1 & k1 & B1' & B1'')], B2 as [B2|(B2 & k2 & B2' & B2'')]; lia.
        -- split; [lia|]. cbn [r_end]. lia.
        -- constructor. intros x y H1 H2. unfold inside in *. cbn [r_start r_end] in *. lia.
        -- constructor. intros x y H1 H2. unfold inside in *. cbn [r_start r_end] in *. lia.
      * intros i j. unfold reported_same, paired. split; intros (m & p & Hin & H).
        -- exists m, p. split; [|assumption]. apply in_app_or in Hin as [Hin|[Hin|Hin]]; [|injection Hin as <-; now left|]; destruct n; cbn in Hin; repeat (destruct Hin as [Hin|Hin]; try discriminate); contradiction.
        -- destruct Hin as [<-|[]]. exists (CS n 0 1), p. split; [apply in_or_app; right; now left|assumption].
  - split.
    + assert (G : forall m k, StronglySorted (fun p q : nat * nat => fst p < fst q /\ snd p < snd q) (map (fun k => (k, S (2 * k))) (seq k m))).
      { induction m as [|m IH]; intros k; cbn [seq map]; constructor; [apply IH|]. apply Forall_map, Forall_forall. intros u Hu. apply in_seq in Hu. cbn. lia. }
      apply G.
    + apply Forall_map, Forall_forall. intros u Hu. apply in_seq in Hu. cbn [fst snd]. apply Hs. right. split; [lia|]. exists u. lia.
  - now rewrite map_length, seq_length.
  - unfold kept_items. rewrite map_app, list_sum_app. cbn [map list_sum fold_right cs_n]. destruct n; reflexivity.
Qed.
(* What does hold: some block reported as unchanged is as long as the longest common block; and
   every pair of equal lines is reported as unchanged or crosses a pair that is, so that nothing
   can be added to what is kept.  Missing: that no other choice keeps more. *)
Lemma p_C102_maximal_partial :
  (forall b a cs, text_changes b a = Ok cs ->
     (forall x y n, 0 < n -> block_in b a (Range 0 (List.length b)) (Range 0 (List.length a)) x y n -> exists m, In (NoChange m) cs /\ n <= cs_n m) /\
     (forall i j, same_at b a i j -> exists i' j', reported_same cs i' j' /\ crossing i j i' j')) /\
  (forall b a cs, byte_changes b a = Ok cs ->
     (forall x y n, 0 < n -> block_in b a (Range 0 (List.length b)) (Range 0 (List.length a)) x y n -> exists m, In (NoChange m) cs /\ n <= cs_n m) /\
     (forall i j, same_at b a i j -> exists i' j', reported_same cs i' j' /\ crossing i j i' j')).
Proof.
  split; intros b a cs E; (split; [intros x y n Hn Hb|intros i j Hs]).
  - exact (generate_keeps line_eqb line_eqb_lawful _ b a (string_indices_spec b) cs x y n E Hn Hb).
  - exact (generate_crossing line_eqb line_eqb_lawful _ b a (string_indices_spec b) cs i j E Hs).
  - exact (generate_keeps Byte.eqb byte_eqb_lawful _ b a (byte_indices_spec b) cs x y n E Hn Hb).
  - exact (generate_crossing Byte.eqb byte_eqb_lawful _ b a (byte_indices_spec b) cs i j E Hs).
Qed.
(* the single longest common block is kept on both sides; a line moved to the front loses three *)
Lemma e_C101_example : let b := L "A B C D " in let a := L "A B X Y " in untied b a (Range 0 4) (Range 0 4) /\
  text_changes b a = Ok [NoChange (CS 0 0 2); Replace (Range 2 4) (Range 2 4)].
Proof.
  intros b a. split; [|vr].
  assert (Hs : forall x y, same_at b a x y -> x = y /\ x < 2).
  { intros x y (v & V1 & V2). do 4 (destruct x as [|x]; [do 4 (destruct y as [|y]; [vm_compute in V1, V2; first [split; [reflexivity|lia]|congruence]|]); vm_compute in V2; destruct y; discriminate|]).
    vm_compute in V1. destruct x; discriminate. }
  apply (untied_some b a _ _ 0 0 2 0).
  - split; [lia|]. split.
    + split; [split; cbn; lia|]. split; [split; cbn; lia|]. intros t Ht. destruct t as [|[|t]]; [| |lia]; eexists; vm_compute; split; reflexivity.
    + intros x y n ((A1 & A2) & (A3 & A4) & A5). destruct n as [|n]; [lia|]. pose proof (A5 0 ltac:(lia)) as B0. pose proof (A5 n ltac:(lia)) as Bn. apply Hs in B0, Bn. lia.
  - split; [lia|]. intros (_ & _ & H). apply Hs in H. lia.
  - constructor. intros x y H. unfold inside in H. cbn in H. lia.
  - constructor. intros x y H1 _ H. unfold inside in H1. cbn in H1. apply Hs in H. lia.
Qed.
Lemma e_C102_example :
  text_changes (L "A B C D ") (L "D A X B Y C ") = Ok [Delete (Range 0 3) 0; NoChange (CS 3 0 1); Insert 4 (Range 1 6)] /\
  common_seq (L "A B C D ") (L "D A X B Y C ") [(0, 1); (1, 3); (2, 5)].
Proof. split; [vr|]. split; [repeat constructor|]. repeat constructor; eexists; vm_compute; split; reflexivity. Qed.

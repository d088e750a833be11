(* Proof_Space.v - how much the generator holds at once. *)
From Verif Require Import Base Model_Seq Model_Changes Model_Space Spec Spec_Cost Proof_Seq Proof_Lcs Proof_Changes Proof_Cost.

Lemma hbind_snd {A B} (m : held A) (k : A -> held B) :
  snd (hbind m k) = bind (snd m) (fun a => snd (k a)).
Proof. destruct m as [n [a| |]]; reflexivity. Qed.
Lemma hbind_ok {A B} (m : held A) (k : A -> held B) a :
  snd m = Ok a -> fst (hbind m k) = Nat.max (fst m) (fst (k a)).
Proof. destruct m as [n r]. cbn. now intros ->. Qed.
Lemma hbind_ge {A B} (m : held A) (k : A -> held B) : fst m <= fst (hbind m k).
Proof. destruct m as [n [a| |]]; cbn; lia. Qed.
Lemma hbind_le {A B} (m : held A) (k : A -> held B) x :
  fst m <= x -> (forall a, snd m = Ok a -> fst (k a) <= x) -> fst (hbind m k) <= x.
Proof. destruct m as [n [a| |]]; cbn; intros H1 H2; [specialize (H2 a eq_refl)| |]; lia. Qed.
Lemma nothing_le {A B} (m : res A) (k : A -> held B) x :
  (forall a, m = Ok a -> fst (k a) <= x) -> fst (hbind (nothing m) k) <= x.
Proof. intros H. apply hbind_le; [cbn; lia|exact H]. Qed.
Lemma holding_le {A} n (m : held A) x : n <= x -> fst m <= x -> fst (holding n m) <= x.
Proof. intros. cbn. lia. Qed.

Section Space.
  Context {T : Type} (eqb : T -> T -> bool).
  Variable indices : T -> option (list nat).
  Variables before after : list T.

  (* ---------------- the record changes nothing ---------------- *)
  Lemma scan_indices_same_h br jl index js : forall new best,
    snd (scan_indices_h br jl index js new best) = scan_indices br jl index js new best.
  Proof.
    induction js as [|j js IH]; intros new best; [reflexivity|]. cbn [scan_indices_h scan_indices].
    destruct (j <? r_start br); [apply IH|]. destruct (r_end br <=? j); [reflexivity|]. cbv zeta. cbn [holding snd].
    destruct (_ <? _); [|apply IH]. rewrite hbind_snd. cbn [nothing snd]. apply bind_ext. intros b.
    rewrite hbind_snd. cbn [nothing snd]. apply bind_ext. intros a. apply IH.
  Qed.
  Lemma scan_after_same_h br items : forall index jl best,
    snd (scan_after_h indices br items index jl best) = scan_after indices br items index jl best.
  Proof.
    induction items as [|x items IH]; intros index jl best; [reflexivity|]. cbn [scan_after_h scan_after].
    rewrite hbind_snd. destruct (indices x) as [js|].
    - rewrite scan_indices_same_h. apply bind_ext. intros [new b]. apply IH.
    - cbn [nothing snd]. apply bind_ext. intros [new b]. apply IH.
  Qed.
  Lemma lcs_same_h br ar :
    snd (longest_common_subsequence_h eqb indices before after br ar) = longest_common_subsequence eqb indices before after br ar.
  Proof.
    unfold longest_common_subsequence_h, longest_common_subsequence.
    rewrite hbind_snd. cbn [nothing snd]. apply bind_ext. intros items.
    rewrite hbind_snd, scan_after_same_h. apply bind_ext. intros best. destruct (cs_n best =? 0); [reflexivity|].
    rewrite hbind_snd. cbn [nothing snd]. apply bind_ext. intros bpre.
    rewrite hbind_snd. cbn [nothing snd]. apply bind_ext. intros apre. cbv zeta.
    rewrite hbind_snd. cbn [nothing snd]. apply bind_ext. intros best'.
    destruct (_ && _); [|reflexivity].
    rewrite hbind_snd. cbn [nothing snd]. apply bind_ext. intros bpost.
    rewrite hbind_snd. cbn [nothing snd]. apply bind_ext. intros apost. reflexivity.
  Qed.
  Lemma lcs_loop_same_h fuel : forall lifo raw,
    snd (lcs_loop_h eqb indices before after fuel lifo raw) = lcs_loop eqb indices before after fuel lifo raw.
  Proof.
    induction fuel as [|fuel IH]; intros [|[br ar] rest] raw; try reflexivity. cbn [lcs_loop_h lcs_loop holding snd].
    rewrite hbind_snd. cbn [besides snd]. rewrite lcs_same_h. apply bind_ext. intros [c|]; apply IH.
  Qed.
  Lemma generate_same_h : snd (generate_h eqb indices before after) = generate eqb indices before after.
  Proof.
    unfold generate_h, generate, longest_common_subsequences. rewrite hbind_snd, lcs_loop_same_h.
    destruct (lcs_loop _ _ _ _ _ _ _); reflexivity.
  Qed.

  (* ---------------- upper bound ---------------- *)
  Hypothesis Heqb : lawful eqb.
  Hypothesis Hind : forall x, index_spec before x (indices x).

  Lemma scan_indices_hold br jl index js : forall new best,
    fst (scan_indices_h br jl index js new best) <= length jl + (length new + length js) /\
    forall new' best', scan_indices br jl index js new best = Ok (new', best') -> length new' <= length new + length js.
  Proof.
    induction js as [|j js IH]; intros new best.
    { cbn. split; [lia|]. intros n' b' [= <- <-]. lia. }
    cbn [scan_indices_h scan_indices length].
    destruct (j <? r_start br).
    { destruct (IH new best) as [H1 H2]. split; [lia|]. intros n' b' E. specialize (H2 _ _ E). lia. }
    destruct (r_end br <=? j).
    { cbn. split; [lia|]. intros n' b' [= <- <-]. lia. }
    cbv zeta. set (k := match jget jl (Z.of_nat j - 1) with Some k => k + 1 | None => 1 end).
    split.
    - apply holding_le; [cbn [length]; lia|].
      destruct (_ <? _).
      + apply nothing_le. intros b _. apply nothing_le. intros a _.
        destruct (IH ((Z.of_nat j, k) :: new) (CS b a k)) as [H _]. cbn [length] in H. lia.
      + destruct (IH ((Z.of_nat j, k) :: new) best) as [H _]. cbn [length] in H. lia.
    - intros n' b' E. destruct (_ <? _).
      + destruct (usub (j + 1) k) as [b| |]; try discriminate. cbn [bind] in E.
        destruct (usub (index + 1) k) as [a| |]; try discriminate. cbn [bind] in E.
        destruct (IH ((Z.of_nat j, k) :: new) (CS b a k)) as [_ H]. specialize (H _ _ E). cbn [length] in H. lia.
      + destruct (IH ((Z.of_nat j, k) :: new) best) as [_ H]. specialize (H _ _ E). cbn [length] in H. lia.
  Qed.
  Lemma scan_after_hold r br items : at_most eqb r before -> forall index jl best, length jl <= r ->
    fst (scan_after_h indices br items index jl best) <= 2 * r.
  Proof.
    intros Hr. induction items as [|x items IH]; intros index jl best Hj; [cbn; lia|]. cbn [scan_after_h].
    destruct (indices x) as [js|] eqn:E.
    - assert (Hjs : length js <= r) by (rewrite (indices_length eqb indices before Heqb Hind x js E); apply Hr).
      destruct (scan_indices_hold br jl index js [] best) as [H1 H2]. cbn [length] in H1, H2.
      apply hbind_le; [lia|]. intros [new b] Es. rewrite scan_indices_same_h in Es. specialize (H2 _ _ Es). apply IH. lia.
    - apply nothing_le. intros [new b] [= <- <-]. apply IH. cbn. lia.
  Qed.
  Lemma lcs_hold r br ar : at_most eqb r before ->
    fst (longest_common_subsequence_h eqb indices before after br ar) <= 2 * r.
  Proof.
    intros Hr. unfold longest_common_subsequence_h. apply nothing_le. intros items _.
    apply hbind_le; [apply scan_after_hold; [assumption|cbn; lia]|].
    intros best _. destruct (cs_n best =? 0); [cbn; lia|].
    apply nothing_le. intros bpre _. apply nothing_le. intros apre _. cbv zeta.
    apply nothing_le. intros best' _. destruct (_ && _); [|cbn; lia].
    apply nothing_le. intros bpost _. apply nothing_le. intros apost _. cbn. lia.
  Qed.

  Lemma sizes_ge l : length l <= sizes l.
  Proof. induction l as [|p l IH]; [cbn; lia|]. rewrite sizes_cons. cbn [length]. unfold size. lia. Qed.
  Lemma loop_hold r fuel M : at_most eqb r before -> forall lifo raw,
    (forall br ar, In (br, ar) lifo -> in_bounds before br /\ in_bounds after ar) ->
    sizes lifo + length raw <= M ->
    fst (lcs_loop_h eqb indices before after fuel lifo raw) <= 2 * r + M /\
    forall raw', lcs_loop eqb indices before after fuel lifo raw = Ok raw' -> length raw' <= M.
  Proof.
    intros Hr. induction fuel as [|fuel IH]; intros lifo raw Hb HM; [cbn; split; [lia|discriminate]|].
    destruct lifo as [|[br ar] rest].
    { cbn. split; [lia|]. intros raw' [= <-]. change (sizes []) with 0 in HM. lia. }
    rewrite sizes_cons in HM. cbn [lcs_loop_h lcs_loop].
    destruct (Hb br ar (or_introl eq_refl)) as [Hbr Har].
    assert (Hrest : forall br ar, In (br, ar) rest -> in_bounds before br /\ in_bounds after ar) by (intros; apply Hb; now right).
    assert (S1 : 1 <= size (br, ar)) by (unfold size; lia).
    pose proof (sizes_ge rest) as S2.
    pose proof (lcs_hold r br ar Hr) as HL.
    assert (Hnext : forall found, longest_common_subsequence eqb indices before after br ar = Ok found ->
              match found with
              | None => True
              | Some lcs =>
                let rest2 :=
                  (if (cs_before_end lcs <? r_end br) && (cs_after_end lcs <? r_end ar)
                    then (Range (cs_before_end lcs) (r_end br), Range (cs_after_end lcs) (r_end ar)) ::
                      (if (r_start br <? cs_b lcs) && (r_start ar <? cs_a lcs)
                       then (Range (r_start br) (cs_b lcs), Range (r_start ar) (cs_a lcs)) :: rest else rest)
                    else (if (r_start br <? cs_b lcs) && (r_start ar <? cs_a lcs)
                       then (Range (r_start br) (cs_b lcs), Range (r_start ar) (cs_a lcs)) :: rest else rest)) in
                (forall br ar, In (br, ar) rest2 -> in_bounds before br /\ in_bounds after ar) /\
                sizes rest2 + length (raw ++ [lcs]) <= M
              end).
    { destruct (lcs_spec eqb Heqb indices before after Hind br ar Hbr Har) as [[-> _]|(x & y & n & ext & -> & Hf & Hext & _)].
      { intros o [= <-]. exact I. }
      intros o [= <-].
      destruct Hf as (Hn & ((I1 & I2) & (I3 & I4) & _) & _). destruct Hbr as [B1 B2], Har as [A1 A2].
      assert (Hin : x + (n + ext) <= r_end br /\ y + (n + ext) <= r_end ar).
      { destruct Hext as [->|(_ & [D1 D2] & [D3 D4] & _)]; lia. }
      unfold cs_before_end, cs_after_end. cbn [cs_b cs_a cs_n]. cbv zeta. split.
      + intros br' ar' Hi.
        destruct ((x + (n + ext) <? r_end br) && (y + (n + ext) <? r_end ar)) eqn:E1;
        destruct ((r_start br <? x) && (r_start ar <? y)) eqn:E2; cbn [In] in Hi;
          rewrite ?andb_true_iff, ?Nat.ltb_lt in E1; rewrite ?andb_true_iff, ?Nat.ltb_lt in E2;
          repeat match goal with H : _ \/ _ |- _ => destruct H as [H|H] end;
          try (now apply Hrest); injection Hi as <- <-; split; split; cbn [r_start r_end]; lia.
      + rewrite app_length. cbn [length]. unfold size in HM, S1. cbn [fst snd] in HM, S1.
        destruct ((x + (n + ext) <? r_end br) && (y + (n + ext) <? r_end ar)) eqn:E1;
        destruct ((r_start br <? x) && (r_start ar <? y)) eqn:E2;
        rewrite ?andb_true_iff, ?Nat.ltb_lt in E1; rewrite ?andb_true_iff, ?Nat.ltb_lt in E2;
        rewrite ?sizes_cons; unfold size; cbn [fst snd r_start r_end]; lia. }
    split.
    - apply holding_le; [cbn [length]; lia|]. apply hbind_le; [cbn [besides fst]; lia|].
      cbn [besides snd]. rewrite lcs_same_h. intros [lcs|] E.
      + specialize (Hnext _ E). cbv zeta in *. destruct Hnext as [N1 N2]. apply (IH _ _ N1 N2).
      + apply IH; [assumption|lia].
    - intros raw' E. destruct (longest_common_subsequence eqb indices before after br ar) as [[lcs|]| |] eqn:El; try discriminate; cbn [bind] in E.
      + specialize (Hnext _ eq_refl). cbv zeta in *. destruct Hnext as [N1 N2].
        destruct (IH _ _ N1 N2) as [_ H]. now apply H.
      + destruct (IH rest raw Hrest ltac:(lia)) as [_ H]. now apply H.
  Qed.

  Lemma cs_insert_length x l : length (cs_insert x l) = S (length l).
  Proof. rewrite <- (Permutation_length (cs_insert_perm x l)). reflexivity. Qed.
  Lemma merge_from_length l : forall c, length (merge_from c l) <= S (length l).
  Proof.
    induction l as [|d l IH]; intros c; [cbn; lia|]. cbn [merge_from length]. destruct (_ && _); [|cbn [length]].
    - specialize (IH (incr_size_moving_ends c (cs_n d))). lia.
    - specialize (IH d). lia.
  Qed.
  Lemma merged_length raw : length (merge_adjacent (cs_sort raw)) <= length raw.
  Proof.
    rewrite (Permutation_length (cs_sort_perm raw)). destruct (cs_sort raw) as [|c l]; [cbn; lia|]. apply merge_from_length.
  Qed.
  Lemma generate_loop_length l : forall i j, length (generate_loop before after l i j) <= 2 * length l + 1.
  Proof.
    assert (G : forall i j x y, length (gap_change i j x y) <= 1).
    { intros. unfold gap_change. destruct (_ && _); [cbn; lia|]. destruct (_ <? _); [cbn; lia|]. destruct (_ <? _); cbn; lia. }
    induction l as [|c l IH]; intros i j; cbn [generate_loop length].
    - specialize (G i j (length before) (length after)). lia.
    - rewrite app_length. cbn [length]. specialize (G i j (cs_b c) (cs_a c)). specialize (IH (cs_before_end c) (cs_after_end c)). lia.
  Qed.

  Lemma generate_hold r : at_most eqb r before ->
    let M := Nat.max 1 (Nat.min (length before) (length after)) in
    fst (generate_h eqb indices before after) <= Nat.max (2 * r + M) (3 * M + 1).
  Proof.
    intros Hr M. unfold generate_h.
    destruct (loop_hold r (lcs_fuel before) M Hr [(range_from before 0, range_from after 0)] []) as [H1 H2].
    - intros br ar [[= <- <-]|[]]. split; split; cbn; lia.
    - rewrite sizes_cons. change (sizes []) with 0. unfold size, range_from. cbn [fst snd r_start r_end length]. unfold M. lia.
    - apply hbind_le; [lia|]. rewrite lcs_loop_same_h. intros raw E. specialize (H2 _ E). cbv zeta.
      pose proof (merged_length raw) as H3. pose proof (generate_loop_length (merge_adjacent (cs_sort raw)) 0 0) as H4.
      apply holding_le; [lia|]. apply holding_le; [lia|]. cbn. lia.
  Qed.

  (* ---------------- lower bound: one table for each of two items ---------------- *)
  Lemma scan_indices_full br jl index js : forall new best new' best',
    (forall j, In j js -> r_start br <= j < r_end br) ->
    scan_indices br jl index js new best = Ok (new', best') ->
    length new' = length new + length js /\
    (js <> [] -> length jl + length new' <= fst (scan_indices_h br jl index js new best)).
  Proof.
    induction js as [|j js IH]; intros new best new' best' Hj E.
    { cbn in E. injection E as <- <-. cbn. split; [lia|]. now intros []. }
    cbn [scan_indices] in E. cbn [scan_indices_h].
    assert (Hj' : forall j, In j js -> r_start br <= j < r_end br) by (intros; apply Hj; now right).
    assert (Hj0 := Hj j (or_introl eq_refl)).
    replace (j <? r_start br) with false in * by (symmetry; apply Nat.ltb_ge; lia).
    replace (r_end br <=? j) with false in * by (symmetry; apply Nat.leb_gt; lia). cbv zeta in *.
    set (k := match jget jl (Z.of_nat j - 1) with Some k => k + 1 | None => 1 end) in *.
    assert (HE : exists best'', scan_indices br jl index js ((Z.of_nat j, k) :: new) best'' = Ok (new', best') /\
              fst (scan_indices_h br jl index js ((Z.of_nat j, k) :: new) best'') <=
              fst (if cs_n best <? k
                   then hold! b := nothing (usub (j + 1) k) in hold! a := nothing (usub (index + 1) k) in
                        scan_indices_h br jl index js ((Z.of_nat j, k) :: new) (CS b a k)
                   else scan_indices_h br jl index js ((Z.of_nat j, k) :: new) best)).
    { destruct (_ <? _); [|exists best; split; [assumption|lia]].
      destruct (usub (j + 1) k) as [b| |]; try discriminate. cbn [bind] in E.
      destruct (usub (index + 1) k) as [a| |]; try discriminate. cbn [bind] in E.
      exists (CS b a k). split; [assumption|]. cbn. lia. }
    destruct HE as (best'' & E' & Hle). destruct (IH _ _ _ _ Hj' E') as [H1 H2]. cbn [length] in *.
    split; [lia|]. intros _. cbn [holding fst length].
    destruct js as [|j2 js]; [cbn [length] in *; lia|]. specialize (H2 ltac:(discriminate)).
    etransitivity; [exact H2|]. etransitivity; [exact Hle|]. apply Nat.le_max_r.
  Qed.
End Space.

(* ---------------- n equal items against two of them ---------------- *)
Section Full.
  Context {T : Type} (eqb : T -> T -> bool) (Heqb : lawful eqb) (a : T).
  Variable indices : T -> option (list nat).
  Variable n : nat.
  Hypothesis Hn : 0 < n.
  Notation before := (repeat a n).
  Notation after := [a; a].
  Hypothesis Hind : forall x, index_spec before x (indices x).

  Lemma full_index : exists js, indices a = Some js /\ length js = n /\ js <> [] /\ forall j, In j js -> 0 <= j < n.
  Proof.
    pose proof (Hind a) as H. destruct (indices a) as [js|] eqn:E.
    - exists js. split; [reflexivity|]. split.
      + rewrite (indices_length eqb indices before Heqb Hind a js E).
        apply (occ_repeat eqb Heqb a).
      + destruct H as (H1 & _ & H2). split; [assumption|]. intros j Hj. apply H2 in Hj.
        assert (j < length before) by (apply nth_error_Some; congruence). rewrite repeat_length in *. lia.
    - exfalso. apply H. destruct n; [lia|]. now left.
  Qed.

  Lemma full_hold : 2 * n <= fst (generate_h eqb indices before after).
  Proof.
    unfold generate_h. etransitivity; [|apply hbind_ge].
    unfold lcs_fuel. replace (2 * length before + 2) with (S (2 * length before + 1)) by lia. cbn [lcs_loop_h].
    assert (Hok : exists r, longest_common_subsequence eqb indices before after (range_from before 0) (range_from after 0) = Ok r).
    { destruct (lcs_spec eqb Heqb indices before after Hind (range_from before 0) (range_from after 0)) as [[-> _]|(x & y & k & ext & -> & _)]; eauto;
        split; cbn; lia. }
    destruct Hok as [o Hok].
    enough (2 * n <= fst (longest_common_subsequence_h eqb indices before after (range_from before 0) (range_from after 0))) as H.
    { cbn [holding fst]. etransitivity; [|apply Nat.le_max_r]. etransitivity; [|apply hbind_ge]. cbn [besides fst]. lia. }
    unfold longest_common_subsequence_h. unfold longest_common_subsequence in Hok.
    assert (Hs : subsequence after (range_from after 0) = Ok after) by reflexivity. rewrite Hs in *.
    cbn [bind] in Hok. erewrite hbind_ok by reflexivity. etransitivity; [|apply Nat.le_max_r]. etransitivity; [|apply hbind_ge].
    destruct full_index as (js & Ej & Hl & Hne & Hj). cbn [scan_after scan_after_h] in *. rewrite Ej in *.
    assert (Hj2 : forall j, In j js -> r_start (range_from before 0) <= j < r_end (range_from before 0)).
    { intros j H. apply Hj in H. unfold range_from. cbn [r_start r_end]. rewrite repeat_length. lia. }
    destruct (scan_indices (range_from before 0) [] (r_start (range_from after 0)) js [] (CS 0 0 0)) as [[new1 b1]| |] eqn:E1; try discriminate.
    cbn [bind] in Hok.
    destruct (scan_indices_full _ _ _ _ _ _ _ _ Hj2 E1) as [L1 _]. cbn [length] in L1.
    erewrite hbind_ok by (rewrite scan_indices_same_h; exact E1). etransitivity; [|apply Nat.le_max_r].
    destruct (scan_indices (range_from before 0) new1 (S (r_start (range_from after 0))) js [] b1) as [[new2 b2]| |] eqn:E2; try discriminate.
    destruct (scan_indices_full _ _ _ _ _ _ _ _ Hj2 E2) as [L2 H2]. cbn [length] in L2. specialize (H2 Hne).
    etransitivity; [|apply hbind_ge]. lia.
  Qed.
End Full.

(* ---------------- the index ---------------- *)
Lemma smap_push_positions m k i : (exists v, smap_get m k = Some v) -> string_positions (smap_push m k i) = S (string_positions m).
Proof.
  unfold string_positions. induction m as [|[k' v] m IH]; intros [w H]; [discriminate|]. cbn [smap_get smap_push] in *.
  destruct (line_eqb k' k).
  - cbn [map list_sum fold_right snd]. rewrite app_length. cbn [length]. lia.
  - cbn [map snd]. change (length v + list_sum (map (fun e => length (snd e)) (smap_push m k i)) =
      S (length v + list_sum (map (fun e => length (snd e)) m))). rewrite IH by eauto. lia.
Qed.
Lemma string_loop_positions items : forall index m, string_positions (string_generate_loop items index m) = length items + string_positions m.
Proof.
  induction items as [|x items IH]; intros index m; [reflexivity|]. cbn [string_generate_loop length]. rewrite IH.
  destruct (smap_get m x) as [v|] eqn:E.
  - rewrite smap_push_positions by eauto. lia.
  - change (length items + (1 + string_positions m) = S (length items) + string_positions m). lia.
Qed.
Lemma array_push_positions a : forall k i, k < length a -> byte_positions (array_push a k i) = S (byte_positions a).
Proof.
  unfold byte_positions. induction a as [|v a IH]; intros k i H; [cbn in H; lia|]. cbn [length] in H. destruct k as [|k]; cbn [array_push map].
  - change (length (v ++ [i]) + list_sum (map (@length nat) a) = S (length v + list_sum (map (@length nat) a))).
    rewrite app_length. cbn [length]. lia.
  - change (length v + list_sum (map (@length nat) (array_push a k i)) = S (length v + list_sum (map (@length nat) a))).
    rewrite IH by lia. lia.
Qed.
Lemma byte_loop_positions items : forall index a, length a = 256 ->
  byte_positions (byte_generate_loop items index a) = length items + byte_positions a.
Proof.
  induction items as [|x items IH]; intros index a Ha; [reflexivity|]. cbn [byte_generate_loop length].
  pose proof (byte_index_lt x) as Hx. rewrite IH by (rewrite array_push_length; assumption).
  rewrite array_push_positions by lia. lia.
Qed.
Lemma string_index_positions s : string_positions (string_generate_from s) = length s.
Proof. unfold string_generate_from. rewrite string_loop_positions. cbn. lia. Qed.
Lemma byte_index_positions s : byte_positions (byte_generate_from s) = length s.
Proof. unfold byte_generate_from. rewrite byte_loop_positions by apply repeat_length. cbn. lia. Qed.

(* Proof_Cost.v - the number of rounds of the loops of the generator. *)
From Verif Require Import Base Model_Seq Model_Changes Model_Cost Spec Spec_Cost Proof_Seq Proof_Lcs Proof_Changes.

Lemma cbind_snd {A B} (m : counted A) (k : A -> counted B) :
  snd (cbind m k) = bind (snd m) (fun a => snd (k a)).
Proof. destruct m as [n [a| |]]; reflexivity. Qed.
Lemma cbind_ok {A B} (m : counted A) (k : A -> counted B) a : snd m = Ok a -> fst (cbind m k) = fst m + fst (k a).
Proof. destruct m as [n r]. cbn. now intros ->. Qed.
Lemma cbind_ge {A B} (m : counted A) (k : A -> counted B) : fst m <= fst (cbind m k).
Proof. destruct m as [n [a| |]]; cbn; lia. Qed.
Lemma cbind_le {A B} (m : counted A) (k : A -> counted B) x y :
  fst m <= x -> (forall a, snd m = Ok a -> fst (k a) <= y) -> fst (cbind m k) <= x + y.
Proof. destruct m as [n [a| |]]; cbn; intros H1 H2; [specialize (H2 a eq_refl)| |]; lia. Qed.
Lemma uncounted_le {A B} (m : res A) (k : A -> counted B) y :
  (forall a, m = Ok a -> fst (k a) <= y) -> fst (cbind (uncounted m) k) <= y.
Proof. intros H. apply (cbind_le (uncounted m) k 0 y); [cbn; lia|exact H]. Qed.
Lemma bind_ext {A B} (m : res A) (k k' : A -> res B) : (forall a, k a = k' a) -> bind m k = bind m k'.
Proof. intros H. destruct m; cbn; auto. Qed.

Section Cost.
  Context {T : Type} (eqb : T -> T -> bool).
  Variable indices : T -> option (list nat).
  Variables before after : list T.

  (* ---------------- the count changes nothing ---------------- *)
  Lemma scan_indices_same br jl index js : forall new best,
    snd (scan_indices_c br jl index js new best) = scan_indices br jl index js new best.
  Proof.
    induction js as [|j js IH]; intros new best; [reflexivity|]. cbn [scan_indices_c scan_indices tick snd].
    destruct (j <? r_start br); [apply IH|]. destruct (r_end br <=? j); [reflexivity|]. cbv zeta.
    destruct (_ <? _); [|apply IH]. rewrite cbind_snd. cbn [uncounted snd]. apply bind_ext. intros b.
    rewrite cbind_snd. cbn [uncounted snd]. apply bind_ext. intros a. apply IH.
  Qed.
  Lemma scan_after_same br items : forall index jl best,
    snd (scan_after_c indices br items index jl best) = scan_after indices br items index jl best.
  Proof.
    induction items as [|x items IH]; intros index jl best; [reflexivity|]. cbn [scan_after_c scan_after tick snd].
    rewrite cbind_snd. destruct (indices x) as [js|].
    - rewrite scan_indices_same. apply bind_ext. intros [new b]. apply IH.
    - cbn [uncounted snd]. apply bind_ext. intros [new b]. apply IH.
  Qed.
  Lemma zip_match_same l : forall r, snd (zip_match_count_c eqb l r) = Ok (zip_match_count eqb l r).
  Proof.
    induction l as [|x l IH]; intros [|y r]; try reflexivity. cbn [zip_match_count_c zip_match_count tick snd].
    destruct (eqb x y); [|reflexivity]. rewrite cbind_snd, IH. reflexivity.
  Qed.
  Lemma lcs_same br ar :
    snd (longest_common_subsequence_c eqb indices before after br ar) = longest_common_subsequence eqb indices before after br ar.
  Proof.
    unfold longest_common_subsequence_c, longest_common_subsequence.
    rewrite cbind_snd. cbn [uncounted snd]. apply bind_ext. intros items.
    rewrite cbind_snd, scan_after_same. apply bind_ext. intros best. destruct (cs_n best =? 0); [reflexivity|].
    rewrite cbind_snd. cbn [uncounted snd]. apply bind_ext. intros bpre.
    rewrite cbind_snd. cbn [uncounted snd]. apply bind_ext. intros apre.
    rewrite cbind_snd, zip_match_same. cbn [bind].
    rewrite cbind_snd. cbn [uncounted snd]. apply bind_ext. intros best'.
    destruct (_ && _); [|reflexivity].
    rewrite cbind_snd. cbn [uncounted snd]. apply bind_ext. intros bpost.
    rewrite cbind_snd. cbn [uncounted snd]. apply bind_ext. intros apost.
    rewrite cbind_snd, zip_match_same. reflexivity.
  Qed.
  Lemma lcs_loop_same fuel : forall lifo raw,
    snd (lcs_loop_c eqb indices before after fuel lifo raw) = lcs_loop eqb indices before after fuel lifo raw.
  Proof.
    induction fuel as [|fuel IH]; intros [|[br ar] rest] raw; try reflexivity. cbn [lcs_loop_c lcs_loop tick snd].
    rewrite cbind_snd, lcs_same. apply bind_ext. intros [c|]; apply IH.
  Qed.
  Lemma generate_same_c : snd (generate_c eqb indices before after) = generate eqb indices before after.
  Proof.
    unfold generate_c, generate, longest_common_subsequences. rewrite cbind_snd, lcs_loop_same.
    destruct (lcs_loop _ _ _ _ _ _ _); reflexivity.
  Qed.

  (* ---------------- upper bound ---------------- *)
  Hypothesis Heqb : lawful eqb.
  Hypothesis Hind : forall x, index_spec before x (indices x).

  Lemma occ_positions x (s : list T) :
    length (filter (fun p => match nth_error s p with Some v => eqb x v | None => false end) (seq 0 (length s))) = occurrences eqb x s.
  Proof.
    unfold occurrences. induction s as [|y s IH]; [reflexivity|]. cbn [length seq filter nth_error].
    rewrite <- seq_shift.
    assert (E : forall l, length (filter (fun p => match nth_error (y :: s) p with Some v => eqb x v | None => false end) (map S l)) =
                length (filter (fun p => match nth_error s p with Some v => eqb x v | None => false end) l)).
    { induction l as [|p l IHl]; [reflexivity|]. cbn [map filter nth_error].
      destruct (match nth_error s p with Some v => eqb x v | None => false end); cbn [length]; lia. }
    destruct (eqb x y); cbn [length]; rewrite E, IH; reflexivity.
  Qed.
  Lemma strongly_nodup (l : list nat) : StronglySorted lt l -> NoDup l.
  Proof.
    induction 1 as [|a l _ IH H]; constructor; auto. intros Ha. rewrite Forall_forall in H. specialize (H a Ha). lia.
  Qed.
  Lemma indices_length x js : indices x = Some js -> length js = occurrences eqb x before.
  Proof.
    intros E. pose proof (Hind x) as H. rewrite E in H. destruct H as (_ & H1 & H2). rewrite <- occ_positions.
    assert (M : forall p, In p js <-> In p (filter (fun p => match nth_error before p with Some v => eqb x v | None => false end) (seq 0 (length before)))).
    { intros p. rewrite H2, filter_In, in_seq. split.
      - intros Hp. rewrite Hp. split; [|now apply Heqb]. split; [lia|]. apply nth_error_Some. congruence.
      - intros [_ Hp]. destruct (nth_error before p) as [v|]; [|discriminate]. apply Heqb in Hp. now subst. }
    apply Nat.le_antisymm; apply NoDup_incl_length.
    - now apply strongly_nodup.
    - intros p. apply M.
    - apply NoDup_filter, seq_NoDup.
    - intros p. apply M.
  Qed.

  Lemma scan_indices_le br jl index js : forall new best, fst (scan_indices_c br jl index js new best) <= length js.
  Proof.
    induction js as [|j js IH]; intros new best; [cbn; lia|]. cbn [scan_indices_c tick fst length]. apply le_n_S.
    destruct (j <? r_start br); [apply IH|]. destruct (r_end br <=? j); [cbn; lia|]. cbv zeta.
    destruct (_ <? _); [|apply IH]. apply uncounted_le. intros b _. apply uncounted_le. intros a _. apply IH.
  Qed.
  Lemma scan_after_le r br items : at_most eqb r before -> forall index jl best,
    fst (scan_after_c indices br items index jl best) <= length items * (1 + r).
  Proof.
    intros Hr. induction items as [|x items IH]; intros index jl best; [cbn; lia|]. cbn [scan_after_c tick fst length Nat.mul].
    change (1 + r + length items * (1 + r)) with (S (r + length items * (1 + r))). apply le_n_S. apply cbind_le.
    - destruct (indices x) as [js|] eqn:E; [|cbn; lia].
      etransitivity; [apply scan_indices_le|]. rewrite (indices_length x js E). apply Hr.
    - intros [new b] _. apply IH.
  Qed.
  Lemma zip_match_le l : forall r, fst (zip_match_count_c eqb l r) <= length r.
  Proof.
    induction l as [|x l IH]; intros [|y r]; cbn [zip_match_count_c uncounted fst length]; try lia. cbn [tick fst].
    destruct (eqb x y); [|cbn; lia]. apply le_n_S. rewrite <- (Nat.add_0_r (length r)). apply cbind_le; [apply IH|]. cbn. lia.
  Qed.
  Lemma subsequence_length (s : list T) r l : subsequence s r = Ok l -> length l = r_end r - r_start r /\ r_end r <= length s.
  Proof.
    unfold subsequence, slice. destruct ((_ <=? _) && _) eqn:E; [|discriminate]. intros [= <-].
    apply andb_true_iff in E. rewrite !Nat.leb_le in E. rewrite firstn_length, skipn_length. lia.
  Qed.
  Lemma lcs_le r br ar : at_most eqb r before ->
    fst (longest_common_subsequence_c eqb indices before after br ar) <= length after * (r + 3).
  Proof.
    intros Hr. unfold longest_common_subsequence_c. apply uncounted_le. intros items Hi. apply subsequence_length in Hi.
    assert (Hlen : length items <= length after) by lia.
    replace (length after * (r + 3)) with (length after * (1 + r) + (length after + length after)) by lia.
    apply cbind_le.
    { etransitivity; [apply scan_after_le; eassumption|]. now apply Nat.mul_le_mono_r. }
    intros best _. destruct (cs_n best =? 0); [cbn; lia|].
    apply uncounted_le. intros bpre _. apply uncounted_le. intros apre Ha. apply subsequence_length in Ha.
    apply cbind_le.
    { etransitivity; [apply zip_match_le|]. rewrite rev_length. cbn [r_end r_start] in Ha. lia. }
    intros n _. apply uncounted_le. intros best' _. destruct (_ && _); [|cbn; lia].
    apply uncounted_le. intros bpost _. apply uncounted_le. intros apost Hp. apply subsequence_length in Hp.
    rewrite <- (Nat.add_0_r (length after)). apply cbind_le; [|cbn; lia].
    etransitivity; [apply zip_match_le|]. cbn [r_end r_start] in Hp. lia.
  Qed.

  Definition size (p : range * range) : nat :=
    Nat.max 1 (Nat.min (r_end (fst p) - r_start (fst p)) (r_end (snd p) - r_start (snd p))).
  Definition sizes (l : list (range * range)) : nat := list_sum (map size l).
  Lemma sizes_cons p l : sizes (p :: l) = size p + sizes l.
  Proof. reflexivity. Qed.

  Lemma loop_le r fuel : at_most eqb r before -> forall lifo raw,
    (forall br ar, In (br, ar) lifo -> in_bounds before br /\ in_bounds after ar) ->
    fst (lcs_loop_c eqb indices before after fuel lifo raw) <= sizes lifo * (1 + length after * (r + 3)).
  Proof.
    intros Hr. set (C := length after * (r + 3)).
    induction fuel as [|fuel IH]; intros [|[br ar] rest] raw Hb; try (cbn; lia). cbn [lcs_loop_c tick fst].
    rewrite sizes_cons.
    destruct (Hb br ar (or_introl eq_refl)) as [Hbr Har].
    assert (Hrest : forall br ar, In (br, ar) rest -> in_bounds before br /\ in_bounds after ar) by (intros; apply Hb; now right).
    assert (S1 : 1 <= size (br, ar)) by (unfold size; lia).
    enough (fst (cbind (longest_common_subsequence_c eqb indices before after br ar)
              (fun found => match found with
               | None => lcs_loop_c eqb indices before after fuel rest raw
               | Some lcs => lcs_loop_c eqb indices before after fuel
                   (if (cs_before_end lcs <? r_end br) && (cs_after_end lcs <? r_end ar)
                    then (Range (cs_before_end lcs) (r_end br), Range (cs_after_end lcs) (r_end ar)) ::
                      (if (r_start br <? cs_b lcs) && (r_start ar <? cs_a lcs)
                       then (Range (r_start br) (cs_b lcs), Range (r_start ar) (cs_a lcs)) :: rest else rest)
                    else (if (r_start br <? cs_b lcs) && (r_start ar <? cs_a lcs)
                       then (Range (r_start br) (cs_b lcs), Range (r_start ar) (cs_a lcs)) :: rest else rest)) (raw ++ [lcs])
               end)) <= C + (size (br, ar) - 1 + sizes rest) * (1 + C)) by (cbv zeta; nia).
    apply cbind_le; [now apply lcs_le|]. rewrite lcs_same.
    destruct (lcs_spec eqb Heqb indices before after Hind br ar Hbr Har) as [[-> _]|(x & y & n & ext & -> & Hf & Hext & _)].
    - intros o [= <-]. etransitivity; [apply IH, Hrest|]. apply Nat.mul_le_mono_r. lia.
    - intros o [= <-].
      destruct Hf as (Hn & ((I1 & I2) & (I3 & I4) & _) & _). destruct Hbr as [B1 B2], Har as [A1 A2].
      assert (Hin : x + (n + ext) <= r_end br /\ y + (n + ext) <= r_end ar).
      { destruct Hext as [->|(_ & [D1 D2] & [D3 D4] & _)]; lia. }
      unfold cs_before_end, cs_after_end. cbn [cs_b cs_a cs_n].
      etransitivity; [apply IH|apply Nat.mul_le_mono_r].
      + intros br' ar' Hi.
        destruct ((x + (n + ext) <? r_end br) && (y + (n + ext) <? r_end ar)) eqn:E1;
        destruct ((r_start br <? x) && (r_start ar <? y)) eqn:E2; cbn [In] in Hi;
          rewrite ?andb_true_iff, ?Nat.ltb_lt in E1; rewrite ?andb_true_iff, ?Nat.ltb_lt in E2;
          repeat match goal with H : _ \/ _ |- _ => destruct H as [H|H] end;
          try (now apply Hrest); injection Hi as <- <-; split; split; cbn [r_start r_end]; lia.
      + destruct ((x + (n + ext) <? r_end br) && (y + (n + ext) <? r_end ar)) eqn:E1;
        destruct ((r_start br <? x) && (r_start ar <? y)) eqn:E2;
        rewrite ?andb_true_iff, ?Nat.ltb_lt in E1; rewrite ?andb_true_iff, ?Nat.ltb_lt in E2;
        rewrite ?sizes_cons; unfold size; cbn [fst snd r_start r_end]; lia.
  Qed.

  Lemma generate_le r : at_most eqb r before ->
    fst (generate_c eqb indices before after) <=
      Nat.max 1 (Nat.min (length before) (length after)) * (1 + length after * (r + 3)).
  Proof.
    intros Hr. unfold generate_c. rewrite <- (Nat.add_0_r (_ * _)). apply cbind_le; [|cbn; lia].
    etransitivity; [apply (loop_le r); [assumption|]|].
    - intros br ar [[= <- <-]|[]]. split; split; cbn; lia.
    - apply Nat.mul_le_mono_r. rewrite sizes_cons. change (sizes []) with 0. unfold size, range_from. cbn [fst snd r_start r_end]. lia.
  Qed.

  (* ---------------- lower bound for one search ---------------- *)
  Lemma scan_indices_ge br jl index js : forall new best r,
    (forall j, In j js -> j < r_end br) ->
    scan_indices br jl index js new best = Ok r -> length js <= fst (scan_indices_c br jl index js new best).
  Proof.
    induction js as [|j js IH]; intros new best r Hj E; [cbn; lia|]. cbn [scan_indices_c tick fst length]. apply le_n_S.
    cbn [scan_indices] in E. assert (Hj' : forall j, In j js -> j < r_end br) by (intros; apply Hj; now right).
    destruct (j <? r_start br); [eapply IH; eassumption|].
    replace (r_end br <=? j) with false in * by (symmetry; apply Nat.leb_gt, Hj; now left). cbv zeta in *.
    destruct (_ <? _); [|eapply IH; eassumption].
    destruct (usub (j + 1) _) as [b| |]; try discriminate. cbn [bind] in E.
    destruct (usub (index + 1) _) as [a| |]; try discriminate. cbn [bind] in E. cbn [uncounted cbind fst snd].
    rewrite !Nat.add_0_l. eapply IH; eassumption.
  Qed.
  Lemma scan_after_ge br items : length before <= r_end br -> forall index jl best r,
    scan_after indices br items index jl best = Ok r ->
    list_sum (map (fun x => occurrences eqb x before) items) <= fst (scan_after_c indices br items index jl best).
  Proof.
    intros Hb. induction items as [|x items IH]; intros index jl best r E; [cbn; lia|].
    cbn [scan_after_c tick fst map]. cbn [scan_after] in E.
    change (occurrences eqb x before + list_sum (map (fun x => occurrences eqb x before) items) <=
      S (fst (cbind (match indices x with Some js => scan_indices_c br jl index js [] best | None => uncounted (Ok ([], best)) end)
                (fun '(new_j, best') => scan_after_c indices br items (S index) new_j best')))).
    destruct (indices x) as [js|] eqn:Ex.
    - destruct (scan_indices br jl index js [] best) as [[new b]| |] eqn:Es; try discriminate. cbn [bind] in E.
      erewrite cbind_ok by (rewrite scan_indices_same; exact Es). cbn beta iota.
      assert (length js <= fst (scan_indices_c br jl index js [] best)).
      { eapply scan_indices_ge; [|exact Es]. intros j Hj. pose proof (Hind x) as H. rewrite Ex in H. destruct H as (_ & _ & H).
        apply H in Hj. enough (j < length before) by lia. apply nth_error_Some. congruence. }
      rewrite (indices_length x js Ex) in H. specialize (IH _ _ _ _ E). lia.
    - cbn [bind] in E. cbn [uncounted cbind fst snd]. specialize (IH _ _ _ _ E).
      enough (occurrences eqb x before = 0) by lia.
      pose proof (Hind x) as H. rewrite Ex in H. unfold occurrences.
      destruct (filter (eqb x) before) as [|v l] eqn:F; [reflexivity|]. exfalso. apply H.
      assert (Hv : In v (filter (eqb x) before)) by (rewrite F; now left). apply filter_In in Hv as [H1 H2].
      apply Heqb in H2. now subst.
  Qed.
  Lemma lcs_ge br ar items : length before <= r_end br -> in_bounds before br -> in_bounds after ar ->
    subsequence after ar = Ok items ->
    list_sum (map (fun x => occurrences eqb x before) items) <= fst (longest_common_subsequence_c eqb indices before after br ar).
  Proof.
    intros Hb Hbr Har Hi. unfold longest_common_subsequence_c. rewrite Hi. cbn [uncounted cbind fst snd]. rewrite Nat.add_0_l.
    assert (Hok : exists r, longest_common_subsequence eqb indices before after br ar = Ok r).
    { destruct (lcs_spec eqb Heqb indices before after Hind br ar Hbr Har) as [[-> _]|(x & y & n & ext & -> & _)]; eauto. }
    destruct Hok as [r Hok]. unfold longest_common_subsequence in Hok. rewrite Hi in Hok. cbn [bind] in Hok.
    destruct (scan_after indices br items (r_start ar) [] (CS 0 0 0)) as [best| |] eqn:Es; try discriminate.
    etransitivity; [eapply scan_after_ge; eassumption|apply cbind_ge].
  Qed.
End Cost.

(* ---------------- a family with a cubic number of rounds ---------------- *)
(* m times a; and m times a b b *)
Fixpoint triples {T} (a b : T) (m : nat) : list T :=
  match m with 0 => [] | S m' => a :: b :: b :: triples a b m' end.
Fixpoint triangle (k : nat) : nat := match k with 0 => 0 | S k' => S k' + triangle k' end.
Lemma triangle_twice k : 2 * triangle k = k * (k + 1).
Proof. induction k as [|k IH]; [reflexivity|]. cbn [triangle]. lia. Qed.

Section Family.
  Context {T : Type} (eqb : T -> T -> bool) (Heqb : lawful eqb) (a b : T) (Hab : a <> b).
  Variable indices : T -> option (list nat).
  Variable m : nat.
  Notation before := (repeat a m).
  Notation after := (triples a b m).
  Hypothesis Hind : forall x, index_spec before x (indices x).

  Lemma triples_length k : length (triples a b k) = 3 * k.
  Proof. induction k as [|k IH]; [reflexivity|]. cbn [triples length]. lia. Qed.
  Lemma triples_skip p : forall k, p <= k -> skipn (3 * p) (triples a b k) = triples a b (k - p).
  Proof.
    induction p as [|p IH]; intros k Hk; [now rewrite Nat.sub_0_r|]. destruct k as [|k]; [lia|].
    replace (3 * S p) with (S (S (S (3 * p)))) by lia. cbn [triples skipn Nat.sub]. apply IH. lia.
  Qed.
  Lemma triples_nth k : forall q, q < k -> nth_error (triples a b k) (3 * q) = Some a /\
    nth_error (triples a b k) (3 * q + 1) = Some b /\ nth_error (triples a b k) (3 * q + 2) = Some b.
  Proof.
    induction k as [|k IH]; intros q Hq; [lia|]. destruct q as [|q]; [now cbn|].
    replace (3 * S q) with (S (S (S (3 * q)))) by lia. cbn [triples nth_error Nat.add]. apply IH. lia.
  Qed.
  Lemma repeat_nth p v : nth_error before p = Some v -> v = a.
  Proof. intros H. apply nth_error_In, repeat_spec in H. assumption. Qed.
  Lemma before_nth p : p < m -> nth_error before p = Some a.
  Proof. intros H. apply nth_error_repeat. assumption. Qed.
  Lemma same_mult x y : same_at before after x y -> exists q, y = 3 * q /\ q < m.
  Proof.
    intros (v & H1 & H2). apply repeat_nth in H1 as ->.
    assert (Hy : y < 3 * m) by (rewrite <- triples_length; apply nth_error_Some; congruence).
    pose proof (Nat.div_mod y 3 ltac:(lia)) as D. pose proof (Nat.mod_upper_bound y 3 ltac:(lia)) as U.
    destruct (triples_nth m (y / 3)) as (E0 & E1 & E2); [lia|].
    destruct (y mod 3) as [|[|[|r]]]; [exists (y / 3); lia| | |lia].
    - rewrite D in H2. congruence.
    - rewrite D in H2. congruence.
  Qed.

  Lemma family_block p s : p < m -> s <= 3 * p -> 3 * p < s + 3 ->
    longest_common_subsequence eqb indices before after (Range p m) (Range s (3 * m)) = Ok (Some (CS p (3 * p) 1)).
  Proof.
    intros Hp Hs1 Hs2.
    assert (B1 : in_bounds before (Range p m)) by (split; cbn [r_start r_end]; rewrite ?repeat_length; lia).
    assert (B2 : in_bounds after (Range s (3 * m))) by (split; cbn [r_start r_end]; rewrite ?triples_length; lia).
    assert (Hsame : same_at before after p (3 * p)) by (exists a; split; [now apply before_nth|now apply triples_nth]).
    destruct (lcs_spec eqb Heqb indices before after Hind _ _ B1 B2) as [[_ Hno]|(x & y & n & ext & -> & Hf & Hext & _)].
    - exfalso. apply (Hno p (3 * p)); [split; cbn [r_start r_end]; lia..|assumption].
    - destruct Hf as (Hn & ((X1 & X2) & (Y1 & Y2) & HB) & Hmax). cbn [r_start r_end] in *.
      destruct (Hmax p (3 * p) 1) as [_ Htie].
      { split; [split; cbn [r_start r_end]; lia|]. split; [split; cbn [r_start r_end]; lia|].
        intros t Ht. replace t with 0 by lia. now rewrite !Nat.add_0_r. }
      assert (H0 : same_at before after (x + 0) (y + 0)) by (apply HB; lia). rewrite !Nat.add_0_r in H0.
      destruct (same_mult _ _ H0) as (q & -> & Hq).
      assert (n = 1) as ->.
      { destruct (Nat.eq_dec n 1); [assumption|]. exfalso. assert (H1 : same_at before after (x + 1) (3 * q + 1)) by (apply HB; lia).
        destruct (same_mult _ _ H1) as (q' & E & _). lia. }
      destruct (Htie eq_refl) as [H1|[H1 H2]]; [lia|]. assert (q = p) as -> by lia. assert (x = p) as -> by lia.
      destruct (Nat.eq_dec ext 0) as [->|He]; [reflexivity|]. exfalso.
      destruct Hext as [->|(_ & _ & _ & HB2)]; [now apply He|].
      assert (H3 : same_at before after (p + 1 + 1 + 0) (3 * p + 1 + 1 + 0)) by (apply HB2; lia).
      destruct (same_mult _ _ H3) as (q' & E & _). lia.
  Qed.

  Lemma occ_repeat : occurrences eqb a before = m.
  Proof.
    unfold occurrences. clear Hind. induction m as [|k IH]; [reflexivity|]. cbn [repeat filter].
    replace (eqb a a) with true by (symmetry; now apply Heqb). cbn [length]. now rewrite IH.
  Qed.
  Lemma sum_triples k : k * m <= list_sum (map (fun x => occurrences eqb x before) (triples a b k)).
  Proof.
    induction k as [|k IH]; [cbn; lia|]. cbn [triples map].
    change (S k * m <= occurrences eqb a before + (occurrences eqb b before + (occurrences eqb b before +
      list_sum (map (fun x => occurrences eqb x before) (triples a b k))))). rewrite occ_repeat. lia.
  Qed.
  Lemma sum_skipn (f : T -> nat) l : forall k, list_sum (map f (skipn k l)) <= list_sum (map f l).
  Proof. intros k. rewrite <- (firstn_skipn k l) at 2. rewrite map_app, list_sum_app. lia. Qed.
  Lemma skipn_add (l : list T) : forall i j, skipn i (skipn j l) = skipn (j + i) l.
  Proof. induction l as [|x l IH]; intros i [|j]; rewrite ?skipn_nil; auto. cbn [skipn Nat.add]. apply IH. Qed.
  Lemma family_search p s : p < m -> s <= 3 * p -> 3 * p < s + 3 ->
    (m - p) * m <= fst (longest_common_subsequence_c eqb indices before after (Range p m) (Range s (3 * m))).
  Proof.
    intros Hp Hs1 Hs2.
    assert (B1 : in_bounds before (Range p m)) by (split; cbn [r_start r_end]; rewrite ?repeat_length; lia).
    assert (B2 : in_bounds after (Range s (3 * m))) by (split; cbn [r_start r_end]; rewrite ?triples_length; lia).
    etransitivity; [|eapply (lcs_ge eqb indices before after Heqb Hind)]; try eassumption.
    2: { rewrite repeat_length. cbn. lia. }
    2: { unfold subsequence. cbn [r_start r_end]. rewrite slice_ok by (rewrite ?triples_length; lia). reflexivity. }
    rewrite firstn_all2 by (rewrite skipn_length, triples_length; lia).
    etransitivity; [|apply (sum_skipn _ _ (3 * p - s))]. rewrite skipn_add.
    replace (s + (3 * p - s)) with (3 * p) by lia. rewrite triples_skip by lia. apply sum_triples.
  Qed.

  Lemma family_loop k : forall p s fuel raw, p + k = m -> k <= fuel -> s <= 3 * p -> 3 * p < s + 3 ->
    m * triangle k <= fst (lcs_loop_c eqb indices before after fuel [(Range p m, Range s (3 * m))] raw).
  Proof.
    induction k as [|k IH]; intros p s fuel raw Hk Hf Hs1 Hs2; [cbn; lia|]. destruct fuel as [|fuel]; [lia|].
    cbn [lcs_loop_c tick fst]. erewrite cbind_ok by (rewrite lcs_same; apply family_block; lia).
    pose proof (family_search p s ltac:(lia) Hs1 Hs2) as HS. cbn beta iota. unfold cs_before_end, cs_after_end.
    cbn [cs_b cs_a cs_n r_start r_end]. rewrite Nat.ltb_irrefl. cbn [andb]. cbn [triangle].
    destruct (Nat.eq_dec k 0) as [->|Hk0].
    { cbn [triangle]. replace (m - p) with 1 in HS by lia. lia. }
    replace ((p + 1 <? m) && (3 * p + 1 <? 3 * m)) with true
      by (symmetry; apply andb_true_iff; rewrite !Nat.ltb_lt; lia).
    specialize (IH (p + 1) (3 * p + 1) fuel (raw ++ [CS p (3 * p) 1]) ltac:(lia) ltac:(lia) ltac:(lia) ltac:(lia)).
    replace (m - p) with (S k) in HS by lia. lia.
  Qed.

  Lemma family_rounds : m * m * (m + 1) <= 2 * fst (generate_c eqb indices before after).
  Proof.
    unfold generate_c. pose proof (triangle_twice m).
    assert (m * triangle m <= fst (lcs_loop_c eqb indices before after (lcs_fuel before) [(range_from before 0, range_from after 0)] [])).
    { unfold range_from. rewrite repeat_length, triples_length. apply family_loop; try lia. unfold lcs_fuel. rewrite repeat_length. lia. }
    etransitivity; [|apply Nat.mul_le_mono_l, cbind_ge]. nia.
  Qed.
End Family.

(* two sequences without common items *)
Lemma apart_scan {T} (indices : T -> option (list nat)) before br : (forall x, index_spec before x (indices x)) ->
  forall items, (forall x, In x items -> ~ In x before) -> forall index j best, scan_after_c indices br items index j best = (length items, Ok best).
Proof.
  intros Hi. induction items as [|x items IH]; intros H index j best; [reflexivity|]. cbn [scan_after_c length].
  specialize (Hi x). destruct (indices x) as [js|].
  - exfalso. destruct Hi as (H1 & _ & H2). destruct js as [|q js]; [now apply H1|]. apply (H x); [now left|]. eapply nth_error_In. apply H2. now left.
  - unfold uncounted. cbn [cbind]. cbv zeta. rewrite IH by (intros y Hy; apply H; now right). reflexivity.
Qed.
Lemma apart_rounds {T} (eqb : T -> T -> bool) (indices : T -> option (list nat)) before after : (forall x, index_spec before x (indices x)) ->
  (forall x, In x before -> ~ In x after) -> fst (generate_c eqb indices before after) = 1 + length after.
Proof.
  intros Hi H. unfold generate_c. unfold lcs_fuel. replace (2 * length before + 2) with (S (S (2 * length before))) by lia. cbn [lcs_loop_c].
  unfold longest_common_subsequence_c. unfold range_from, subsequence, slice. cbn [r_start r_end]. rewrite ?Nat.leb_refl.
  cbn [Nat.leb andb uncounted cbind]. rewrite Nat.sub_0_r. cbn [skipn]. rewrite firstn_all.
  rewrite (apart_scan indices before _ Hi); [|intros x Hx Hb; exact (H x Hb Hx)]. cbn [cbind cs_n Nat.eqb uncounted fst snd tick lcs_loop_c]. lia.
Qed.

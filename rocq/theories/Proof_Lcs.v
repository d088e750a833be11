(* Proof_Lcs.v - the longest-common-block search (changes.rs:140-210). *)
From Verif Require Import Base Model_Seq Model_Changes Model_IO Model_Text Model_Bytes Spec Proof_Seq.

Section Lcs.
  Context {T : Type} (eqb : T -> T -> bool) (Heqb : lawful eqb).
  Variable indices : T -> option (list nat).
  Variables before after : list T.
  Hypothesis Hind : forall x, index_spec before x (indices x).

  Notation same := (same_at before after).
  Notation block := (common_block before after).

  Lemma same_lt x y : same x y -> x < length before /\ y < length after.
  Proof. intros (v & H1 & H2). split; apply nth_error_Some; congruence. Qed.
  Lemma same_dec x y : {same x y} + {~ same x y}.
  Proof.
    unfold same_at. destruct (nth_error before x) as [v|] eqn:E1.
    - destruct (nth_error after y) as [w|] eqn:E2.
      + destruct (eqb v w) eqn:E.
        * apply Heqb in E as ->. left. eauto.
        * right. intros (u & H1 & H2). assert (v = w) as -> by congruence. assert (eqb w w = true) by now apply Heqb. congruence.
      + right. intros (u & ? & ?). congruence.
    - right. intros (u & ? & ?). congruence.
  Qed.
  Lemma not_same_differ x y : x < length before -> y < length after -> ~ same x y -> differ_at before after x y.
  Proof.
    intros Hx Hy Hn. apply nth_error_Some in Hx, Hy.
    destruct (nth_error before x) as [v|] eqn:E1; [|congruence].
    destruct (nth_error after y) as [w|] eqn:E2; [|congruence].
    exists v, w. repeat split; auto. intros ->. apply Hn. exists w. auto.
  Qed.
  Lemma differ_not_same x y : differ_at before after x y -> ~ same x y.
  Proof. intros (v & w & H1 & H2 & Hn) (u & H3 & H4). congruence. Qed.

  Lemma block_0 x y : block x y 0.
  Proof. intros t Ht. lia. Qed.
  Lemma block_app x y n m : block x y n -> block (x + n) (y + n) m -> block x y (n + m).
  Proof.
    intros H1 H2 t Ht. destruct (Nat.lt_ge_cases t n) as [H|H]; [now apply H1|].
    specialize (H2 (t - n)). replace (x + n + (t - n)) with (x + t) in H2 by lia.
    replace (y + n + (t - n)) with (y + t) in H2 by lia. apply H2. lia.
  Qed.
  Lemma block_sub x y n p m : block x y n -> p + m <= n -> block (x + p) (y + p) m.
  Proof. intros H Hp t Ht. rewrite <- !Nat.add_assoc. apply H. lia. Qed.

  Section Ranges.
    Variables br ar : range.
    Hypothesis Hbr : in_bounds before br.
    Hypothesis Har : in_bounds after ar.
    Notation bs := (r_start br). Notation be := (r_end br).
    Notation as_ := (r_start ar). Notation ae := (r_end ar).

    (* k is the length of the longest common block ending at (e,f) inside the ranges *)
    Definition maxsuf (e f k : nat) : Prop :=
      1 <= k /\ bs + k <= e /\ e <= be /\ as_ + k <= f /\ f <= ae /\ block (e - k) (f - k) k /\
      ~ (bs + k < e /\ as_ + k < f /\ same (e - k - 1) (f - k - 1)).

    Lemma maxsuf_grow e f k : 1 <= k -> bs + k <= e -> e <= be -> as_ + k <= f -> f <= ae ->
      block (e - k) (f - k) k -> exists k', k <= k' /\ maxsuf e f k'.
    Proof.
      remember (e - bs - k) as d eqn:Hd. revert k Hd.
      induction d as [|d IH]; intros k Hd H1 H2 H3 H4 H5 Hb.
      - exists k. split; [lia|]. repeat split; auto. intros (H & _). lia.
      - destruct (same_dec (e - k - 1) (f - k - 1)) as [Hs|Hs].
        + destruct (Nat.lt_ge_cases (as_ + k) f) as [Hf|Hf].
          * destruct (IH (S k)) as (k' & Hk' & Hm); try lia.
            -- intros [|t] Ht.
               ++ replace (e - S k + 0) with (e - k - 1) by lia. now replace (f - S k + 0) with (f - k - 1) by lia.
               ++ replace (e - S k + S t) with (e - k + t) by lia. replace (f - S k + S t) with (f - k + t) by lia.
                  apply Hb. lia.
            -- exists k'. split; [lia|assumption].
          * exists k. split; [lia|]. repeat split; auto. intros (_ & H & _). lia.
        + exists k. split; [lia|]. repeat split; auto. intros (_ & _ & H). contradiction.
    Qed.

    Lemma maxsuf_exists e f : bs < e -> e <= be -> as_ < f -> f <= ae -> same (e - 1) (f - 1) -> exists k, maxsuf e f k.
    Proof.
      intros H1 H2 H3 H4 Hs. destruct (maxsuf_grow e f 1) as (k & _ & Hk); try lia; [|now exists k].
      intros t Ht. replace t with 0 by lia. now rewrite !Nat.add_0_r.
    Qed.

    Lemma maxsuf_unique e f k1 k2 : maxsuf e f k1 -> maxsuf e f k2 -> k1 = k2.
    Proof.
      assert (W : forall k1 k2, maxsuf e f k1 -> maxsuf e f k2 -> ~ k1 < k2).
      { clear k1 k2. intros k1 k2 (A1 & A2 & A3 & A4 & A5 & A6 & A7) (B1 & B2 & B3 & B4 & B5 & B6 & B7) Hlt.
        apply A7. repeat split; try lia.
        specialize (B6 (k2 - k1 - 1)).
        replace (e - k2 + (k2 - k1 - 1)) with (e - k1 - 1) in B6 by lia.
        replace (f - k2 + (k2 - k1 - 1)) with (f - k1 - 1) in B6 by lia. apply B6. lia. }
      intros H1 H2. pose proof (W _ _ H1 H2). pose proof (W _ _ H2 H1). lia.
    Qed.

    Lemma maxsuf_last e f k : maxsuf e f k -> same (e - 1) (f - 1).
    Proof.
      intros (A1 & A2 & A3 & A4 & A5 & A6 & A7). specialize (A6 (k - 1)).
      replace (e - k + (k - 1)) with (e - 1) in A6 by lia.
      replace (f - k + (k - 1)) with (f - 1) in A6 by lia. apply A6. lia.
    Qed.

    Lemma maxsuf_step e f k : maxsuf e f k -> e < be -> f < ae -> same e f -> maxsuf (S e) (S f) (S k).
    Proof.
      intros (A1 & A2 & A3 & A4 & A5 & A6 & A7) He Hf Hs. repeat split; try lia.
      - intros t Ht. replace (S e - S k) with (e - k) by lia. replace (S f - S k) with (f - k) by lia.
        destruct (Nat.eq_dec t k) as [->|Hne].
        + replace (e - k + k) with e by lia. now replace (f - k + k) with f by lia.
        + apply A6. lia.
      - intros (B1 & B2 & B3). apply A7. split; [lia|]. split; [lia|exact B3].
    Qed.

    Lemma maxsuf_one e f : bs <= e -> e < be -> as_ <= f -> f < ae -> same e f ->
      (forall k, ~ maxsuf e f k) -> maxsuf (S e) (S f) 1.
    Proof.
      intros A1 A2 A3 A4 A5 A6. repeat split; try lia.
      - intros t Ht. replace t with 0 by lia. replace (S e - 1 + 0) with e by lia. now replace (S f - 1 + 0) with f by lia.
      - intros (B1 & B2 & B3). simpl in B3. rewrite !Nat.sub_0_r in B3.
        destruct (maxsuf_exists e f) as [k Hk]; try lia; [assumption|]. exact (A6 _ Hk).
    Qed.

    (* the map describes the row of after position i - 1 *)
    Definition row (m : jmap) (i : nat) : Prop :=
      (forall z k, jget m z = Some k -> exists e, z = (Z.of_nat e - 1)%Z /\ maxsuf e i k) /\
      (forall e k, maxsuf e i k -> jget m (Z.of_nat e - 1)%Z = Some k).

    (* [best] is the first longest block among those ending at a processed pair *)
    Definition best_of (P : nat -> nat -> Prop) (c : common) : Prop :=
      (c = CS 0 0 0 /\ forall e f k, P e f -> ~ maxsuf e f k) \/
      (exists e f, P e f /\ maxsuf e f (cs_n c) /\ cs_b c = e - cs_n c /\ cs_a c = f - cs_n c /\
        forall e' f' k', P e' f' -> maxsuf e' f' k' ->
          k' <= cs_n c /\ (k' = cs_n c -> f < f' \/ (f = f' /\ e <= e'))).

    Lemma best_of_ext (P Q : nat -> nat -> Prop) c :
      (forall e f k, maxsuf e f k -> P e f <-> Q e f) -> best_of P c -> best_of Q c.
    Proof.
      intros H [[-> Hn]|(e & f & A1 & A2 & A3 & A4 & A5)].
      - left. split; [reflexivity|]. intros e f k HQ Hm. apply (Hn e f k); [|assumption]. now apply (H _ _ _ Hm).
      - right. exists e, f. split; [now apply (H _ _ _ A2)|]. split; [assumption|]. split; [assumption|].
        split; [assumption|]. intros e' f' k' HQ Hm. apply A5; [now apply (H _ _ _ Hm)|assumption].
    Qed.

    Definition upto (i p : nat) (e f : nat) : Prop := f <= i \/ (f = S i /\ e <= p).

    Lemma scan_indices_spec x i j_to_len js : nth_error after i = Some x -> as_ <= i -> i < ae -> row j_to_len i ->
      forall p new best,
      (forall q, In q js <-> p <= q /\ nth_error before q = Some x) -> StronglySorted lt js ->
      (forall z k, jget new z = Some k -> exists e, z = (Z.of_nat e - 1)%Z /\ maxsuf e (S i) k) ->
      (forall e k, e <= p -> maxsuf e (S i) k -> jget new (Z.of_nat e - 1)%Z = Some k) ->
      best_of (upto i p) best ->
      exists new' best', scan_indices br j_to_len i js new best = Ok (new', best') /\
        row new' (S i) /\ best_of (fun e f => f <= S i) best'.
    Proof.
      intros Hx Hi Hi' [Hrow1 Hrow2].
      assert (Hat : forall e k, maxsuf e (S i) k -> 1 <= e /\ nth_error before (e - 1) = Some x).
      { intros e k Hm. pose proof (maxsuf_last _ _ _ Hm) as (v & V1 & V2).
        simpl in V2. rewrite Nat.sub_0_r in V2. split; [|congruence].
        destruct Hm as (A1 & A2 & _). lia. }
      induction js as [|j js IH]; intros p new best Hjs Hsort Hn1 Hn2 Hbest; cbn [scan_indices].
      - exists new, best. split; [reflexivity|].
        assert (Hall : forall e k, maxsuf e (S i) k -> e <= p).
        { intros e k Hm. destruct (Hat _ _ Hm) as [He Hb].
          destruct (Nat.lt_ge_cases (e - 1) p) as [H|H]; [lia|]. exfalso. now apply (Hjs (e - 1)). }
        split.
        + split; [assumption|]. intros e k Hm. apply Hn2; [eauto|assumption].
        + apply (best_of_ext (upto i p)); [|assumption]. intros e f k Hm. unfold upto. split; [lia|].
          intros Hf. destruct (Nat.eq_dec f (S i)) as [->|]; [right; split; eauto|left; lia].
      - inversion Hsort as [|? ? Hs1 Hs2]; subst. rewrite Forall_forall in Hs2.
        destruct (Hjs j) as [Hj1 _]. destruct (Hj1 (or_introl eq_refl)) as [Hjp Hjx].
        assert (Hjs' : forall q, In q js <-> S j <= q /\ nth_error before q = Some x).
        { intros q. split.
          - intros Hq. split; [now apply Hs2|]. apply Hjs. now right.
          - intros [Hq1 Hq2]. assert (Hq : In q (j :: js)) by (apply Hjs; split; [lia|assumption]).
            destruct Hq as [->|Hq]; [lia|assumption]. }
        (* between p and j nothing ends *)
        assert (Hmid : forall e k, maxsuf e (S i) k -> e <= p \/ j < e).
        { intros e k Hm. destruct (Hat _ _ Hm) as [He Hb].
          destruct (Nat.lt_ge_cases (e - 1) p) as [H|H]; [left; lia|right].
          assert (Hq : In (e - 1) (j :: js)) by (apply Hjs; auto).
          destruct Hq as [->|Hq]; [lia|]. apply Hs2 in Hq. lia. }
        destruct (j <? bs) eqn:Ejb.
        { apply Nat.ltb_lt in Ejb. apply (IH (S j)); auto.
          - intros e k He Hm. apply Hn2; [|assumption]. destruct (Hmid _ _ Hm) as [H|H]; [assumption|].
            destruct Hm as (A1 & A2 & _). lia.
          - apply (best_of_ext (upto i p)); [|assumption]. intros e f k Hm. unfold upto.
            split; [intros [H|[-> H]]; [now left|right; split; [reflexivity|lia]]|].
            intros [H|[-> H]]; [now left|]. right. split; [reflexivity|].
            destruct (Hmid _ _ Hm) as [H'|H']; [assumption|]. destruct Hm as (A1 & A2 & _). lia. }
        apply Nat.ltb_ge in Ejb.
        destruct (be <=? j) eqn:Eje.
        { apply Nat.leb_le in Eje. exists new, best. split; [reflexivity|].
          assert (Hall : forall e k, maxsuf e (S i) k -> e <= p).
          { intros e k Hm. destruct (Hmid _ _ Hm) as [H|H]; [assumption|]. destruct Hm as (A1 & A2 & A3 & _). lia. }
          split.
          - split; [assumption|]. intros e k Hm. apply Hn2; [eauto|assumption].
          - apply (best_of_ext (upto i p)); [|assumption]. intros e f k Hm. unfold upto. split; [lia|].
            intros Hf. destruct (Nat.eq_dec f (S i)) as [->|]; [right; split; eauto|left; lia]. }
        apply Nat.leb_gt in Eje.
        assert (Hs : same j i) by (exists x; auto).
        set (k := match jget j_to_len (Z.of_nat j - 1) with Some k => k + 1 | None => 1 end).
        assert (Hk : maxsuf (S j) (S i) k).
        { subst k. destruct (jget j_to_len (Z.of_nat j - 1)) as [k|] eqn:Ej.
          - destruct (Hrow1 _ _ Ej) as (e & He & Hm). assert (e = j) by lia. subst e.
            rewrite Nat.add_1_r. now apply maxsuf_step.
          - apply maxsuf_one; auto. intros k Hm. rewrite (Hrow2 _ _ Hm) in Ej. discriminate. }
        clearbody k. cbv zeta.
        assert (Hz : Z.of_nat j = (Z.of_nat (S j) - 1)%Z) by lia.
        assert (Hnew1 : forall z k0, jget ((Z.of_nat j, k) :: new) z = Some k0 ->
                  exists e, z = (Z.of_nat e - 1)%Z /\ maxsuf e (S i) k0).
        { intros z k0. cbn [jget]. destruct (Z.of_nat j =? z)%Z eqn:Ez; [|apply Hn1].
          intros [= <-]. apply Z.eqb_eq in Ez. exists (S j). split; [lia|assumption]. }
        assert (Hnew2 : forall e k0, e <= S j -> maxsuf e (S i) k0 -> jget ((Z.of_nat j, k) :: new) (Z.of_nat e - 1)%Z = Some k0).
        { intros e k0 He Hm. cbn [jget]. destruct (Z.of_nat j =? Z.of_nat e - 1)%Z eqn:Ez.
          - apply Z.eqb_eq in Ez. assert (e = S j) by lia. subst e. f_equal. eapply maxsuf_unique; eauto.
          - apply Z.eqb_neq in Ez. apply Hn2; [|assumption]. destruct (Hmid _ _ Hm); lia. }
        assert (Hext : forall e f k0, maxsuf e f k0 -> upto i (S j) e f <-> upto i p e f \/ (e = S j /\ f = S i)).
        { intros e f k0 Hm. unfold upto. split.
          - intros [H|[-> H]]; [now left; left|]. destruct (Nat.eq_dec e (S j)) as [->|Hne]; [now right|].
            left. right. split; [reflexivity|]. destruct (Hmid _ _ Hm); lia.
          - intros [[H|[-> H]]|[-> ->]]; [now left|right; split; [reflexivity|lia]|right; split; [reflexivity|lia]]. }
        assert (Ho : forall e f, upto i p e f -> f < S i \/ (f = S i /\ e <= S j)).
        { intros e f [H|[-> H]]; [left; lia|right; split; [reflexivity|lia]]. }
        destruct (cs_n best <? k) eqn:Ek.
        { apply Nat.ltb_lt in Ek. pose proof Hk as (K1 & K2 & K3 & K4 & K5 & _).
          unfold usub. replace (k <=? j + 1) with true by (symmetry; apply Nat.leb_le; lia).
          replace (k <=? i + 1) with true by (symmetry; apply Nat.leb_le; lia). cbn [bind].
          apply (IH (S j)); auto.
          right. exists (S j), (S i). cbn [cs_n cs_b cs_a].
          split; [right; lia|]. split; [assumption|]. split; [lia|]. split; [lia|].
          intros e' f' k' H H0. split.
          - destruct (proj1 (Hext _ _ _ H0) H) as [Hu|[-> ->]].
            + destruct Hbest as [[_ Hno]|(e0 & f0 & B1 & B2 & B3 & B4 & B5)]; [exfalso; eapply Hno; eauto|].
              destruct (B5 _ _ _ Hu H0). lia.
            + rewrite (maxsuf_unique _ _ _ _ H0 Hk). lia.
          - intros ->. destruct (proj1 (Hext _ _ _ H0) H) as [Hu|[-> ->]]; [|right; lia].
            destruct Hbest as [[_ Hno]|(e0 & f0 & B1 & B2 & B3 & B4 & B5)]; [exfalso; eapply Hno; eauto|].
            destruct (B5 _ _ _ Hu H0). lia. }
        { apply Nat.ltb_ge in Ek. apply (IH (S j)); auto.
          destruct Hbest as [[-> Hno]|(e0 & f0 & B1 & B2 & B3 & B4 & B5)].
          - exfalso. simpl in Ek. destruct Hk as (K1 & _). lia.
          - right. exists e0, f0. split; [now apply (Hext _ _ _ B2); left|]. split; [assumption|].
            split; [assumption|]. split; [assumption|]. intros e' f' k' H H0. split.
            + destruct (proj1 (Hext _ _ _ H0) H) as [Hu|[-> ->]]; [now apply (B5 _ _ _ Hu H0)|].
              now rewrite (maxsuf_unique _ _ _ _ H0 Hk).
            + intros E. destruct (proj1 (Hext _ _ _ H0) H) as [Hu|[-> ->]]; [now apply (B5 _ _ _ Hu H0)|].
              destruct (Ho _ _ B1); lia. }
    Qed.

    Lemma scan_after_spec items : forall i j_to_len best,
      (forall t, t < length items -> nth_error after (i + t) = nth_error items t) ->
      as_ <= i -> i + length items = ae ->
      row j_to_len i -> best_of (fun e f => f <= i) best ->
      exists best', scan_after indices br items i j_to_len best = Ok best' /\ best_of (fun e f => f <= ae) best'.
    Proof.
      induction items as [|x items IH]; intros i m best Hit Hi He Hrow Hbest; cbn [scan_after].
      - simpl in He. exists best. split; [reflexivity|]. now replace ae with i by lia.
      - simpl in He. assert (Hx : nth_error after i = Some x).
        { specialize (Hit 0). rewrite Nat.add_0_r in Hit. apply Hit. simpl. lia. }
        assert (Hit' : forall t, t < length items -> nth_error after (S i + t) = nth_error items t).
        { intros t Ht. specialize (Hit (S t)). replace (S i + t) with (i + S t) by lia. apply Hit. simpl. lia. }
        pose proof (Hind x) as Hx'. destruct (indices x) as [js|].
        + destruct Hx' as (_ & Hsort & Hjs).
          destruct (scan_indices_spec x i m js Hx Hi ltac:(lia) Hrow 0 [] best) as (new' & best' & -> & Hr & Hb); auto.
          * intros q. rewrite Hjs. intuition lia.
          * intros z k. discriminate.
          * intros e k Hk Hm. destruct Hm as (A1 & A2 & _). lia.
          * apply (best_of_ext (fun e f => f <= i)); [|assumption]. intros e f k Hm. unfold upto.
            split; [now left|]. intros [H|[_ H]]; [assumption|]. destruct Hm as (A1 & A2 & _). lia.
          * cbn [bind]. apply IH; auto; lia.
        + cbn [bind].
          assert (Hno : forall e k, ~ maxsuf e (S i) k).
          { intros e k Hm. apply Hx'. pose proof (maxsuf_last _ _ _ Hm) as (v & V1 & V2).
            simpl in V2. rewrite Nat.sub_0_r in V2. apply (nth_error_In _ (e - 1)). congruence. }
          apply IH; auto; try lia.
          * split; [intros z k; discriminate|]. intros e k Hm. destruct (Hno _ _ Hm).
          * apply (best_of_ext (fun e f => f <= i)); [|assumption]. intros e f k Hm.
            split; [lia|]. intros Hf. destruct (Nat.eq_dec f (S i)) as [->|]; [destruct (Hno _ _ Hm)|lia].
    Qed.

    Lemma zip_match_count_spec (l r : list T) :
      zip_match_count eqb l r <= length l /\ zip_match_count eqb l r <= length r /\
      (forall t, t < zip_match_count eqb l r -> nth_error l t = nth_error r t) /\
      (forall x y, nth_error l (zip_match_count eqb l r) = Some x -> nth_error r (zip_match_count eqb l r) = Some y -> x <> y).
    Proof.
      revert r; induction l as [|x l IH]; intros [|y r]; simpl.
      - repeat split; try lia; intros; try lia; discriminate.
      - repeat split; try lia; intros; try lia; discriminate.
      - repeat split; try lia; intros; try lia; discriminate.
      - destruct (eqb x y) eqn:E; simpl.
        + apply Heqb in E as ->. destruct (IH r) as (A1 & A2 & A3 & A4). repeat split; try lia; [|exact A4].
          intros [|t] Ht; [reflexivity|]. simpl. apply A3. lia.
        + split; [lia|]. split; [lia|]. split; [intros; lia|]. intros u v [= H1] [= H2] ->. subst x y. assert (eqb v v = true) by now apply Heqb. congruence.
    Qed.

    (* The outcome of the search, before the trailing extension: x y n is the first
       longest common block; ext is how far the trailing extension adds to it. *)
    Definition lcs_found (x y n : nat) : Prop :=
      0 < n /\ block_in before after br ar x y n /\
      (forall x' y' n', block_in before after br ar x' y' n' ->
         n' <= n /\ (n' = n -> y < y' \/ (y = y' /\ x <= x'))).

    Lemma lcs_spec :
      (longest_common_subsequence eqb indices before after br ar = Ok None /\
         forall x y, inside br x 1 -> inside ar y 1 -> ~ same x y) \/
      (exists x y n ext, longest_common_subsequence eqb indices before after br ar = Ok (Some (CS x y (n + ext))) /\
         lcs_found x y n /\
         (ext = 0 \/ (differ_at before after (x + n) (y + n) /\
                      inside br x (n + ext + 1) /\ inside ar y (n + ext + 1) /\
                      block (x + n + 1) (y + n + 1) ext)) /\
         (inside br x (n + ext + 2) -> inside ar y (n + ext + 2) -> ~ same (x + n + 1 + ext) (y + n + 1 + ext))).
    Proof.
      destruct Hbr as [Hb1 Hb2]. destruct Har as [Ha1 Ha2].
      unfold longest_common_subsequence, subsequence. rewrite slice_ok by assumption. cbn [bind].
      assert (Hlen : length (firstn (ae - as_) (skipn as_ after)) = ae - as_).
      { rewrite firstn_length, skipn_length. lia. }
      destruct (scan_after_spec (firstn (ae - as_) (skipn as_ after)) as_ [] (CS 0 0 0)) as (best & Es & Hbest).
      { intros t Ht. rewrite nth_error_firstn, nth_error_skipn. rewrite Hlen in Ht.
        replace (t <? ae - as_) with true by (symmetry; now apply Nat.ltb_lt). reflexivity. }
      { lia. } { lia. }
      { split; [intros z k; discriminate|]. intros e k (A1 & A2 & A3 & A4 & _). lia. }
      { left. split; [reflexivity|]. intros e f k Hf (A1 & A2 & A3 & A4 & _). lia. }
      rewrite Es. cbn [bind].
      destruct Hbest as [[-> Hno]|(e & f & A1 & A2 & A3 & A4 & A5)].
      { left. split; [reflexivity|]. intros x y [X1 X2] [Y1 Y2] Hs.
        destruct (maxsuf_exists (S x) (S y)) as [k Hk]; try lia.
        - simpl. now rewrite !Nat.sub_0_r.
        - apply (Hno (S x) (S y) k); [lia|assumption]. }
      right. destruct best as [x y n]. cbn [cs_n cs_b cs_a] in *.
      pose proof A2 as (B1 & B2 & B3 & B4 & B5 & B6 & B7).
      assert (He : e = x + n) by lia. assert (Hf : f = y + n) by lia.
      assert (Hx : bs <= x) by lia. assert (Hy : as_ <= y) by lia.
      assert (Hfound : lcs_found x y n).
      { split; [lia|]. split.
        - repeat split; try lia. now rewrite A3, A4.
        - intros x' y' n' ((C1 & C2) & (C3 & C4) & C5).
          destruct (Nat.eq_dec n' 0) as [->|Hn0]; [lia|].
          destruct (maxsuf_grow (x' + n') (y' + n') n') as (k' & Hk' & Hm); try lia.
          { replace (x' + n' - n') with x' by lia. now replace (y' + n' - n') with y' by lia. }
          destruct (A5 (x' + n') (y' + n') k') as [D1 D2]; [lia|assumption|].
          split; [lia|]. intros ->. assert (k' = n) by lia. destruct (D2 H); lia. }
      destruct (n =? 0) eqn:En; [apply Nat.eqb_eq in En; lia|].
      cbn [r_start r_end]. rewrite !slice_ok by lia. cbn [bind].
      set (bpre := firstn (x - bs) (skipn bs before)). set (apre := firstn (y - as_) (skipn as_ after)).
      assert (Hc : zip_match_count eqb (rev bpre) (rev apre) = 0).
      { assert (Hlb : length bpre = x - bs) by (unfold bpre; rewrite firstn_length, skipn_length; lia).
        assert (Hla : length apre = y - as_) by (unfold apre; rewrite firstn_length, skipn_length; lia).
        destruct (rev bpre) as [|u bp] eqn:Eb; [reflexivity|]. destruct (rev apre) as [|v ap] eqn:Ea; [reflexivity|].
        simpl. destruct (eqb u v) eqn:Euv; [|reflexivity]. exfalso. apply Heqb in Euv as ->.
        assert (Hb : bpre = rev bp ++ [v]) by (rewrite <- (rev_involutive bpre), Eb; reflexivity).
        assert (Ha : apre = rev ap ++ [v]) by (rewrite <- (rev_involutive apre), Ea; reflexivity).
        assert (Lb : length (rev bp) + 1 = x - bs) by (rewrite <- Hlb, Hb, app_length; simpl; lia).
        assert (La : length (rev ap) + 1 = y - as_) by (rewrite <- Hla, Ha, app_length; simpl; lia).
        apply B7. repeat split; try lia. exists v. split.
        - assert (E : nth_error bpre (x - bs - 1) = Some v).
          { rewrite Hb, nth_error_app2 by lia. replace (x - bs - 1 - length (rev bp)) with 0 by lia. reflexivity. }
          unfold bpre in E. rewrite nth_error_firstn, nth_error_skipn in E.
          destruct (x - bs - 1 <? x - bs) eqn:El; [|discriminate]. rewrite <- E. f_equal. lia.
        - assert (E : nth_error apre (y - as_ - 1) = Some v).
          { rewrite Ha, nth_error_app2 by lia. replace (y - as_ - 1 - length (rev ap)) with 0 by lia. reflexivity. }
          unfold apre in E. rewrite nth_error_firstn, nth_error_skipn in E.
          destruct (y - as_ - 1 <? y - as_) eqn:El; [|discriminate]. rewrite <- E. f_equal. lia. }
      rewrite Hc. simpl Nat.min. unfold incr_size_moving_starts. cbn [cs_b cs_a cs_n].
      replace (usub x 0) with (Ok x) by (unfold usub; simpl; now rewrite Nat.sub_0_r).
      replace (usub y 0) with (Ok y) by (unfold usub; simpl; now rewrite Nat.sub_0_r). cbn [bind].
      unfold cs_before_end, cs_after_end. cbn [cs_b cs_a cs_n]. rewrite Nat.add_0_r.
      destruct ((x + n + 1 <? be) && (y + n + 1 <? ae)) eqn:Ec.
      - apply andb_true_iff in Ec as [Ec1 Ec2]. apply Nat.ltb_lt in Ec1, Ec2.
        cbn [r_start r_end]. rewrite !slice_ok by lia. cbn [bind]. unfold incr_size_moving_ends. cbn [cs_b cs_a cs_n].
        set (bp := firstn (be - (x + n + 1)) (skipn (x + n + 1) before)).
        set (ap := firstn (ae - (y + n + 1)) (skipn (y + n + 1) after)).
        assert (Lb : length bp = be - (x + n + 1)) by (unfold bp; rewrite firstn_length, skipn_length; lia).
        assert (La : length ap = ae - (y + n + 1)) by (unfold ap; rewrite firstn_length, skipn_length; lia).
        destruct (zip_match_count_spec bp ap) as (Z1 & Z2 & Z3 & Z4).
        assert (Nb : forall t, t < length bp -> nth_error bp t = nth_error before (x + n + 1 + t)).
        { intros t Ht. unfold bp. rewrite nth_error_firstn, nth_error_skipn.
          replace (t <? be - (x + n + 1)) with true by (symmetry; apply Nat.ltb_lt; lia). reflexivity. }
        assert (Na : forall t, t < length ap -> nth_error ap t = nth_error after (y + n + 1 + t)).
        { intros t Ht. unfold ap. rewrite nth_error_firstn, nth_error_skipn.
          replace (t <? ae - (y + n + 1)) with true by (symmetry; apply Nat.ltb_lt; lia). reflexivity. }
        exists x, y, n, (zip_match_count eqb bp ap). split; [reflexivity|]. split; [assumption|].
        split.
        + destruct (Nat.eq_dec (zip_match_count eqb bp ap) 0) as [E|E]; [now left|right].
          repeat split; try lia.
          * apply not_same_differ; try lia. intros Hs.
            destruct Hfound as (_ & (D1 & D2 & D3) & D4).
            destruct (D4 x y (n + 1)) as [D5 _]; [|lia].
            unfold inside in *. repeat split; try lia. apply block_app; [assumption|].
            intros t Ht. replace t with 0 by lia. now rewrite !Nat.add_0_r.
          * intros t Ht. specialize (Z3 t Ht). rewrite Nb, Na in Z3 by lia.
            assert (Hlt : x + n + 1 + t < length before) by lia. apply nth_error_Some in Hlt.
            destruct (nth_error before (x + n + 1 + t)) as [v|] eqn:Ev; [|congruence].
            exists v. split; congruence.
        + intros [_ I1] [_ I2] (v & V1 & V2). cbn [r_end] in I1, I2.
          apply (Z4 v v); [rewrite Nb by lia|rewrite Na by lia|reflexivity]; assumption.
      - exists x, y, n, 0. rewrite Nat.add_0_r. split; [reflexivity|]. split; [assumption|]. split; [now left|].
        intros [I1 I2] [I3 I4]. cbn [r_start r_end] in *. apply andb_false_iff in Ec. rewrite !Nat.ltb_ge in Ec. lia.
    Qed.
  End Ranges.
End Lcs.

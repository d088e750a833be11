(* Proof_Apply.v - what applying a text patch writes (C18-C22, C26-C28, C50). *)
From Coq Require Import ZifyBool.
From Verif Require Import Base Model_Seq Model_Changes Model_IO Model_Text Model_Bytes Spec
  Proof_Seq Proof_Lcs Proof_Changes Proof_Clumps Proof_IO Proof_Diff Proof_Arith Proof_Text Proof_Nearby.
Local Open Scope Z_scope.

Lemma emits_ext {A} (m m' : io A) o r : (forall w, m w = m' w) -> emits m o r -> emits m' o r.
Proof. intros H [H1 H2]. split; [assumption|]. intros w. now rewrite <- H. Qed.

Lemma concat_sub_app {T} (s : list (list T)) i j n : (i <= j)%nat -> (j <= n)%nat ->
  concat (sub s i j) ++ concat (sub s j n) = concat (sub s i n).
Proof. intros. rewrite <- concat_app, sub_app by assumption. reflexivity. Qed.
Lemma sub_skipn {T} (s : list T) i j : (i <= j)%nat -> sub s i j ++ skipn j s = skipn i s.
Proof.
  intros H. unfold sub. rewrite <- (firstn_skipn (j - i) (skipn i s)) at 2. f_equal. rewrite skipn_skipn. f_equal. lia.
Qed.

(* the window of new lines that is really written for a hunk applied with reductions *)

Lemma hunk_ok_swap {T} (h : hunk T) : hunk_ok h -> hunk_ok (swap_hunk h).
Proof. unfold hunk_ok, swap_hunk. cbn. tauto. Qed.
Lemma trimmed_0 {T} (h : hunk T) : trimmed h 0 = h_old h.
Proof. unfold trimmed. simpl. rewrite Nat.sub_0_r. apply sub_full. Qed.
Lemma trimmed_length {T} (h : hunk T) k : hunk_ok h ->
  length (trimmed h k) = (length (h_old h) - Nat.min k (h_trail h) - Nat.min k (h_lead h))%nat.
Proof. intros (H & _). unfold trimmed. rewrite sub_length by lia. lia. Qed.

Section Writes.
  Variable dbg : bool.
  Variable h : hunk line.
  Hypothesis Hok : hunk_ok h.
  Notation c := (text_of_hunk h).

  Lemma emits_before_write : emits (before_write_into dbg c None false) (concat (h_old h)) (Done tt).
  Proof. unfold before_write_into. eapply emits_lift_bind; [reflexivity|]. apply emits_write_lines. Qed.
  Lemma emits_after_write : emits (after_write_into dbg c None false) (concat (h_new h)) (Done tt).
  Proof. unfold after_write_into, before_write_into. eapply emits_lift_bind; [reflexivity|]. apply emits_write_lines. Qed.

  Lemma emits_failure : emits (write_failure_data_into dbg c false) (conflict_block h) (Done tt).
  Proof.
    unfold write_failure_data_into.
    assert (E : conflict_block h = marker_before ++ concat (h_old h) ++ marker_middle ++ concat (h_new h) ++ marker_after).
    { unfold conflict_block. change marker_before with (repeat x3c 7 ++ [newline]).
      change marker_middle with (repeat x3d 7 ++ [newline]). change marker_after with (repeat x3e 7 ++ [newline]).
      now rewrite <- !app_assoc. }
    rewrite E. eapply emits_bind; [apply emits_write_all|]. eapply emits_bind; [apply emits_before_write|].
    eapply emits_bind; [apply emits_write_all|]. eapply emits_bind; [apply emits_after_write|]. apply emits_write_all.
  Qed.

  (* C26: what is written with reductions, exactly *)
  Lemma after_range_reduced r s : (r + s <= length (h_new h))%nat ->
    before_range dbg c (Some (Z.of_nat r, Z.of_nat s)) true =
      Ok (Z.of_nat (h_a h + r), Z.of_nat (h_a h + length (h_new h) - s)).
  Proof.
    intros H. destruct Hok as (_ & _ & _ & _ & _ & B). unfold before_range, before_start, before_end.
    cbn [tc_side text_of_hunk tc_after sn_start sn_items]. unfold zlen.
    rewrite uadd_ok by (consts; lia). cbn [bind]. rewrite uadd_ok by (consts; lia). cbn [bind].
    rewrite usubz_ok by (consts; lia). cbn [bind]. do 2 f_equal; lia.
  Qed.
  Lemma before_lines_new a e : (a <= e)%nat -> (e <= h_a h + length (h_new h))%nat ->
    before_lines dbg c (Some (Z.of_nat a, Z.of_nat e)) true =
      if (e <=? length (h_new h))%nat then Ok (sub (h_new h) a e) else Panic.
  Proof.
    intros H1 H2. destruct Hok as (_ & _ & _ & _ & _ & B). unfold before_lines, snippet_items.
    cbn [tc_side text_of_hunk tc_after sn_items sn_start].
    replace (if dbg then let! m := uadd dbg (zlen (h_new h)) (Z.of_nat (h_a h)) in debug_assert dbg ((Z.of_nat a <=? Z.of_nat e) && (Z.of_nat e <=? m)) else Ok tt) with (Ok tt).
    - cbn [bind]. destruct (Nat.leb_spec e (length (h_new h))) as [H|H]; [now apply zslice_ok|].
      unfold zslice, zlen. replace (Z.of_nat e <=? Z.of_nat (length (h_new h))) with false by lia.
      now rewrite andb_false_r.
    - destruct dbg; [|reflexivity]. unfold zlen. rewrite uadd_ok by (consts; lia). cbn [bind]. unfold debug_assert.
      replace ((Z.of_nat a <=? Z.of_nat e) && (Z.of_nat e <=? Z.of_nat (length (h_new h)) + Z.of_nat (h_a h))) with true; [reflexivity|].
      symmetry. lia.
  Qed.
  Lemma emits_after_write_reduced k : (1 <= k)%nat ->
    emits (after_write_into dbg c (Some (Z.of_nat (Nat.min k (h_lead h)), Z.of_nat (Nat.min k (h_trail h)))) false)
      (if (h_a h <=? Nat.min k (h_trail h))%nat then concat (shown_window h k) else [])
      (if (h_a h <=? Nat.min k (h_trail h))%nat then Done tt else Panicked).
  Proof.
    intros Hk. pose proof Hok as (_ & O2 & _). unfold after_write_into, before_write_into. cbn [negb].
    set (r := Nat.min k (h_lead h)) in *. set (s := Nat.min k (h_trail h)) in *.
    assert (E1 : before_range dbg c (Some (Z.of_nat r, Z.of_nat s)) true =
      Ok (Z.of_nat (h_a h + r), Z.of_nat (h_a h + length (h_new h) - s))) by (apply after_range_reduced; lia).
    eapply emits_lift_bind; [exact E1|].
    assert (E2 := before_lines_new (h_a h + r) (h_a h + length (h_new h) - s)). 
    destruct (Nat.leb_spec (h_a h) s) as [L|L].
    - eapply emits_lift_bind.
      + rewrite E2 by lia. replace (h_a h + length (h_new h) - s <=? length (h_new h))%nat with true by lia. reflexivity.
      + unfold shown_window. destruct k; [lia|]. apply emits_write_lines.
    - rewrite E2 by lia. replace (h_a h + length (h_new h) - s <=? length (h_new h))%nat with false by lia.
      change (@Panicked unit) with (@recast (list line) unit Panicked). eapply emits_bind_stop; [apply (emits_lift Panic)|discriminate].
  Qed.

  Variable target : list line.
  Hypothesis Ht : fits_lines target.

  Lemma emits_apply_clean n o q : (n <= q)%nat -> (q + length (h_old h) <= length target)%nat ->
    Z.of_nat (h_b h) + o = Z.of_nat q -> 
    emits (clump_apply_into dbg c target (Z.of_nat n) o None false)
      (concat (sub target n q) ++ concat (h_new h)) (Done (Z.of_nat (q + length (h_old h)))).
  Proof.
    intros H1 H2 H3. pose proof (old_len_bound h Hok) as B. pose proof (target_bound target Ht) as Bt. unfold zlen in *.
    unfold clump_apply_into. eapply emits_lift_bind; [apply adj_start; [assumption|consts; lia]|].
    rewrite H3, as_usize_id by (consts; lia). eapply emits_bind.
    - apply (emits_write_into_upto write_lines (@concat byte) emits_write_lines); try reflexivity; lia.
    - rewrite <- (app_nil_r (concat (h_new h))). eapply emits_bind; [apply emits_after_write|].
      eapply emits_lift_bind; [apply adjusted_length_none; assumption|].
      unfold advance_consumed_by, zlen. rewrite uadd_ok by (consts; lia). rewrite <- Nat2Z.inj_add. apply (emits_lift (Ok _)).
  Qed.

  Lemma emits_apply_reduced n o q k : (1 <= k)%nat ->
    (n <= q + Nat.min k (h_lead h))%nat -> (q + length (h_old h) - Nat.min k (h_trail h) <= length target)%nat ->
    Z.of_nat (h_b h) + o = Z.of_nat q ->
    emits (clump_apply_into dbg c target (Z.of_nat n) o (Some (Z.of_nat (Nat.min k (h_lead h)), Z.of_nat (Nat.min k (h_trail h)))) false)
      (concat (sub target n (q + Nat.min k (h_lead h))) ++ (if (h_a h <=? Nat.min k (h_trail h))%nat then concat (shown_window h k) else []))
      (if (h_a h <=? Nat.min k (h_trail h))%nat then Done (Z.of_nat (q + length (h_old h) - Nat.min k (h_trail h))) else Panicked).
  Proof.
    intros Hk H1 H2 H3. pose proof (old_len_bound h Hok) as B. pose proof (target_bound target Ht) as Bt. unfold zlen in *.
    pose proof Hok as (O1 & O2 & O3 & O4 & _).
    assert (E1 : before_adjusted_start dbg c o (Some (Z.of_nat (Nat.min k (h_lead h)), Z.of_nat (Nat.min k (h_trail h)))) false
      = Ok (Z.of_nat (q + Nat.min k (h_lead h)))).
    { unfold before_adjusted_start. change (before_start c false) with (Z.of_nat (h_b h)).
      rewrite as_isize_id by (consts; lia). rewrite iadd_ok by (consts; lia). cbn [bind]. rewrite iadd_ok by (consts; lia). f_equal. lia. }
    pose proof (emits_after_write_reduced k Hk) as EW.
    unfold clump_apply_into. eapply emits_lift_bind; [exact E1|].
    rewrite as_usize_id by (consts; lia). eapply emits_bind.
    - apply (emits_write_into_upto write_lines (@concat byte) emits_write_lines); try reflexivity; try lia.
    - destruct (h_a h <=? Nat.min k (h_trail h))%nat.
      + rewrite <- (app_nil_r (concat (shown_window h k))). eapply emits_bind; [exact EW|].
        eapply emits_lift_bind; [apply adjusted_length_some; [assumption|lia]|].
        unfold advance_consumed_by, zlen. rewrite uadd_ok by (consts; lia).
        replace (Z.of_nat (q + Nat.min k (h_lead h)) + (Z.of_nat (length (h_old h)) - Z.of_nat (Nat.min k (h_lead h)) - Z.of_nat (Nat.min k (h_trail h))))
          with (Z.of_nat (q + length (h_old h) - Nat.min k (h_trail h))) by lia. apply (emits_lift (Ok _)).
      + change (@Panicked Z) with (@recast unit Z Panicked). eapply emits_bind_stop; [exact EW|discriminate].
  Qed.

  Lemma emits_already n o q : (q + length (h_old h) <= length target)%nat -> (n <= q + length (h_old h))%nat ->
    Z.of_nat (h_b h) + o = Z.of_nat q ->
    emits (already_applied_into dbg c target (Z.of_nat n) o None true)
      (concat (sub target n (q + length (h_old h)))) (Done (Z.of_nat (q + length (h_old h)))).
  Proof.
    intros H1 H2 H3. pose proof (old_len_bound h Hok) as B. pose proof (target_bound target Ht) as Bt. unfold zlen in *.
    unfold already_applied_into. cbn [negb]. eapply emits_lift_bind; [apply adj_start; [assumption|consts; lia]|].
    eapply emits_lift_bind; [apply adjusted_length_none; assumption|].
    rewrite H3, as_usize_id by (consts; lia). eapply emits_lift_bind; [unfold zlen; apply uadd_ok; consts; lia|].
    rewrite <- Nat2Z.inj_add.
    apply (emits_write_into_upto write_lines (@concat byte) emits_write_lines); try reflexivity; lia.
  Qed.
End Writes.

(* ---------------- hunks of a diff ---------------- *)
Lemma fits_two59 {s : list line} : fits_lines s -> Z.of_nat (length s) < two61.
Proof. unfold fits_lines, zlen. consts. lia. Qed.

Lemma cover_ok context g (b a : list line) i j hs : fits_lines b -> fits_lines a -> (context <= 255)%nat ->
  cover context g b a i j hs -> Forall hunk_ok hs.
Proof.
  intros Fb Fa Hc. apply fits_two59 in Fb, Fa. induction 1; constructor; auto.
  unfold hunk_ok. cbn. rewrite !sub_length by lia. lia.
Qed.
Lemma cover_first {T} context g (b a : list T) i j hs : cover context g b a i j hs ->
  match hs with [] => True | h :: _ => (i <= h_b h /\ j <= h_a h)%nat end.
Proof. destruct 1; cbn; auto; lia. Qed.
Lemma cover_ordered {T} context g (b a : list T) i j hs : cover context g b a i j hs -> ordered hs.
Proof.
  induction 1 as [|i j d i' j' l t rest Hg H1 H2 H3 H4 H5 H6 H7 H8 H9 H IH]; cbn [ordered]; auto.
  split; [|assumption]. apply cover_first in H. destruct rest as [|x rest]; [trivial|]. cbn.
  rewrite !sub_length by lia. lia.
Qed.
Lemma cover_in_b context g (b a : list line) i j hs h : cover context g b a i j hs -> In h hs ->
  (h_b h + length (h_old h) <= length b)%nat /\ sub b (h_b h) (h_b h + length (h_old h)) = h_old h.
Proof.
  intros H Hin. induction H as [|i j d i' j' l t rest Hg H1 H2 H3 H4 H5 H6 H7 H8 H9 H IH]; [contradiction|].
  destruct Hin as [<-|Hin]; [|auto]. cbn. rewrite sub_length by lia.
  replace (i + d + (i' - (i + d)))%nat with i' by lia. auto.
Qed.
Lemma patched_cover context (b a : list line) i j hs : cover context (equal_gap b a) b a i j hs -> patched b i hs = skipn j a.
Proof.
  induction 1 as [i j d Hg H1 H2|i j d i' j' l t rest Hg H1 H2 H3 H4 H5 H6 H7 H8 H9 H IH]; cbn [patched].
  - unfold equal_gap in Hg. rewrite H1, H2, !sub_all in Hg. assumption.
  - unfold equal_gap in Hg. cbn [h_b h_new h_old]. rewrite Hg, sub_length by lia.
    replace (i + d + (i' - (i + d)))%nat with i' by lia. rewrite IH.
    rewrite sub_skipn by lia. apply sub_skipn. lia.
Qed.

Lemma stats_eq s a b c d e : st_clean s = a -> st_fuzzy s = b -> st_already s = c -> st_already_fuzzy s = d -> st_failed s = e -> s = Stats a b c d e.
Proof. destruct s; cbn; congruence. Qed.

Lemma clean_decision h target q dbg : hunk_ok h -> (q + length (h_old h) <= length target)%nat ->
  sub target q (q + length (h_old h)) = h_old h -> forall o, Z.of_nat (h_b h) + o = Z.of_nat q -> - (2 * two61) <= o <= 2 * two61 ->
  will_apply dbg (text_of_hunk h) target o false = Ok (Some Cleanly).
Proof.
  intros Hok H1 H2 o Ho Hb. destruct (will_apply_spec dbg h Hok target o) as (x & E & D); [lia..|]. rewrite E. f_equal.
  eapply decision_unique; [exact D|]. constructor. exists q. auto.
Qed.

(* C20: the diff applied to the text it was made from *)
Section OwnText.
  Variable dbg : bool.
  Variable b : list line.
  Hypothesis Fb : fits_lines b.

  Lemma apply_clumps_own context g (a : list line) i j hs st : Forall hunk_ok hs -> cover context g b a i j hs ->
    exists out e st', emits (apply_clumps dbg b false (map text_of_hunk hs) (Z.of_nat i) 0 st) out (Done (Z.of_nat e, st')) /\
      (e <= length b)%nat /\ out ++ concat (skipn e b) = concat (patched b i hs) /\
      st' = Stats (st_clean st + length hs) (st_fuzzy st) (st_already st) (st_already_fuzzy st) (st_failed st).
  Proof.
    intros Hok H. revert st. induction H as [i j d Hg H1 H2|i j d i' j' l t rest Hg H1 H2 H3 H4 H5 H6 H7 H8 H9 H IH]; intros st.
    - exists [], i, st. cbn [map apply_clumps patched]. split; [apply emits_ret|]. split; [lia|]. split; [reflexivity|].
      simpl. rewrite Nat.add_0_r. destruct st; reflexivity.
    - inversion Hok as [|? ? O1 O2]; subst. set (h := Hunk l t (i + d) (sub b (i + d) i') (j + d) (sub a (j + d) j')) in *.
      destruct (IH O2 (add_clean st)) as (out & e & st' & E & He & Eo & Est). 
      assert (L : length (h_old h) = (i' - (i + d))%nat) by (cbn; apply sub_length; lia).
      assert (Li : (h_b h + length (h_old h))%nat = i') by (rewrite L; cbn; lia).
      exists ((concat (sub b i (i + d)) ++ concat (h_new h)) ++ out), e, st'. split; [|split; [assumption|split]].
      + cbn [map apply_clumps]. apply (emits_bind _ _ _ (Z.of_nat i', 0, add_clean st)); [|exact E]. unfold apply_step.
        eapply emits_lift_bind.
        * apply (clean_decision h b (i + d)); auto; try (consts; lia); rewrite ?L; cbn [h_b h h_old]; try lia.
          replace (i + d + (i' - (i + d)))%nat with i' by lia. reflexivity.
        * cbv beta iota. rewrite <- (app_nil_r (_ ++ concat (h_new h))).
          eapply emits_bind; [apply (emits_apply_clean dbg h O1 b Fb i 0 (i + d)); [lia|lia|cbn; lia]|].
          cbv beta iota. rewrite L. replace (i + d + (i' - (i + d)))%nat with i' by lia. apply emits_ret.
      + cbn [patched]. rewrite Li, !concat_app, <- Eo, <- !app_assoc. reflexivity.
      + subst st'. cbn [length st_clean st_fuzzy st_already st_already_fuzzy st_failed add_clean]. f_equal. lia.
  Qed.

  Lemma text_apply_own context g (a : list line) hs : Forall hunk_ok hs -> cover context g b a 0 0 hs ->
    emits (text_apply_into dbg (map text_of_hunk hs) b false) (concat (patched b 0 hs)) (Done (Stats (length hs) 0 0 0 0)).
  Proof.
    intros Hok H. destruct (apply_clumps_own _ _ _ _ _ _ stats0 Hok H) as (out & e & st' & E & He & Eo & Est).
    rewrite <- Eo. unfold text_apply_into. eapply emits_bind; [exact E|]. rewrite <- (app_nil_r (concat (skipn e b))).
    eapply emits_bind; [now apply (emits_write_remainder write_lines (@concat byte) emits_write_lines)|].
    subst st'. simpl. apply emits_ret.
  Qed.

  Lemma already_own context g (a : list line) i j hs : Forall hunk_ok hs -> cover context g b a i j hs ->
    text_already_applied_loop dbg (map text_of_hunk hs) b true 0 = Ok true.
  Proof.
    intros Hok H. induction H as [i j d Hg H1 H2|i j d i' j' l t rest Hg H1 H2 H3 H4 H5 H6 H7 H8 H9 H IH]; [reflexivity|].
    inversion Hok as [|? ? O1 O2]; subst. set (h := Hunk l t (i + d) (sub b (i + d) i') (j + d) (sub a (j + d) j')) in *.
    cbn [map text_already_applied_loop]. unfold is_already_applied. cbn [negb].
    assert (L : length (h_old h) = (i' - (i + d))%nat) by (cbn; apply sub_length; lia).
    rewrite (clean_decision h b (i + d)); auto; try (consts; lia); rewrite ?L; cbn [h_b h h_old]; try lia.
    replace (i + d + (i' - (i + d)))%nat with i' by lia. reflexivity.
  Qed.
End OwnText.

(* C22 where no hunk fits the patched text any more *)
Section Reapply.
  Variable dbg : bool.
  Variable a : list line.
  Hypothesis Fa : fits_lines a.

  Lemma decision_none h target : hunk_ok h -> ~ fits_somewhere h target -> forall pos, decision h target pos None.
  Proof.
    intros Hok H pos. apply decide_none.
    - intros Ho. apply H. exists pos, 0%nat. split; [now left|]. unfold occurs_trimmed. simpl. rewrite trimmed_0, Z.add_0_r. assumption.
    - intros k H1 H2 Ho. apply H. exists pos, k. split; [now right|assumption].
  Qed.

  Lemma apply_clumps_again context g (b : list line) i j hs st : Forall hunk_ok hs -> cover context g b a i j hs ->
    Forall (fun h => ~ fits_somewhere h a /\ (dbg = true -> core_length h <= zlen a)) hs ->
    exists out e st', emits (apply_clumps dbg a false (map text_of_hunk hs) (Z.of_nat j) 0 st) out (Done (Z.of_nat e, st')) /\
      (e <= length a)%nat /\ out ++ concat (skipn e a) = concat (skipn j a) /\
      st' = Stats (st_clean st) (st_fuzzy st) (st_already st + length hs) (st_already_fuzzy st) (st_failed st).
  Proof.
    intros Hok H. revert st. pose proof (fits_two59 Fa) as Ba.
    induction H as [i j d Hg H1 H2|i j d i' j' l t rest Hg H1 H2 H3 H4 H5 H6 H7 H8 H9 H IH]; intros st Hno.
    - exists [], j, st. cbn [map apply_clumps patched]. split; [apply emits_ret|]. split; [lia|]. split; [reflexivity|].
      simpl. rewrite Nat.add_0_r. destruct st; reflexivity.
    - inversion Hok as [|? ? O1 O2]; subst. set (h := Hunk l t (i + d) (sub b (i + d) i') (j + d) (sub a (j + d) j')) in *.
      inversion Hno as [|? ? [N1 N3] N2]; subst.
      destruct (IH O2 (add_already st) N2) as (out & e & st' & E & He & Eo & Est).
      assert (L : length (h_new h) = (j' - (j + d))%nat) by (cbn; apply sub_length; lia).
      assert (Li : (j + d + (j' - (j + d)))%nat = j') by lia.
      assert (Lb : length (h_old h) = (i' - (i + d))%nat) by (cbn; apply sub_length; lia).
      exists (concat (sub a j j') ++ out), e, st'. split; [|split; [assumption|split]].
      + cbn [map apply_clumps]. apply (emits_bind _ _ _ (Z.of_nat j', 0, add_already st)); [|exact E]. unfold apply_step.
        eapply emits_lift_bind.
        { destruct (will_apply_spec dbg h O1 a 0) as (x & Ex & D); [consts; lia..|].
          rewrite (decision_unique _ _ _ _ _ D (decision_none h a O1 N1 _)) in Ex. exact Ex. }
        cbv beta iota.
        assert (Hnx : next_ok (hd_error rest)) by (destruct rest; cbn; [trivial|now inversion O2]).
        eapply emits_lift_bind.
        { rewrite hd_error_map.
          destruct (will_apply_nearby_spec dbg h O1 a Fa (Z.of_nat j) (hd_error rest) 0) as (x & Ex & D); auto; try (consts; lia).
          - intros Hd. right. specialize (N3 Hd). destruct rest as [|x rest]; cbn [hd_error search_limit]; [lia|].
            apply cover_first in H. cbn in H. unfold core_length. unfold zlen. rewrite Lb. cbn. lia.
          - assert (x = None) as ->; [|exact Ex]. destruct D as [dd w A1 A2 A3|]; [|reflexivity].
            pose proof (decision_unique _ _ _ _ _ A2 (decision_none h a O1 N1 _)). discriminate. }
        cbv beta iota.
        eapply emits_lift_bind.
        { unfold is_already_applied. rewrite <- (negb_involutive (negb false)), <- will_apply_swap, swap_clump_hunk. cbn [negb].
          apply (clean_decision (swap_hunk h) a (j + d)); try (consts; lia).
          - now apply hunk_ok_swap.
          - cbn [swap_hunk h_old]. rewrite L. lia.
          - cbn [swap_hunk h_old]. rewrite L, Li. reflexivity.
          - cbn. lia. }
        cbv beta iota. rewrite <- (app_nil_r (concat (sub a j j'))).
        eapply emits_bind; [|cbv beta iota; apply emits_ret].
        pose proof (emits_already dbg (swap_hunk h) (hunk_ok_swap _ O1) a Fa j 0 (j + d)) as EA.
        cbn [swap_hunk h_old h_b] in EA. rewrite L, Li in EA.
        eapply emits_ext; [|apply EA; try lia].
        * intros w. rewrite <- (negb_involutive false) at 1. rewrite <- already_applied_into_swap. reflexivity.
        * cbn. lia.
      + rewrite <- app_assoc, Eo, <- concat_app. f_equal. apply sub_skipn. lia.
      + subst st'. cbn [length st_clean st_fuzzy st_already st_already_fuzzy st_failed add_already]. f_equal. lia.
  Qed.

  Lemma text_apply_again context g (b : list line) hs : Forall hunk_ok hs -> cover context g b a 0 0 hs ->
    Forall (fun h => ~ fits_somewhere h a /\ (dbg = true -> core_length h <= zlen a)) hs ->
    emits (text_apply_into dbg (map text_of_hunk hs) a false) (concat a) (Done (Stats 0 0 (length hs) 0 0)).
  Proof.
    intros Hok H Hno. destruct (apply_clumps_again _ _ _ _ _ _ stats0 Hok H Hno) as (out & e & st' & E & He & Eo & Est).
    simpl in Eo. rewrite <- Eo. unfold text_apply_into. eapply emits_bind; [exact E|]. rewrite <- (app_nil_r (concat (skipn e a))).
    eapply emits_bind; [now apply (emits_write_remainder write_lines (@concat byte) emits_write_lines)|].
    subst st'. simpl. apply emits_ret.
  Qed.
End Reapply.

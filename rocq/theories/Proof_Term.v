(* Proof_Term.v - applying any patch terminates: the fuel of the model is never exhausted. *)
From Coq Require Import ZifyBool.
From Verif Require Import Base Model_Seq Model_Changes Model_IO Model_Text Model_Bytes Spec Proof_Seq Proof_IO Proof_Arith.
Local Open Scope Z_scope.

Lemma nofuel_bind {A B} (m : res A) (k : A -> res B) :
  m <> OutOfFuel -> (forall a, m = Ok a -> k a <> OutOfFuel) -> bind m k <> OutOfFuel.
Proof. intros Hm Hk. destruct m as [a| |]; cbn; [now apply Hk|discriminate|contradiction]. Qed.
Lemma nofuel_io {A B} (m : io A) (k : A -> io B) w :
  fst (m w) <> NoFuel -> (forall a w', m w = (Done a, w') -> fst (k a w') <> NoFuel) -> fst (iobind m k w) <> NoFuel.
Proof. intros Hm Hk. unfold iobind. destruct (m w) as [[a| | |] w'] eqn:E; cbn in *; try discriminate; [now apply Hk|contradiction]. Qed.
Lemma nofuel_lift {A} (m : res A) w : m <> OutOfFuel -> fst (lift m w) <> NoFuel.
Proof. unfold lift. destruct m; cbn; intros H; try discriminate. contradiction. Qed.
Lemma lift_done {A} (m : res A) w a w' : lift m w = (Done a, w') -> m = Ok a /\ w' = w.
Proof. unfold lift. destruct m; intros [=]; subst; auto. Qed.
Lemma iobind_done {A B} (m : io A) (k : A -> io B) w b w' : iobind m k w = (Done b, w') ->
  exists a w1, m w = (Done a, w1) /\ k a w1 = (Done b, w').
Proof. unfold iobind. destruct (m w) as [[a| | |] w1] eqn:E; intros H; try discriminate. eauto. Qed.
Lemma ret_done {A} (a b : A) w w' : ret a w = (Done b, w') -> a = b /\ w = w'.
Proof. unfold ret. intros [=]; auto. Qed.

Lemma arith_usize_nofuel dbg z : arith_usize dbg z <> OutOfFuel.
Proof. unfold arith_usize. destruct (in_usize z), dbg; discriminate. Qed.
Lemma arith_isize_nofuel dbg z : arith_isize dbg z <> OutOfFuel.
Proof. unfold arith_isize. destruct (in_isize z), dbg; discriminate. Qed.
Lemma zslice_nofuel {T} (l : list T) a b : zslice l a b <> OutOfFuel.
Proof. unfold zslice. destruct (_ && _ && _); discriminate. Qed.
Lemma debug_assert_nofuel dbg b : debug_assert dbg b <> OutOfFuel.
Proof. unfold debug_assert. destruct (_ && _); discriminate. Qed.
Lemma as_isize_range z : - two63 <= as_isize z < two63.
Proof. unfold as_isize, wrap_isize. pose proof (Z.mod_pos_bound (z + two63) two64 eq_refl). consts. lia. Qed.
Lemma as_usize_range z : 0 <= as_usize z < two64.
Proof. unfold as_usize, wrap_usize. apply Z.mod_pos_bound. reflexivity. Qed.
Lemma wrap_isize_wrap a b : wrap_isize (a + wrap_isize b) = wrap_isize (a + b).
Proof.
  unfold wrap_isize. f_equal. replace (a + ((b + two63) mod two64 - two63) + two63) with (a + (b + two63) mod two64) by lia.
  rewrite Zplus_mod_idemp_r. f_equal. lia.
Qed.
Lemma wrap_isize_id z : - two63 <= z < two63 -> wrap_isize z = z.
Proof. intros. apply as_isize_id; lia. Qed.
Lemma arith_isize_value dbg z r : arith_isize dbg z = Ok r -> r = wrap_isize z.
Proof.
  unfold arith_isize. destruct (in_isize z) eqn:E.
  - intros [= <-]. unfold in_isize in E. rewrite wrap_isize_id; lia.
  - destruct dbg; [discriminate|]. now intros [= <-].
Qed.
Lemma arith_usize_value dbg z r : arith_usize dbg z = Ok r -> r = wrap_usize z.
Proof.
  unfold arith_usize. destruct (in_usize z) eqn:E.
  - intros [= <-]. unfold in_usize in E. symmetry. apply as_usize_id; lia.
  - destruct dbg; [discriminate|]. now intros [= <-].
Qed.

Ltac nf := repeat first
  [ discriminate
  | apply arith_usize_nofuel | apply arith_isize_nofuel | apply zslice_nofuel | apply debug_assert_nofuel
  | apply nofuel_bind; [|intros] ].

Section Term.
  Variable dbg : bool.
  Implicit Types c : text_clump.

  Lemma before_end_nofuel c r : before_end dbg c r <> OutOfFuel.
  Proof. unfold before_end, uadd. nf. Qed.
  Lemma before_length_nofuel c r : before_length dbg c r <> OutOfFuel.
  Proof. unfold before_length, usubz. apply nofuel_bind; [apply before_end_nofuel|intros; nf]. Qed.
  Lemma my_before_range_nofuel c x r : my_before_range dbg c x r <> OutOfFuel.
  Proof. unfold my_before_range, usubz. apply nofuel_bind; [apply before_length_nofuel|]. intros. destruct x as [[? ?]|]; nf. Qed.
  Lemma snippet_items_nofuel {T} (s : snippet T) x : snippet_items dbg s x <> OutOfFuel.
  Proof. unfold snippet_items. destruct x as [[? ?]|]; [|discriminate]. apply nofuel_bind; [|intros; nf]. unfold uadd. destruct dbg; nf. Qed.
  Lemma before_lines_nofuel c x r : before_lines dbg c x r <> OutOfFuel.
  Proof. apply snippet_items_nofuel. Qed.
  Lemma before_adjusted_start_nofuel c o x r : before_adjusted_start dbg c o x r <> OutOfFuel.
  Proof. unfold before_adjusted_start, iadd. apply nofuel_bind; [nf|]. intros. destruct x as [[? ?]|]; nf. Qed.
  Lemma before_adjusted_length_nofuel c x r : before_adjusted_length dbg c x r <> OutOfFuel.
  Proof. unfold before_adjusted_length, usubz. apply nofuel_bind; [apply before_length_nofuel|]. intros. destruct x as [[? ?]|]; nf. Qed.
  Lemma before_is_subsequence_nofuel c p a x r : before_is_subsequence_in_at dbg c p a x r <> OutOfFuel.
  Proof.
    unfold before_is_subsequence_in_at. apply nofuel_bind; [apply my_before_range_nofuel|]. intros.
    apply nofuel_bind; [unfold uadd; nf|]. intros. destruct (_ <? _); [discriminate|].
    apply nofuel_bind; [apply before_lines_nofuel|]. intros. nf.
  Qed.
  Lemma will_apply_nofuel c p o r : will_apply dbg c p o r <> OutOfFuel.
  Proof.
    unfold will_apply. apply nofuel_bind; [apply before_adjusted_start_nofuel|]. intros s _.
    apply nofuel_bind; [destruct (_ <=? _); [apply before_is_subsequence_nofuel|discriminate]|]. intros hit _.
    destruct hit; [discriminate|]. generalize (seq 1 (Z.to_nat (Z.max (fst (tc_context c)) (snd (tc_context c))) - 1)).
    intros l. induction l as [|k l IH]; cbn [will_apply_loop]; [discriminate|].
    apply nofuel_bind; [unfold iadd; nf|]. intros.
    apply nofuel_bind; [destruct (_ <=? _); [apply before_is_subsequence_nofuel|discriminate]|]. intros [] _; [discriminate|exact IH].
  Qed.

  (* a position computed from an adjusted offset, in both builds *)
  Lemma start_minus c o i r x s : isubz dbg o i = Ok x -> before_adjusted_start dbg c x None r = Ok s ->
    s = wrap_isize (as_isize (before_start c r) + o - i).
  Proof.
    unfold isubz, before_adjusted_start, iadd. intros E1 E2. apply arith_isize_value in E1 as ->.
    destruct (arith_isize dbg _) as [y| |] eqn:E3; try discriminate. cbn in E2. injection E2 as <-.
    apply arith_isize_value in E3 as ->. rewrite wrap_isize_wrap. f_equal. lia.
  Qed.
  Lemma start_plus c o i r x s : iadd dbg o i = Ok x -> before_adjusted_start dbg c x None r = Ok s ->
    s = wrap_isize (as_isize (before_start c r) + o + i).
  Proof.
    unfold before_adjusted_start, iadd. intros E1 E2. apply arith_isize_value in E1 as ->.
    destruct (arith_isize dbg _) as [y| |] eqn:E3; try discriminate. cbn in E2. injection E2 as <-.
    apply arith_isize_value in E3 as ->. rewrite wrap_isize_wrap. f_equal. lia.
  Qed.

  Lemma nearby_loop_nofuel c p n na o r : - two63 < as_isize n ->
    let b1 := wrap_isize (as_isize (before_start c r) + o - 1) in
    let f1 := wrap_isize (as_isize (before_start c r) + o + 1) in
    forall fuel i bd fd, 1 <= i ->
      (bd = false -> i = 1 \/ as_isize n <= b1 - (i - 2)) -> (fd = false -> i = 1 \/ f1 + (i - 2) < as_isize na) ->
      Z.max (b1 - as_isize n) (as_isize na - f1) + 3 <= Z.of_nat fuel + i - 1 -> 0 < Z.of_nat fuel ->
      bd && fd = false ->
      nearby_loop dbg fuel c p n na o r i bd fd <> OutOfFuel.
  Proof.
    intros Hn b1 f1. pose proof (as_isize_range na) as Rna. pose proof (as_isize_range n) as Rn.
    assert (Rb : - two63 <= b1 < two63) by apply (as_isize_range (as_isize (before_start c r) + o - 1)).
    assert (Rf : - two63 <= f1 < two63) by apply (as_isize_range (as_isize (before_start c r) + o + 1)).
    induction fuel as [|fuel IH]; intros i bd fd Hi B F Hf Hf0 Hbf; [lia|]. cbn [nearby_loop].
    set (mb := if bd then _ else _). set (mf := if fd then _ else _).
    assert (Hmb : mb <> OutOfFuel /\ forall ob bd', mb = Ok (ob, bd') -> (bd' = false -> as_isize n <= b1 - (i - 1))).
    { subst mb. destruct bd; [split; [discriminate|]; intros ob bd' [= <- <-]; discriminate|]. split.
      - unfold isubz. apply nofuel_bind; [nf|]. intros. apply nofuel_bind; [apply before_adjusted_start_nofuel|]. intros.
        destruct (_ <? _); [discriminate|]. apply nofuel_bind; [apply will_apply_nofuel|]. intros. discriminate.
      - intros ob bd' E Hbd. destruct (isubz dbg o i) as [x| |] eqn:E1; try discriminate. cbn [bind] in E.
        destruct (before_adjusted_start dbg c x None r) as [s| |] eqn:E2; try discriminate. cbn [bind] in E.
        pose proof (start_minus c o i r x s E1 E2) as Es.
        assert (Es' : s = wrap_isize (- (i - 1) + b1)) by (rewrite Es; unfold b1; rewrite wrap_isize_wrap; f_equal; lia).
        destruct (Z.ltb_spec s (as_isize n)) as [Hlt|Hge]; [injection E as <- <-; discriminate|].
        rewrite wrap_isize_id in Es'; [lia|]. destruct (B eq_refl); lia. }
    destruct Hmb as [Hmb1 Hmb2]. apply nofuel_bind; [exact Hmb1|]. intros [ob bd'] Eb. specialize (Hmb2 ob bd' Eb). clear Eb Hmb1.
    destruct ob as [w|]; [discriminate|].
    assert (Hmf : mf <> OutOfFuel /\ forall of fd', mf = Ok (of, fd') -> (fd' = false -> f1 + (i - 1) < as_isize na)).
    { subst mf. destruct fd; [split; [discriminate|]; intros of fd' [= <- <-]; discriminate|]. split.
      - unfold iadd. apply nofuel_bind; [nf|]. intros. apply nofuel_bind; [apply before_adjusted_start_nofuel|]. intros.
        destruct (_ <? _); [|discriminate]. apply nofuel_bind; [apply will_apply_nofuel|]. intros. discriminate.
      - intros of fd' E Hfd. destruct (iadd dbg o i) as [x| |] eqn:E1; try discriminate. cbn [bind] in E.
        destruct (before_adjusted_start dbg c x None r) as [s| |] eqn:E2; try discriminate. cbn [bind] in E.
        pose proof (start_plus c o i r x s E1 E2) as Es.
        assert (Es' : s = wrap_isize ((i - 1) + f1)) by (rewrite Es; unfold f1; rewrite wrap_isize_wrap; f_equal; lia).
        destruct (Z.ltb_spec s (as_isize na)) as [Hlt|Hge]; [|injection E as <- <-; discriminate].
        rewrite wrap_isize_id in Es'; [lia|]. destruct (F eq_refl); lia. }
    destruct Hmf as [Hmf1 Hmf2]. apply nofuel_bind; [exact Hmf1|]. intros [of fd'] Ef. specialize (Hmf2 of fd' Ef). clear Ef Hmf1.
    destruct of as [w|]; [discriminate|].
    destruct (fd' && bd') eqn:Efb; [discriminate|]. apply IH; try lia.
  Qed.

  Lemma will_apply_nearby_nofuel c p n nx o r : - two63 < as_isize n -> will_apply_nearby dbg c p n nx o r <> OutOfFuel.
  Proof.
    intros Hn. unfold will_apply_nearby. apply nofuel_bind.
    - unfold nearby_not_after, usubz. destruct nx as [nx|].
      + apply nofuel_bind; [apply before_adjusted_start_nofuel|]. intros. apply nofuel_bind; [apply before_adjusted_length_nofuel|]. intros. nf.
      + apply nofuel_bind; [apply before_adjusted_length_nofuel|]. intros. nf.
    - intros na _. apply nearby_loop_nofuel; auto; unfold nearby_fuel; lia.
  Qed.

  (* ---------------- how far a step can advance ---------------- *)
  Definition side_len c r : Z := zlen (sn_items (tc_side c r)).
  Definition clump_fits c : Prop :=
    0 <= fst (tc_context c) <= 255 /\ 0 <= snd (tc_context c) <= 255 /\
    0 <= sn_start (tc_before c) < two64 /\ 0 <= sn_start (tc_after c) < two64 /\ clump_lines c < two61.
  Lemma side_len_fits c r : clump_fits c -> 0 <= side_len c r <= clump_lines c.
  Proof.
    intros _. unfold side_len, clump_lines. pose proof (zlen_nonneg (sn_items (tc_before c))). pose proof (zlen_nonneg (sn_items (tc_after c))).
    destruct r; cbn [tc_side]; lia.
  Qed.
  Lemma start_fits c r : clump_fits c -> 0 <= before_start c r < two64.
  Proof. intros (_ & _ & H1 & H2 & _). destruct r; assumption. Qed.
  Lemma before_length_value c r l : clump_fits c -> before_length dbg c r = Ok l -> l = side_len c r.
  Proof.
    intros Hf. pose proof (side_len_fits c r Hf). pose proof (start_fits c r Hf). destruct Hf as (_ & _ & _ & _ & Hl).
    unfold before_length, before_end, uadd, usubz. intros E.
    destruct (arith_usize dbg (_ + _)) as [e| |] eqn:E1; try discriminate. cbn [bind] in E.
    apply arith_usize_value in E1 as ->. apply arith_usize_value in E as ->. change (sn_start (tc_side c r)) with (before_start c r).
    change (zlen (sn_items (tc_side c r))) with (side_len c r).
    unfold wrap_usize. rewrite Zminus_mod_idemp_l. replace (before_start c r + side_len c r - before_start c r) with (side_len c r) by lia.
    apply Z.mod_small. consts. lia.
  Qed.
  Definition good_reductions c r (x : option (Z * Z)) : Prop :=
    match x with Some (r0, r1) => 0 <= r0 /\ 0 <= r1 /\ r0 + r1 <= side_len c r | None => True end.
  Lemma subsequence_reductions c p a r r0 r1 : clump_fits c -> 0 <= r0 <= 255 -> 0 <= r1 <= 255 ->
    before_is_subsequence_in_at dbg c p a (Some (r0, r1)) r = Ok true -> r0 + r1 <= side_len c r.
  Proof.
    intros Hf H0 H1 E. pose proof (side_len_fits c r Hf) as Hl. unfold before_is_subsequence_in_at, my_before_range in E.
    destruct (before_length dbg c r) as [l| |] eqn:El; try discriminate. cbn [bind] in E.
    apply (before_length_value c r l Hf) in El as ->.
    destruct (usubz dbg (side_len c r) r1) as [e| |] eqn:Ee; try discriminate. cbn [bind] in E.
    destruct (uadd dbg a _) as [en| |]; try discriminate. cbn [bind] in E.
    destruct (zlen p <? en); [discriminate|].
    destruct (before_lines dbg c (Some (r0, e)) r) as [ls| |] eqn:Els; try discriminate.
    unfold before_lines, snippet_items in Els.
    match type of Els with bind ?m _ = _ => destruct m; try discriminate end. cbn [bind] in Els.
    unfold zslice in Els. change (zlen (sn_items (tc_side c r))) with (side_len c r) in Els.
    destruct (Z.leb_spec 0 r0), (Z.leb_spec r0 e), (Z.leb_spec e (side_len c r)); cbn in Els; try discriminate.
    unfold usubz in Ee. apply arith_usize_value in Ee. unfold wrap_usize in Ee.
    destruct Hf as (_ & _ & _ & _ & Hl2).
    destruct (Z.leb_spec r1 (side_len c r)).
    - rewrite Z.mod_small in Ee by (consts; lia). lia.
    - replace (side_len c r - r1) with (side_len c r - r1 + two64 + (-1) * two64) in Ee by lia.
      rewrite Z.mod_add in Ee by (consts; lia). rewrite Z.mod_small in Ee by (consts; lia). consts. lia.
  Qed.
  Lemma will_apply_reductions c p o r w : clump_fits c -> will_apply dbg c p o r = Ok (Some w) -> good_reductions c r (reductions_of w).
  Proof.
    intros Hf. unfold will_apply. destruct (before_adjusted_start dbg c o None r) as [s| |]; try discriminate. cbn [bind].
    match goal with |- bind ?m _ = _ -> _ => destruct m as [hit| |]; try discriminate end. cbn [bind].
    destruct hit; [intros [= <-]; exact I|].
    generalize (seq 1 (Z.to_nat (Z.max (fst (tc_context c)) (snd (tc_context c))) - 1)).
    intros l. induction l as [|k l IH]; cbn [will_apply_loop]; [discriminate|].
    set (r0 := Z.min _ (fst _)). set (r1 := Z.min _ (snd _)).
    assert (R0 : 0 <= r0 <= 255) by (destruct Hf; lia). assert (R1 : 0 <= r1 <= 255) by (destruct Hf as (_ & ? & _); lia).
    destruct (iadd dbg s r0) as [x| |]; try discriminate. cbn [bind].
    destruct (0 <=? x); [|exact IH].
    destruct (before_is_subsequence_in_at dbg c p (as_usize x) (Some (r0, r1)) r) as [[]| |] eqn:E; try discriminate; cbn [bind]; [|exact IH].
    intros [= <-]. cbn. apply subsequence_reductions in E; auto. lia.
  Qed.
  Lemma adjusted_length_value c r x l : clump_fits c -> good_reductions c r x -> before_adjusted_length dbg c x r = Ok l ->
    0 <= l <= side_len c r.
  Proof.
    intros Hf Hx. pose proof (side_len_fits c r Hf) as Hl. destruct Hf as (F1 & F2 & F3 & F4 & F5).
    unfold before_adjusted_length. destruct (before_length dbg c r) as [n| |] eqn:E; try discriminate. cbn [bind].
    apply before_length_value in E as ->; [|repeat split; tauto]. destruct x as [[r0 r1]|]; [|intros [= <-]; lia].
    cbn in Hx. rewrite usubz_ok by (consts; lia). cbn [bind]. rewrite usubz_ok by (consts; lia). intros [= <-]. lia.
  Qed.

  Lemma write_into_upto_nofuel p n u w : fst (write_into_upto write_lines dbg p n u w) <> NoFuel.
  Proof.
    unfold write_into_upto. apply nofuel_io; [apply nofuel_lift; nf|]. intros _ w1 _. destruct (_ <? _); [|discriminate].
    apply nofuel_io; [|discriminate]. unfold seq_write_into. apply nofuel_io; [apply nofuel_lift; nf|]. intros.
    apply nofuel_io; [apply nofuel_lift; nf|]. intros ls ? _. 
    destruct (emits_write_lines ls) as [_ E]. rewrite E. unfold run_emit. cbn. destruct (w_room _); cbn; [|discriminate].
    destruct (_ <=? _)%nat; discriminate.
  Qed.
  Lemma write_into_upto_value p n u w n' w' : write_into_upto write_lines dbg p n u w = (Done n', w') -> n' = n \/ (n < n' <= zlen p).
  Proof.
    unfold write_into_upto. intros H. apply iobind_done in H as (a & w1 & _ & H). destruct (Z.ltb_spec n u) as [Hlt|_].
    - apply iobind_done in H as (b & w2 & H1 & H2). apply ret_done in H2 as [<- _]. right. split; [assumption|].
      unfold seq_write_into in H1. apply iobind_done in H1 as (x & w3 & _ & H1). apply iobind_done in H1 as (y & w4 & H1 & _).
      apply lift_done in H1 as [H1 _]. unfold zslice in H1. destruct (Z.leb_spec u (zlen p)); [assumption|].
      rewrite andb_false_r in H1. discriminate.
    - apply ret_done in H as [<- _]. now left.
  Qed.
  Lemma clump_apply_nofuel c p n o x r w : fst (clump_apply_into dbg c p n o x r w) <> NoFuel.
  Proof.
    unfold clump_apply_into. apply nofuel_io; [apply nofuel_lift, before_adjusted_start_nofuel|]. intros.
    apply nofuel_io; [apply write_into_upto_nofuel|]. intros. apply nofuel_io.
    - unfold after_write_into, before_write_into. 
      assert (W : forall ls w, fst (write_lines ls w) <> NoFuel).
      { intros ls w1. destruct (emits_write_lines ls) as [_ E]. rewrite E. unfold run_emit. cbn. destruct (w_room _); cbn; [|discriminate]. destruct (_ <=? _)%nat; discriminate. }
      destruct x as [[r0 r1]|].
      + apply nofuel_io; [apply nofuel_lift|].
        * unfold before_range, uadd, usubz. nf; try apply before_end_nofuel; try apply before_length_nofuel.
        * intros. apply nofuel_io; [apply nofuel_lift, before_lines_nofuel|]. intros. apply W.
      + apply nofuel_io; [apply nofuel_lift, before_lines_nofuel|]. intros. apply W.
    - intros. apply nofuel_io; [apply nofuel_lift, before_adjusted_length_nofuel|]. intros. apply nofuel_lift. unfold advance_consumed_by, uadd. nf.
  Qed.
  Lemma clump_apply_value c p n o x r w n' w' : clump_fits c -> good_reductions c r x -> 0 <= n < 2 * two61 -> zlen p < two61 ->
    clump_apply_into dbg c p n o x r w = (Done n', w') -> n <= n' <= Z.max n (zlen p) + clump_lines c.
  Proof.
    intros Hf Hx Hn Hp H. pose proof (zlen_nonneg p). unfold clump_apply_into in H. apply iobind_done in H as (e & w1 & _ & H).
    apply iobind_done in H as (n1 & w2 & H1 & H). apply write_into_upto_value in H1.
    apply iobind_done in H as (u & w3 & _ & H). apply iobind_done in H as (l & w4 & H2 & H).
    apply lift_done in H2 as [H2 _]. apply (adjusted_length_value c r x l Hf Hx) in H2.
    apply lift_done in H as [H _]. pose proof (side_len_fits c r Hf). destruct Hf as (_ & _ & _ & _ & Hl).
    unfold advance_consumed_by in H. rewrite uadd_ok in H by (consts; lia). injection H as <-. lia.
  Qed.
  Lemma already_into_nofuel c p n o x r w : fst (already_applied_into dbg c p n o x r w) <> NoFuel.
  Proof.
    unfold already_applied_into. apply nofuel_io; [apply nofuel_lift, before_adjusted_start_nofuel|]. intros.
    apply nofuel_io; [apply nofuel_lift, before_adjusted_length_nofuel|]. intros.
    apply nofuel_io; [apply nofuel_lift; unfold uadd; nf|]. intros. apply write_into_upto_nofuel.
  Qed.
  Lemma already_into_value c p n o x r w n' w' : already_applied_into dbg c p n o x r w = (Done n', w') -> n' = n \/ n < n' <= zlen p.
  Proof.
    unfold already_applied_into. intros H. apply iobind_done in H as (? & ? & _ & H). apply iobind_done in H as (? & ? & _ & H).
    apply iobind_done in H as (? & ? & _ & H). now apply write_into_upto_value in H.
  Qed.
  Lemma nearby_reductions c p n nx o r d w : clump_fits c -> will_apply_nearby dbg c p n nx o r = Ok (Some (d, w)) ->
    good_reductions c r (reductions_of w).
  Proof.
    intros Hf. unfold will_apply_nearby. destruct (nearby_not_after dbg c p nx o r) as [na| |]; try discriminate. cbn [bind].
    generalize 1 at 1. generalize false at 1. generalize false at 1. generalize (nearby_fuel c n na o r).
    intros fuel. induction fuel as [|fuel IH]; intros fd bd i; cbn [nearby_loop]; [discriminate|].
    match goal with |- bind ?m _ = _ -> _ => destruct m as [[ob bd']| |] eqn:Eb; try discriminate end. cbn [bind].
    destruct ob as [w1|].
    { intros [= _ <-]. destruct bd; [discriminate|].
      destruct (isubz dbg o i) as [x| |]; try discriminate. cbn [bind] in Eb.
      destruct (before_adjusted_start dbg c x None r) as [s| |]; try discriminate. cbn [bind] in Eb.
      destruct (s <? as_isize n); [discriminate|].
      destruct (will_apply dbg c p x r) as [w2| |] eqn:E; try discriminate. cbn [bind] in Eb. injection Eb as -> _.
      eapply will_apply_reductions; eauto. }
    match goal with |- bind ?m _ = _ -> _ => destruct m as [[of fd']| |] eqn:Ef; try discriminate end. cbn [bind].
    destruct of as [w1|].
    { intros [= _ <-]. destruct fd; [discriminate|].
      destruct (iadd dbg o i) as [x| |]; try discriminate. cbn [bind] in Ef.
      destruct (before_adjusted_start dbg c x None r) as [s| |]; try discriminate. cbn [bind] in Ef.
      destruct (s <? as_isize na); [|discriminate].
      destruct (will_apply dbg c p x r) as [w2| |] eqn:E; try discriminate. cbn [bind] in Ef. injection Ef as -> _.
      eapply will_apply_reductions; eauto. }
    destruct (fd' && bd'); [discriminate|]. apply IH.
  Qed.

  Lemma failure_nofuel c r w : fst (write_failure_data_into dbg c r w) <> NoFuel.
  Proof.
    assert (W : forall ls w, fst (write_lines ls w) <> NoFuel).
    { intros ls w1. destruct (emits_write_lines ls) as [_ E]. rewrite E. unfold run_emit. cbn. destruct (w_room _); cbn; [|discriminate]. destruct (_ <=? _)%nat; discriminate. }
    assert (W1 : forall b w, fst (write_all b w) <> NoFuel).
    { intros b w1. unfold write_all. destruct (w_room w1); [|discriminate]. destruct (_ <=? _)%nat; discriminate. }
    unfold write_failure_data_into, after_write_into, before_write_into, before_lines, snippet_items.
    repeat (apply nofuel_io; [|intros]); auto; try (apply nofuel_lift; discriminate).
  Qed.

  Lemma apply_step_term p r c nx n o st w : clump_fits c -> 0 <= n < 2 * two61 -> zlen p < two61 ->
    fst (apply_step dbg p r c nx n o st w) <> NoFuel /\
    forall n' o' st' w', apply_step dbg p r c nx n o st w = (Done (n', o', st'), w') -> n <= n' <= Z.max n (zlen p) + clump_lines c.
  Proof.
    intros Hf Hn Hp. pose proof (zlen_nonneg p).
    assert (Hc : 0 <= clump_lines c) by (pose proof (side_len_fits c false Hf); lia).
    assert (Hi : - two63 < as_isize n) by (rewrite as_isize_id; consts; lia).
    assert (HR : forall A (m : io Z) (k : Z -> A) w1, fst (m w1) <> NoFuel -> fst (iobind m (fun a => ret (k a)) w1) <> NoFuel)
      by (intros; apply nofuel_io; [assumption|discriminate]).
    unfold apply_step. unfold is_already_applied, is_already_applied_nearby. split.
    - apply nofuel_io; [apply nofuel_lift, will_apply_nofuel|]. intros [[|x]|] w1 _; [apply HR, clump_apply_nofuel..|].
      apply nofuel_io; [now apply nofuel_lift, will_apply_nearby_nofuel|]. intros [[d x]|] w2 _.
      { apply nofuel_io; [apply nofuel_lift; unfold iadd; nf|]. intros. apply HR, clump_apply_nofuel. }
      apply nofuel_io; [apply nofuel_lift, will_apply_nofuel|]. intros [[|x]|] w3 _; [apply HR, already_into_nofuel..|].
      apply nofuel_io; [now apply nofuel_lift, will_apply_nearby_nofuel|]. intros [[d x]|] w4 _.
      { apply nofuel_io; [apply nofuel_lift; unfold iadd; nf|]. intros. apply HR, already_into_nofuel. }
      apply nofuel_io; [apply failure_nofuel|discriminate].
    - intros n' o' st' w' E. apply iobind_done in E as (x1 & w1 & E1 & E). apply lift_done in E1 as [E1 _].
      destruct x1 as [[|x]|].
      + apply iobind_done in E as (n1 & w2 & E2 & E). apply ret_done in E as [[= <- _ _] _].
        eapply clump_apply_value in E2; eauto. exact I.
      + apply iobind_done in E as (n1 & w2 & E2 & E). apply ret_done in E as [[= <- _ _] _].
        eapply clump_apply_value in E2; eauto. eapply (will_apply_reductions _ _ _ _ (WithReductions x)); eauto.
      + apply iobind_done in E as (x2 & w2 & E2 & E). apply lift_done in E2 as [E2 _]. destruct x2 as [[d x]|].
        { apply iobind_done in E as (o1 & w3 & _ & E). apply iobind_done in E as (n1 & w4 & E3 & E).
          apply ret_done in E as [[= <- _ _] _]. eapply clump_apply_value in E3; eauto. eapply nearby_reductions; eauto. }
        apply iobind_done in E as (x3 & w3 & E3 & E). destruct x3 as [[|x]|].
        * apply iobind_done in E as (n1 & w4 & E4 & E). apply ret_done in E as [[= <- _ _] _]. apply already_into_value in E4. lia.
        * apply iobind_done in E as (n1 & w4 & E4 & E). apply ret_done in E as [[= <- _ _] _]. apply already_into_value in E4. lia.
        * apply iobind_done in E as (x4 & w4 & E4 & E). destruct x4 as [[d x]|].
          { apply iobind_done in E as (o1 & w5 & _ & E). apply iobind_done in E as (n1 & w6 & E5 & E).
            apply ret_done in E as [[= <- _ _] _]. apply already_into_value in E5. lia. }
          apply iobind_done in E as (u & w5 & _ & E). apply ret_done in E as [[= <- _ _] _]. lia.
  Qed.

  Definition total_lines (cs : list text_clump) : Z := fold_right (fun c n => clump_lines c + n) 0 cs.
  Lemma clump_lines_nonneg c : 0 <= clump_lines c.
  Proof. unfold clump_lines. pose proof (zlen_nonneg (sn_items (tc_before c))). pose proof (zlen_nonneg (sn_items (tc_after c))). lia. Qed.
  Lemma total_lines_nonneg cs : 0 <= total_lines cs.
  Proof. induction cs as [|c cs IH]; cbn; [lia|]. pose proof (clump_lines_nonneg c). fold (total_lines cs). lia. Qed.

  Lemma apply_clumps_term p r cs : zlen p < two61 -> forall n o st w,
    Forall (fun c => 0 <= fst (tc_context c) <= 255 /\ 0 <= snd (tc_context c) <= 255 /\
                    0 <= sn_start (tc_before c) < two64 /\ 0 <= sn_start (tc_after c) < two64) cs ->
    0 <= n -> Z.max n (zlen p) + total_lines cs < 2 * two61 -> total_lines cs < two61 ->
    fst (apply_clumps dbg p r cs n o st w) <> NoFuel.
  Proof.
    intros Hp. induction cs as [|c cs IH]; intros n o st w HF Hn Ht Ht1; cbn [apply_clumps]; [discriminate|].
    inversion HF as [|? ? (F1 & F2 & F3 & F4) F5]; subst. change (total_lines (c :: cs)) with (clump_lines c + total_lines cs) in Ht, Ht1.
    pose proof (clump_lines_nonneg c). pose proof (total_lines_nonneg cs).
    assert (Hf : clump_fits c) by (repeat split; try tauto; lia).
    destruct (apply_step_term p r c (hd_error cs) n o st w Hf) as [N V]; [lia|assumption|].
    apply nofuel_io; [exact N|]. intros [[n' o'] st'] w' E. specialize (V _ _ _ _ E). apply IH; auto; lia.
  Qed.
  Lemma text_apply_term cs p r w : patch_fits cs -> fits_lines p -> fst (text_apply_into dbg cs p r w) <> NoFuel.
  Proof.
    intros [H1 H2] Hp. unfold fits_lines in Hp. fold (total_lines cs) in H2. pose proof (total_lines_nonneg cs). pose proof (zlen_nonneg p).
    unfold text_apply_into. apply nofuel_io.
    - apply apply_clumps_term; auto; consts; lia.
    - intros [n st] w1 _. apply nofuel_io; [|discriminate]. unfold write_remainder. apply nofuel_io; [|discriminate].
      unfold seq_write_into. apply nofuel_io; [apply nofuel_lift; nf|]. intros. apply nofuel_io; [apply nofuel_lift; nf|]. intros ls w2 _.
      destruct (emits_write_lines ls) as [_ E]. rewrite E. unfold run_emit. cbn. destruct (w_room _); cbn; [|discriminate].
      destruct (_ <=? _)%nat; discriminate.
  Qed.
  Lemma text_already_term cs p r : forall o, text_already_applied_loop dbg cs p r o <> OutOfFuel.
  Proof.
    induction cs as [|c cs IH]; intros o; cbn [text_already_applied_loop]; [discriminate|].
    unfold is_already_applied, is_already_applied_nearby. apply nofuel_bind; [apply will_apply_nofuel|]. intros [x|] _; [apply IH|].
    apply nofuel_bind; [apply will_apply_nearby_nofuel; vm_compute; reflexivity|]. intros [[d x]|] _; [|discriminate].
    apply nofuel_bind; [unfold iadd; nf|]. intros. apply IH.
  Qed.
End Term.

(* ---------------- fuel does not influence the result ---------------- *)
Lemma nearby_loop_more dbg c p n na o r : forall fuel fuel' i bd fd, (fuel <= fuel')%nat ->
  nearby_loop dbg fuel c p n na o r i bd fd <> OutOfFuel ->
  nearby_loop dbg fuel' c p n na o r i bd fd = nearby_loop dbg fuel c p n na o r i bd fd.
Proof.
  induction fuel as [|fuel IH]; intros fuel' i bd fd Hle H; [now destruct H|].
  destruct fuel' as [|fuel']; [lia|]. cbn [nearby_loop] in *.
  match goal with |- bind ?m _ = _ => destruct m as [[ob bd']| |]; try reflexivity end. cbn [bind] in *.
  destruct ob; [reflexivity|].
  match goal with |- bind ?m _ = _ => destruct m as [[of fd']| |]; try reflexivity end. cbn [bind] in *.
  destruct of; [reflexivity|]. destruct (fd' && bd'); [reflexivity|]. apply IH; [lia|assumption].
Qed.

(* ---------------- a search that takes practically forever ---------------- *)
Section Forever.
  Variables (dbg : bool) (K : Z) (a x : line).
  Hypothesis HK : 2 <= K < 2 * two61.
  Let c : text_clump := TextClump (0, 0) (Snippet K [a]) (Snippet K []).

  Lemma far_adj o : - K <= o <= K -> before_adjusted_start dbg c o None false = Ok (K + o).
  Proof.
    intros Ho. unfold before_adjusted_start. change (before_start c false) with K.
    rewrite (as_isize_id K) by (consts; lia). now rewrite iadd_ok by (consts; lia).
  Qed.
  Lemma far_will_apply o : o < 0 -> 1 <= K + o -> will_apply dbg c [x] o false = Ok None.
  Proof.
    intros Ho Ho1. unfold will_apply. rewrite far_adj by lia. cbn [bind].
    destruct (Z.leb_spec 0 (K + o)); [|lia]. rewrite as_usize_id by (consts; lia).
    assert (El : before_length dbg c false = Ok 1).
    { unfold before_length, before_end. change (before_start c false) with K. change (sn_start (tc_side c false)) with K. change (zlen (sn_items (tc_side c false))) with 1.
      rewrite uadd_ok by (consts; lia). cbn [bind]. rewrite usubz_ok by (consts; lia). f_equal. lia. }
    unfold before_is_subsequence_in_at, my_before_range. rewrite El. cbn [bind fst snd].
    change (zrange_len (0, 1)) with 1. rewrite uadd_ok by (consts; lia). cbn [bind].
    change (zlen [x]) with 1. match goal with |- context [1 <? ?e] => destruct (Z.ltb_spec 1 e); [|lia] end. reflexivity.
  Qed.
  Lemma far_loop : forall fuel i fd, 1 <= i -> Z.of_nat fuel + i <= K -> (fd = false -> i = 1) ->
    nearby_loop dbg fuel c [x] 0 0 0 false i false fd = OutOfFuel.
  Proof.
    induction fuel as [|fuel IH]; intros i fd Hi Hf Hfd; [reflexivity|]. cbn [nearby_loop].
    rewrite isubz_ok by (consts; lia). cbn [bind]. rewrite far_adj by lia. cbn [bind]. rewrite (as_isize_id 0) by (consts; lia).
    destruct (Z.ltb_spec (K + (0 - i)) 0); [lia|]. rewrite far_will_apply by lia. cbn [bind].
    destruct fd; [cbn [bind andb]; apply IH; lia|]. rewrite (Hfd eq_refl) in *.
    rewrite iadd_ok by (consts; lia). cbn [bind]. rewrite far_adj by lia. cbn [bind].
    destruct (Z.ltb_spec (K + (0 + 1)) 0); [lia|]. cbn [bind andb]. apply IH; lia.
  Qed.
End Forever.

(* applying byte patches involves no search *)
Section ByteTerm.
  Variable dbg : bool.
  Lemma write_all_nofuel x w : fst (write_all x w) <> NoFuel.
  Proof. unfold write_all. destruct (w_room w); [destruct (_ <=? _)%nat|]; discriminate. Qed.
  Lemma seq_write_nofuel p s e w : fst (seq_write_into (T := byte) write_all dbg p s e w) <> NoFuel.
  Proof.
    unfold seq_write_into. apply nofuel_io; [apply nofuel_lift; nf|]. intros. apply nofuel_io; [apply nofuel_lift; nf|]. intros. apply write_all_nofuel.
  Qed.
  Lemma byte_upto_nofuel p n u w : fst (write_into_upto (T := byte) write_all dbg p n u w) <> NoFuel.
  Proof.
    unfold write_into_upto. apply nofuel_io; [apply nofuel_lift; nf|]. intros. destruct (_ <? _); [|discriminate].
    apply nofuel_io; [apply seq_write_nofuel|discriminate].
  Qed.
  Lemma byte_clumps_nofuel p r cs : forall n w, fst (byte_apply_clumps dbg p r cs n w) <> NoFuel.
  Proof.
    induction cs as [|c cs IH]; intros n w; cbn [byte_apply_clumps]; [discriminate|]. apply nofuel_io; [|intros; apply IH].
    destruct (byte_will_apply c p r); [|destruct (byte_is_already_applied c p r); [|discriminate]].
    - unfold byte_clump_apply_into. apply nofuel_io; [apply byte_upto_nofuel|]. intros. apply nofuel_io; [apply write_all_nofuel|]. intros. apply nofuel_lift. unfold advance_consumed_by. nf.
    - unfold byte_already_applied_into. apply nofuel_io; [apply nofuel_lift; nf|]. intros. apply byte_upto_nofuel.
  Qed.
  Lemma byte_apply_nofuel cs p r w : fst (byte_apply_into dbg cs p r w) <> NoFuel.
  Proof.
    unfold byte_apply_into. apply nofuel_io; [apply byte_clumps_nofuel|]. intros. apply nofuel_io; [|discriminate].
    unfold write_remainder. apply nofuel_io; [apply seq_write_nofuel|discriminate].
  Qed.
End ByteTerm.

(* Proof_Nearby.v - the nearby search (C25). *)
From Coq Require Import ZifyBool.
From Verif Require Import Base Model_Seq Model_Changes Model_IO Model_Text Model_Bytes Spec
  Proof_Seq Proof_Lcs Proof_Changes Proof_Clumps Proof_IO Proof_Diff Proof_Arith Proof_Text.
Local Open Scope Z_scope.

Section Nearby.
  Variable dbg : bool.
  Variable h : hunk line.
  Hypothesis Hok : hunk_ok h.
  Variable target : list line.
  Notation c := (text_of_hunk h).
  Notation s := (Z.of_nat (h_b h)).
  Variables n nau na o : Z.
  Hypothesis Ho : - two61 <= o < two61.
  Hypothesis Hn : 0 <= n < two61.
  Hypothesis Hna : as_isize nau = na.
  Hypothesis Hnab : - (2 * two61) <= na <= 2 * two61.

  Lemma s_bound : 0 <= s < two61.
  Proof. destruct Hok as (_ & _ & _ & _ & H & _). lia. Qed.
  Lemma n_isize : as_isize n = n.
  Proof. apply as_isize_id; consts; lia. Qed.

  Lemma adj_start x : - (2 * two61) <= x <= 2 * two61 -> before_adjusted_start dbg c x None false = Ok (s + x).
  Proof.
    intros Hx. pose proof s_bound. unfold before_adjusted_start. change (before_start c false) with s.
    rewrite as_isize_id by (consts; lia). rewrite iadd_ok by (consts; lia). reflexivity.
  Qed.

  (* all displacements smaller than i have been ruled out *)
  Definition ruled (i : Z) : Prop :=
    forall e, in_window (s + o) n na e -> Z.abs e < i -> decision h target (s + o + e) None.

  Lemma nearby_loop_spec fuel : forall i bd fd, 1 <= i ->
    (bd = true -> s + o - i < n) -> (fd = true -> na <= s + o + i) ->
    (bd = false -> i = 1 \/ n <= s + o - (i - 1)) -> (fd = false -> i = 1 \/ s + o + (i - 1) < na) ->
    bd && fd = false ->
    ruled i -> Z.max (s + o - n) (na - (s + o)) + 2 <= Z.of_nat fuel + i - 1 -> 0 < Z.of_nat fuel ->
    exists x, nearby_loop dbg fuel c target n nau o false i bd fd = Ok x /\ nearest h target (s + o) n na x.
  Proof.
    pose proof s_bound as Hs. 
    induction fuel as [|fuel IH]; intros i bd fd Hi B1 F1 B2 F2 Hbf Hr Hf Hf0; [lia|].
    cbn [nearby_loop]. rewrite n_isize, Hna.
    assert (Eb : exists ob bd', (if bd then Ok (None, true)
              else let! adjusted_offset := isubz dbg o i in
                   let! s0 := before_adjusted_start dbg c adjusted_offset None false in
                   if s0 <? n then Ok (None, true)
                   else let! w := will_apply dbg c target adjusted_offset false in Ok (w, false)) = Ok (ob, bd') /\
        (bd' = true -> ob = None /\ s + o - i < n) /\
        (bd' = false -> n <= s + o - i /\ decision h target (s + o + - i) ob)).
    { destruct bd.
      - exists None, true. split; [reflexivity|]. split; [auto|discriminate].
      - specialize (B2 eq_refl). assert (- (2 * two61) <= o - i <= 2 * two61) by (consts; lia).
        rewrite isubz_ok by (consts; lia). cbn [bind]. rewrite adj_start by assumption. cbn [bind].
        destruct (Z.ltb_spec (s + (o - i)) n) as [L|L].
        + exists None, true. split; [reflexivity|]. split; [intros _; split; [reflexivity|lia]|discriminate].
        + destruct (will_apply_spec dbg h Hok target (o - i)) as (x & E & D); [lia..|].
          rewrite E. cbn [bind]. exists x, false. split; [reflexivity|]. split; [discriminate|]. intros _.
          split; [lia|]. now replace (s + o + - i) with (s + (o - i)) by lia. }
    destruct Eb as (ob & bd' & Eb & T1 & T2). rewrite Eb. clear Eb. cbn [bind].
    destruct ob as [w|].
    { destruct bd'; [destruct (T1 eq_refl); discriminate|]. destruct (T2 eq_refl) as [T3 T4].
      eexists. split; [reflexivity|]. apply nearest_found.
      - left. lia.
      - assumption.
      - intros e He Hlt. apply Hr; [assumption|]. destruct Hlt; lia. }
    assert (Hrb : forall e, in_window (s + o) n na e -> Z.abs e < i \/ e = - i -> decision h target (s + o + e) None).
    { intros e He [Hlt|Heq]; [now apply Hr|]. subst e. destruct bd'.
      - destruct (T1 eq_refl) as [_ T3]. destruct He; lia.
      - now apply T2. }
    assert (Ef : exists of fd', (if fd then Ok (None, true)
              else let! adjusted_offset := iadd dbg o i in
                   let! s0 := before_adjusted_start dbg c adjusted_offset None false in
                   if s0 <? na then let! w := will_apply dbg c target adjusted_offset false in Ok (w, false)
                   else Ok (None, true)) = Ok (of, fd') /\
        (fd' = true -> of = None /\ na <= s + o + i) /\
        (fd' = false -> s + o + i < na /\ decision h target (s + o + i) of)).
    { destruct fd.
      - exists None, true. split; [reflexivity|]. split; [auto|discriminate].
      - specialize (F2 eq_refl). assert (- (2 * two61) <= o + i <= 2 * two61) by (consts; lia).
        rewrite iadd_ok by (consts; lia). cbn [bind]. rewrite adj_start by assumption. cbn [bind].
        destruct (Z.ltb_spec (s + (o + i)) na) as [L|L].
        + destruct (will_apply_spec dbg h Hok target (o + i)) as (x & E & D); [lia..|].
          rewrite E. cbn [bind]. exists x, false. split; [reflexivity|]. split; [discriminate|]. intros _.
          split; [lia|]. now replace (s + o + i) with (s + (o + i)) by lia.
        + exists None, true. split; [reflexivity|]. split; [intros _; split; [reflexivity|lia]|discriminate]. }
    destruct Ef as (of & fd' & Ef & T3 & T4). rewrite Ef. clear Ef. cbn [bind].
    destruct of as [w|].
    { destruct fd'; [destruct (T3 eq_refl); discriminate|]. destruct (T4 eq_refl) as [T5 T6].
      eexists. split; [reflexivity|]. apply nearest_found.
      - right. lia.
      - assumption.
      - intros e He Hlt. apply Hrb; [assumption|]. destruct Hlt; lia. }
    assert (Hr' : ruled (i + 1)).
    { intros e He Hlt. destruct (Z.eq_dec e i) as [->|Hne]; [|apply Hrb; [assumption|lia]].
      destruct fd'; [|now apply T4]. destruct (T3 eq_refl) as [_ T5]. destruct He; lia. }
    destruct (fd' && bd') eqn:Efb.
    - apply andb_true_iff in Efb as [-> ->]. eexists. split; [reflexivity|]. apply nearest_none.
      destruct (T1 eq_refl) as [_ T5]. destruct (T3 eq_refl) as [_ T6].
      intros e He. apply Hr'; [assumption|]. destruct He; lia.
    - apply IH; try lia; try assumption.
  Qed.
End Nearby.

Section NearbyTop.
  Variable dbg : bool.
  Variable h : hunk line.
  Hypothesis Hok : hunk_ok h.
  Variable target : list line.
  Hypothesis Ht : fits_lines target.
  Notation c := (text_of_hunk h).

  Lemma adjusted_length_none : before_adjusted_length dbg c None false = Ok (zlen (h_old h)).
  Proof. unfold before_adjusted_length. rewrite before_length_ok by assumption. reflexivity. Qed.
  Lemma adjusted_length_some r s : (r + s <= length (h_old h))%nat ->
    before_adjusted_length dbg c (Some (Z.of_nat r, Z.of_nat s)) false = Ok (zlen (h_old h) - Z.of_nat r - Z.of_nat s).
  Proof.
    intros H. unfold before_adjusted_length. rewrite before_length_ok by assumption. cbn [bind].
    pose proof (old_len_bound h Hok). unfold zlen in *. rewrite usubz_ok by (consts; lia). cbn [bind].
    rewrite usubz_ok by (consts; lia). reflexivity.
  Qed.
  Lemma core_bound : 0 <= core_length h < two61.
  Proof. destruct Hok as (H1 & _ & _ & _ & H2 & _). unfold core_length, zlen. lia. Qed.
  Lemma target_bound : 0 <= zlen target < two61.
  Proof. revert Ht. unfold fits_lines. pose proof (zlen_nonneg target). consts. lia. Qed.

  Definition next_ok (next : option (hunk line)) : Prop := match next with Some x => hunk_ok x | None => True end.

  (* the not_after bound: exact after the cast, unless the debug build panics *)
  Lemma nearby_not_after_spec next o : next_ok next -> - two61 <= o < two61 ->
    (dbg = true -> (match next with Some x => Z.of_nat (h_b x) + o + Z.of_nat (h_lead h) < 0 | None => False end) \/
                   0 <= search_limit h target next o) ->
    exists nau, nearby_not_after dbg c target (option_map text_of_hunk next) o false = Ok nau /\
      as_isize nau = search_limit h target next o.
  Proof.
    intros Hx Ho Hd. pose proof core_bound as Hc. pose proof target_bound as Hb.
    assert (L : before_adjusted_length dbg c (Some (tc_context c)) false = Ok (core_length h)).
    { apply adjusted_length_some. destruct Hok as (H1 & _). lia. }
    assert (Hlead : 0 <= Z.of_nat (h_lead h) <= 255) by (destruct Hok as (_ & _ & H & _); lia).
    unfold nearby_not_after. destruct next as [x|]; cbn [option_map].
    - unfold before_adjusted_start. cbn [text_of_hunk tc_context]. change (before_start (text_of_hunk x) false) with (Z.of_nat (h_b x)).
      cbn [next_ok] in Hx. pose proof (s_bound x Hx) as Hs. rewrite as_isize_id by (consts; lia).
      rewrite iadd_ok by (consts; lia). cbn [bind]. rewrite iadd_ok by (consts; lia). cbn [bind].
      change (before_adjusted_length dbg _ _ false) with (before_adjusted_length dbg c (Some (tc_context c)) false).
      rewrite L. cbn [bind].
      set (v := Z.of_nat (h_b x) + o + Z.of_nat (h_lead h)) in *.
      assert (Hv : - two61 <= v <= 2 * two61 + 255) by (subst v; consts; lia).
      change (search_limit h target (Some x) o) with (v - core_length h) in *.
      destruct (Z.ltb_spec v 0) as [Hneg|Hpos].
      + rewrite as_usize_neg by (consts; lia). rewrite usubz_ok by (consts; lia). eexists. split; [reflexivity|].
        rewrite as_isize_big by (consts; lia). lia.
      + rewrite as_usize_id by (consts; lia). destruct dbg eqn:D.
        * destruct (Hd eq_refl) as [H|H]; [lia|]. rewrite usubz_ok by (consts; lia). eexists. split; [reflexivity|].
          apply as_isize_id; consts; lia.
        * destruct (usubz_release v (core_length h)) as (r & E). rewrite E. exists r. split; [reflexivity|].
          eapply usubz_wrap_as_isize; [| |exact E]; consts; lia.
    - rewrite L. cbn [bind]. cbn [search_limit] in *. destruct dbg eqn:D.
      + destruct (Hd eq_refl) as [[]|H]. rewrite usubz_ok by (consts; lia). eexists. split; [reflexivity|].
        apply as_isize_id; consts; lia.
      + destruct (usubz_release (zlen target) (core_length h)) as (r & E). rewrite E. exists r. split; [reflexivity|].
        eapply usubz_wrap_as_isize; [| |exact E]; consts; lia.
  Qed.

  (* exactly otherwise the debug build panics *)
  Lemma nearby_not_after_panic next o : next_ok next -> - two61 <= o < two61 -> dbg = true ->
    match next with Some x => 0 <= Z.of_nat (h_b x) + o + Z.of_nat (h_lead h) | None => True end ->
    search_limit h target next o < 0 ->
    nearby_not_after dbg c target (option_map text_of_hunk next) o false = Panic.
  Proof.
    intros Hx Ho Hd Hnn Hl. pose proof core_bound as Hc. pose proof target_bound as Hb.
    assert (L : before_adjusted_length dbg c (Some (tc_context c)) false = Ok (core_length h)).
    { apply adjusted_length_some. destruct Hok as (H1 & _). lia. }
    assert (Hlead : 0 <= Z.of_nat (h_lead h) <= 255) by (destruct Hok as (_ & _ & H & _); lia).
    unfold nearby_not_after. destruct next as [x|]; cbn [option_map].
    - unfold before_adjusted_start. cbn [text_of_hunk tc_context]. change (before_start (text_of_hunk x) false) with (Z.of_nat (h_b x)).
      cbn [next_ok] in Hx. pose proof (s_bound x Hx) as Hs. rewrite as_isize_id by (consts; lia).
      rewrite iadd_ok by (consts; lia). cbn [bind]. rewrite iadd_ok by (consts; lia). cbn [bind].
      change (before_adjusted_length dbg _ _ false) with (before_adjusted_length dbg c (Some (tc_context c)) false).
      rewrite L. cbn [bind]. cbn [search_limit] in Hl. rewrite as_usize_id by (consts; lia).
      unfold usubz, arith_usize. subst dbg. unfold in_usize.
      destruct (Z.leb_spec 0 (Z.of_nat (h_b x) + o + Z.of_nat (h_lead h) - core_length h)); [lia|reflexivity].
    - rewrite L. cbn [bind]. cbn [search_limit] in Hl. unfold usubz, arith_usize. subst dbg. unfold in_usize.
      destruct (Z.leb_spec 0 (zlen target - core_length h)); [lia|reflexivity].
  Qed.

  Lemma search_limit_bounds next o : next_ok next -> - two61 <= o < two61 - 255 ->
    - (2 * two61) <= search_limit h target next o <= 2 * two61.
  Proof.
    intros Hx Ho. pose proof core_bound as Hc. pose proof target_bound as Hb.
    assert (Hlead : 0 <= Z.of_nat (h_lead h) <= 255) by (destruct Hok as (_ & _ & H & _); lia).
    destruct next as [x|]; cbn [search_limit].
    - cbn [next_ok] in Hx. pose proof (s_bound x Hx) as Hs. lia.
    - lia.
  Qed.

  Lemma will_apply_nearby_spec n next o : next_ok next -> - two61 <= o < two61 - 255 -> 0 <= n < two61 ->
    (dbg = true -> (match next with Some x => Z.of_nat (h_b x) + o + Z.of_nat (h_lead h) < 0 | None => False end) \/
                   0 <= search_limit h target next o) ->
    exists x, will_apply_nearby dbg c target n (option_map text_of_hunk next) o false = Ok x /\
      nearest h target (Z.of_nat (h_b h) + o) n (search_limit h target next o) x.
  Proof.
    intros Hx Ho Hn Hd. destruct (nearby_not_after_spec next o) as (nau & E & Ena); [assumption|lia|assumption|].
    unfold will_apply_nearby. rewrite E. cbn [bind]. pose proof (s_bound h Hok) as Hs.
    apply (nearby_loop_spec dbg h Hok target n nau _ o); auto; try lia; try discriminate.
    - now apply search_limit_bounds.
    - intros e [H|H] He; lia.
    - unfold nearby_fuel. change (before_start c false) with (Z.of_nat (h_b h)).
      rewrite Ena, (as_isize_id n), (as_isize_id (Z.of_nat (h_b h))) by (consts; lia).
      change wrap_isize with as_isize. rewrite !as_isize_id by (consts; lia). lia.
    - unfold nearby_fuel. lia.
  Qed.
End NearbyTop.

Lemma nearest_unique h target e n l x y : nearest h target e n l x -> nearest h target e n l y -> x = y.
Proof.
  intros H1 H2. destruct H1 as [d w A1 A2 A3|A]; destruct H2 as [d' w' B1 B2 B3|B]; try reflexivity.
  - assert (d = d').
    { destruct (Z.lt_trichotomy (Z.abs d) (Z.abs d')) as [L|[L|L]].
      - pose proof (decision_unique _ _ _ _ _ A2 (B3 d A1 (or_introl L))). discriminate.
      - destruct (Z.eq_dec d d') as [|N]; [assumption|]. assert (d' = - d) by lia.
        destruct (Z.ltb_spec d 0).
        + assert (HH : decision h target (e + d) None) by (apply B3; [assumption|right; lia]).
          pose proof (decision_unique _ _ _ _ _ A2 HH). discriminate.
        + assert (d <> 0) by (destruct A1; lia).
          assert (HH : decision h target (e + d') None) by (apply A3; [assumption|right; lia]).
          pose proof (decision_unique _ _ _ _ _ B2 HH). discriminate.
      - pose proof (decision_unique _ _ _ _ _ B2 (A3 d' B1 (or_introl L))). discriminate. }
    subst d'. pose proof (decision_unique _ _ _ _ _ A2 B2). congruence.
  - pose proof (decision_unique _ _ _ _ _ A2 (B d A1)). discriminate.
  - pose proof (decision_unique _ _ _ _ _ B2 (A d' B1)). discriminate.
Qed.

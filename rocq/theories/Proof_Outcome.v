(* Proof_Outcome.v - the complete outcome of applying a text patch (C73, C74). *)
From Coq Require Import ZifyBool.
From Verif Require Import Base Model_Seq Model_Changes Model_IO Model_Text Model_Bytes Spec Spec_Outcome
  Proof_Seq Proof_Lcs Proof_Changes Proof_Clumps Proof_IO Proof_Diff Proof_Arith Proof_Text Proof_Nearby Proof_Apply Proof_Fuzzy Proof_Bytes.
Local Open Scope Z_scope.

Lemma sub_empty {T} (s : list T) a b : (b <= a)%nat -> sub s a b = [].
Proof. intros H. unfold sub. now replace (b - a)%nat with 0%nat by lia. Qed.

Lemma upto_max dbg (target : list line) n u : (u <= length target)%nat ->
  emits (write_into_upto write_lines dbg target (Z.of_nat n) (Z.of_nat u)) (concat (sub target n u)) (Done (Z.of_nat (Nat.max n u))).
Proof.
  intros H. destruct (Nat.le_gt_cases n u) as [L|L].
  - rewrite Nat.max_r by assumption. now apply (emits_write_into_upto write_lines (@concat byte) emits_write_lines).
  - rewrite Nat.max_l, sub_empty by lia. unfold write_into_upto. eapply emits_lift_bind.
    + apply debug_assert_ok. unfold zlen. lia.
    + replace (Z.of_nat n <? Z.of_nat u) with false by lia. apply emits_ret.
Qed.

Lemma limit_ok_iff h target next o : limit_ok h target next o <-> ~ underflows h target next o.
Proof.
  unfold limit_ok, underflows. destruct next as [x|]; split; intros H; try lia.
Qed.

Section Outcome.
  Variable dbg : bool.
  Variable target : list line.
  Hypothesis Ft : fits_lines target.

  Lemma decision_kept h pos w : hunk_ok h -> decision h target pos (Some w) ->
    (cut_lead w <= h_lead h)%nat /\ (cut_trail w <= h_trail h)%nat /\
    0 <= pos + Z.of_nat (cut_lead w) /\ pos + Z.of_nat (cut_lead w) + Z.of_nat (kept_count (h_old h) w) <= zlen target.
  Proof.
    intros Hok D. pose proof Hok as (O1 & _). inversion D as [(p & Hp & Hl & _)|k N K1 K2 (p & Hp & Hl & _) K3|]; subst;
      unfold kept_count, zlen; cbn [cut_lead cut_trail].
    - lia.
    - rewrite !Nat2Z.id. rewrite trimmed_length in Hl by assumption. lia.
  Qed.
  Lemma decision_shift h o w : hunk_ok h -> decision h target (Z.of_nat (h_b h) + o) (Some w) -> - two61 <= o <= zlen target.
  Proof.
    intros Hok D. destruct (decision_kept _ _ _ Hok D) as (K1 & K2 & K3 & K4). destruct Hok as (O1 & O2 & O3 & O4 & O5 & O6).
    unfold kept_count in K4. lia.
  Qed.
  Lemma reductions_cut h pos w : decision h target pos (Some w) ->
    reductions_of w = if reduced w then Some (Z.of_nat (cut_lead w), Z.of_nat (cut_trail w)) else None.
  Proof. intros D. inversion D; subst; cbn; [reflexivity|]. now rewrite !Nat2Z.id. Qed.

  Lemma classify_fate h next n o : hunk_ok h -> next_ok next -> - two61 <= o <= zlen target -> Z.of_nat n < two61 ->
    (exists k, classify dbg target (text_of_hunk h) (option_map text_of_hunk next) (Z.of_nat n) o = Ok k /\
       fate_of dbg target h next n o (match k with CApply f o' w => Placed f o' w | CAlready f o' w => Seen f o' w | CFail => Rejected end)) \/
    (fate_of dbg target h next n o Underflow /\ classify dbg target (text_of_hunk h) (option_map text_of_hunk next) (Z.of_nat n) o = Panic).
  Proof.
    intros Hok Hx Ho Hn. pose proof (target_bound target Ft) as Bt. assert (Bt2 : zlen target < two61 - 255).
    { revert Ft. unfold fits_lines. consts. lia. }
    unfold classify.
    destruct (will_apply_spec dbg h Hok target o) as (x & E & D); [consts; lia..|]. rewrite E. cbn [bind]. clear E.
    destruct x as [w|].
    { left. eexists. split; [reflexivity|]. exact (fate_here dbg target h next n o w D). }
    assert (SC : forall g nx, hunk_ok g -> (dbg = true /\ ~ limit_ok g target nx o -> ~ searchable dbg target o g nx) /\ (~ (dbg = true /\ ~ limit_ok g target nx o) -> searchable dbg target o g nx)).
    { intros g nx _. unfold searchable. split.
      - intros [H1 H2] H3. apply H2, limit_ok_iff. auto.
      - intros H1 H2 H3. apply H1. split; [assumption|]. intros H4. apply limit_ok_iff in H4. auto. }
    assert (NB : forall g nx, hunk_ok g -> next_ok nx ->
      (searchable dbg target o g nx /\ exists x, will_apply_nearby dbg (text_of_hunk g) target (Z.of_nat n) (option_map text_of_hunk nx) o false = Ok x /\
          nearest g target (Z.of_nat (h_b g) + o) (Z.of_nat n) (search_limit g target nx o) x) \/
      (~ searchable dbg target o g nx /\ will_apply_nearby dbg (text_of_hunk g) target (Z.of_nat n) (option_map text_of_hunk nx) o false = Panic)).
    { intros g nx Hg Hnx. destruct (nearby_cases dbg target Ft g (Z.of_nat n) nx o Hg Hnx) as [(x & E & Hr)|(Hd & Hl & E)]; try lia.
      - destruct (bool_dec dbg true) as [Hd|Hd].
        + destruct (Z_lt_dec (search_limit g target nx o) 0) as [L|L];
          [destruct (Z_lt_dec (match nx with Some x => Z.of_nat (h_b x) + o + Z.of_nat (h_lead g) | None => 0 end) 0) as [M|M]|].
          * left. split; [|eauto]. apply SC; [assumption|]. intros [_ H]. apply H. left. destruct nx; [assumption|lia].
          * exfalso. unfold will_apply_nearby in E. rewrite nearby_not_after_panic in E; auto; try lia; [discriminate|].
            destruct nx; [lia|trivial].
          * left. split; [|eauto]. apply SC; [assumption|]. intros [_ H]. apply H. right. lia.
        + left. split; [|eauto]. intros E'. congruence.
      - right. split; [|assumption]. now apply SC. }
    destruct (NB h next Hok Hx) as [(S1 & x & E & N1)|(S1 & E)]; rewrite E; cbn [bind]; clear E.
    2:{ right. split; [|reflexivity]. now apply fate_underflow. }
    destruct x as [[d w]|].
    { left. inversion N1 as [? ? W1 W2 W3|]; subst.
      assert (B : - two61 <= o + d <= zlen target) by (apply (decision_shift h _ w Hok); now rewrite Z.add_assoc).
      rewrite iadd_ok by (consts; lia). cbn [bind]. eexists. split; [reflexivity|]. cbv beta iota. now apply fate_near. }
    destruct (will_apply_rev dbg target h o Hok) as (x & E & D2); [consts; lia|]. rewrite E. cbn [bind]. clear E.
    destruct x as [w|].
    { left. eexists. split; [reflexivity|]. cbv beta iota. now apply fate_seen. }
    pose proof (NB (swap_hunk h) (option_map swap_hunk next) (hunk_ok_swap _ Hok) (next_ok_swap _ Hx)) as NB2.
    rewrite <- swap_clump_hunk in NB2.
    replace (option_map text_of_hunk (option_map swap_hunk next)) with (option_map swap_clump (option_map text_of_hunk next)) in NB2
      by (destruct next; reflexivity).
    rewrite will_apply_nearby_swap in NB2. cbn [negb] in NB2.
    destruct NB2 as [(S2 & x & E & N2)|(S2 & E)]; rewrite E; cbn [bind]; clear E.
    2:{ right. split; [|reflexivity]. now apply fate_seen_underflow. }
    destruct x as [[d w]|].
    { left. inversion N2 as [? ? W1 W2 W3|]; subst. rewrite <- Z.add_assoc in W2.
      pose proof (decision_shift (swap_hunk h) _ w (hunk_ok_swap _ Hok) W2) as B.
      rewrite iadd_ok by (consts; lia). cbn [bind]. eexists. split; [reflexivity|]. cbv beta iota. now apply fate_seen_near. }
    left. eexists. split; [reflexivity|]. cbv beta iota. now apply fate_rejected.
  Qed.

  Lemma fate_placed h next n o f sh w : fate_of dbg target h next n o (Placed f sh w) -> decision h target (Z.of_nat (h_b h) + sh) (Some w).
  Proof.
    inversion 1 as [? D|? ? D S N| | | | | ]; subst; [assumption|]. inversion N; subst. now rewrite Z.add_assoc.
  Qed.
  Lemma fate_seen_at h next n o f sh w : fate_of dbg target h next n o (Seen f sh w) -> decision (swap_hunk h) target (Z.of_nat (h_a h) + sh) (Some w).
  Proof.
    inversion 1 as [| | |? D S N D2|? ? D S N D2 S2 N2| | ]; subst; [assumption|]. inversion N2; subst. now rewrite Z.add_assoc.
  Qed.

  Lemma adjusted_start_cut h o w : hunk_ok h -> decision h target (Z.of_nat (h_b h) + o) (Some w) ->
    before_adjusted_start dbg (text_of_hunk h) o (reductions_of w) false = Ok (Z.of_nat (kept_from (h_b h) o w)).
  Proof.
    intros Hok D. destruct (decision_kept _ _ _ Hok D) as (K1 & K2 & K3 & K4). pose proof (decision_shift _ _ _ Hok D) as B.
    pose proof (target_bound target Ft) as Bt. rewrite (reductions_cut _ _ _ D). destruct Hok as (O1 & O2 & O3 & O4 & O5 & O6).
    unfold before_adjusted_start, kept_from. change (before_start (text_of_hunk h) false) with (Z.of_nat (h_b h)).
    rewrite as_isize_id by (consts; lia). rewrite iadd_ok by (consts; lia). cbn [bind].
    rewrite Z2Nat.id by lia. destruct w as [|[r s]]; cbn [reduced].
    - f_equal. cbn [cut_lead]. lia.
    - rewrite iadd_ok by (consts; lia). reflexivity.
  Qed.
  Lemma adjusted_length_cut h pos w : hunk_ok h -> decision h target pos (Some w) ->
    before_adjusted_length dbg (text_of_hunk h) (reductions_of w) false = Ok (Z.of_nat (kept_count (h_old h) w)).
  Proof.
    intros Hok D. destruct (decision_kept _ _ _ Hok D) as (K1 & K2 & _). rewrite (reductions_cut _ _ _ D).
    pose proof Hok as (O1 & O2 & O3 & O4 & O5 & O6). unfold kept_count. destruct w as [|[r s]]; cbn [reduced].
    - rewrite adjusted_length_none by assumption. unfold zlen. cbn [cut_lead cut_trail]. f_equal. lia.
    - rewrite adjusted_length_some; [|assumption|lia]. unfold zlen. f_equal. lia.
  Qed.

  Lemma emits_written h pos w : hunk_ok h -> decision h target pos (Some w) ->
    (writable h w -> emits (after_write_into dbg (text_of_hunk h) (reductions_of w) false) (concat (written h w)) (Done tt)) /\
    (~ writable h w -> emits (after_write_into dbg (text_of_hunk h) (reductions_of w) false) [] Panicked).
  Proof.
    intros Hok D. inversion D as [|k N K1 K2 O K3|]; subst.
    - split; [intros _; apply emits_after_write|]. intros HH. exfalso. apply HH. now left.
    - pose proof (emits_after_write_reduced dbg h Hok k K1) as E. unfold writable, written. cbn [cut_lead cut_trail reductions_of].
      rewrite !Nat2Z.id. destruct (Nat.leb_spec (h_a h) (Nat.min k (h_trail h))) as [L|L].
      + split; [intros _|intros H; exfalso; apply H; now right]. destruct k; [lia|]. exact E.
      + split; [intros [H|H]; [discriminate|lia]|]. intros _. exact E.
  Qed.

  Lemma emits_placed h n o w : hunk_ok h -> decision h target (Z.of_nat (h_b h) + o) (Some w) -> Z.of_nat n < 2 * two61 ->
    (writable h w -> emits (clump_apply_into dbg (text_of_hunk h) target (Z.of_nat n) o (reductions_of w) false)
       (concat (sub target n (kept_from (h_b h) o w)) ++ concat (written h w))
       (Done (Z.of_nat (Nat.max n (kept_from (h_b h) o w) + kept_count (h_old h) w)))) /\
    (~ writable h w -> emits (clump_apply_into dbg (text_of_hunk h) target (Z.of_nat n) o (reductions_of w) false)
       (concat (sub target n (kept_from (h_b h) o w))) Panicked).
  Proof.
    intros Hok D Hn. destruct (emits_written _ _ _ Hok D) as [W1 W2]. destruct (decision_kept _ _ _ Hok D) as (K1 & K2 & K3 & K4).
    pose proof (target_bound target Ft) as Bt. unfold zlen in *.
    assert (HU : (kept_from (h_b h) o w <= length target)%nat) by (unfold kept_from; lia).
    assert (HS : Z.of_nat (kept_count (h_old h) w) < two61) by (destruct Hok as (_ & _ & _ & _ & O5 & _); unfold kept_count; lia).
    split; intros Hw; unfold clump_apply_into; (eapply emits_lift_bind; [now apply adjusted_start_cut|]);
      rewrite as_usize_id by (consts; lia).
    - eapply emits_bind; [now apply upto_max|]. rewrite <- (app_nil_r (concat (written h w))).
      eapply emits_bind; [now apply W1|]. eapply emits_lift_bind; [eapply adjusted_length_cut; eassumption|].
      unfold advance_consumed_by. rewrite uadd_ok by (consts; lia). rewrite <- Nat2Z.inj_add. apply (emits_lift (Ok _)).
    - rewrite <- (app_nil_r (concat _)). eapply emits_bind; [now apply upto_max|].
      change (@Panicked Z) with (@recast unit Z Panicked). eapply emits_bind_stop; [now apply W2|discriminate].
  Qed.
  Lemma emits_seen h n o w : hunk_ok h -> decision (swap_hunk h) target (Z.of_nat (h_a h) + o) (Some w) ->
    emits (already_applied_into dbg (text_of_hunk h) target (Z.of_nat n) o (reductions_of w) false)
      (concat (sub target n (kept_from (h_a h) o w + kept_count (h_new h) w)))
      (Done (Z.of_nat (Nat.max n (kept_from (h_a h) o w + kept_count (h_new h) w)))).
  Proof.
    intros Hok D. pose proof (hunk_ok_swap _ Hok) as Hok'. destruct (decision_kept _ _ _ Hok' D) as (K1 & K2 & K3 & K4).
    pose proof (target_bound target Ft) as Bt. unfold zlen in *. cbn [swap_hunk h_old] in *.
    pose proof (adjusted_start_cut (swap_hunk h) o w Hok' D) as E1. pose proof (adjusted_length_cut (swap_hunk h) _ w Hok' D) as E2.
    rewrite <- swap_clump_hunk in E1, E2. rewrite before_adjusted_start_swap in E1. rewrite before_adjusted_length_swap in E2.
    cbn [negb swap_hunk h_b h_old] in E1, E2.
    unfold already_applied_into. cbn [negb]. eapply emits_lift_bind; [exact E1|]. eapply emits_lift_bind; [exact E2|].
    rewrite as_usize_id by (unfold kept_from; consts; lia).
    eapply emits_lift_bind; [apply uadd_ok; unfold kept_from; consts; lia|]. rewrite <- Nat2Z.inj_add. apply upto_max.
    unfold kept_from. lia.
  Qed.

  Fixpoint total_old (hs : list (hunk line)) : nat := match hs with [] => 0 | h :: hs' => (length (h_old h) + total_old hs')%nat end.

  Definition add_fate (st : statistics) (f : fate) : statistics :=
    match f with
    | Placed false _ _ => add_clean st | Placed true _ _ => add_fuzzy st
    | Seen false _ _ => add_already st | Seen true _ _ => add_already_fuzzy st
    | Rejected => add_failed st | Underflow => st
    end.

  Lemma emits_remainder n st : emits (do! _ := write_remainder write_lines dbg target (Z.of_nat n) in ret st)
    (if (n <=? length target)%nat then concat (skipn n target) else []) (if (n <=? length target)%nat then Done st else @Panicked statistics).
  Proof.
    destruct (Nat.leb_spec n (length target)) as [L|L].
    - rewrite <- (app_nil_r (concat _)). eapply emits_bind; [|apply emits_ret].
      now apply (emits_write_remainder write_lines (@concat byte) emits_write_lines).
    - change (@Panicked statistics) with (@recast Z statistics Panicked). eapply emits_bind_stop; [|discriminate].
      unfold write_remainder. change (@Panicked Z) with (@recast unit Z Panicked). eapply emits_bind_stop; [|discriminate].
      unfold seq_write_into. unfold debug_assert. destruct dbg; cbn [andb].
      + replace (negb _) with true by (unfold zlen; lia).
        change (@Panicked unit) with (@recast unit unit Panicked). eapply emits_bind_stop; [apply (emits_lift Panic)|discriminate].
      + eapply emits_lift_bind; [reflexivity|]. unfold zslice. replace ((0 <=? Z.of_nat n) && (Z.of_nat n <=? zlen target) && (zlen target <=? zlen target)) with false by (unfold zlen; lia).
        change (@Panicked unit) with (@recast (list line) unit Panicked). eapply emits_bind_stop; [apply (emits_lift Panic)|discriminate].
  Qed.

  Definition whole (hs : list (hunk line)) (n o : Z) (st : statistics) : io statistics :=
    do! (consumed, stats) := apply_clumps dbg target false (map text_of_hunk hs) n o st in
    do! _ := write_remainder write_lines dbg target consumed in ret stats.
  Definition result (st : statistics) (r : option (list fate)) : ores statistics :=
    match r with Some l => Done (fold_left add_fate l st) | None => Panicked end.

  Lemma whole_cons h hs n o st w : whole (h :: hs) n o st w =
    iobind (iobind (lift (classify dbg target (text_of_hunk h) (option_map text_of_hunk (hd_error hs)) n o)) (render dbg target (text_of_hunk h) n o st))
      (fun '(n', o', st') => whole hs n' o' st') w.
  Proof.
    unfold whole. cbn [map apply_clumps].
    assert (AS : forall A B C (m : io A) (k : A -> io B) (l : B -> io C) w, iobind (iobind m k) l w = iobind m (fun a => iobind (k a) l) w).
    { intros A B C m k l w0. unfold iobind. destruct (m w0) as [[a| | |] w1]; reflexivity. }
    rewrite AS. rewrite hd_error_map. apply iobind_ext; [intros w0; apply apply_step_classify|].
    intros [[n' o'] st'] w0. reflexivity.
  Qed.

  Lemma outcome_run hs : forall n o st, Forall hunk_ok hs -> - two61 <= o <= zlen target ->
    Z.of_nat (Nat.max n (length target) + total_old hs) < two61 ->
    exists r out, outcome dbg target n o hs r out /\ emits (whole hs (Z.of_nat n) o st) out (result st r).
  Proof.
    induction hs as [|h hs IH]; intros n o st Hok Ho Hn.
    - unfold whole. cbn [map apply_clumps]. destruct (Nat.leb_spec n (length target)) as [L|L].
      + exists (Some []), (concat (skipn n target)). split; [now constructor|]. rewrite <- (app_nil_l (concat _)).
        eapply emits_bind; [apply emits_ret|]. pose proof (emits_remainder n st) as E.
        replace (n <=? length target)%nat with true in E by lia. exact E.
      + exists None, []. split; [now constructor|]. rewrite <- (app_nil_l []).
        eapply emits_bind; [apply emits_ret|]. pose proof (emits_remainder n st) as E.
        replace (n <=? length target)%nat with false in E by lia. exact E.
    - inversion Hok as [|? ? O1 O2]; subst. cbn [total_old] in Hn. pose proof (hd_next_ok _ O2) as Hnx.
      destruct (classify_fate h (hd_error hs) n o O1 Hnx Ho ltac:(lia)) as [(k & Ek & Hf)|(Hf & Ek)].
      2:{ exists None, []. split; [now apply outcome_underflow|]. eapply emits_ext; [intros w; symmetry; apply whole_cons|].
          rewrite Ek. cbn [result]. change (@Panicked statistics) with (@recast (Z * Z * statistics) statistics Panicked).
          eapply emits_bind_stop; [|discriminate]. change (@Panicked (Z * Z * statistics)) with (@recast class (Z * Z * statistics) Panicked).
          eapply emits_bind_stop; [apply (emits_lift Panic)|discriminate]. }
      assert (STEP : forall r1 o1 n' o' st' r out, emits (render dbg target (text_of_hunk h) (Z.of_nat n) o st k) o1 r1 ->
        (r1 = Done (Z.of_nat n', o', st') /\ emits (whole hs (Z.of_nat n') o' st') out r -> emits (whole (h :: hs) (Z.of_nat n) o st) (o1 ++ out) r) /\
        (r1 = Panicked -> emits (whole (h :: hs) (Z.of_nat n) o st) o1 Panicked)).
      { intros r1 o1 n' o' st' r out E. split.
        - intros [-> E2]. eapply emits_ext; [intros w; symmetry; apply whole_cons|]. rewrite Ek.
          eapply emits_bind; [eapply emits_lift_bind; [reflexivity|exact E]|exact E2].
        - intros ->. eapply emits_ext; [intros w; symmetry; apply whole_cons|]. rewrite Ek.
          change (@Panicked statistics) with (@recast (Z * Z * statistics) statistics Panicked).
          eapply emits_bind_stop; [|discriminate]. eapply emits_lift_bind; [reflexivity|exact E]. }
      assert (RES : forall r f, match f with Underflow => False | _ => True end -> result (add_fate st f) r = result st (option_map (cons f) r)).
      { intros [l|] f _; reflexivity. }
      destruct k as [f o' w|f o' w|]; cbv beta iota in Hf.
      + pose proof (fate_placed _ _ _ _ _ _ _ Hf) as D. destruct (decision_kept _ _ _ O1 D) as (K1 & K2 & K3 & K4).
        destruct (emits_placed h n o' w O1 D ltac:(lia)) as [P1 P2].
        assert (Hw : writable h w \/ ~ writable h w).
        { unfold writable. destruct w as [|q]; [auto|]. destruct (Nat.le_gt_cases (h_a h) (cut_trail (WithReductions q))); [auto|right]. intros [HH|HH]; [discriminate|lia]. }
        destruct Hw as [Hw|Hw].
        * destruct (IH (Nat.max n (kept_from (h_b h) o' w) + kept_count (h_old h) w)%nat o' (add_fate st (Placed f o' w)) O2) as (r & out & HO & HE).
          { now apply (decision_shift h o' w). }
          { unfold kept_count, kept_from, zlen in *. lia. }
          exists (option_map (cons (Placed f o' w)) r), (concat (sub target n (kept_from (h_b h) o' w)) ++ concat (written h w) ++ out).
          split; [now apply outcome_placed|]. rewrite <- RES by exact I. rewrite app_assoc. eapply STEP; [|split; [reflexivity|exact HE]].
          unfold render. rewrite <- (app_nil_r (_ ++ _)). eapply emits_bind; [now apply P1|].
          cbn [add_fate]. destruct f; apply emits_ret.
        * exists None, (concat (sub target n (kept_from (h_b h) o' w))). split; [eapply outcome_unwritable; eassumption|].
          eapply (STEP _ _ 0%nat 0 st Panicked []); [|reflexivity]. unfold render.
          change (@Panicked (Z * Z * statistics)) with (@recast Z (Z * Z * statistics) Panicked).
          eapply emits_bind_stop; [now apply P2|discriminate].
      + pose proof (fate_seen_at _ _ _ _ _ _ _ Hf) as D. destruct (decision_kept _ _ _ (hunk_ok_swap _ O1) D) as (K1 & K2 & K3 & K4).
        cbn [swap_hunk h_old] in K4.
        destruct (IH (Nat.max n (kept_from (h_a h) o' w + kept_count (h_new h) w))%nat o' (add_fate st (Seen f o' w)) O2) as (r & out & HO & HE).
        { now apply (decision_shift (swap_hunk h) o' w (hunk_ok_swap _ O1)). }
        { unfold kept_from, zlen in *. lia. }
        exists (option_map (cons (Seen f o' w)) r), (concat (sub target n (kept_from (h_a h) o' w + kept_count (h_new h) w)) ++ out).
        split; [now apply outcome_seen|]. rewrite <- RES by exact I. eapply STEP; [|split; [reflexivity|exact HE]].
        unfold render. rewrite <- (app_nil_r (concat _)). eapply emits_bind; [now apply emits_seen|].
        cbn [add_fate]. destruct f; apply emits_ret.
      + destruct (IH n o (add_fate st Rejected) O2 Ho ltac:(lia)) as (r & out & HO & HE).
        exists (option_map (cons Rejected) r), (conflict_block h ++ out). split; [now apply outcome_rejected|].
        rewrite <- RES by exact I. eapply STEP; [|split; [reflexivity|exact HE]]. apply render_fail.
  Qed.

  Lemma tally_fold l : forall st, fold_left add_fate l st =
    Stats (st_clean st + st_clean (tally l)) (st_fuzzy st + st_fuzzy (tally l)) (st_already st + st_already (tally l))
          (st_already_fuzzy st + st_already_fuzzy (tally l)) (st_failed st + st_failed (tally l)).
  Proof.
    induction l as [|f l IH]; intros st.
    - cbn. rewrite !Nat.add_0_r. now destruct st.
    - cbn [fold_left]. rewrite IH. unfold tally, how_many. cbn [filter].
      destruct f as [[] ? ?|[] ? ?| |]; destruct st as [s1 s2 s3 s4 s5]; cbn [add_fate add_clean add_fuzzy add_already add_already_fuzzy add_failed st_clean st_fuzzy st_already st_already_fuzzy st_failed length]; f_equal; lia.
  Qed.
End Outcome.

(* the specification determines the outcome *)
Lemma fate_unique dbg target h next n o x y : fate_of dbg target h next n o x -> fate_of dbg target h next n o y -> x = y.
Proof.
  intros H1 H2.
  inversion H1; subst; inversion H2; subst;
  repeat match goal with
    | A : decision ?h ?t ?p ?x, B : decision ?h ?t ?p ?y |- _ =>
        lazymatch x with y => fail | _ => pose proof (decision_unique _ _ _ _ _ A B) as EQ; first [discriminate EQ | injection EQ as EQ; subst] end
    | A : old_nearby _ _ _ _ _ ?x, B : old_nearby _ _ _ _ _ ?y |- _ =>
        lazymatch x with y => fail | _ => pose proof (nearest_unique _ _ _ _ _ _ _ A B) as EQ; first [discriminate EQ | injection EQ as EQ EQ2; subst] end
    | A : new_nearby _ _ _ _ _ ?x, B : new_nearby _ _ _ _ _ ?y |- _ =>
        lazymatch x with y => fail | _ => pose proof (nearest_unique _ _ _ _ _ _ _ A B) as EQ; first [discriminate EQ | injection EQ as EQ EQ2; subst] end
    end; try reflexivity; try contradiction.
Qed.

Lemma outcome_unique dbg target n o hs r out : outcome dbg target n o hs r out -> forall r' out', outcome dbg target n o hs r' out' -> r = r' /\ out = out'.
Proof.
  induction 1 as [n o L|n o L|n o h hs f sh w r out F W H IH|n o h hs f sh w F W|n o h hs f sh w r out F H IH|n o h hs r out F H IH|n o h hs F];
    intros r' out' H'; inversion H' as [? ? L'|? ? L'|? ? ? ? f2 sh2 w2 ? ? F' W' H2|? ? ? ? f2 sh2 w2 F' W'|? ? ? ? f2 sh2 w2 ? ? F' H2|? ? ? ? ? ? F' H2|? ? ? ? F']; subst;
    try (exfalso; lia); try pose proof (fate_unique _ _ _ _ _ _ _ _ F F') as EQ; try discriminate;
    try (injection EQ as <- <- <-); try contradiction; try (destruct (IH _ _ H2) as [-> ->]); auto.
Qed.

(* ---------------- the already-applied query ---------------- *)
Lemma all_seen_run dbg target hs : fits_lines target -> forall o, Forall hunk_ok hs -> - two61 <= o <= zlen target ->
  exists r, all_seen dbg target o hs r /\
    text_already_applied_loop dbg (map text_of_hunk hs) target false o = match r with Some b => Ok b | None => Panic end.
Proof.
  intros Ft. induction hs as [|h hs IH]; intros o Hok Ho; [exists (Some true); split; [constructor|reflexivity]|].
  inversion Hok as [|? ? O1 O2]; subst. pose proof (hd_next_ok _ O2) as Hnx.
  pose proof (target_bound target Ft) as Bt. assert (Bt2 : zlen target < two61 - 255).
  { revert Ft. unfold fits_lines. consts. lia. }
  cbn [map text_already_applied_loop]. unfold is_already_applied, is_already_applied_nearby. cbn [negb].
  destruct (will_apply_rev dbg target h o O1) as (x & E & D2); [consts; lia|]. rewrite E. cbn [bind]. clear E.
  destruct x as [w|].
  { destruct (IH o O2 Ho) as (r & HA & HE). exists r. split; [eapply all_seen_here; eassumption|exact HE]. }
  rewrite hd_error_map.
  destruct (nearby_cases_rev dbg target Ft h 0 (hd_error hs) o O1 Hnx) as [(x & E & N)|(Hd & Hl & E)]; try (consts; lia).
  - assert (S : searchable dbg target o (swap_hunk h) (option_map swap_hunk (hd_error hs))).
    { intros Hd U. assert (E' : will_apply_nearby dbg (text_of_hunk h) target 0 (option_map text_of_hunk (hd_error hs)) o true = Panic).
      { replace true with (negb false) by reflexivity. rewrite <- will_apply_nearby_swap, swap_clump_hunk.
        replace (option_map swap_clump (option_map text_of_hunk (hd_error hs))) with (option_map text_of_hunk (option_map swap_hunk (hd_error hs))) by (destruct (hd_error hs); reflexivity).
        unfold will_apply_nearby. destruct U as [U1 U2]. rewrite nearby_not_after_panic; auto; try (consts; lia).
        - now apply hunk_ok_swap.
        - now apply next_ok_swap. }
      congruence. }
    rewrite E. cbn [bind]. destruct x as [[d w]|].
    + inversion N as [? ? W1 W2 W3|]; subst. rewrite <- Z.add_assoc in W2.
      pose proof (decision_shift target (swap_hunk h) _ w (hunk_ok_swap _ O1) W2) as B.
      rewrite iadd_ok by (consts; lia). cbn [bind]. destruct (IH (o + d) O2 B) as (r & HA & HE).
      exists r. split; [eapply all_seen_near; eassumption|exact HE].
    + exists (Some false). split; [now apply all_seen_not|reflexivity].
  - rewrite E. exists None. split; [|reflexivity]. apply all_seen_underflow; [assumption|]. intros S.
    apply Hl, limit_ok_iff. auto.
Qed.
Lemma all_seen_unique dbg target o hs r : all_seen dbg target o hs r -> forall r', all_seen dbg target o hs r' -> r = r'.
Proof.
  induction 1 as [o|o h hs w r D H IH|o h hs d w r D S N H IH|o h hs D S N|o h hs D S]; intros r' H'; inversion H' as [|? ? ? w' ? D' H2|? ? ? d' w' ? D' S' N' H2|? ? ? D' S' N'|? ? ? D' S']; subst; auto;
    try (pose proof (decision_unique _ _ _ _ _ D D'); discriminate); try contradiction;
    try (pose proof (nearest_unique _ _ _ _ _ _ _ N N') as EQ; first [discriminate EQ | injection EQ as <- <-; auto]).
Qed.

(* ---------------- bytes ---------------- *)
Lemma byte_upto_max dbg (target : list byte) n u : (u <= length target)%nat ->
  emits (write_into_upto write_all dbg target (Z.of_nat n) (Z.of_nat u)) (sub target n u) (Done (Z.of_nat (Nat.max n u))).
Proof.
  intros H. destruct (Nat.le_gt_cases n u) as [L|L].
  - rewrite Nat.max_r by assumption. now apply (emits_write_into_upto write_all id emits_write_bytes).
  - rewrite Nat.max_l, sub_empty by lia. unfold write_into_upto. eapply emits_lift_bind.
    + apply debug_assert_ok. unfold zlen. lia.
    + replace (Z.of_nat n <? Z.of_nat u) with false by lia. apply emits_ret.
Qed.
Fixpoint total_bytes (hs : list (hunk byte)) : nat := match hs with [] => 0 | h :: hs' => (length (h_old h) + total_bytes hs')%nat end.
Lemma byte_outcome_run dbg target hs : forall n,
  Z.of_nat (Nat.max n (length target) + total_bytes hs) < two64 ->
  emits (do! consumed := byte_apply_clumps dbg target false (map byte_of_hunk hs) (Z.of_nat n) in
         do! _ := write_remainder write_all dbg target consumed in ret tt)
    (snd (byte_outcome target n hs)) (if fst (byte_outcome target n hs) then Done tt else Panicked).
Proof.
  induction hs as [|h hs IH]; intros n Hn.
  - cbn [map byte_apply_clumps byte_outcome fst snd]. rewrite <- (app_nil_l (skipn n target)). eapply emits_bind; [apply emits_ret|].
    destruct (Nat.leb_spec n (length target)) as [L|L].
    + rewrite <- (app_nil_r (skipn _ _)). eapply emits_bind; [|apply emits_ret].
      now apply (emits_write_remainder write_all id emits_write_bytes).
    + rewrite skipn_all2 by lia. change (@Panicked unit) with (@recast Z unit Panicked). eapply emits_bind_stop; [|discriminate].
      unfold write_remainder. change (@Panicked Z) with (@recast unit Z Panicked). eapply emits_bind_stop; [|discriminate].
      unfold seq_write_into, debug_assert. destruct dbg; cbn [andb].
      * replace (negb _) with true by (unfold zlen; lia).
        change (@Panicked unit) with (@recast unit unit Panicked). eapply emits_bind_stop; [apply (emits_lift Panic)|discriminate].
      * eapply emits_lift_bind; [reflexivity|]. unfold zslice. replace ((0 <=? Z.of_nat n) && (Z.of_nat n <=? zlen target) && (zlen target <=? zlen target)) with false by (unfold zlen; lia).
        change (@Panicked unit) with (@recast (list byte) unit Panicked). eapply emits_bind_stop; [apply (emits_lift Panic)|discriminate].
  - cbn [map byte_apply_clumps byte_outcome total_bytes] in *.
    assert (AS : forall A B C (m : io A) (k : A -> io B) (l : B -> io C) w, iobind m (fun a => iobind (k a) l) w = iobind (iobind m k) l w).
    { intros A B C m k l w0. unfold iobind. destruct (m w0) as [[a| | |] w1]; reflexivity. }
    assert (STEP : forall (m : io Z) o1 n' o2 r, emits m o1 (Done (Z.of_nat n')) ->
      emits (do! consumed := byte_apply_clumps dbg target false (map byte_of_hunk hs) (Z.of_nat n') in
             do! _ := write_remainder write_all dbg target consumed in ret tt) o2 r ->
      emits (do! consumed := (do! c' := m in byte_apply_clumps dbg target false (map byte_of_hunk hs) c') in
             do! _ := write_remainder write_all dbg target consumed in ret tt) (o1 ++ o2) r).
    { intros m o1 n' o2 r E1 E2. eapply emits_ext; [intros w; apply AS|]. eapply emits_bind; [exact E1|exact E2]. }
    rewrite will_apply_matches, already_matches.
    destruct (matches_at target (h_old h) (h_b h)) eqn:M1; [|destruct (matches_at target (h_new h) (h_a h)) eqn:M2].
    + apply applies_bound in M1. specialize (IH (Nat.max n (h_b h) + length (h_old h))%nat ltac:(lia)).
      destruct (byte_outcome target (Nat.max n (h_b h) + length (h_old h)) hs) as [ok out]. cbn [fst snd] in *.
      rewrite app_assoc. eapply STEP; [|exact IH]. unfold byte_clump_apply_into. cbn [bc_side negb byte_of_hunk bc_before bc_after sn_start sn_items].
      eapply emits_bind; [apply byte_upto_max; lia|]. rewrite <- (app_nil_r (h_new h)). eapply emits_bind; [rewrite app_nil_r; apply emits_write_all|].
      unfold advance_consumed_by, zlen. rewrite uadd_ok by lia. rewrite <- Nat2Z.inj_add. apply (emits_lift (Ok _)).
    + apply already_bound in M2. specialize (IH (Nat.max n (h_a h + length (h_new h)))%nat ltac:(lia)).
      destruct (byte_outcome target (Nat.max n (h_a h + length (h_new h))) hs) as [ok out]. cbn [fst snd] in *.
      eapply STEP; [|exact IH]. unfold byte_already_applied_into. cbn [bc_side negb byte_of_hunk bc_before bc_after sn_start sn_items].
      eapply emits_lift_bind; [unfold zlen; apply uadd_ok; lia|]. rewrite <- Nat2Z.inj_add. apply byte_upto_max. lia.
    + specialize (IH n ltac:(lia)). destruct (byte_outcome target n hs) as [ok out]. cbn [fst snd] in *.
      rewrite <- (app_nil_l out). eapply STEP; [apply emits_ret|exact IH].
Qed.

Lemma total_bytes_le hs : (total_bytes hs <= fold_right (fun h n => length (h_old h) + length (h_new h) + n) 0 hs)%nat.
Proof. induction hs as [|h hs IH]; cbn [total_bytes fold_right]; lia. Qed.
Lemma total_old_le hs : (total_old hs <= fold_right (fun h n => length (h_old h) + length (h_new h) + n) 0 hs)%nat.
Proof. induction hs as [|h hs IH]; cbn [total_old fold_right]; lia. Qed.
Lemma lines_fit_swap hs : lines_fit hs -> lines_fit (map swap_hunk hs).
Proof.
  unfold lines_fit. replace (fold_right _ 0%nat (map swap_hunk hs)) with (fold_right (fun h n => length (h_old h) + length (h_new h) + n) 0 hs)%nat; auto.
  induction hs as [|h hs IH]; [reflexivity|]. cbn [map fold_right swap_hunk h_old h_new]. lia.
Qed.
Lemma bytes_fit_swap target hs : bytes_fit target hs -> bytes_fit target (map swap_hunk hs).
Proof.
  unfold bytes_fit. replace (fold_right _ 0%nat (map swap_hunk hs)) with (fold_right (fun h n => length (h_old h) + length (h_new h) + n) 0 hs)%nat; auto.
  induction hs as [|h hs IH]; [reflexivity|]. cbn [map fold_right swap_hunk h_old h_new]. lia.
Qed.
Lemma hunks_ok_swap (hs : list (hunk line)) : Forall hunk_ok hs -> Forall hunk_ok (map swap_hunk hs).
Proof. rewrite Forall_map. apply Forall_impl. intros h. apply hunk_ok_swap. Qed.

Lemma text_outcome dbg hs target : Forall hunk_ok hs -> lines_fit hs -> fits_lines target ->
  exists r out, outcome dbg target 0 0 hs r out /\
    emits (text_apply_into dbg (map text_of_hunk hs) target false) out (match r with Some l => Done (tally l) | None => Panicked end).
Proof.
  intros Hok Hf Ft. destruct (outcome_run dbg target Ft hs 0 0 stats0 Hok) as (r & out & HO & HE).
  - unfold zlen. consts. lia.
  - pose proof (total_old_le hs). unfold lines_fit, fits_lines, zlen in *. revert Hf Ft. consts. lia.
  - exists r, out. split; [assumption|]. unfold result in HE. destruct r as [l|]; [|exact HE]. rewrite tally_fold in HE.
    unfold tally in HE |- *. exact HE.
Qed.

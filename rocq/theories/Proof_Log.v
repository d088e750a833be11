(* Proof_Log.v - the messages of applying patches and of the programs (C83 - C85). *)
From Coq Require Import ZifyBool.
From Verif Require Import Base Model_Seq Model_Changes Model_IO Model_Text Model_Bytes Model_Json Model_Files Model_Log Spec Spec_Outcome Spec_Log
  Proof_Seq Proof_Lcs Proof_Changes Proof_Clumps Proof_IO Proof_Diff Proof_Arith Proof_Text Proof_Nearby Proof_Apply Proof_Fuzzy Proof_Bytes Proof_Outcome.
Local Open Scope Z_scope.

(* ---------------- leaving out the messages ---------------- *)
Lemma snd_lbind {A B} (m : lio A) (k : A -> lio B) (m' : io A) (k' : A -> io B) :
  (forall w, snd (m w) = m' w) -> (forall a w, snd (k a w) = k' a w) -> forall w, snd (lbind m k w) = iobind m' k' w.
Proof.
  intros H1 H2 w. unfold lbind, iobind. rewrite <- H1. destruct (m w) as [ev [[a| | |] w1]]; cbn [snd]; try reflexivity.
  rewrite <- H2. now destruct (k a w1).
Qed.
Lemma snd_said {A} (e : event) (k : unit -> lio A) (m : io A) : (forall w, snd (k tt w) = m w) -> forall w, snd (lbind (say e) k w) = m w.
Proof. intros H w. unfold lbind, say. rewrite <- H. now destruct (k tt w). Qed.
Lemma snd_mute {A} (m : io A) w : snd (mute m w) = m w.
Proof. reflexivity. Qed.
Ltac unlog := repeat first
  [ progress intros
  | reflexivity
  | apply snd_said
  | apply snd_lbind
  | match goal with |- context [match ?x with _ => _ end] => destruct x end ].

Lemma apply_step_unlogged dbg p r c nx num n o st w : snd (apply_step_logged dbg p r c nx num n o st w) = apply_step dbg p r c nx n o st w.
Proof. unfold apply_step_logged, apply_step. revert w. unlog. Qed.
Lemma apply_clumps_unlogged dbg p r cs : forall num n o st w, snd (apply_clumps_logged dbg p r cs num n o st w) = apply_clumps dbg p r cs n o st w.
Proof.
  induction cs as [|c cs IH]; intros num n o st w; cbn [apply_clumps_logged apply_clumps]; [reflexivity|]. revert w.
  apply snd_lbind; [intros; apply apply_step_unlogged|]. intros [[n' o'] st'] w. apply IH.
Qed.
Lemma text_apply_unlogged dbg cs p r w : snd (text_apply_logged dbg cs p r w) = text_apply_into dbg cs p r w.
Proof.
  unfold text_apply_logged, text_apply_into. revert w. apply snd_lbind; [intros; apply apply_clumps_unlogged|].
  intros [n st]. apply snd_lbind; reflexivity.
Qed.
Lemma byte_clumps_unlogged dbg p r cs : forall num n w, snd (byte_clumps_logged dbg p r cs num n w) = byte_apply_clumps dbg p r cs n w.
Proof.
  induction cs as [|c cs IH]; intros num n w; cbn [byte_clumps_logged byte_apply_clumps]; [reflexivity|]. revert w.
  apply snd_lbind; [|intros; apply IH].
  destruct (byte_will_apply c p r); [|destruct (byte_is_already_applied c p r)].
  - intros w. unfold lbind, mute, say, lret. destruct (byte_clump_apply_into dbg c p n r w) as [[x| | |] w1]; reflexivity.
  - intros w. unfold lbind, mute, say, lret. destruct (byte_already_applied_into dbg c p n r w) as [[x| | |] w1]; reflexivity.
  - reflexivity.
Qed.
Lemma byte_apply_unlogged dbg cs p r w : snd (byte_apply_logged dbg cs p r w) = byte_apply_into dbg cs p r w.
Proof.
  unfold byte_apply_logged, byte_apply_into. revert w. apply snd_lbind; [intros; apply byte_clumps_unlogged|].
  intros n. apply snd_lbind; reflexivity.
Qed.

(* ---------------- what is said about text clumps ---------------- *)
Section Reports.
  Variable dbg : bool.
  Variable target : list line.
  Hypothesis Ft : fits_lines target.

  (* the decision of [classify] with its message *)
  Definition decide (c : text_clump) (next : option text_clump) (num : nat) (n o : Z) : res (class * event) :=
    let! w := will_apply dbg c target o false in
    match w with
    | Some w => Ok (CApply (is_fuzzy w) o w, Event Library (if is_fuzzy w then Warn else Info) (AboutClump num Applies (reductions_of w) None))
    | None =>
    let! x := will_apply_nearby dbg c target n next o false in
    match x with
    | Some (d, w) => let! o' := iadd dbg o d in Ok (CApply true o' w, Event Library Warn (AboutClump num Applies (reductions_of w) (Some d)))
    | None =>
    let! w := will_apply dbg c target o true in
    match w with
    | Some w => Ok (CAlready (is_fuzzy w) o w, Event Library Warn (AboutClump num AlreadyApplied (reductions_of w) None))
    | None =>
    let! x := will_apply_nearby dbg c target n next o true in
    match x with
    | Some (d, w) => let! o' := iadd dbg o d in Ok (CAlready true o' w, Event Library Warn (AboutClump num AlreadyApplied (reductions_of w) (Some d)))
    | None => Ok (CFail, Event Library Error (AboutClump num NotApplied None None))
    end end end end.
  Lemma decide_classify c next num n o : classify dbg target c next n o = let! (k, _) := decide c next num n o in Ok k.
  Proof.
    unfold classify, decide.
    destruct (will_apply dbg c target o false) as [[q|]| |]; cbn [bind]; try reflexivity.
    destruct (will_apply_nearby dbg c target n next o false) as [[[d x]|]| |]; cbn [bind]; try reflexivity.
    - destruct (iadd dbg o d); reflexivity.
    - destruct (will_apply dbg c target o true) as [[q|]| |]; cbn [bind]; try reflexivity.
      destruct (will_apply_nearby dbg c target n next o true) as [[[d x]|]| |]; cbn [bind]; try reflexivity.
      destruct (iadd dbg o d); reflexivity.
  Qed.
  Definition said {A} (e : event) (x : ores A * writer) : list event := match fst x with Done _ => [e] | _ => [] end.
  Lemma fst_tail {A B} (m : io A) (g : A -> B) e w :
    fst (lbind (mute m) (fun a => lbind (say e) (fun _ => lret (g a))) w) = said e (iobind m (fun a => ret (g a)) w).
  Proof. unfold lbind, mute, say, lret, said, iobind, ret. destruct (m w) as [[a| | |] w1]; reflexivity. Qed.
  Lemma step_said c next num n o st w :
    fst (apply_step_logged dbg target false c next num n o st w) =
    match decide c next num n o with Ok (k, e) => said e (render dbg target c n o st k w) | _ => [] end.
  Proof.
    unfold apply_step_logged, decide, is_already_applied, is_already_applied_nearby. cbn [negb].
    unfold lbind at 1. unfold mute at 1. unfold lift at 1.
    destruct (will_apply dbg c target o false) as [[[|q]|]| |]; cbn [bind fst]; try reflexivity.
    - unfold render; cbn [is_fuzzy reductions_of]; rewrite <- (fst_tail _ (fun n' => (n', o, add_clean st))). cbn [reductions_of]. now destruct (lbind _ _ w).
    - unfold render; cbn [is_fuzzy reductions_of]; rewrite <- (fst_tail _ (fun n' => (n', o, add_fuzzy st))). cbn [reductions_of]. now destruct (lbind _ _ w).
    - unfold lbind at 1. unfold mute at 1. unfold lift at 1.
      destruct (will_apply_nearby dbg c target n next o false) as [[[d x]|]| |]; cbn [bind fst app]; try reflexivity.
      + unfold lbind at 1. unfold mute at 1. unfold lift at 1. destruct (iadd dbg o d) as [o'| |]; cbn [bind fst]; try reflexivity.
        unfold render; cbn [is_fuzzy reductions_of]; rewrite <- (fst_tail _ (fun n' => (n', o', add_fuzzy st))). now destruct (lbind _ _ w).
      + unfold lbind at 1. unfold mute at 1. unfold lift at 1.
        destruct (will_apply dbg c target o true) as [[[|q]|]| |]; cbn [bind fst app]; try reflexivity.
        * unfold render; cbn [is_fuzzy reductions_of]; rewrite <- (fst_tail _ (fun n' => (n', o, add_already st))). cbn [reductions_of]. now destruct (lbind _ _ w).
        * unfold render; cbn [is_fuzzy reductions_of]; rewrite <- (fst_tail _ (fun n' => (n', o, add_already_fuzzy st))). cbn [reductions_of]. now destruct (lbind _ _ w).
        * unfold lbind at 1. unfold mute at 1. unfold lift at 1.
          destruct (will_apply_nearby dbg c target n next o true) as [[[d x]|]| |]; cbn [bind fst app]; try reflexivity.
          -- unfold lbind at 1. unfold mute at 1. unfold lift at 1. destruct (iadd dbg o d) as [o'| |]; cbn [bind fst]; try reflexivity.
             unfold render; cbn [is_fuzzy reductions_of]; rewrite <- (fst_tail _ (fun n' => (n', o', add_already_fuzzy st))). now destruct (lbind _ _ w).
          -- unfold render; cbn [is_fuzzy reductions_of]; rewrite <- (fst_tail _ (fun _ => (n, o, add_failed st))). now destruct (lbind _ _ w).
  Qed.

  Definition class_fate (k : class) : fate :=
    match k with CApply f o' w => Placed f o' w | CAlready f o' w => Seen f o' w | CFail => Rejected end.
  Lemma displaced_same o : displaced o o = None.
  Proof. unfold displaced. now rewrite Z.eqb_refl. Qed.
  Lemma displaced_by o d : d <> 0 -> displaced o (o + d) = Some d.
  Proof. intros H. unfold displaced. replace (o + d =? o) with false by lia. f_equal. lia. Qed.
  Lemma left_out_reductions h pos w : decision h target pos (Some w) -> reductions_of w = left_out w.
  Proof. apply reductions_cut. Qed.
  Lemma decide_report h next num n o k e : hunk_ok h -> next_ok next -> - two61 <= o <= zlen target -> Z.of_nat n < two61 ->
    decide (text_of_hunk h) (option_map text_of_hunk next) num (Z.of_nat n) o = Ok (k, e) -> e = report num o (class_fate k).
  Proof.
    intros Hok Hx Ho Hn. pose proof (target_bound target Ft) as Bt. assert (Bt2 : zlen target < two61 - 255).
    { revert Ft. unfold fits_lines. consts. lia. }
    unfold decide.
    destruct (will_apply_spec dbg h Hok target o) as (x & E & D); [consts; lia..|]. rewrite E. cbn [bind]. clear E.
    destruct x as [w|].
    { intros E. injection E as <- <-. cbn [class_fate report]. rewrite displaced_same, (left_out_reductions _ _ _ D). destruct w; reflexivity. }
    destruct (nearby_cases dbg target Ft h (Z.of_nat n) next o Hok Hx) as [(x & E & N1)|(_ & _ & E)]; try lia; rewrite E; cbn [bind]; clear E; [|discriminate].
    destruct x as [[d w]|].
    { inversion N1 as [? ? W1 W2 W3|]; subst. assert (d <> 0).
      { intros ->. rewrite Z.add_0_r in W2. pose proof (decision_unique _ _ _ _ _ D W2). discriminate. }
      assert (B : - two61 <= o + d <= zlen target) by (eapply (decision_shift target h _ w Hok); rewrite Z.add_assoc; exact W2).
      rewrite iadd_ok by (consts; lia). cbn [bind]. intros E. injection E as <- <-. cbn [class_fate report].
      now rewrite displaced_by, (left_out_reductions _ _ _ W2). }
    destruct (will_apply_rev dbg target h o Hok) as (x & E & D2); [consts; lia|]. rewrite E. cbn [bind]. clear E.
    destruct x as [w|].
    { intros E. injection E as <- <-. cbn [class_fate report]. rewrite displaced_same, (left_out_reductions _ _ _ D2). reflexivity. }
    destruct (nearby_cases_rev dbg target Ft h (Z.of_nat n) next o Hok Hx) as [(x & E & N2)|(_ & _ & E)]; try lia; rewrite E; cbn [bind]; clear E; [|discriminate].
    destruct x as [[d w]|].
    { inversion N2 as [? ? W1 W2 W3|]; subst. assert (d <> 0).
      { intros ->. rewrite Z.add_0_r in W2. pose proof (decision_unique _ _ _ _ _ D2 W2). discriminate. }
      assert (B : - two61 <= o + d <= zlen target) by (eapply (decision_shift target (swap_hunk h) _ w (hunk_ok_swap _ Hok)); rewrite Z.add_assoc; exact W2).
      rewrite iadd_ok by (consts; lia). cbn [bind]. intros E. injection E as <- <-. cbn [class_fate report].
      now rewrite displaced_by, (left_out_reductions _ _ _ W2). }
    intros E. injection E as <- <-. reflexivity.
  Qed.

  Lemma emits_done {A} (m : io A) out r w a w' : emits m out r -> m w = (Done a, w') -> r = Done a.
  Proof. intros [_ H] E. rewrite H in E. unfold run_emit in E. destruct (w_room w) as [n|]; [destruct (length out <=? n)%nat|]; congruence. Qed.

  Lemma reports_run hs : forall n o st num w, Forall hunk_ok hs -> - two61 <= o <= zlen target ->
    Z.of_nat (Nat.max n (length target) + total_old hs) < two61 ->
    exists l, fates dbg target n o hs l /\
      fst (apply_clumps_logged dbg target false (map text_of_hunk hs) num (Z.of_nat n) o st w) = reports num o l /\
      forall n' st' w', snd (apply_clumps_logged dbg target false (map text_of_hunk hs) num (Z.of_nat n) o st w) = (Done (n', st'), w') ->
        length l = length hs /\ st' = fold_left add_fate l st.
  Proof.
    induction hs as [|h hs IH]; intros n o st num w Hok Ho Hn.
    - exists []. split; [constructor|]. split; [reflexivity|]. cbn. intros n' st' w' E. injection E as <- <- <-. auto.
    - inversion Hok as [|? ? O1 O2]; subst. cbn [total_old] in Hn. pose proof (hd_next_ok _ O2) as Hnx. cbn [map apply_clumps_logged].
      unfold lbind. rewrite hd_error_map.
      pose proof (step_said (text_of_hunk h) (option_map text_of_hunk (hd_error hs)) (S num) (Z.of_nat n) o st w) as Hev.
      pose proof (apply_step_unlogged dbg target false (text_of_hunk h) (option_map text_of_hunk (hd_error hs)) (S num) (Z.of_nat n) o st w) as Hs.
      rewrite apply_step_classify, (decide_classify _ _ (S num)) in Hs.
      destruct (apply_step_logged _ _ _ _ _ _ _ _ _ w) as [ev [r w1]]. cbn [fst snd] in Hev, Hs.
      assert (STOP : (forall x, r <> Done x) -> ev = [] -> exists l, fates dbg target n o (h :: hs) l /\
        fst (match r with Done a => let (ev', x) := (let '(consumed', offset', stats') := a in apply_clumps_logged dbg target false (map text_of_hunk hs) (S num) consumed' offset' stats') w1 in (ev ++ ev', x)
             | IoErr => (ev, (@IoErr (Z * statistics), w1)) | Panicked => (ev, (Panicked, w1)) | NoFuel => (ev, (NoFuel, w1)) end) = reports num o l /\
        forall n' st' w', snd (match r with Done a => let (ev', x) := (let '(consumed', offset', stats') := a in apply_clumps_logged dbg target false (map text_of_hunk hs) (S num) consumed' offset' stats') w1 in (ev ++ ev', x)
             | IoErr => (ev, (@IoErr (Z * statistics), w1)) | Panicked => (ev, (Panicked, w1)) | NoFuel => (ev, (NoFuel, w1)) end) = (Done (n', st'), w') -> length l = length (h :: hs) /\ st' = fold_left add_fate l st).
      { intros Hr ->. exists []. split; [constructor|]. destruct r as [x| | |]; [now elim (Hr x)|..]; (split; [reflexivity|discriminate]). }
      destruct (classify_fate dbg target Ft h (hd_error hs) n o O1 Hnx Ho ltac:(lia)) as [(k & Ek & Hf)|(Hf & Ek)]; rewrite (decide_classify _ _ (S num)) in Ek;
        destruct (decide (text_of_hunk h) (option_map text_of_hunk (hd_error hs)) (S num) (Z.of_nat n) o) as [[k' e]| |] eqn:Ed; cbn [bind] in Ek; try discriminate.
      2:{ apply STOP; [|exact Hev]. unfold iobind, lift in Hs. cbn [bind] in Hs. congruence. }
      injection Ek as ->. pose proof (decide_report h (hd_error hs) (S num) n o k e O1 Hnx Ho ltac:(lia) Ed) as He.
      unfold iobind, lift in Hs. cbn [bind] in Hs. unfold said in Hev. rewrite <- Hs in Hev. cbn [fst] in Hev.
      destruct r as [[[n1 o1] st1]| | |]; try (apply STOP; [discriminate|exact Hev]). clear STOP. subst ev. symmetry in Hs.
      assert (STEP : forall n', Done (n1, o1, st1) = Done (Z.of_nat n', o1, add_fate st (class_fate k)) ->
        (match class_fate k with Placed _ s _ | Seen _ s _ => s | _ => o end) = o1 ->
        (forall l, fates dbg target n' o1 hs l -> fates dbg target n o (h :: hs) (class_fate k :: l)) ->
        - two61 <= o1 <= zlen target -> Z.of_nat (Nat.max n' (length target) + total_old hs) < two61 ->
        exists l, fates dbg target n o (h :: hs) l /\
        fst (let (ev', x) := apply_clumps_logged dbg target false (map text_of_hunk hs) (S num) n1 o1 st1 w1 in ([e] ++ ev', x)) = reports num o l /\
        forall n'0 st' w', snd (let (ev', x) := apply_clumps_logged dbg target false (map text_of_hunk hs) (S num) n1 o1 st1 w1 in ([e] ++ ev', x)) = (Done (n'0, st'), w') ->
          length l = length (h :: hs) /\ st' = fold_left add_fate l st).
      { intros n' E Es Hfs B1 B2. injection E as -> ->. destruct (IH n' o1 (add_fate st (class_fate k)) (S num) w1 O2 B1 B2) as (l & L1 & L2 & L3).
        exists (class_fate k :: l). split; [auto|].
        destruct (apply_clumps_logged dbg target false (map text_of_hunk hs) (S num) (Z.of_nat n') o1 (add_fate st (class_fate k)) w1) as [ev' x]. cbn [fst snd] in *.
        split; [cbn [app reports]; rewrite Es, L2, He; reflexivity|]. intros n2 st2 w2 E. destruct (L3 _ _ _ E) as [Q1 Q2]. cbn [length fold_left]. rewrite Q1, Q2. split; reflexivity. }
      destruct k as [f o' x|f o' x|]; cbn [class_fate] in *.
      + pose proof (fate_placed dbg target _ _ _ _ _ _ _ Hf) as D. destruct (decision_kept target _ _ _ O1 D) as (K1 & K2 & K3 & K4).
        destruct (emits_placed dbg target Ft h n o' x O1 D ltac:(lia)) as [P1 P2].
        assert (Hw : writable h x \/ ~ writable h x).
        { unfold writable. destruct x as [|q]; [auto|]. destruct (Nat.le_gt_cases (h_a h) (cut_trail (WithReductions q))); [auto|right]. intros [HH|HH]; [discriminate|lia]. }
        destruct Hw as [Hw|Hw].
        * assert (ER : emits (render dbg target (text_of_hunk h) (Z.of_nat n) o st (CApply f o' x)) (concat (sub target n (kept_from (h_b h) o' x)) ++ concat (written h x))
            (Done (Z.of_nat (Nat.max n (kept_from (h_b h) o' x) + kept_count (h_old h) x), o', add_fate st (Placed f o' x)))).
          { unfold render. rewrite <- (app_nil_r (_ ++ _)). eapply emits_bind; [now apply P1|]. cbn [add_fate]. destruct f; apply emits_ret. }
          pose proof (emits_done _ _ _ _ _ _ ER Hs) as Q. injection Q as <- <- <-.
          eapply STEP; [reflexivity|reflexivity|intros; now apply fates_placed|now apply (decision_shift target h o' x)|].
          unfold kept_count, kept_from, zlen in *. lia.
        * exfalso. assert (ER : emits (render dbg target (text_of_hunk h) (Z.of_nat n) o st (CApply f o' x)) (concat (sub target n (kept_from (h_b h) o' x))) Panicked).
          { unfold render. change (@Panicked (Z * Z * statistics)) with (@recast Z (Z * Z * statistics) Panicked). eapply emits_bind_stop; [now apply P2|discriminate]. }
          pose proof (emits_done _ _ _ _ _ _ ER Hs). discriminate.
      + pose proof (fate_seen_at dbg target _ _ _ _ _ _ _ Hf) as D. destruct (decision_kept target _ _ _ (hunk_ok_swap _ O1) D) as (K1 & K2 & K3 & K4).
        cbn [swap_hunk h_old] in K4.
        assert (ER : emits (render dbg target (text_of_hunk h) (Z.of_nat n) o st (CAlready f o' x)) (concat (sub target n (kept_from (h_a h) o' x + kept_count (h_new h) x)))
          (Done (Z.of_nat (Nat.max n (kept_from (h_a h) o' x + kept_count (h_new h) x)), o', add_fate st (Seen f o' x)))).
        { unfold render. rewrite <- (app_nil_r (concat _)). eapply emits_bind; [now apply emits_seen|]. cbn [add_fate]. destruct f; apply emits_ret. }
        pose proof (emits_done _ _ _ _ _ _ ER Hs) as Q. injection Q as <- <- <-.
        eapply STEP; [reflexivity|reflexivity|intros; now apply fates_seen|now apply (decision_shift target (swap_hunk h) o' x (hunk_ok_swap _ O1))|].
        unfold kept_count, kept_from, zlen in *. lia.
      + pose proof (emits_done _ _ _ _ _ _ (render_fail dbg target h (Z.of_nat n) o st) Hs) as Q. injection Q as <- <- <-.
        eapply STEP; [reflexivity|reflexivity|intros; now apply fates_rejected|assumption|lia].
  Qed.

  Lemma text_reports hs w : Forall hunk_ok hs -> lines_fit hs ->
    exists l, fates dbg target 0 0 hs l /\ fst (text_apply_logged dbg (map text_of_hunk hs) target false w) = reports 0 0 l /\
      forall st w', text_apply_into dbg (map text_of_hunk hs) target false w = (Done st, w') -> length l = length hs /\ st = tally l.
  Proof.
    intros Hok Hf. destruct (reports_run hs 0 0 stats0 0 w Hok) as (l & L1 & L2 & L3).
    - unfold zlen. consts. lia.
    - pose proof (total_old_le hs). unfold lines_fit, fits_lines, zlen in *. revert Hf Ft. consts. lia.
    - exists l. split; [assumption|]. unfold text_apply_logged, text_apply_into, lbind, iobind, mute.
      rewrite <- (apply_clumps_unlogged dbg target false _ 0).
      destruct (apply_clumps_logged dbg target false (map text_of_hunk hs) 0 0 0 stats0 w) as [ev [[[n st]| | |] w1]] eqn:E;
        change (Z.of_nat 0) with 0 in *; rewrite E in L2, L3; cbn [fst snd] in *;
        try (split; [exact L2|discriminate]).
      destruct (L3 _ _ _ eq_refl) as [Q1 Q2]. rewrite tally_fold in Q2.
      destruct (write_remainder write_lines dbg target n w1) as [[x| | |] w2]; cbn [fst snd lret mute ret]; rewrite ?app_nil_r;
        (split; [exact L2|]); try discriminate.
      intros st' w' Q. injection Q as <- _. split; [exact Q1|]. rewrite Q2. reflexivity.
  Qed.
End Reports.

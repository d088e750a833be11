(* Proof_LogMain.v - messages: reverse application, byte clumps, queries and the programs (C83 - C85). *)
From Coq Require Import ZifyBool.
From Verif Require Import Base Model_Seq Model_Changes Model_IO Model_Text Model_Bytes Model_Json Model_Files Model_Log Spec Spec_Outcome Spec_Log Spec_Files
  Proof_Seq Proof_Lcs Proof_Changes Proof_Clumps Proof_IO Proof_Diff Proof_Arith Proof_Text Proof_Nearby Proof_Apply Proof_Fuzzy Proof_Bytes Proof_Outcome Proof_Log.
From Verif Require Proof_Files.
Local Open Scope Z_scope.

(* ---------------- reverse is swap ---------------- *)
Lemma lbind_ext {A B} (m m' : lio A) (k k' : A -> lio B) :
  (forall w, m w = m' w) -> (forall a w, k a w = k' a w) -> forall w, lbind m k w = lbind m' k' w.
Proof. intros H1 H2 w. unfold lbind. rewrite H1. destruct (m' w) as [ev [[a| | |] w1]]; try reflexivity. now rewrite H2. Qed.
Lemma apply_step_logged_swap dbg p r c nx num n o st w :
  apply_step_logged dbg p r (swap_clump c) (option_map swap_clump nx) num n o st w = apply_step_logged dbg p (negb r) c nx num n o st w.
Proof.
  unfold apply_step_logged. rewrite will_apply_swap. apply lbind_ext; [reflexivity|]. clear w. intros [[|q]|] w.
  - now rewrite clump_apply_into_swap.
  - now rewrite clump_apply_into_swap.
  - rewrite will_apply_nearby_swap. revert w. apply lbind_ext; [reflexivity|]. intros [[d x]|] w.
    + revert w. apply lbind_ext; [reflexivity|]. intros o' w. now rewrite clump_apply_into_swap.
    + unfold is_already_applied. rewrite will_apply_swap. revert w. apply lbind_ext; [reflexivity|]. intros [[|q]|] w.
      * now rewrite already_applied_into_swap.
      * now rewrite already_applied_into_swap.
      * unfold is_already_applied_nearby. rewrite will_apply_nearby_swap. revert w. apply lbind_ext; [reflexivity|]. intros [[d x]|] w.
        -- revert w. apply lbind_ext; [reflexivity|]. intros o' w. now rewrite already_applied_into_swap.
        -- now rewrite write_failure_data_into_swap.
Qed.
Lemma apply_clumps_logged_swap dbg p r cs : forall num n o st w,
  apply_clumps_logged dbg p r (map swap_clump cs) num n o st w = apply_clumps_logged dbg p (negb r) cs num n o st w.
Proof.
  induction cs as [|c cs IH]; intros num n o st w; cbn [map apply_clumps_logged]; [reflexivity|].
  revert w. apply lbind_ext.
  - intros w. rewrite hd_error_map. apply apply_step_logged_swap.
  - intros [[n' o'] st'] w. apply IH.
Qed.
Lemma text_apply_logged_swap dbg p r cs w : text_apply_logged dbg (map swap_clump cs) p r w = text_apply_logged dbg cs p (negb r) w.
Proof. unfold text_apply_logged. revert w. apply lbind_ext; [|reflexivity]. intros w. apply apply_clumps_logged_swap. Qed.
Lemma byte_apply_logged_swap dbg p r cs w : byte_apply_logged dbg (map swap_bclump cs) p r w = byte_apply_logged dbg cs p (negb r) w.
Proof.
  unfold byte_apply_logged. revert w. apply lbind_ext; [|reflexivity]. generalize 0%nat as num, 0 as n.
  induction cs as [|c cs IH]; intros num n w; cbn [map byte_clumps_logged]; [reflexivity|]. revert w.
  apply lbind_ext; [|intros; apply IH]. intros w.
  unfold byte_will_apply, byte_is_already_applied, byte_clump_apply_into, byte_already_applied_into.
  rewrite !bc_side_swap. reflexivity.
Qed.

(* ---------------- byte clumps ---------------- *)
Lemma byte_clumps_said dbg target hs : forall num n w,
  let x := byte_clumps_logged dbg target false (map byte_of_hunk hs) num n w in
  exists k, fst x = firstn k (byte_reports target num hs) /\ (forall n' w', snd x = (Done n', w') -> fst x = byte_reports target num hs).
Proof.
  induction hs as [|h hs IH]; intros num n w x.
  - exists 0%nat. split; [reflexivity|]. reflexivity.
  - subst x. cbn [map byte_clumps_logged]. rewrite will_apply_matches, already_matches.
    assert (STEP : forall (m : lio Z), (forall w, fst (m w) = match fst (snd (m w)) with Done _ => [byte_report target (S num) h] | _ => [] end) ->
      exists k, fst (lbind m (fun c => byte_clumps_logged dbg target false (map byte_of_hunk hs) (S num) c) w) = firstn k (byte_reports target num (h :: hs)) /\
        forall n' w', snd (lbind m (fun c => byte_clumps_logged dbg target false (map byte_of_hunk hs) (S num) c) w) = (Done n', w') ->
          fst (lbind m (fun c => byte_clumps_logged dbg target false (map byte_of_hunk hs) (S num) c) w) = byte_reports target num (h :: hs)).
    { intros m Hm. specialize (Hm w). unfold lbind. destruct (m w) as [ev [[n1| | |] w1]]; cbn [fst snd] in *; subst ev;
        try (exists 0%nat; split; [reflexivity|discriminate]).
      destruct (IH (S num) n1 w1) as (k & K1 & K2). destruct (byte_clumps_logged dbg target false (map byte_of_hunk hs) (S num) n1 w1) as [ev x].
      cbn [fst snd] in *. exists (S k). cbn [byte_reports firstn app]. split; [now rewrite K1|]. intros n' w' E. now rewrite (K2 _ _ E). }
    apply STEP. clear STEP w. intros w. unfold byte_report.
    destruct (matches_at target (h_old h) (h_b h)); [|destruct (matches_at target (h_new h) (h_a h))].
    + unfold lbind, mute, say, lret. destruct (byte_clump_apply_into dbg (byte_of_hunk h) target n false w) as [[x| | |] w1]; reflexivity.
    + unfold lbind, mute, say, lret. destruct (byte_already_applied_into dbg (byte_of_hunk h) target n false w) as [[x| | |] w1]; reflexivity.
    + reflexivity.
Qed.
Lemma byte_said dbg target hs w :
  exists k, fst (byte_apply_logged dbg (map byte_of_hunk hs) target false w) = firstn k (byte_reports target 0 hs) /\
    (forall u w', byte_apply_into dbg (map byte_of_hunk hs) target false w = (Done u, w') ->
       fst (byte_apply_logged dbg (map byte_of_hunk hs) target false w) = byte_reports target 0 hs).
Proof.
  destruct (byte_clumps_said dbg target hs 0 0 w) as (k & K1 & K2). exists k. rewrite <- byte_apply_unlogged. unfold byte_apply_logged, lbind, mute.
  destruct (byte_clumps_logged dbg target false (map byte_of_hunk hs) 0 0 w) as [ev [[n| | |] w1]]; cbn [fst snd] in *; try (split; [exact K1|discriminate]).
  destruct (write_remainder write_all dbg target n w1) as [[x| | |] w2]; cbn [fst snd lret mute ret]; rewrite ?app_nil_r; (split; [exact K1|]); try discriminate.
  intros u w' _. eapply K2. reflexivity.
Qed.

(* ---------------- the queries ---------------- *)
Lemma text_query_said dbg cs p r : forall num o,
  snd (text_query_logged dbg cs p r num o) = text_already_applied_loop dbg cs p r o /\
  match text_already_applied_loop dbg cs p r o with
  | Ok true => length (fst (text_query_logged dbg cs p r num o)) = length cs /\
      forall i e, nth_error (fst (text_query_logged dbg cs p r num o)) i = Some e ->
        exists lv x y, e = Event Library lv (AboutClump (S (num + i)) AlreadyApplied x y) /\ lv <> Error
  | Ok false => exists ev, fst (text_query_logged dbg cs p r num o) = ev ++ [Event Library Error (AboutClump (S (num + length ev)) NotAlreadyApplied None None)] /\
      (length ev < length cs)%nat /\
      forall i e, nth_error ev i = Some e -> exists lv x y, e = Event Library lv (AboutClump (S (num + i)) AlreadyApplied x y) /\ lv <> Error
  | _ => True
  end.
Proof.
  induction cs as [|c cs IH]; intros num o; cbn [text_query_logged text_already_applied_loop].
  - split; [reflexivity|]. split; [reflexivity|]. intros [|i] e; discriminate.
  - assert (STEP : forall o' lv x y, lv <> Error ->
      let q := (let (ev, rr) := text_query_logged dbg cs p r (S num) o' in (Event Library lv (AboutClump (S num) AlreadyApplied x y) :: ev, rr)) in
      snd q = text_already_applied_loop dbg cs p r o' /\
      match text_already_applied_loop dbg cs p r o' with
      | Ok true => length (fst q) = S (length cs) /\
          forall i e, nth_error (fst q) i = Some e ->
            exists lv x y, e = Event Library lv (AboutClump (S (num + i)) AlreadyApplied x y) /\ lv <> Error
      | Ok false => exists ev, fst q = ev ++ [Event Library Error (AboutClump (S (num + length ev)) NotAlreadyApplied None None)] /\
          (length ev < S (length cs))%nat /\
          forall i e, nth_error ev i = Some e -> exists lv x y, e = Event Library lv (AboutClump (S (num + i)) AlreadyApplied x y) /\ lv <> Error
      | _ => True
      end).
    { intros o' lv x y Hl. destruct (IH (S num) o') as [H1 H2]. destruct (text_query_logged dbg cs p r (S num) o') as [ev rr]. cbn [fst snd] in *.
      split; [exact H1|]. destruct (text_already_applied_loop dbg cs p r o') as [[]| |]; auto.
      - destruct H2 as [H2 H3]. split; [cbn; lia|]. intros [|i] e E; cbn in E.
        + injection E as <-. rewrite Nat.add_0_r. eauto.
        + apply H3 in E as (lv' & x' & y' & -> & Hl'). replace (num + S i)%nat with (S num + i)%nat by lia. eauto.
      - destruct H2 as (ev' & -> & H2 & H3). eexists (_ :: ev'). split; [cbn [app length]; now replace (num + S (length ev'))%nat with (S num + length ev')%nat by lia|].
        split; [cbn; lia|]. intros [|i] e E; cbn in E.
        + injection E as <-. rewrite Nat.add_0_r. eauto.
        + apply H3 in E as (lv' & x' & y' & -> & Hl'). replace (num + S i)%nat with (S num + i)%nat by lia. eauto. }
    destruct (is_already_applied dbg c p o r) as [[w|]| |]; cbn [bind]; [| |split; auto..].
    + apply STEP. destruct w; discriminate.
    + destruct (is_already_applied_nearby dbg c p 0 (hd_error cs) o r) as [[[d w]|]| |]; cbn [bind]; [| |split; auto..].
      * destruct (iadd dbg o d) as [o'| |]; cbn [bind]; [|split; auto..]. apply STEP. discriminate.
      * split; [reflexivity|]. exists []. cbn [app length]. rewrite Nat.add_0_r. split; [reflexivity|]. split; [cbn; lia|]. intros [|i] e; discriminate.
Qed.
(* the exact messages of the query *)
Lemma all_reported_run dbg target hs : fits_lines target -> forall num o, Forall hunk_ok hs -> - two61 <= o <= zlen target ->
  exists ev r, all_reported dbg target num o hs ev r /\
    text_query_logged dbg (map text_of_hunk hs) target false num o = (ev, match r with Some b => Ok b | None => Panic end).
Proof.
  intros Ft. induction hs as [|h hs IH]; intros num o Hok Ho; [exists [], (Some true); split; [constructor|reflexivity]|].
  inversion Hok as [|? ? O1 O2]; subst. pose proof (hd_next_ok _ O2) as Hnx.
  pose proof (target_bound target Ft) as Bt. assert (Bt2 : zlen target < two61 - 255).
  { revert Ft. unfold fits_lines. consts. lia. }
  cbn [map text_query_logged]. unfold is_already_applied, is_already_applied_nearby. cbn [negb].
  destruct (will_apply_rev dbg target h o O1) as (x & E & D2); [consts; lia|]. rewrite E. clear E.
  destruct x as [w|].
  { destruct (IH (S num) o O2 Ho) as (ev & r & HA & HE). rewrite HE. eexists _, r. split; [|reflexivity].
    rewrite (left_out_reductions target _ _ _ D2).
    replace (match w with Cleanly => Info | WithReductions _ => Warn end) with (if reduced w then Warn else Info) by (now destruct w).
    eapply reported_here; eassumption. }
  rewrite hd_error_map.
  destruct (nearby_cases_rev dbg target Ft h 0 (hd_error hs) o O1 Hnx) as [(x & E & N)|(Hd & Hl & E)]; try (consts; lia).
  - assert (S : searchable dbg target o (swap_hunk h) (option_map swap_hunk (hd_error hs))).
    { intros Hd U. assert (E' : will_apply_nearby dbg (text_of_hunk h) target 0 (option_map text_of_hunk (hd_error hs)) o true = Panic).
      { replace true with (negb false) by reflexivity. rewrite <- will_apply_nearby_swap, swap_clump_hunk.
        replace (option_map swap_clump (option_map text_of_hunk (hd_error hs))) with (option_map text_of_hunk (option_map swap_hunk (hd_error hs))) by (destruct (hd_error hs); reflexivity).
        unfold will_apply_nearby. destruct U as [U1 U2]. rewrite nearby_not_after_panic; auto; try (consts; lia).
        - now apply hunk_ok_swap.
        - now apply next_ok_swap. }
      congruence. }
    rewrite E. destruct x as [[d w]|].
    + inversion N as [? ? W1 W2 W3|]; subst. pose proof (left_out_reductions target _ _ _ W2) as LO. rewrite <- Z.add_assoc in W2.
      pose proof (decision_shift target (swap_hunk h) _ w (hunk_ok_swap _ O1) W2) as B.
      rewrite iadd_ok by (consts; lia). destruct (IH (Datatypes.S num) (o + d) O2 B) as (ev & r & HA & HE). rewrite HE.
      eexists _, r. split; [|reflexivity]. rewrite LO. eapply reported_near; eassumption.
    + eexists _, (Some false). split; [|reflexivity]. now apply reported_not.
  - rewrite E. eexists _, None. split; [|reflexivity]. apply reported_underflow; [assumption|]. intros S.
    apply Hl, limit_ok_iff. auto.
Qed.
Lemma all_reported_unique dbg target num o hs ev r : all_reported dbg target num o hs ev r -> forall ev' r', all_reported dbg target num o hs ev' r' -> ev' = ev /\ r' = r.
Proof.
  induction 1 as [num o|num o h hs w ev r D H IH|num o h hs d w ev r D S N H IH|num o h hs D S N|num o h hs D S]; intros ev' r' H';
    inversion H' as [|? ? ? ? w' ? ? D' H2|? ? ? ? d' w' ? ? D' S' N' H2|? ? ? ? D' S' N'|? ? ? ? D' S']; subst; auto;
    try pose proof (decision_unique _ _ _ _ _ D D') as EQ1; try discriminate; try contradiction;
    try (injection EQ1 as <-); try (pose proof (nearest_unique _ _ _ _ _ _ _ N N') as EQ; first [discriminate EQ | injection EQ as <- <-]);
    try (destruct (IH _ _ H2) as [-> ->]); auto.
Qed.
Lemma text_query_logged_swap dbg p r cs : forall num o, text_query_logged dbg (map swap_clump cs) p r num o = text_query_logged dbg cs p (negb r) num o.
Proof.
  induction cs as [|c cs IH]; intros num o; cbn [map text_query_logged]; [reflexivity|].
  unfold is_already_applied. rewrite will_apply_swap. destruct (will_apply dbg c p o (negb (negb r))) as [[w|]| |]; try reflexivity; [now rewrite IH|].
  rewrite hd_error_map. unfold is_already_applied_nearby. rewrite will_apply_nearby_swap.
  destruct (will_apply_nearby dbg c p 0 (hd_error cs) o (negb (negb r))) as [[[d w]|]| |]; try reflexivity.
  destruct (iadd dbg o d); try reflexivity. now rewrite IH.
Qed.
Lemma byte_query_said cs p r : forall num,
  snd (byte_query_logged cs p r num) = byte_already_applied cs p r /\
  if byte_already_applied cs p r then fst (byte_query_logged cs p r num) = map (fun i => Event Library Info (AboutClump i AlreadyApplied None None)) (seq (S num) (length cs))
  else exists k, (k < length cs)%nat /\ fst (byte_query_logged cs p r num) =
    map (fun i => Event Library Info (AboutClump i AlreadyApplied None None)) (seq (S num) k) ++ [Event Library Error (AboutClump (S (num + k)) NotAlreadyApplied None None)].
Proof.
  unfold byte_already_applied. induction cs as [|c cs IH]; intros num; cbn [byte_query_logged forallb]; [split; reflexivity|].
  destruct (byte_is_already_applied c p r); cbn [andb].
  - destruct (IH (S num)) as [H1 H2]. destruct (byte_query_logged cs p r (S num)) as [ev rr]. cbn [fst snd] in *. split; [exact H1|].
    destruct (forallb _ cs); [cbn [length seq map]; now rewrite H2|]. destruct H2 as (k & K1 & ->). exists (S k). split; [cbn; lia|].
    cbn [seq map app]. now replace (num + S k)%nat with (S num + k)%nat by lia.
  - split; [reflexivity|]. exists 0%nat. split; [cbn; lia|]. cbn [seq map app]. now rewrite Nat.add_0_r.
Qed.

(* ---------------- counting failures, whatever the clumps ---------------- *)
Definition errors (ev : list event) : nat := length (filter is_error ev).
Lemma errors_app a b : errors (a ++ b) = (errors a + errors b)%nat.
Proof. unfold errors. now rewrite filter_app, app_length. Qed.
Definition counted (st : statistics) (m : lio (Z * Z * statistics)) : Prop := forall w ev n' o' st' w',
  m w = (ev, (Done (n', o', st'), w')) -> st_failed st' = (st_failed st + errors ev)%nat.
Lemma counted_mute {A} st (m : io A) k : (forall a, counted st (k a)) -> counted st (lbind (mute m) k).
Proof.
  intros H w ev n' o' st' w'. unfold lbind, mute. destruct (m w) as [[a| | |] w1]; try discriminate.
  destruct (k a w1) as [ev1 x] eqn:E. intros Q. injection Q as <- ->. exact (H _ _ _ _ _ _ _ E).
Qed.
Lemma counted_said st e n o st1 : st_failed st1 = (st_failed st + errors [e])%nat -> counted st (lbind (say e) (fun _ => lret (n, o, st1))).
Proof. intros H w ev n' o' st' w' Q. cbv [lbind say lret mute ret app] in Q. injection Q as <- <- <- <- <-. exact H. Qed.
Lemma step_counts dbg p r c nx num n o st : counted st (apply_step_logged dbg p r c nx num n o st).
Proof.
  unfold apply_step_logged. repeat first
    [ apply counted_mute; intros ?
    | apply counted_said; cbn; lia
    | match goal with |- counted _ (match ?x with _ => _ end) => destruct x end ].
Qed.
Lemma clumps_count dbg p r cs : forall num n o st w ev n' st' w',
  apply_clumps_logged dbg p r cs num n o st w = (ev, (Done (n', st'), w')) -> st_failed st' = (st_failed st + errors ev)%nat.
Proof.
  induction cs as [|c cs IH]; intros num n o st w ev n' st' w'; cbn [apply_clumps_logged].
  - intros H. unfold lret, mute, ret in H. injection H as <- <- <- <-. cbn. lia.
  - unfold lbind. destruct (apply_step_logged dbg p r c (hd_error cs) (S num) n o st w) as [ev1 [[[[n1 o1] st1]| | |] w1]] eqn:E1; try discriminate.
    destruct (apply_clumps_logged dbg p r cs (S num) n1 o1 st1 w1) as [ev2 x] eqn:E2. intros H. injection H as <- ->.
    apply (step_counts dbg p r c (hd_error cs) (S num) n o st) in E1. apply IH in E2. rewrite errors_app. lia.
Qed.
Lemma text_counts dbg cs p r w ev st w' : text_apply_logged dbg cs p r w = (ev, (Done st, w')) -> st_failed st = errors ev.
Proof.
  unfold text_apply_logged, lbind, mute, lret, ret. destruct (apply_clumps_logged dbg p r cs 0 0 0 stats0 w) as [ev1 [[[n st1]| | |] w1]] eqn:E1; try discriminate.
  destruct (write_remainder write_lines dbg p n w1) as [[x| | |] w2]; try discriminate. intros H. injection H as <- <- <-.
  apply clumps_count in E1. rewrite !app_nil_r. exact E1.
Qed.

(* ---------------- messages of the library are not those of the program ---------------- *)
Definition of_library (e : event) : Prop := ev_source e = Library.
Definition library_only {A} (m : lio A) : Prop := forall w, Forall of_library (fst (m w)).
Lemma library_mute {A} (m : io A) : library_only (mute m).
Proof. intros w. constructor. Qed.
Lemma library_say lv m : library_only (say (Event Library lv m)).
Proof. intros w. repeat constructor. Qed.
Lemma library_lbind {A B} (m : lio A) (k : A -> lio B) : library_only m -> (forall a, library_only (k a)) -> library_only (lbind m k).
Proof.
  intros H1 H2 w. specialize (H1 w). unfold lbind. destruct (m w) as [ev [[a| | |] w1]]; try exact H1.
  specialize (H2 a w1). destruct (k a w1) as [ev' x]. apply Forall_app. auto.
Qed.
Lemma library_lret {A} (a : A) : library_only (lret a).
Proof. apply library_mute. Qed.
Ltac library := repeat first
  [ apply library_lret | apply library_mute | apply library_say | apply library_lbind; [|intros ?]
  | match goal with |- library_only (match ?x with _ => _ end) => destruct x end ].
Lemma library_text dbg cs p r : library_only (text_apply_logged dbg cs p r).
Proof.
  unfold text_apply_logged. apply library_lbind; [|intros [n st]; library].
  assert (G : forall num n o st, library_only (apply_clumps_logged dbg p r cs num n o st)); [|apply G].
  induction cs as [|c cs IH]; intros num n o st; cbn [apply_clumps_logged]; [library|].
  apply library_lbind; [unfold apply_step_logged; library|]. intros [[n' o'] st']. apply IH.
Qed.
Lemma library_bytes dbg cs p r : library_only (byte_apply_logged dbg cs p r).
Proof.
  unfold byte_apply_logged. apply library_lbind; [|intros n; library]. generalize 0%nat as num, 0 as n.
  induction cs as [|c cs IH]; intros num n; cbn [byte_clumps_logged]; [library|].
  apply library_lbind; [library|]. intros n'. apply IH.
Qed.
Lemma not_shown v ev : Forall of_library ev -> filter (shown v) ev = [].
Proof. induction 1 as [|e ev He _ IH]; [reflexivity|]. cbn [filter]. unfold shown at 1. unfold of_library in He. now rewrite He. Qed.

(* ---------------- the programs ---------------- *)
Lemma snd_lpbind {A B} (m : lprog A) (k : A -> lprog B) (m' : prog A) (k' : A -> prog B) :
  (forall w, snd (m w) = m' w) -> (forall a w, snd (k a w) = k' a w) -> forall w, snd (lpbind m k w) = pbnd m' k' w.
Proof.
  intros H1 H2 w. unfold lpbind, pbnd. rewrite <- H1. destruct (m w) as [ev [[a| | |] w1]]; cbn [snd]; try reflexivity.
  rewrite <- H2. now destruct (k a w1).
Qed.
Lemma snd_told {A} lv m (k : unit -> lprog A) (m' : prog A) : (forall w, snd (k tt w) = m' w) -> forall w, snd (lpbind (tell lv m) k w) = m' w.
Proof. intros H w. unfold lpbind, tell. rewrite <- H. now destruct (k tt w). Qed.
Lemma snd_fail {A} m c w : snd (@fail_with A m c w) = exit c w.
Proof. reflexivity. Qed.
Section Programs.
  Variable E : env.
  Lemma write_file_unlogged {A} p (m : lio A) (m' : io A) : (forall w, snd (m w) = m' w) -> forall w, snd (write_file_logged E p m w) = write_file E p m' w.
  Proof.
    intros H w. unfold write_file_logged. cbn [snd]. unfold write_file, op. destruct (w_fs w p) as [[mode d|]|]; try reflexivity.
    now rewrite H.
  Qed.
  Lemma patch_change_unlogged {A B} t items (apply : A -> lio B) apply' rep w : (forall x w, snd (apply x w) = apply' x w) ->
    snd (patch_change_logged E t items apply rep w) = patch_change E t items apply' w.
  Proof.
    intros H. unfold patch_change_logged, patch_change. revert w. apply snd_lpbind; [reflexivity|]. intros [|]; [|reflexivity].
    apply snd_lpbind; [reflexivity|]. intros [d|]; [|reflexivity]. apply snd_lpbind; [reflexivity|]. intros [x|]; [|reflexivity].
    apply snd_lpbind; [reflexivity|]. intros [|]; [|reflexivity]. apply snd_lpbind; [reflexivity|]. intros [|]; [|reflexivity].
    apply snd_lpbind; [apply write_file_unlogged, H|]. intros [st| | |]; [|reflexivity..].
    apply snd_lpbind; [reflexivity|]. intros [|]; [|reflexivity]. apply snd_told. reflexivity.
  Qed.
  Lemma patch_create_unlogged {B} t (m : io B) w : snd (patch_create_logged E t m w) = patch_create E t m w.
  Proof.
    unfold patch_create_logged, patch_create. revert w. apply snd_lpbind; [reflexivity|]. intros [|]; [|reflexivity].
    apply snd_lpbind; [reflexivity|]. intros [| | |]; reflexivity.
  Qed.
  Lemma patch_remove_unlogged t w : snd (patch_remove_logged E t w) = patch_remove E t w.
  Proof. unfold patch_remove_logged, patch_remove. revert w. apply snd_lpbind; [reflexivity|]. intros [|]; reflexivity. Qed.
  Lemma patch_diff_unlogged d r w : snd (patch_diff_logged E d r w) = patch_diff E d r w.
  Proof.
    destruct d as [d|p|p|d|p|p]; cbn [patch_diff_logged patch_diff]; try (destruct r; [apply patch_remove_unlogged|apply patch_create_unlogged]);
      try (destruct r; [apply patch_create_unlogged|apply patch_remove_unlogged]).
    - apply patch_change_unlogged. intros. apply text_apply_unlogged.
    - apply patch_change_unlogged. intros. apply byte_apply_unlogged.
  Qed.
  Lemma patch_main_unlogged patch r w : snd (patch_main_logged E patch r w) = patch_main E patch r w.
  Proof.
    unfold patch_main_logged, patch_main. revert w. apply snd_lpbind; [reflexivity|]. intros [|]; [|reflexivity].
    apply snd_lpbind; [reflexivity|]. intros [s|]; [|reflexivity]. apply snd_lpbind; [reflexivity|]. intros [d|]; [|reflexivity].
    intros w. apply patch_diff_unlogged.
  Qed.
  Lemma diff_main_unlogged b a c w : snd (diff_main_logged E b a c w) = diff_main E b a c w.
  Proof.
    unfold diff_main_logged, diff_main. revert w. apply snd_lpbind; [reflexivity|]. intros [d|]; [|reflexivity].
    intros w. destruct (diff_to_json d) as [out ok]. destruct (ok && negb _); reflexivity.
  Qed.

  (* what a part of a program may have said, by how it ended *)
  Definition last_words {A} (good : list event -> fs -> Prop) (z : list event * (Model_Files.outcome A * world)) : Prop :=
    let '(ev, (o, w)) := z in
    match o with
    | Val _ => good ev (w_fs w)
    | Exit _ => exists quietly m, ev = quietly ++ [Event Program Error m] /\ Forall of_library quietly
    | Abort | Stuck => Forall of_library ev
    end.
  Lemma lp_op {A B} (f : fault -> fs -> A * list fs) (k : A -> lprog B) w :
    exists a w1, op E f w = (Val a, w1) /\ lpbind (silent (op E f)) k w = k a w1.
  Proof.
    unfold lpbind, silent. destruct (op E f w) as [o w1] eqn:Eo. unfold op in Eo. destruct (f _ _) as [a st]. injection Eo as <- <-.
    eexists _, _. split; [reflexivity|]. cbn [app]. now destruct (k a _).
  Qed.
  Ltac step_op name w a w1 E1 :=
    unfold name;
    match goal with |- context [lpbind (silent (op E ?f)) ?k w] =>
      let Q := fresh in destruct (lp_op f k w) as (a & w1 & E1 & Q); rewrite Q; clear Q end.
  Lemma last_words_fail {A} (good : list event -> fs -> Prop) m c w : last_words good (@fail_with A m c w).
  Proof. exists [], m. split; [reflexivity|constructor]. Qed.

  Lemma change_said {A B} t items (apply : A -> lio B) rep w : (forall x, library_only (apply x)) ->
    last_words (fun ev _ => exists m d x st wr wr' ev', w_fs w t = Some (File m d) /\ items d = Ok (Some x) /\ apply x wr = (ev', (Done st, wr')) /\
      ev = ev' ++ [Event Program Info (PatchDone (rep st))]) (patch_change_logged E t items apply rep w).
  Proof.
    intros Hl. unfold patch_change_logged.
    step_op open_read w ok w1 E1.
    assert (F1 : w_fs w1 = w_fs w) by (unfold op in E1; cbn in E1; injection E1 as _ <-; reflexivity). clear E1.
    destruct ok; [|apply last_words_fail].
    step_op read_all w1 cont w2 E2.
    destruct cont as [d|]; [|apply last_words_fail].
    assert (F2 : exists m, w_fs w t = Some (File m d)).
    { unfold op in E2. cbn in E2. injection E2 as E2 _. rewrite F1 in E2. destruct (e_fault E (w_ops w1)); try discriminate.
      destruct (w_fs w t) as [[m d'|]|]; try discriminate. injection E2 as ->. eauto. } clear E2.
    destruct F2 as (m & F2). unfold lpbind at 1. unfold silent at 1. unfold pure.
    destruct (items d) as [[x|]| |] eqn:Ei; [| |cbn; constructor..].
    2:{ cbn. exists [], (ReadingFailed t). split; [reflexivity|constructor]. }
    match goal with |- context [let (ev', x) := ?y in ([] ++ ev', x)] => replace (let (ev', x) := y in ([] ++ ev', x)) with y by (now destruct y) end.
    step_op create_new w2 made w3 E3. destruct made; [|apply last_words_fail].
    step_op create w3 opn w4 E4. destruct opn; [|apply last_words_fail].
    unfold lpbind at 1.
    destruct (write_file_logged E (e_tmp E) (apply x) w4) as [ev [o5 w5]] eqn:E5.
    assert (F5 : Forall of_library ev /\ exists r, o5 = Val r /\ forall st, r = Done st -> exists wr wr', apply x wr = (ev, (Done st, wr'))).
    { unfold write_file_logged, write_file, op in E5. destruct (w_fs w4 (e_tmp E)) as [[mode dd|]|].
      - match type of E5 with context [apply x ?w0] => pose proof (Hl x w0) as L; destruct (apply x w0) as [ev' [r w'] ] eqn:Ea end.
        cbn [fst snd] in *. injection E5 as <- <- <-. split; [exact L|]. exists r. split; [reflexivity|]. intros st ->. eauto.
      - injection E5 as <- <- <-. split; [constructor|]. exists IoErr. split; [reflexivity|discriminate].
      - injection E5 as <- <- <-. split; [constructor|]. exists IoErr. split; [reflexivity|discriminate]. }
    destruct F5 as (L & r & -> & F5). destruct r as [st| | |].
    - step_op rename w5 moved w6 E6. destruct moved.
      + unfold lpbind, tell, silent. destruct (drop_temp E w6) as [o7 w7] eqn:E7.
        assert (o7 = Val tt) by (unfold drop_temp, pbnd, remove_file, op, pret in E7; destruct (match e_fault E (w_ops w6) with NoFault => _ | _ => _ end) in E7; injection E7 as <- _; reflexivity).
        subst o7. cbn. destruct (F5 _ eq_refl) as (wr & wr' & Ea). exists m, d, x, st, wr, wr', ev. auto.
      + cbn. exists ev, RenameFailed. auto.
    - cbn. exists ev, PatchFailed. auto.
    - unfold silent. match goal with |- context [pbnd (drop_temp E) ?k w5] => destruct (pbnd (drop_temp E) k w5) as [o7 w7] eqn:E7 end.
      assert (o7 = Abort) by (unfold drop_temp, pbnd, remove_file, op, pret in E7; destruct (match e_fault E (w_ops w5) with NoFault => _ | _ => _ end) in E7; injection E7 as <- _; reflexivity).
      subst o7. cbn. rewrite app_nil_r. exact L.
    - cbn. rewrite app_nil_r. exact L.
  Qed.
  Lemma create_said {B} t (m : io B) full (b : B) w : emits m full (Done b) ->
    let z := patch_create_logged E t m w in
    fst (snd z) = Val tt /\
    ((fst z = [Event Program Info (Created t)] /\ w_fs w t = None /\ replaced (w_fs w) t (Some (File (e_mode E) full)) (w_fs (snd (snd z)))) \/
     (fst z = [Event Program Error (CreationFailed t)] /\ (w_fs w t = None -> w_fs (snd (snd z)) t <> Some (File (e_mode E) full)))).
  Proof.
    intros [Hx Hm] z. subst z. unfold patch_create_logged.
    step_op create_new w made w1 E1. unfold op in E1. destruct made.
    - assert (F1 : w_fs w t = None /\ w_fs w1 = upd (w_fs w) t (Some (File (e_mode E) []))).
      { destruct (e_fault E (w_ops w)); try discriminate. destruct (w_fs w t); try discriminate. injection E1 as <-. auto. }
      destruct F1 as [F0 F1]. unfold lpbind, silent, write_file, op. rewrite F1, Proof_Files.upd_same.
      rewrite Hm. unfold run_emit. cbn [w_room w_out].
      assert (DONE : forall r, last (map (fun k => upd (upd (w_fs w) t (Some (File (e_mode E) []))) t (Some (File (e_mode E) ([] ++ firstn k ([] ++ full))))) (seq 0 (S (length ([] ++ full))))) r =
        upd (upd (w_fs w) t (Some (File (e_mode E) []))) t (Some (File (e_mode E) full))).
      { intros r. rewrite seq_S, map_app. cbn [map]. rewrite last_last. cbn [app]. now rewrite Nat.add_0_l, firstn_all. }
      assert (REP : replaced (w_fs w) t (Some (File (e_mode E) full)) (upd (upd (w_fs w) t (Some (File (e_mode E) []))) t (Some (File (e_mode E) full)))).
      { split; [apply Proof_Files.upd_same|]. intros q Hq. now rewrite !Proof_Files.upd_other by congruence. }
      assert (PART : forall n r, (n < length full)%nat -> w_fs w t = None ->
        last (map (fun k => upd (upd (w_fs w) t (Some (File (e_mode E) []))) t (Some (File (e_mode E) ([] ++ firstn k ([] ++ firstn n full))))) (seq 0 (S (length ([] ++ firstn n full))))) r t <> Some (File (e_mode E) full)).
      { intros n r Hn _. rewrite seq_S, map_app. cbn [map]. rewrite last_last, Proof_Files.upd_same. cbn [app]. rewrite Nat.add_0_l, firstn_all.
        intros Q. injection Q as Q. apply (f_equal (@length byte)) in Q. rewrite firstn_length in Q. lia. }
      destruct (e_fault E (w_ops w1)) as [| |n].
      + cbn [fst snd tell]. split; [reflexivity|]. left. split; [reflexivity|]. split; [assumption|]. cbn [w_fs]. rewrite DONE. exact REP.
      + destruct (Nat.leb_spec (length full) 0) as [L|L]; cbn [fst snd tell]; (split; [reflexivity|]).
        * left. split; [reflexivity|]. split; [assumption|]. cbn [w_fs]. rewrite DONE. exact REP.
        * right. split; [reflexivity|]. cbn [w_fs]. now apply PART.
      + destruct (Nat.leb_spec (length full) n) as [L|L]; cbn [fst snd tell]; (split; [reflexivity|]).
        * left. split; [reflexivity|]. split; [assumption|]. cbn [w_fs]. rewrite DONE. exact REP.
        * right. split; [reflexivity|]. cbn [w_fs]. now apply PART.
    - cbn [tell fst snd]. split; [reflexivity|]. right. split; [reflexivity|]. intros F0. rewrite F0 in E1.
      destruct (e_fault E (w_ops w)); try discriminate; injection E1 as <-; cbn; rewrite F0; discriminate.
  Qed.
  Lemma remove_said t w :
    last_words (fun ev _ => ev = [Event Program Info (Deleted t)]) (patch_remove_logged E t w).
  Proof.
    unfold patch_remove_logged.
    step_op remove_file w ok w1 E1. destruct ok; [reflexivity|apply last_words_fail].
  Qed.

  (* the end of the messages of a run with status 0 *)
  Definition good_end (d : diff) (reverse : bool) (f : fs) (ev : list event) (g : fs) : Prop :=
    match d with
    | TextChange t => exists old ls st wr wr' ev', is_utf8 old /\ lines_of old ls /\ (exists m, f (td_before t) = Some (File m old)) /\
        text_apply_logged (e_dbg E) (td_clumps t) ls reverse wr = (ev', (Done st, wr')) /\ ev = ev' ++ [Event Program Info (PatchDone (Some st))]
    | ByteChange t => exists old wr wr' ev', (exists m, f (bd_before t) = Some (File m old)) /\
        byte_apply_logged (e_dbg E) (bd_clumps t) old reverse wr = (ev', (Done tt, wr')) /\ ev = ev' ++ [Event Program Info (PatchDone None)]
    | _ => (removes d reverse /\ ev = [Event Program Info (Deleted (target d))]) \/
           (exists c, creates d reverse c /\
             ((ev = [Event Program Info (Created (target d))] /\ f (target d) = None /\ replaced f (target d) (Some (File (e_mode E) c)) g) \/
              (ev = [Event Program Error (CreationFailed (target d))] /\ (f (target d) = None -> g (target d) <> Some (File (e_mode E) c)))))
    end.
  Lemma last_words_imp {A} (P Q : list event -> fs -> Prop) (z : list event * (Model_Files.outcome A * world)) :
    (forall ev g, P ev g -> Q ev g) -> last_words P z -> last_words Q z.
  Proof. intros H. destruct z as [ev [[] w]]; cbn; auto. Qed.
  Lemma diff_said d reverse w :
    last_words (good_end d reverse (w_fs w)) (patch_diff_logged E d reverse w).
  Proof.
    assert (RM : forall d0 t, target d0 = t -> removes d0 reverse -> (match d0 with TextChange _ | ByteChange _ => False | _ => True end) ->
      last_words (good_end d0 reverse (w_fs w)) (patch_remove_logged E t w)).
    { intros d0 t <- Hr Hd. eapply last_words_imp; [|apply remove_said]. intros ev g Hg. destruct d0; try contradiction; cbn [good_end]; left; split; assumption. }
    assert (CR : forall d0 t B (m : io B) c b, target d0 = t -> emits m c (Done b) -> creates d0 reverse c ->
      last_words (good_end d0 reverse (w_fs w)) (patch_create_logged E t m w)).
    { intros d0 t B m c b <- Hm Hc. destruct (create_said (target d0) m c b w Hm) as [Ho Hz].
      destruct (patch_create_logged E (target d0) m w) as [ev [o w']]. cbn [fst snd] in *. rewrite Ho. cbn [last_words].
      destruct d0; try contradiction; cbn [good_end]; right; exists c; (split; [assumption|exact Hz]). }
    destruct d as [d|p|p|d|p|p]; cbn [patch_diff_logged].
    - eapply last_words_imp; [|apply change_said; intros; apply library_text]. intros ev g (m & c & x & st & wr & wr' & ev' & H1 & H2 & H3 & H4).
      apply Proof_Files.read_lines_ok in H2 as (H2 & H5 & _). exists c, x, st, wr, wr', ev'. eauto 8.
    - destruct reverse; [apply (RM (TextAdd p)); cbn; auto|]. eapply (CR (TextAdd p)); [reflexivity|apply emits_write_lines|split; reflexivity].
    - destruct reverse; [|apply (RM (TextRemove p)); cbn; auto]. eapply (CR (TextRemove p)); [reflexivity|apply emits_write_lines|split; reflexivity].
    - eapply last_words_imp; [|apply change_said; intros; apply library_bytes]. intros ev g (m & c & x & st & wr & wr' & ev' & H1 & H2 & H3 & H4).
      injection H2 as <-. destruct st. exists c, wr, wr', ev'. eauto 8.
    - destruct reverse; [apply (RM (ByteAdd p)); cbn; auto|]. eapply (CR (ByteAdd p)); [reflexivity|apply emits_write_all|split; reflexivity].
    - destruct reverse; [|apply (RM (ByteRemove p)); cbn; auto]. eapply (CR (ByteRemove p)); [reflexivity|apply emits_write_all|split; reflexivity].
  Qed.
  Lemma main_said patch reverse w :
    last_words (fun ev g => exists d, (exists s m, w_fs w patch = Some (File m s) /\ readable m = true /\ diff_from_json s = Ok (Some d)) /\
      good_end d reverse (w_fs w) ev g) (patch_main_logged E patch reverse w).
  Proof.
    unfold patch_main_logged.
    step_op open_read w ok w1 E1.
    assert (F1 : w_fs w1 = w_fs w) by (unfold op in E1; cbn in E1; injection E1 as _ <-; reflexivity).
    destruct ok; [|apply last_words_fail].
    step_op read_all w1 cont w2 E2.
    destruct cont as [s|]; [|apply last_words_fail].
    assert (F2 : w_fs w2 = w_fs w /\ exists m, w_fs w patch = Some (File m s) /\ readable m = true).
    { unfold op in E1, E2. cbn in E1, E2. injection E2 as E2 <-. cbn. rewrite F1 in E2. split; [assumption|]. destruct (e_fault E (w_ops w1)); try discriminate.
      destruct (w_fs w patch) as [[m d'|]|]; try discriminate. injection E2 as ->. exists m. split; [reflexivity|].
      destruct (e_fault E (w_ops w)); try discriminate. injection E1 as E1 _. exact E1. }
    destruct F2 as (F2 & m & F3 & F4). unfold lpbind, silent, pure.
    destruct (diff_from_json s) as [[d|]| |] eqn:Ed; [| |cbn; constructor..].
    2:{ cbn. exists [], BadPatch. split; [reflexivity|constructor]. }
    pose proof (diff_said d reverse w2) as H. destruct (patch_diff_logged E d reverse w2) as [ev0 [o w3]]. cbn [app].
    eapply last_words_imp; [|exact H]. intros ev g Hg. exists d. rewrite <- F2. split; [|exact Hg]. exists s, m. rewrite F2. auto.
  Qed.
End Programs.

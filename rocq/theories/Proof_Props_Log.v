(* Proof_Props_Log.v - the property lemmas on messages. *)
From Coq Require Import String.
From Verif Require Import Base Model_Seq Model_Changes Model_IO Model_Text Model_Bytes Model_Json Model_Files Model_Log Spec Spec_Outcome Spec_Files Spec_Log Cases Proof_Text Proof_Bytes Proof_Apply Proof_Outcome Proof_Log Proof_LogMain Proof_Files Proof_Props_Files.

(* ------------------------------------------------------------------ C83 *)
Lemma fates_unique dbg target n o hs l : fates dbg target n o hs l -> forall l', fates dbg target n o hs l' -> length l = length l' -> l = l'.
Proof.
  induction 1 as [n o hs|n o h rest f sh w l F _ IH|n o h rest f sh w l F _ IH|n o h rest l F _ IH]; intros l' H' Hl;
    inversion H' as [|? ? ? ? f2 sh2 w2 ? F' H2|? ? ? ? f2 sh2 w2 ? F' H2|? ? ? ? ? F' H2]; subst; try discriminate Hl;
    try reflexivity; pose proof (fate_unique _ _ _ _ _ _ _ _ F F') as EQ; try discriminate EQ; try (injection EQ as <- <- <-);
    (f_equal; apply IH; [assumption|now injection Hl]).
Qed.
(* C83: the messages about the clumps of a text patch are the reports on their true fates, one
   for each clump in order until the run stops; if it completes there is one for every clump and
   the statistics count them. *)
Lemma p_C83_text : forall dbg hs target w, Forall hunk_ok hs -> lines_fit hs -> fits_lines target ->
  exists l, fates dbg target 0 0 hs l /\ (forall l', fates dbg target 0 0 hs l' -> length l' = length l -> l' = l) /\
    fst (text_apply_logged dbg (map text_of_hunk hs) target false w) = reports 0 0 l /\
    forall st w', text_apply_into dbg (map text_of_hunk hs) target false w = (Done st, w') -> length l = length hs /\ st = tally l.
Proof.
  intros dbg hs target w H1 H2 H3. destruct (text_reports dbg target H3 hs w H1 H2) as (l & A & B & C).
  exists l. split; [assumption|]. split; [|auto]. intros l' A' Hl. eapply fates_unique; eassumption.
Qed.
Lemma p_C83_text_reverse : forall dbg hs target w, Forall hunk_ok hs -> lines_fit hs -> fits_lines target ->
  exists l, fates dbg target 0 0 (map swap_hunk hs) l /\ (forall l', fates dbg target 0 0 (map swap_hunk hs) l' -> length l' = length l -> l' = l) /\
    fst (text_apply_logged dbg (map text_of_hunk hs) target true w) = reports 0 0 l /\
    forall st w', text_apply_into dbg (map text_of_hunk hs) target true w = (Done st, w') -> length l = length hs /\ st = tally l.
Proof.
  intros dbg hs target w H1 H2 H3.
  destruct (p_C83_text dbg _ target w (hunks_ok_swap _ H1) (lines_fit_swap _ H2) H3) as (l & A & B & C & D).
  rewrite <- map_swap_hunk, text_apply_logged_swap in C. rewrite map_length in D. exists l. split; [assumption|]. split; [assumption|]. split; [exact C|].
  intros st w' E. apply (D st w'). rewrite <- map_swap_hunk, text_apply_into_swap. exact E.
Qed.
(* bytes: likewise *)
Lemma p_C83_bytes : forall dbg hs target (reverse : bool) w,
  let mine := if reverse then map swap_hunk hs else hs in
  let ev := fst (byte_apply_logged dbg (map byte_of_hunk hs) target reverse w) in
  (exists k, ev = firstn k (byte_reports target 0 mine)) /\
  (forall u w', byte_apply_into dbg (map byte_of_hunk hs) target reverse w = (Done u, w') -> ev = byte_reports target 0 mine).
Proof.
  intros dbg hs target reverse w mine ev.
  assert (Q : ev = fst (byte_apply_logged dbg (map byte_of_hunk mine) target false w) /\
    byte_apply_into dbg (map byte_of_hunk hs) target reverse w = byte_apply_into dbg (map byte_of_hunk mine) target false w).
  { unfold ev, mine. destruct reverse; [|auto]. rewrite <- map_swap_bhunk, byte_apply_logged_swap, byte_apply_into_swap. auto. }
  destruct Q as [-> ->]. destruct (byte_said dbg target mine w) as (k & K1 & K2). eauto.
Qed.
(* the messages of the already-applied queries: one for each clump found applied, in order, none
   of them an error, and an error for the clump with which the query fails *)
Lemma p_C83_queries : forall dbg clumps target reverse,
  let (ev, r) := text_query_logged dbg clumps target reverse 0 0 in
  r = text_is_already_applied dbg clumps target reverse /\
  forall b, r = Ok b -> exists found,
    ev = found ++ (if b then [] else [Event Library Error (AboutClump (S (length found)) NotAlreadyApplied None None)]) /\
    (if b then length found = length clumps else length found < length clumps) /\
    forall i e, nth_error found i = Some e -> exists lv x y, e = Event Library lv (AboutClump (S i) AlreadyApplied x y) /\ lv <> Error.
Proof.
  intros dbg clumps target reverse. destruct (text_query_said dbg clumps target reverse 0 0) as [H1 H2]. unfold text_is_already_applied.
  destruct (text_query_logged dbg clumps target reverse 0 0) as [ev r]. cbn [fst snd] in *. split; [assumption|]. intros b ->. rewrite <- H1 in H2. destruct b.
  - destruct H2 as [H2 H3]. exists ev. rewrite app_nil_r. auto.
  - destruct H2 as (ev' & -> & H2 & H3). exists ev'. auto.
Qed.
(* for clumps that are not beyond all bounds, the messages are exactly those of [all_reported] *)
Lemma p_C83_queries_exact : forall dbg hs target (reverse : bool), Forall hunk_ok hs -> fits_lines target ->
  let mine := if reverse then map swap_hunk hs else hs in
  exists ev r, all_reported dbg target 0 0 mine ev r /\ (forall ev' r', all_reported dbg target 0 0 mine ev' r' -> ev' = ev /\ r' = r) /\
    text_query_logged dbg (map text_of_hunk hs) target reverse 0 0 = (ev, match r with Some b => Ok b | None => Panic end).
Proof.
  assert (F : forall dbg hs target, Forall hunk_ok hs -> fits_lines target ->
    exists ev r, all_reported dbg target 0 0 hs ev r /\ (forall ev' r', all_reported dbg target 0 0 hs ev' r' -> ev' = ev /\ r' = r) /\
    text_query_logged dbg (map text_of_hunk hs) target false 0 0 = (ev, match r with Some b => Ok b | None => Panic end)).
  { intros dbg hs target H1 H2. destruct (all_reported_run dbg target hs H2 0 0%Z H1) as (ev & r & A & B); [unfold zlen, two61; lia|].
    exists ev, r. split; [assumption|]. split; [|exact B]. intros ev' r' H. eapply all_reported_unique; eassumption. }
  intros dbg hs target [] H1 H2 mine; subst mine; [|now apply F].
  destruct (F dbg _ target (hunks_ok_swap _ H1) H2) as (ev & r & A & B & C). exists ev, r. split; [assumption|]. split; [assumption|].
  rewrite <- C, <- map_swap_hunk. now rewrite text_query_logged_swap.
Qed.
Lemma p_C83_byte_queries : forall clumps target reverse,
  let (ev, r) := byte_query_logged clumps target reverse 0 in
  r = byte_already_applied clumps target reverse /\
  exists k, (if r then k = length clumps else k < length clumps) /\
    ev = map (fun i => Event Library Info (AboutClump i AlreadyApplied None None)) (seq 1 k) ++
         (if r then [] else [Event Library Error (AboutClump (S k) NotAlreadyApplied None None)]).
Proof.
  intros clumps target reverse. destruct (byte_query_said clumps target reverse 0) as [H1 H2].
  destruct (byte_query_logged clumps target reverse 0) as [ev r]. cbn [fst snd] in *. split; [assumption|]. rewrite <- H1 in H2. destruct r.
  - exists (length clumps). rewrite app_nil_r. auto.
  - destruct H2 as (k & K1 & K2). exists k. auto.
Qed.
(* giving messages changes nothing: without them this is the model the other properties are about *)
Lemma p_C83_nothing_else : forall dbg E,
  (forall clumps target reverse w, snd (text_apply_logged dbg clumps target reverse w) = text_apply_into dbg clumps target reverse w) /\
  (forall clumps target reverse w, snd (byte_apply_logged dbg clumps target reverse w) = byte_apply_into dbg clumps target reverse w) /\
  (forall patch reverse w, snd (patch_main_logged E patch reverse w) = patch_main E patch reverse w) /\
  (forall before after context w, snd (diff_main_logged E before after context w) = diff_main E before after context w).
Proof.
  intros dbg E. split; [|split; [|split]]; intros; [apply text_apply_unlogged|apply byte_apply_unlogged|apply patch_main_unlogged|apply diff_main_unlogged].
Qed.
(* a displaced clump, one that is already there, one that fits nowhere *)
Lemma e_C83_example :
  let hs := [Hunk 1 1 0 (L "A B C ") 0 (L "A X C "); Hunk 1 1 4 (L "E F G ") 4 (L "E Y G "); Hunk 0 0 9 (L "P ") 9 (L "Q ")] in
  let target := L "Z A B C D E Y G H " in
  Forall hunk_ok hs /\ lines_fit hs /\ fits_lines target /\
  fst (text_apply_logged true (map text_of_hunk hs) target false sink) =
    [Event Library Warn (AboutClump 1 Applies None (Some 1%Z)); Event Library Warn (AboutClump 2 AlreadyApplied None None);
     Event Library Error (AboutClump 3 NotApplied None None)] /\
  fst (text_query_logged true (map text_of_hunk hs) (L "A X C D E Y G ") false 0 0) =
    [Event Library Info (AboutClump 1 AlreadyApplied None None); Event Library Info (AboutClump 2 AlreadyApplied None None);
     Event Library Error (AboutClump 3 NotAlreadyApplied None None)] /\
  fst (byte_apply_logged true (map byte_of_hunk [Hunk 0 0 1 (bs "bc") 1 (bs "xyz"); Hunk 0 0 3 (bs "q") 3 (bs "r")]) (bs "abcd") false sink) =
    [Event Library Info (AboutClump 1 Applies None None); Event Library Error (AboutClump 2 NotApplied None None)].
Proof.
  split; [repeat constructor; vm_compute; lia|]. split; [vm_compute; reflexivity|]. split; [vm_compute; reflexivity|]. vm_compute. repeat split.
Qed.

(* ------------------------------------------------------------------ C84 *)
(* C84, full statement: if a clump could not be applied, the user of the patch tool is told: the
   status is not 0, or a message that is shown says so.  It is false: the message about the clump
   comes from the library, whose messages are never shown.  For text this is so by default and
   with -v ... *)
Lemma p_C84_failure_told_refuted : exists E f patch w st out, fault_free E /\ holds_diff f patch diff_bad /\
  text_apply_into (e_dbg E) (match diff_bad with TextChange d => td_clumps d | _ => [] end) (L "x y ") false sink = (Done st, Writer out None) /\
  st_failed st = 1 /\ content f (target diff_bad) = Some (bs "x y ") /\
  exists ev, patch_main_logged E patch false (start f) = (ev, (Val tt, w)) /\
    In (Event Library Error (AboutClump 1 NotApplied None None)) ev /\
    forall verbose, verbose < 2 -> filter (shown verbose) ev = [].
Proof.
  exists (calm_env true), (files [(bs "A", bs "x y "); (bs "P", saved diff_bad)]), (bs "P").
  do 3 eexists. split; [intros n; reflexivity|]. split; [exists (saved diff_bad); split; vm_compute; reflexivity|].
  split; [vm_compute; reflexivity|]. split; [reflexivity|]. split; [vm_compute; reflexivity|].
  exists (fst (patch_main_logged (calm_env true) (bs "P") false (start (files [(bs "A", bs "x y "); (bs "P", saved diff_bad)])))).
  split; [|split].
  - transitivity (fst (patch_main_logged (calm_env true) (bs "P") false (start (files [(bs "A", bs "x y "); (bs "P", saved diff_bad)]))),
      snd (patch_main_logged (calm_env true) (bs "P") false (start (files [(bs "A", bs "x y "); (bs "P", saved diff_bad)])))); [apply surjective_pairing|].
    f_equal. apply pair_of. vm_compute. reflexivity.
  - vm_compute. auto.
  - intros [|[|v]] Hv; [vm_compute; reflexivity..|lia].
Qed.
(* ... and for bytes whatever the verbosity: what is shown with -vv is the same as on success. *)
Lemma p_C84_byte_failure_told_refuted : exists E f patch d w, fault_free E /\ holds_diff f patch (ByteChange d) /\
  exists ev, patch_main_logged E patch false (start f) = (ev, (Val tt, w)) /\
    In (Event Library Error (AboutClump 1 NotApplied None None)) ev /\ content (w_fs w) (bd_before d) = content f (bd_before d) /\
    forall verbose, filter (shown verbose) ev = if 2 <=? verbose then [Event Program Info (PatchDone None)] else [].
Proof.
  pose (d := ByteDiff (bs "A") (bs "B") false [ByteClump (0, 0)%Z (Snippet 0 (bs "no")) (Snippet 0 (bs "q"))]).
  pose (f := files [(bs "A", bs "xy"); (bs "P", saved (ByteChange d))]).
  exists (calm_env true), f, (bs "P"), d. eexists. split; [intros n; reflexivity|].
  split; [exists (saved (ByteChange d)); split; vm_compute; reflexivity|].
  exists (fst (patch_main_logged (calm_env true) (bs "P") false (start f))). split; [|split; [|split]].
  - transitivity (fst (patch_main_logged (calm_env true) (bs "P") false (start f)), snd (patch_main_logged (calm_env true) (bs "P") false (start f))); [apply surjective_pairing|].
    f_equal. apply pair_of. vm_compute. reflexivity.
  - vm_compute. auto.
  - vm_compute. reflexivity.
  - intros [|[|v]]; vm_compute; reflexivity.
Qed.
(* What does hold: a run with status 0 on a text diff says about every clump whether it failed,
   to the log; with -vv (and only then) the statistics are shown, and they count the failures
   exactly, for every patch and text.  Missing: the same without -vv, and for bytes. *)
Lemma p_C84_statistics_shown_partial : forall E f patch reverse ev w d verbose,
  patch_main_logged E patch reverse (start f) = (ev, (Val tt, w)) -> holds_diff f patch (TextChange d) ->
  exists st, filter (shown verbose) ev = (if 2 <=? verbose then [Event Program Info (PatchDone (Some st))] else []) /\
    length (filter is_error ev) = st_failed st /\
    exists old ls wr wr', content f (td_before d) = Some old /\ lines_of old ls /\
      text_apply_into (e_dbg E) (td_clumps d) ls reverse wr = (Done st, wr').
Proof.
  intros E f patch reverse ev w d verbose H Hd. pose proof (main_said E patch reverse (start f)) as S.
  pose proof (patch_main_unlogged E patch reverse (start f)) as U. rewrite H in S, U. cbn in S, U.
  destruct S as (d' & (s & m & M1 & M2 & M3) & G). assert (d' = TextChange d).
  { eapply holds_diff_unique; [|exact Hd]. exists s. split; [exact (content_file _ _ _ _ M1 M2)|exact M3]. } subst d'.
  destruct G as (old & ls & st & wr & wr' & ev' & G1 & G2 & (m' & G3) & G4 & ->). exists st. split; [|split].
  - rewrite filter_app, not_shown; [cbn; destruct verbose as [|[|v]]; reflexivity|].
    pose proof (library_text (e_dbg E) (td_clumps d) ls reverse wr) as Hl. rewrite G4 in Hl. exact Hl.
  - apply text_counts in G4. unfold errors in G4. rewrite filter_app, app_length. cbn. lia.
  - exists old, ls, wr, wr'. symmetry in U. apply p_C40_success_change_partial with (d := TextChange d) in U; [|exact Hd|exact I].
    destruct U as (old' & new & U1 & _). split; [|split; [assumption|]].
    + cbn in U1. rewrite U1. f_equal. unfold content in U1. rewrite G3 in U1. destruct (N.testbit m' 8); congruence.
    + rewrite <- text_apply_unlogged, G4. reflexivity.
Qed.
Lemma e_C84_example :
  let f := files [(bs "A", bs "x y "); (bs "P", saved diff_bad)] in
  holds_diff f (bs "P") diff_bad /\
  exists w, patch_main_logged (calm_env true) (bs "P") false (start f) =
    ([Event Library Error (AboutClump 1 NotApplied None None); Event Program Info (PatchDone (Some (Stats 0 0 0 0 1)))], (Val tt, w)).
Proof.
  split; [exists (saved diff_bad); split; vm_compute; reflexivity|].
  exists (snd (snd (patch_main_logged (calm_env true) (bs "P") false (start (files [(bs "A", bs "x y "); (bs "P", saved diff_bad)]))))).
  assert (P3 : forall A B C (x : A * (B * C)) a b, fst x = a -> fst (snd x) = b -> x = (a, (b, snd (snd x)))) by (intros A B C [a [b c]] ? ? <- <-; reflexivity).
  apply P3; vm_compute; reflexivity.
Qed.

(* ------------------------------------------------------------------ C85 *)
(* C85: whenever one of the programs ends with a status other than 0 (and is not aborted by a
   panic), exactly one message is shown, an error, whatever the verbosity; *)
Lemma p_C85_error_shown : forall E patch reverse w ev code w' verbose,
  patch_main_logged E patch reverse w = (ev, (Exit code, w')) -> exists m, filter (shown verbose) ev = [Event Program Error m].
Proof.
  intros E patch reverse w ev code w' verbose H. pose proof (main_said E patch reverse w) as S. rewrite H in S. cbn in S.
  destruct S as (q & m & -> & Hq). exists m. rewrite filter_app, not_shown by assumption. reflexivity.
Qed.
Lemma p_C85_diff_error_shown : forall E before after context f ev code w' verbose, context <= 255 ->
  diff_main_logged E before after context (start f) = (ev, (Exit code, w')) -> exists m, filter (shown verbose) ev = [Event Program Error m].
Proof.
  intros E before after context f ev code w' verbose Hc H. unfold diff_main_logged, lpbind, silent in H.
  destruct (answers_diff E before after context f Hc (start f) eq_refl) as (r & Hr & _).
  destruct (diff_new E before after context (start f)) as [o1 w1]. cbn [fst] in Hr. subst o1. destruct r as [d|].
  - destruct (diff_to_json d) as [out ok]. destruct (ok && negb _); [discriminate|]. cbn in H. injection H as <- _ _. exists WritingDiffFailed. reflexivity.
  - cbn in H. injection H as <- _ _. exists DiffFailed. reflexivity.
Qed.
(* what is shown: messages of the program's own, errors always, warnings from the first -v on and
   information from the second; so more -v never hide a message; *)
Lemma p_C85_levels : forall verbose src lv m,
  (shown verbose (Event src lv m) = true <->
     src = Program /\ match lv with Error => 0 | Warn => 1 | Info => 2 end <= verbose) /\
  (forall more, verbose <= more -> shown verbose (Event src lv m) = true -> shown more (Event src lv m) = true).
Proof.
  assert (H : forall verbose src lv m, shown verbose (Event src lv m) = true <->
     src = Program /\ match lv with Error => 0 | Warn => 1 | Info => 2 end <= verbose).
  { intros v src lv m. unfold shown. cbn [ev_source ev_level]. destruct src; [split; [discriminate|intros [H _]; discriminate H]|].
    destruct lv; rewrite ?Nat.leb_le; split; try lia; try (intros H; split; [reflexivity|lia]); try reflexivity; intros [_ H]; exact H. }
  intros v src lv m. split; [apply H|]. intros more Hm. rewrite !H. intros [A B]. split; [assumption|lia].
Qed.
(* nothing is shown by the diff tool on success; *)
Lemma p_C85_diff_silent : forall E before after context f ev w', context <= 255 ->
  diff_main_logged E before after context (start f) = (ev, (Val tt, w')) -> ev = [].
Proof.
  intros E before after context f ev w' Hc H. unfold diff_main_logged, lpbind, silent in H.
  destruct (answers_diff E before after context f Hc (start f) eq_refl) as (r & Hr & _).
  destruct (diff_new E before after context (start f)) as [o1 w1]. cbn [fst] in Hr. subst o1. destruct r as [d|]; [|discriminate].
  destruct (diff_to_json d) as [out ok]. destruct (ok && negb _); [|discriminate]. injection H as <- _. reflexivity.
Qed.
(* and when a file was to be created, an error is shown if and only if it was not created with
   the complete content, although the status is 0. *)
Lemma p_C85_creation : forall E f patch reverse ev o w d c verbose,
  patch_main_logged E patch reverse (start f) = (ev, (o, w)) -> holds_diff f patch d -> creates d reverse c -> o = Val tt ->
  (filter is_error (filter (shown verbose) ev) = [] /\ ~ present f (target d) /\ replaced f (target d) (Some (File (e_mode E) c)) (w_fs w)) \/
  (filter (shown verbose) ev = [Event Program Error (CreationFailed (target d))] /\
   (~ present f (target d) -> w_fs w (target d) <> Some (File (e_mode E) c))).
Proof.
  intros E f patch reverse ev o w d c verbose H Hd Hc ->. pose proof (main_said E patch reverse (start f)) as S. rewrite H in S. cbn in S.
  destruct S as (d' & (s & m & M1 & M2 & M3) & G). assert (d' = d).
  { eapply holds_diff_unique; [|exact Hd]. exists s. split; [exact (content_file _ _ _ _ M1 M2)|exact M3]. } subst d'.
  assert (G' : (removes d reverse /\ ev = [Event Program Info (Deleted (target d))]) \/
           (exists c, creates d reverse c /\
             ((ev = [Event Program Info (Created (target d))] /\ f (target d) = None /\ replaced f (target d) (Some (File (e_mode E) c)) (w_fs w)) \/
              (ev = [Event Program Error (CreationFailed (target d))] /\ (f (target d) = None -> w_fs w (target d) <> Some (File (e_mode E) c)))))).
  { destruct d; try contradiction; exact G. } clear G.
  destruct G' as [[Hr _]|(c' & Hc' & G)]; [exfalso; eapply create_not_remove; eauto|].
  assert (c' = c) by (eapply creates_unique; eauto). subst c'. destruct G as [(-> & G1 & G2)|(-> & G1)].
  - left. split; [destruct verbose as [|[|v]]; reflexivity|]. split; [|assumption]. unfold present. rewrite G1. congruence.
  - right. split; [reflexivity|]. intros Hp. apply G1. unfold present in Hp. destruct (f (target d)); [exfalso; apply Hp; discriminate|reflexivity].
Qed.
Lemma e_C85_example :
  let f := files [(bs "A", bs "other "); (bs "P", saved diff_add)] in
  holds_diff f (bs "P") diff_add /\ creates diff_add false (bs "x y ") /\
  (exists w, patch_main_logged (calm_env true) (bs "P") false (start f) = ([Event Program Error (CreationFailed (bs "A"))], (Val tt, w))) /\
  (exists w, patch_main_logged (calm_env true) (bs "A") false (start f) = ([Event Program Error BadPatch], (Exit 1, w))).
Proof.
  assert (P3 : forall A B C (x : A * (B * C)) a b, fst x = a -> fst (snd x) = b -> exists c, x = (a, (b, c))) by (intros A B C [a [b c]] ? ? <- <-; eexists; reflexivity).
  split; [exists (saved diff_add); split; vm_compute; reflexivity|]. split; [split; reflexivity|].
  split; apply P3; vm_compute; reflexivity.
Qed.

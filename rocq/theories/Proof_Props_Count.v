(* Proof_Props_Count.v - the property lemmas on the numbers of clumps. *)
From Coq Require Import String.
From Verif Require Import Base Model_Seq Model_Changes Model_IO Model_Text Model_Bytes Model_Json Model_Files Model_Log Model_Count Spec Spec_Outcome Spec_Count Cases Proof_Log Proof_Count.
Local Open Scope Z_scope.

(* ------------------------------------------------------------------ C130 *)
(* a clump that changes nothing, as often as wanted *)
Definition idle : text_clump := TextClump (0, 0) (Snippet 0 []) (Snippet 0 []).
Lemma idle_step dbg nx num st w : apply_step_logged dbg [] false idle nx num 0 0 st w =
  ([Event Library Info (AboutClump num Applies None None)], (Done (0, 0, add_clean st), w)).
Proof. destruct dbg, w as [out room]; reflexivity. Qed.
Lemma idle_run dbg k : forall num st w, exists st',
  apply_clumps_logged dbg [] false (repeat idle k) num 0 0 st w =
  (map (fun i => Event Library Info (AboutClump (S i) Applies None None)) (seq num k), (Done (0, st'), w)).
Proof.
  induction k as [|k IH]; intros num st w; [now exists st|]. destruct (IH (S num) (add_clean st) w) as (st' & E). exists st'.
  cbn [repeat apply_clumps_logged seq map]. unfold lbind. rewrite idle_step, E. reflexivity.
Qed.
Lemma idle_all dbg k : exists st, text_apply_logged dbg (repeat idle k) [] false sink =
  (map (fun i => Event Library Info (AboutClump (S i) Applies None None)) (seq 0 k), (Done st, sink)).
Proof.
  destruct (idle_run dbg k 0 stats0 sink) as (st & E). exists st. unfold text_apply_logged, lbind at 1. rewrite E.
  transitivity (map (fun i => Event Library Info (AboutClump (S i) Applies None None)) (seq 0 k) ++ [], (Done st, sink)); [|now rewrite app_nil_r].
  destruct dbg; reflexivity.
Qed.
(* C130: counting clumps with an i32 should make no difference: a patch should be applied as it is
   with any other numbers, and a message should have the number of its clump. *)
Lemma p_C130_numbers_refuted : exists clumps target,
  (exists st, text_apply_into true clumps target false sink = (Done st, sink)) /\
  fst (snd (text_apply_counted true clumps target false sink)) = Panicked /\
  exists t, In t (fst (text_apply_counted false clumps target false sink)) /\ td_number t = -2147483648.
Proof.
  exists (repeat idle (S last_number)), []. pose proof last_number_Z as Z1.
  destruct (idle_all true (S last_number)) as (st & E1). destruct (idle_all false (S last_number)) as (st' & E2).
  split; [exists st; rewrite <- text_apply_unlogged, E1; reflexivity|]. split.
  - eapply text_stop; [|rewrite E1; reflexivity]. unfold countable. rewrite repeat_length. unfold two31 in Z1. lia.
  - destruct (text_agree false [] false (repeat idle (S last_number)) (or_introl eq_refl) sink) as [_ H]. rewrite E2 in H. cbn [fst] in H.
    rewrite seq_S, map_app in H. apply Forall2_app_inv_l in H. destruct H as (l1 & l2 & _ & H & ->). cbn [map Nat.add] in H.
    inversion H as [|? t ? l3 Q _]; subst. exists t.
    split; [apply in_or_app; right; now left|]. destruct Q as (lv & n & v & r & o & A1 & _ & _ & _ & _ & A6 & _). injection A1 as _ <- _ _ _. rewrite A6.
    replace (Z.of_nat (S last_number)) with two31 by lia. reflexivity.
Qed.
(* It makes none in release builds, apart from the numbers, and none at all with fewer than 2^31
   clumps. *)
Lemma p_C130_text_partial : forall dbg clumps target reverse w, dbg = false \/ countable clumps ->
  snd (text_apply_counted dbg clumps target reverse w) = text_apply_into dbg clumps target reverse w /\
  Forall2 (same_but_number wrapped_number) (fst (text_apply_logged dbg clumps target reverse w)) (fst (text_apply_counted dbg clumps target reverse w)) /\
  (countable clumps ->
   Forall2 (same_but_number true_number) (fst (text_apply_logged dbg clumps target reverse w)) (fst (text_apply_counted dbg clumps target reverse w))).
Proof.
  intros dbg clumps target reverse w H. destruct (text_agree dbg target reverse clumps H w) as [E F]. rewrite E, text_apply_unlogged.
  split; [reflexivity|]. split; [eapply counted_wrapped; exact F|]. intros C. eapply counted_true; [exact C|exact F].
Qed.
Lemma p_C130_bytes_partial : forall dbg clumps target reverse w, dbg = false \/ countable clumps ->
  snd (byte_apply_counted dbg clumps target reverse w) = byte_apply_into dbg clumps target reverse w /\
  Forall2 (same_but_number wrapped_number) (fst (byte_apply_logged dbg clumps target reverse w)) (fst (byte_apply_counted dbg clumps target reverse w)) /\
  (countable clumps ->
   Forall2 (same_but_number true_number) (fst (byte_apply_logged dbg clumps target reverse w)) (fst (byte_apply_counted dbg clumps target reverse w))).
Proof.
  intros dbg clumps target reverse w H. destruct (byte_agree dbg target reverse clumps H w) as [E F]. rewrite E, byte_apply_unlogged.
  split; [reflexivity|]. split; [eapply counted_wrapped; exact F|]. intros C. eapply counted_true; [exact C|exact F].
Qed.
(* The queries likewise; in debug builds they may also end before the clump 2^31. *)
Lemma p_C130_queries_partial : forall dbg reverse,
  (forall clumps target, let (ev, answer) := text_query_logged dbg clumps target reverse 0 0 in
    let (said, answer') := text_query_counted dbg clumps target reverse 0 0 in
    (dbg = false \/ countable clumps \/ (exists b, answer = Ok b) /\ countable ev ->
     answer' = answer /\ Forall2 (same_but_number wrapped_number) ev said /\
     (countable clumps -> Forall2 (same_but_number true_number) ev said)) /\
    (dbg = true -> ~ countable ev -> (exists b, answer = Ok b) -> answer' = Panic)) /\
  (forall clumps target, let (ev, answer) := byte_query_logged clumps target reverse 0 in
    let (said, answer') := byte_query_counted dbg clumps target reverse 0 in
    (dbg = false \/ countable ev ->
     answer' = Ok answer /\ Forall2 (same_but_number wrapped_number) ev said /\
     (countable clumps -> Forall2 (same_but_number true_number) ev said)) /\
    (dbg = true -> ~ countable ev -> answer' = Panic)).
Proof.
  intros dbg reverse. split; intros clumps target.
  - pose proof (text_query_agrees dbg target reverse clumps 0 0) as H. pose proof (text_query_stops target reverse clumps 0 0) as H'.
    change (wrap_i32 (Z.of_nat 0)) with 0 in H, H'.
    destruct dbg.
    + destruct (text_query_logged true clumps target reverse 0 0) as [ev answer]. destruct (text_query_counted true clumps target reverse 0 0) as [said answer'].
      cbn [fst snd Nat.add] in *. split.
      * intros C. destruct H as [E F]; [unfold countable in C; change two31 with (2 ^ 31); tauto|]. split; [assumption|].
        split; [eapply counted_wrapped; exact F|]. intros C'. eapply counted_true; [exact C'|exact F].
      * intros _ C (b & B). eapply H'; [lia|exact B|]. pose proof last_number_Z. unfold countable in C. unfold two31 in *. lia.
    + destruct (text_query_logged false clumps target reverse 0 0) as [ev answer]. destruct (text_query_counted false clumps target reverse 0 0) as [said answer'].
      cbn [fst snd Nat.add] in *. split; [|discriminate]. intros _. destruct H as [E F]; [now left|]. split; [assumption|].
      split; [eapply counted_wrapped; exact F|]. intros C'. eapply counted_true; [exact C'|exact F].
  - pose proof (byte_query_agrees dbg target reverse clumps 0) as H. pose proof (byte_query_stops target reverse clumps 0) as H'.
    change (wrap_i32 (Z.of_nat 0)) with 0 in H, H'.
    destruct dbg.
    + destruct (byte_query_logged clumps target reverse 0) as [ev answer]. destruct (byte_query_counted true clumps target reverse 0) as [said answer'].
      cbn [fst snd Nat.add] in *. split.
      * intros C. destruct H as [E F]; [unfold countable in C; change two31 with (2 ^ 31); tauto|]. split; [assumption|].
        split; [eapply counted_wrapped; exact F|]. intros C'. eapply counted_true; [exact C'|exact F].
      * intros _ C. apply H'; [lia|]. pose proof last_number_Z. unfold countable in C. unfold two31 in *. lia.
    + destruct (byte_query_logged clumps target reverse 0) as [ev answer]. destruct (byte_query_counted false clumps target reverse 0) as [said answer'].
      cbn [fst snd Nat.add] in *. split; [|discriminate]. intros _. destruct H as [E F]; [now left|]. split; [assumption|].
      split; [eapply counted_wrapped; exact F|]. intros C'. eapply counted_true; [exact C'|exact F].
Qed.
(* In debug builds, a patch with 2^31 clumps or more that would be applied otherwise makes the
   program panic after 2^31 - 1 clumps, each of them reported with its number. *)
Lemma p_C130_debug : forall reverse w,
  (forall clumps target st w', ~ countable clumps -> text_apply_into true clumps target reverse w = (Done st, w') ->
     let '(said, (outcome, _)) := text_apply_counted true clumps target reverse w in
     outcome = Panicked /\ Z.of_nat (List.length said) = 2 ^ 31 - 1 /\
     Forall2 (same_but_number true_number) (firstn (List.length said) (fst (text_apply_logged true clumps target reverse w))) said) /\
  (forall clumps target st w', ~ countable clumps -> byte_apply_into true clumps target reverse w = (Done st, w') ->
     let '(said, (outcome, _)) := byte_apply_counted true clumps target reverse w in
     outcome = Panicked /\ Z.of_nat (List.length said) = 2 ^ 31 - 1 /\
     Forall2 (same_but_number true_number) (firstn (List.length said) (fst (byte_apply_logged true clumps target reverse w))) said).
Proof.
  intros reverse w. pose proof last_number_Z as Z1. unfold two31 in Z1. split; intros clumps target st w' C E.
  - pose proof (text_stop target reverse clumps C w st w') as H. rewrite text_apply_unlogged in H. destruct (H E) as (A & B & D).
    destruct (text_apply_counted true clumps target reverse w) as [said [oc w1]]. cbn [fst snd] in *. rewrite Nat.sub_0_r in *.
    split; [assumption|]. split; [lia|]. rewrite B. eapply counted_true; [|exact D]. lia.
  - pose proof (byte_stop target reverse clumps C w st w') as H. rewrite byte_apply_unlogged in H. destruct (H E) as (A & B & D).
    destruct (byte_apply_counted true clumps target reverse w) as [said [oc w1]]. cbn [fst snd] in *. rewrite Nat.sub_0_r in *.
    split; [assumption|]. split; [lia|]. rewrite B. eapply counted_true; [|exact D]. lia.
Qed.
Lemma e_C130_example :
  let hs := [Hunk 1 1 0 (L "A B C ") 0 (L "A X C "); Hunk 1 1 4 (L "E F G ") 4 (L "E Y G "); Hunk 0 0 9 (L "P ") 9 (L "Q ")] in
  let clumps := map text_of_hunk hs in
  let target := L "Z A B C D E Y G H " in
  countable clumps /\
  fst (text_apply_counted true clumps target false sink) =
    [Told Warn 1 Applies None (Some 1); Told Warn 2 AlreadyApplied None None; Told Error 3 NotApplied None None] /\
  w_out (snd (snd (text_apply_counted true clumps target false sink))) = bs "Z A X C D E Y G <<<<<<< P ======= Q >>>>>>> H " /\
  text_query_counted true clumps (L "A X C D E Y G ") false 0 0 =
    ([Told Info 1 AlreadyApplied None None; Told Info 2 AlreadyApplied None None; Told Error 3 NotAlreadyApplied None None], Ok false) /\
  fst (text_clumps_counted false target false clumps 2147483646 0 0 stats0 sink) =
    [Told Warn 2147483647 Applies None (Some 1); Told Warn (-2147483648) AlreadyApplied None None; Told Error (-2147483647) NotApplied None None] /\
  fst (snd (text_clumps_counted true target false clumps 2147483646 0 0 stats0 sink)) = Panicked /\
  byte_apply_counted true (map byte_of_hunk [Hunk 0 0 1 (bs "bc") 1 (bs "xyz"); Hunk 0 0 3 (bs "q") 3 (bs "r")]) (bs "abcd") false sink =
    ([Told Info 1 Applies None None; Told Error 2 NotApplied None None], (Done tt, Writer (bs "axyzd") None)).
Proof. split; [vm_compute; reflexivity|]. vm_compute. repeat split. Qed.

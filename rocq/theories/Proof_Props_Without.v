(* Proof_Props_Without.v - the property lemmas on patches without the hunks that were rejected. *)
From Coq Require Import String.
From Verif Require Import Base Model_Seq Model_Changes Model_IO Model_Text Model_Bytes Spec Spec_Outcome Spec_Result Spec_Conflict Spec_Without Cases Proof_Seq Proof_IO Proof_Text Proof_Apply Proof_Fuzzy Proof_Bytes Proof_Outcome Proof_Props_Text Proof_Props_Outcome.

Local Ltac vr := vm_compute; reflexivity.

Lemma steady_cons offset f rest : steady offset (f :: rest) ->
  steady (carried offset f) rest /\ (hd_error rest = Some Rejected -> f = Rejected \/ as_expected offset f).
Proof. cbn [steady]. destruct rest as [|[] rest]; cbn [hd_error]; intuition; discriminate. Qed.
Lemma nearest_not_here h target expected lowest limit d w : nearest h target expected lowest limit (Some (d, w)) ->
  decision h target expected None -> d <> 0%Z.
Proof.
  intros H N ->. inversion H as [d' w' _ K _ E|]; subst. rewrite Z.add_0_r in K. now pose proof (decision_unique _ _ _ _ _ N K).
Qed.
(* a hunk that was found where it was expected is found there whatever hunk follows *)
Lemma fate_expected dbg target h next next' from offset fuzzy w : fate_of dbg target h next from offset (Placed fuzzy offset w) ->
  fate_of dbg target h next' from offset (Placed fuzzy offset w).
Proof.
  intros H. inversion H as [w' K E1|d w' N _ K E1| | | | |]; subst; [now constructor|].
  exfalso. apply (nearest_not_here _ _ _ _ _ _ _ K N). lia.
Qed.
Lemma outcome_first dbg target from offset hs fs out : outcome dbg target from offset hs (Some fs) out ->
  hd_error fs <> Some Rejected -> hd_error (accepted hs fs) = hd_error hs.
Proof. intros H N. inversion H; subst; try reflexivity; destruct r as [l|]; try discriminate; match goal with E : option_map _ _ = Some _ |- _ => injection E as <- end; try reflexivity. now destruct N. Qed.

Lemma outcome_without dbg target from offset hs r out : outcome dbg target from offset hs r out ->
  forall fates, r = Some fates -> steady offset fates ->
  outcome dbg target from offset (accepted hs fates) (Some (without_rejected fates)) (concat (settled target from hs fates)).
Proof.
  intros H.
  induction H as [from offset Hf|from offset Hf|from offset h rest fuzzy shift w r out Hfate Hw Ho IH|from offset h rest fuzzy shift w Hfate Hw|from offset h rest fuzzy shift w r out Hfate Ho IH|from offset h rest r out Hfate Ho IH|from offset h rest Hfate]; intros fates E S; try discriminate.
  - injection E as <-. now constructor.
  - destruct r as [fs|]; [|discriminate]. injection E as <-. apply steady_cons in S as [S1 S2]. specialize (IH fs eq_refl S1).
    cbn [accepted without_rejected settled]. rewrite !concat_app. change (Some (?f :: ?l)) with (option_map (cons f) (Some l)).
    apply outcome_placed; [|assumption|exact IH].
    destruct fs as [|[] fs]; try (rewrite (outcome_first _ _ _ _ _ _ _ Ho) by discriminate; assumption).
    destruct (S2 eq_refl) as [?|(fz & w' & E)]; [discriminate|]. injection E as <- -> <-. eapply fate_expected. exact Hfate.
  - destruct r as [fs|]; [|discriminate]. injection E as <-. apply steady_cons in S as [S1 S2]. specialize (IH fs eq_refl S1).
    cbn [accepted without_rejected settled]. rewrite !concat_app. change (Some (?f :: ?l)) with (option_map (cons f) (Some l)).
    apply outcome_seen; [|exact IH].
    destruct fs as [|[] fs]; try (rewrite (outcome_first _ _ _ _ _ _ _ Ho) by discriminate; assumption).
    destruct (S2 eq_refl) as [?|(fz & w' & E)]; discriminate.
  - destruct r as [fs|]; [|discriminate]. injection E as <-. apply steady_cons in S as [S1 _]. cbn [accepted without_rejected settled]. now apply IH.
Qed.

Lemma tally_without fates : let st := tally fates in tally (without_rejected fates) = Stats (st_clean st) (st_fuzzy st) (st_already st) (st_already_fuzzy st) 0.
Proof.
  cbv zeta. cbn [tally st_clean st_fuzzy st_already st_already_fuzzy]. unfold how_many.
  induction fates as [|f fs IH]; [reflexivity|]. unfold tally, how_many in IH. injection IH as I1 I2 I3 I4 I5.
  destruct f as [[]|[]| |]; unfold tally, how_many; cbn [without_rejected filter List.length]; now rewrite ?I1, ?I2, ?I3, ?I4, ?I5.
Qed.
Lemma accepted_in hs : forall fates h, In h (accepted hs fates) -> In h hs.
Proof. induction hs as [|g hs IH]; intros fates h H; [now destruct fates|]. destruct fates as [|[] fs]; cbn [accepted In] in *; intuition eauto. Qed.
Lemma accepted_ok hs fates : Forall (@hunk_ok line) hs -> Forall hunk_ok (accepted hs fates).
Proof. rewrite !Forall_forall. intros H h Hh. apply H. eapply accepted_in. exact Hh. Qed.
Lemma accepted_fit hs fates : lines_fit hs -> lines_fit (accepted hs fates).
Proof.
  unfold lines_fit. assert (H : forall fates, fold_right (fun h n => length (h_old h) + length (h_new h) + n) 0 (accepted hs fates) <= fold_right (fun h n => length (h_old h) + length (h_new h) + n) 0 hs).
  { clear. induction hs as [|h hs IH]; intros fates; [destruct fates; cbn; lia|]. destruct fates as [|f fs]; [cbn; lia|]. specialize (IH fs). destruct f; cbn [accepted fold_right] in *; lia. }
  specialize (H fates). lia.
Qed.
Lemma outcome_without_one dbg target h post gs : forall pre fs from offset out, List.length fs = List.length pre ->
  outcome dbg target from offset (pre ++ h :: post) (Some (fs ++ Rejected :: gs)) out -> ends_as_expected offset fs ->
  exists x y, out = x ++ conflict_block h ++ y /\ outcome dbg target from offset (pre ++ post) (Some (fs ++ gs)) (x ++ y).
Proof.
  induction pre as [|g pre IH]; intros [|f fs] from offset out Hl H He; try discriminate.
  - cbn [app] in *. inversion H; subst; try (destruct r; discriminate). destruct r as [l|]; [|discriminate].
    match goal with E : option_map _ _ = Some _ |- _ => injection E as -> end. exists [], out0. now split.
  - cbn [app] in H. injection Hl as Hl.
    assert (N : forall f', fate_of dbg target g (hd_error (pre ++ h :: post)) from offset f' -> f' = f -> f <> Rejected -> f <> Underflow -> fate_of dbg target g (hd_error (pre ++ post)) from offset f).
    { intros f' Hf -> _ _. destruct pre as [|g' pre]; [|exact Hf]. destruct fs; [|discriminate]. destruct He as (fz & w & ->). eapply fate_expected. exact Hf. }
    assert (C : ends_as_expected (carried offset f) fs) by (destruct fs; [exact I|exact He]).
    inversion H as [| |from' offset' h' rest fuzzy shift w r out' Hfate Hw Ho E1 E2 E3 E4 E5| |from' offset' h' rest fuzzy shift w r out' Hfate Ho E1 E2 E3 E4 E5|from' offset' h' rest r out' Hfate Ho E1 E2 E3 E4 E5|]; subst; destruct r as [l|]; try discriminate; injection E4 as <- ->.
    + destruct (IH fs _ _ _ Hl Ho C) as (x & y & -> & K). exists (List.concat (sub target from (kept_from (h_b g) shift w)) ++ List.concat (written g w) ++ x), y. split; [rewrite <- !app_assoc; reflexivity|].
      rewrite <- !app_assoc. cbn [app]. change (Some (?f :: ?l)) with (option_map (cons f) (Some l)). apply outcome_placed; [|assumption|exact K]. eapply N; eauto; discriminate.
    + destruct (IH fs _ _ _ Hl Ho C) as (x & y & -> & K). exists (List.concat (sub target from (kept_from (h_a g) shift w + kept_count (h_new g) w)) ++ x), y. split; [rewrite <- !app_assoc; reflexivity|].
      rewrite <- !app_assoc. cbn [app]. change (Some (?f :: ?l)) with (option_map (cons f) (Some l)). apply outcome_seen; [|exact K]. eapply N; eauto; discriminate.
    + destruct (IH fs _ _ _ Hl Ho C) as (x & y & -> & K). exists (conflict_block g ++ x), y. split; [rewrite <- !app_assoc; reflexivity|].
      rewrite <- !app_assoc. cbn [app]. change (Some (?f :: ?l)) with (option_map (cons f) (Some l)). apply outcome_rejected; [|exact K].
      destruct pre as [|g' pre]; [|exact Hfate]. destruct fs; [|discriminate]. destruct He as (fz & w & E). discriminate.
Qed.

(* ------------------------------------------------------------------ C138 *)
(* C138: a hunk that is rejected makes no difference to the others: without it the text is patched
   in the same way, only without the conflict.  False, as the hunk before it is searched for only
   up to the place of the next hunk: with the rejected hunk the other one is put in five lines
   earlier, without it four lines later. *)
Lemma p_C138_moved_refuted : exists b a target c1 c2, text_diff_clumps b a 1 = Ok [c1; c2] /\ forall dbg,
  text_apply_into dbg [c1; c2] target false (Writer [] None) =
    (Done (Stats 0 1 0 0 1), Writer (bs "p q A X Y C <<<<<<< G H I ======= G Z W I >>>>>>> p q p q p q A B C q ") None) /\
  text_apply_into dbg [c1] target false (Writer [] None) =
    (Done (Stats 0 1 0 0 0), Writer (bs "p q A B C p q p q p q A X Y C q ") None).
Proof.
  exists (L "1 2 3 4 5 6 7 A B C D G H I "), (L "1 2 3 4 5 6 7 A X Y C D G Z W I "), (L "p q A B C p q p q p q A B C q ").
  do 2 eexists. split; [vr|]. intros dbg. split; destruct dbg; vr.
Qed.
(* nor is a hunk that is rejected sure to be so without the one that follows it *)
Lemma p_C138_hidden_refuted : exists b a target c1 c2, text_diff_clumps b a 1 = Ok [c1; c2] /\ forall dbg,
  fst (text_apply_into dbg [c1; c2] target false (Writer [] None)) = Done (Stats 0 0 0 0 2) /\
  text_apply_into dbg [c1] target false (Writer [] None) =
    (Done (Stats 0 1 0 0 0), Writer (bs "1 2 3 4 5 6 7 A X Y C 8 9 ") None).
Proof.
  exists (L "A B C D E F G H I "), (L "A X Y C D E F G Z W I "), (L "1 2 3 4 5 6 7 A B C 8 9 ").
  do 2 eexists. split; [vr|]. intros dbg. split; destruct dbg; vr.
Qed.
(* What does hold: if every hunk that is followed by a rejected one was found where expected or
   rejected itself, the patch without all the rejected hunks makes the same text of the target,
   without the conflicts, and with the same statistics but for the failures.
   Missing: hunks found elsewhere or already there before a rejected one, as above. *)
Lemma p_C138_without_partial : forall dbg hs target st out, Forall hunk_ok hs -> lines_fit hs -> fits_lines target ->
  text_apply_into dbg (map text_of_hunk hs) target false (Writer [] None) = (Done st, Writer out None) ->
  exists fates, outcome dbg target 0 0 hs (Some fates) out /\ st = tally fates /\ (steady 0 fates -> forall w,
    text_apply_into dbg (map text_of_hunk (accepted hs fates)) target false w =
    delivered (Done (Stats (st_clean st) (st_fuzzy st) (st_already st) (st_already_fuzzy st) 0)) (concat (settled target 0 hs fates)) w).
Proof.
  intros dbg hs target st out H1 H2 H3 H. destruct (p_C73_outcome dbg hs target H1 H2 H3) as (r & out' & HO & _ & HE).
  rewrite HE in H. destruct r as [fates|]; [|discriminate]. injection H as <- ->. exists fates. split; [exact HO|]. split; [reflexivity|].
  intros S w. destruct (p_C73_outcome dbg (accepted hs fates) target (accepted_ok _ _ H1) (accepted_fit _ _ H2) H3) as (r & out' & _ & U & HE').
  destruct (U _ _ (outcome_without _ _ _ _ _ _ _ HO fates eq_refl S)) as [<- <-]. rewrite HE', tally_without. reflexivity.
Qed.
(* in reverse, with the hunks the other way round *)
Lemma p_C138_without_reverse_partial : forall dbg hs target st out, Forall hunk_ok hs -> lines_fit hs -> fits_lines target ->
  text_apply_into dbg (map text_of_hunk hs) target true (Writer [] None) = (Done st, Writer out None) ->
  exists fates, outcome dbg target 0 0 (map swap_hunk hs) (Some fates) out /\ st = tally fates /\ (steady 0 fates -> forall w,
    text_apply_into dbg (map text_of_hunk (accepted hs fates)) target true w =
    delivered (Done (Stats (st_clean st) (st_fuzzy st) (st_already st) (st_already_fuzzy st) 0)) (concat (settled target 0 (map swap_hunk hs) fates)) w).
Proof.
  intros dbg hs target st out H1 H2 H3 H. rewrite reverse_apply in H.
  destruct (p_C138_without_partial dbg (map swap_hunk hs) target st out (hunks_ok_swap _ H1) (lines_fit_swap _ H2) H3 H) as (fates & A & B & C).
  exists fates. split; [exact A|]. split; [exact B|]. intros S w. rewrite reverse_apply, <- (C S w). f_equal. f_equal.
  clear. revert fates. induction hs as [|h hs IH]; intros [|[] fs]; cbn [map accepted]; try reflexivity; try apply IH; f_equal; apply IH.
Qed.
(* Taking out a single rejected hunk takes out its conflict and nothing else if the hunk before it
   was found where expected, or there is none.  Missing: as above. *)
Lemma p_C138_one_partial : forall dbg pre h post target fs gs out, Forall hunk_ok (pre ++ post) -> lines_fit (pre ++ post) -> fits_lines target ->
  outcome dbg target 0 0 (pre ++ h :: post) (Some (fs ++ Rejected :: gs)) out -> List.length fs = List.length pre -> ends_as_expected 0 fs ->
  exists x y, out = x ++ conflict_block h ++ y /\ forall w,
    text_apply_into dbg (map text_of_hunk (pre ++ post)) target false w = delivered (Done (tally (fs ++ gs))) (x ++ y) w.
Proof.
  intros dbg pre h post target fs gs out H1 H2 H3 H Hl He. destruct (outcome_without_one dbg target h post gs pre fs 0 0%Z out Hl H He) as (x & y & -> & K).
  exists x, y. split; [reflexivity|]. intros w. destruct (p_C73_outcome dbg _ target H1 H2 H3) as (r & out & _ & U & HE). destruct (U _ _ K) as [<- <-]. apply HE.
Qed.
(* Bytes: a hunk neither side of which is there makes no difference to the others at all. *)
Lemma p_C138_bytes : forall dbg pre h post target w, ~ occurs_at target (h_old h) (Z.of_nat (h_b h)) -> ~ occurs_at target (h_new h) (Z.of_nat (h_a h)) ->
  forall reverse, byte_apply_into dbg (map byte_of_hunk (pre ++ h :: post)) target reverse w = byte_apply_into dbg (map byte_of_hunk (pre ++ post)) target reverse w.
Proof.
  intros dbg pre h post target w N1 N2 reverse. unfold byte_apply_into, iobind.
  assert (B : forall items p, ~ occurs_at target items (Z.of_nat p) -> has_subsequence_at_z Byte.eqb target items (Z.of_nat p) = false).
  { intros items p N. destruct (has_subsequence_at_z Byte.eqb target items (Z.of_nat p)) eqn:E; [|reflexivity]. apply has_subsequence_spec in E; [now destruct N|apply byte_eqb_lawful|lia]. }
  assert (K : forall pre consumed w, byte_apply_clumps dbg target reverse (map byte_of_hunk (pre ++ h :: post)) consumed w =
    byte_apply_clumps dbg target reverse (map byte_of_hunk (pre ++ post)) consumed w).
  { clear pre w. induction pre as [|g pre IH]; intros consumed w; cbn [app map byte_apply_clumps].
    - unfold byte_will_apply, byte_is_already_applied. destruct reverse; cbn [bc_side negb byte_of_hunk bc_before bc_after sn_items sn_start]; rewrite !B by assumption; reflexivity.
    - unfold iobind. destruct (_ w) as [[] w']; auto. }
  rewrite K. reflexivity.
Qed.
(* three hunks, the second of them rejected *)
Lemma e_C138_example :
  let g := Hunk 0 0 1 (L "B ") 1 (L "C ") in let h := Hunk 1 0 2 (L "P Q ") 2 (L "P R ") in let k := Hunk 0 0 4 (L "F ") 4 (L "X Y ") in
  let target := L "A B D E F " in let fates := [Placed false 0 Cleanly; Rejected; Placed false 0 Cleanly] in
  Forall hunk_ok [g; h; k] /\ lines_fit [g; h; k] /\ fits_lines target /\
  text_apply_into true (map text_of_hunk [g; h; k]) target false (Writer [] None) =
    (Done (Stats 2 0 0 0 1), Writer (bs "A C <<<<<<< P Q ======= P R >>>>>>> D E X Y ") None) /\
  steady 0 fates /\ accepted [g; h; k] fates = [g; k] /\ settled target 0 [g; h; k] fates = L "A C D E X Y " /\
  text_apply_into true (map text_of_hunk [g; k]) target false (Writer [] None) = (Done (Stats 2 0 0 0 0), Writer (bs "A C D E X Y ") None).
Proof.
  cbv zeta. split; [repeat constructor; vm_compute; congruence|]. split; [vr|]. split; [vr|]. split; [vr|].
  split; [cbn [steady carried]; split; [right; do 2 eexists; reflexivity|exact I]|]. split; [reflexivity|]. split; [vr|vr].
Qed.
(* the same with bytes: the second hunk is passed over *)
Lemma e_C138_bytes_example :
  let g := Hunk 0 0 1 (list_byte_of_string "b") 1 (list_byte_of_string "cc") in
  let h := Hunk 1 0 2 (list_byte_of_string "pq") 3 (list_byte_of_string "pr") in
  let k := Hunk 0 0 4 (list_byte_of_string "f") 5 (list_byte_of_string "xy") in let target := list_byte_of_string "abdefg" in
  ~ occurs_at target (h_old h) 2 /\ ~ occurs_at target (h_new h) 3 /\
  byte_apply_into true (map byte_of_hunk [g; h; k]) target false (Writer [] None) = (Done tt, Writer (list_byte_of_string "accdexyg") None) /\
  byte_apply_into true (map byte_of_hunk [g; k]) target false (Writer [] None) = (Done tt, Writer (list_byte_of_string "accdexyg") None).
Proof.
  cbv zeta. split; [|split; [|split; vr]]; intros (p & E & _ & K); [assert (p = 2) as -> by lia|assert (p = 3) as -> by lia]; vm_compute in K; discriminate.
Qed.

(* Proof_Props_Taken.v - the property lemmas on the lines a patch takes out. *)
From Coq Require Import String.
From Verif Require Import Base Model_Seq Model_Changes Model_IO Model_Text Model_Bytes Spec Spec_Outcome Spec_Result Spec_Conflict Spec_Taken Cases Proof_Seq Proof_Diff Proof_IO Proof_Text Proof_Apply Proof_Fuzzy Proof_Bytes Proof_Outcome Proof_Seen Proof_Merge Proof_Props_Text Proof_Props_Outcome.

Local Ltac vr := vm_compute; reflexivity.

Lemma edited_same {T} (p t : list T) rs out : edited t rs out -> edited (p ++ t) rs (p ++ out).
Proof. intros H. induction p as [|x p IH]; [exact H|]. now constructor. Qed.
Lemma edited_nothing {T} (t : list T) : edited t [] t.
Proof. induction t; now constructor. Qed.

(* where a placed hunk was found *)
Lemma placed_decision dbg target h next from offset fuzzy shift w : fate_of dbg target h next from offset (Placed fuzzy shift w) ->
  decision h target (Z.of_nat (h_b h) + shift) (Some w) /\
  (shift = offset \/ (Z.of_nat from <= Z.of_nat (h_b h) + shift)%Z \/ (offset <= shift)%Z).
Proof.
  intros H. inversion H as [w' K E1|d w' N _ K E1| | | | |]; subst; [now auto|].
  inversion K as [d' w' W D _ E|]; subst. split; [now rewrite Z.add_assoc|]. destruct W as [[W1 W2]|[W1 W2]]; [right; left|right; right]; lia.
Qed.
Lemma decision_matched h target pos w : hunk_ok h -> decision h target pos (Some w) -> exists p, (pos + Z.of_nat (cut_lead w))%Z = Z.of_nat p /\
  p + kept_count (h_old h) w <= List.length target /\ sub target p (p + kept_count (h_old h) w) = matched h w /\
  cut_lead w + cut_trail w <= List.length (h_old h).
Proof.
  intros (O1 & _) H. unfold matched, kept_count. inversion H as [(p & E & L & K) E0|k N K1 K2 (p & E & L & K) _ E0|]; subst; cbn [cut_lead cut_trail].
  - exists p. rewrite !Nat.sub_0_r. split; [lia|]. split; [lia|]. split; [|lia]. rewrite K. unfold sub. rewrite Nat.sub_0_r. cbn [skipn]. now rewrite firstn_all.
  - rewrite !Nat2Z.id. exists p. assert (LE : List.length (trimmed h k) = List.length (h_old h) - Nat.min k (h_lead h) - Nat.min k (h_trail h)).
    { unfold trimmed, sub. rewrite firstn_length, skipn_length. lia. }
    rewrite LE in L, K. split; [exact E|]. split; [exact L|]. split; [exact K|lia].
Qed.
Lemma placed_matched dbg target h next from offset fuzzy shift w : hunk_ok h -> fate_of dbg target h next from offset (Placed fuzzy shift w) ->
  sub target (kept_from (h_b h) shift w) (kept_from (h_b h) shift w + kept_count (h_old h) w) = matched h w /\
  Z.of_nat (kept_from (h_b h) shift w) = (Z.of_nat (h_b h) + shift + Z.of_nat (cut_lead w))%Z /\ cut_lead w + cut_trail w <= List.length (h_old h).
Proof.
  intros Hok H. apply placed_decision in H as [H _]. destruct (decision_matched _ _ _ _ Hok H) as (p & E & _ & K & L).
  assert (kept_from (h_b h) shift w = p) as -> by (unfold kept_from; lia). auto.
Qed.
Lemma seen_decision dbg target h next from offset fuzzy shift w : fate_of dbg target h next from offset (Seen fuzzy shift w) ->
  decision (swap_hunk h) target (Z.of_nat (h_a h) + shift) (Some w) /\
  (shift = offset \/ (Z.of_nat from <= Z.of_nat (h_a h) + shift)%Z \/ (offset <= shift)%Z).
Proof.
  intros H. inversion H as [| | |w' ? ? ? K E1|d w' ? ? ? ? ? K E1| |]; subst; [now auto|].
  inversion K as [d' w' W D _ E|]; subst. split; [now rewrite Z.add_assoc|]. destruct W as [[W1 W2]|[W1 W2]]; [right; left|right; right]; lia.
Qed.

Lemma outcome_edited dbg target from offset hs r out : outcome dbg target from offset hs r out -> Forall hunk_ok hs ->
  forall fates, r = Some fates -> apart from hs fates -> edited (skipn from target) (replacements hs fates) (settled target from hs fates).
Proof.
  intros H.
  induction H as [from offset Hf|from offset Hf|from offset h rest fuzzy shift w r out Hfate Hw Ho IH|from offset h rest fuzzy shift w Hfate Hw|from offset h rest fuzzy shift w r out Hfate Ho IH|from offset h rest r out Hfate Ho IH|from offset h rest Hfate]; intros Hok fates E A; try discriminate.
  - injection E as <-. apply edited_nothing.
  - destruct r as [fs|]; [|discriminate]. injection E as <-. inversion Hok as [|? ? O1 O2]; subst. cbn [apart] in A. destruct A as [A1 A2].
    cbn [replacements settled]. rewrite Nat.max_r in * by exact A1. specialize (IH O2 fs eq_refl A2).
    destruct (placed_matched _ _ _ _ _ _ _ _ _ O1 Hfate) as (M & _). rewrite <- (sub_skipn target from (kept_from (h_b h) shift w) A1).
    apply edited_same. rewrite <- (sub_skipn target (kept_from (h_b h) shift w) (kept_from (h_b h) shift w + kept_count (h_old h) w)) by lia. rewrite M. now constructor.
  - destruct r as [fs|]; [|discriminate]. injection E as <-. inversion Hok as [|? ? O1 O2]; subst. cbn [apart] in A. specialize (IH O2 fs eq_refl A).
    cbn [replacements settled]. cbv zeta. rewrite <- (sub_then target from (kept_from (h_a h) shift w + kept_count (h_new h) w)). now apply edited_same.
  - destruct r as [fs|]; [|discriminate]. injection E as <-. inversion Hok as [|? ? O1 O2]; subst. now apply IH.
Qed.
(* without conflicts this is all that is written *)
Lemma outcome_settled dbg target from offset hs r out : outcome dbg target from offset hs r out -> forall fates, r = Some fates ->
  st_failed (tally fates) = 0 -> out = List.concat (settled target from hs fates).
Proof.
  intros H.
  induction H as [from offset Hf|from offset Hf|from offset h rest fuzzy shift w r out Hfate Hw Ho IH|from offset h rest fuzzy shift w Hfate Hw|from offset h rest fuzzy shift w r out Hfate Ho IH|from offset h rest r out Hfate Ho IH|from offset h rest Hfate]; intros fates E N; try discriminate.
  - now injection E as <-.
  - destruct r as [fs|]; [|discriminate]. injection E as <-. cbn [settled]. rewrite !concat_app. rewrite (IH fs eq_refl N). reflexivity.
  - destruct r as [fs|]; [|discriminate]. injection E as <-. cbn [settled]. cbv zeta. rewrite !concat_app. rewrite (IH fs eq_refl N). reflexivity.
  - destruct r as [fs|]; [|discriminate]. injection E as <-. discriminate.
Qed.

(* hunks in order are found apart *)
Definition is_seen (f : fate) : Prop := exists fuzzy shift w, f = Seen fuzzy shift w.
Lemma apart_ordered dbg target from offset hs r out : outcome dbg target from offset hs r out -> Forall hunk_ok hs ->
  Forall (fun h => (Z.of_nat from <= Z.of_nat (h_b h) + offset)%Z) hs ->
  forall fates, r = Some fates -> behind_both hs \/ (behind_old hs /\ Forall (fun f => ~ is_seen f) fates) -> apart from hs fates.
Proof.
  intros H.
  induction H as [from offset Hf|from offset Hf|from offset h rest fuzzy shift w r out Hfate Hw Ho IH|from offset h rest fuzzy shift w Hfate Hw|from offset h rest fuzzy shift w r out Hfate Ho IH|from offset h rest r out Hfate Ho IH|from offset h rest Hfate]; intros Hok Hf' fates E B; try discriminate.
  - injection E as <-. exact I.
  - destruct r as [fs|]; [|discriminate]. injection E as <-. inversion Hok as [|? ? O1 O2]; subst. inversion Hf' as [|? ? F1 F2]; subst.
    destruct (placed_matched _ _ _ _ _ _ _ _ _ O1 Hfate) as (_ & K & C). pose proof (proj2 (placed_decision _ _ _ _ _ _ _ _ _ Hfate)) as W.
    assert (A1 : from <= kept_from (h_b h) shift w) by lia. cbn [apart]. split; [exact A1|]. rewrite Nat.max_r in * by exact A1.
    assert (Q : Forall (fun g => h_b h + List.length (h_old h) <= h_b g) rest).
    { destruct B as [[B _]|[[B _] _]]; [|exact B]. eapply Forall_impl; [|exact B]. cbn. lia. }
    apply IH; [exact O2| |reflexivity|].
    + eapply Forall_impl; [|exact Q]. cbn beta. unfold kept_count. intros g Hg. lia.
    + destruct B as [[_ B]|[[_ B] B']]; [now left|right]. inversion B'; now split.
  - destruct r as [fs|]; [|discriminate]. injection E as <-. inversion Hok as [|? ? O1 O2]; subst. inversion Hf' as [|? ? F1 F2]; subst.
    destruct B as [[B1 B2]|[_ B]]; [|inversion B as [|? ? N _]; destruct N; do 3 eexists; reflexivity].
    destruct (seen_decision _ _ _ _ _ _ _ _ _ Hfate) as [D W]. cbn [apart]. apply IH; [exact O2| |reflexivity|now left].
    destruct (decision_matched _ _ _ _ (hunk_ok_swap _ O1) D) as (p & K & _ & _ & C). cbn [swap_hunk h_old h_b] in *.
    rewrite Forall_forall in *. intros g Hg. specialize (B1 g Hg). specialize (F2 g Hg). cbn beta in *. unfold kept_from, kept_count.
    lia.
  - destruct r as [fs|]; [|discriminate]. injection E as <-. inversion Hok as [|? ? O1 O2]; subst. inversion Hf' as [|? ? F1 F2]; subst. cbn [apart].
    apply IH; [exact O2|exact F2|reflexivity|]. destruct B as [[_ B]|[[_ B] B']]; [now left|right]. inversion B'; now split.
Qed.

Lemma ordered_behind (hs : list (hunk line)) : ordered hs -> behind_old hs.
Proof.
  assert (K : forall hs (h : hunk line), ordered (h :: hs) -> Forall (fun g => h_b h + List.length (h_old h) <= h_b g) hs).
  { clear. induction hs as [|g hs IH]; intros h H; [constructor|]. destruct H as [[H1 _] H2]. constructor; [exact H1|].
    eapply Forall_impl; [|exact (IH g H2)]. cbn beta. lia. }
  induction hs as [|h hs IH]; intros H; [exact I|]. split; [now apply K|]. apply IH. now destruct H.
Qed.

Lemma matches_sub (target items : list byte) p : matches_at target items p = true -> p + List.length items <= List.length target /\ sub target p (p + List.length items) = items.
Proof.
  intros H. apply matches_at_true in H as (_ & q & E & L & K). apply Nat2Z.inj in E as <-. now split.
Qed.
Lemma byte_outcome_edited target : forall hs from, byte_apart target from hs -> from <= List.length target ->
  fst (byte_outcome target from hs) = true /\ edited (skipn from target) (byte_replacements target hs) (snd (byte_outcome target from hs)).
Proof.
  unfold byte_replacements. induction hs as [|h hs IH]; intros from A L; cbn [byte_outcome filter map].
  - split; [now apply Nat.leb_le|apply edited_nothing].
  - cbn [byte_apart] in A. destruct (matches_at target (h_old h) (h_b h)) eqn:M1; [|destruct (matches_at target (h_new h) (h_a h)) eqn:M2].
    + destruct A as [A1 A2]. apply matches_sub in M1 as [M1 M3]. rewrite Nat.max_r by exact A1. specialize (IH _ A2 M1).
      destruct (byte_outcome target (h_b h + List.length (h_old h)) hs) as [ok out]. cbn [fst snd] in *. destruct IH as [-> IH]. split; [reflexivity|]. cbn [map].
      rewrite <- (sub_skipn target from (h_b h) A1). apply edited_same. rewrite <- (sub_skipn target (h_b h) (h_b h + List.length (h_old h))) by lia. rewrite M3. now constructor.
    + apply matches_sub in M2 as [M2 _]. specialize (IH _ A ltac:(lia)).
      destruct (byte_outcome target (Nat.max from (h_a h + List.length (h_new h))) hs) as [ok out]. cbn [fst snd] in *. destruct IH as [-> IH]. split; [reflexivity|].
      rewrite <- (sub_then target from (h_a h + List.length (h_new h))). now apply edited_same.
    + now apply IH.
Qed.
Lemma byte_apart_ordered target : forall hs from, Forall (fun h : hunk byte => from <= h_b h) hs ->
  behind_both hs \/ (behind_old hs /\ Forall (fun h => matches_at target (h_old h) (h_b h) = true \/ matches_at target (h_new h) (h_a h) = false) hs) ->
  byte_apart target from hs.
Proof.
  induction hs as [|h hs IH]; intros from F B; [exact I|]. inversion F as [|? ? F1 F2]; subst. cbn [byte_apart].
  assert (Q : Forall (fun g => h_b h + List.length (h_old h) <= h_b g) hs).
  { destruct B as [[B _]|[[B _] _]]; [|exact B]. eapply Forall_impl; [|exact B]. cbn. lia. }
  assert (B' : behind_both hs \/ (behind_old hs /\ Forall (fun h => matches_at target (h_old h) (h_b h) = true \/ matches_at target (h_new h) (h_a h) = false) hs)).
  { destruct B as [[_ B]|[[_ B] B']]; [now left|right]. inversion B'; now split. }
  destruct (matches_at target (h_old h) (h_b h)) eqn:M1; [split; [exact F1|]; now apply IH|].
  destruct (matches_at target (h_new h) (h_a h)) eqn:M2; [|now apply IH]. apply IH; [|exact B'].
  destruct B as [[B _]|[_ B]]; [|inversion B as [|? ? [N|N] _]; congruence]. rewrite Forall_forall in *. intros g Hg. specialize (F2 g Hg). specialize (B g Hg). lia.
Qed.

(* ------------------------------------------------------------------ C139 *)
(* C139: the lines a patch takes out of a text are the ones it was found to match; the patched text is
   the text with these replaced, and everything else is still there.  False: where a hunk is already
   there, the next one can be found in the midst of its lines.  It is put in behind them, and as many
   lines as were found are dropped from there: p4 to p10 are lost, and nothing is reported. *)
Lemma p_C139_taken_refuted : exists before after clumps target out,
  text_diff_clumps before after 3 = Ok clumps /\ List.length clumps = 2 /\
  (forall dbg, text_apply_into dbg clumps target false (Writer [] None) = (Done (Stats 1 0 1 0 0), Writer (List.concat out) None)) /\
  (forall l, In l (L "p4 p5 p6 p7 p8 p9 p10 ") -> In l before /\ In l after /\ In l target /\ ~ In l out).
Proof.
  exists (L "O p1 p2 p3 p4 p5 p6 p7 p8 p9 p10 t u v R n n2 n3 "),
    (L "a b c d e f g h i j k t u v R n n2 n3 U p1 p2 p3 p4 p5 p6 p7 p8 p9 p10 t u v Z W n n2 n3 ").
  eexists. exists (L "a b c d e f g h i j k t u v R n n2 n3 U p1 p2 p3 p4 p5 p6 p7 p8 p9 p10 t u v R n n2 n3 "),
    (L "a b c d e f g h i j k t u v R n n2 n3 U p1 p2 p3 t u v Z W n n2 n3 t u v R n n2 n3 ").
  split; [vr|]. split; [vr|]. split; [intros dbg; destruct dbg; vr|].
  intros l Hl. assert (C : forall x, x = l -> existsb (line_eqb x) (L "O p1 p2 p3 p4 p5 p6 p7 p8 p9 p10 t u v R n n2 n3 ") = true /\
    existsb (line_eqb x) (L "a b c d e f g h i j k t u v R n n2 n3 U p1 p2 p3 p4 p5 p6 p7 p8 p9 p10 t u v Z W n n2 n3 ") = true /\
    existsb (line_eqb x) (L "a b c d e f g h i j k t u v R n n2 n3 U p1 p2 p3 p4 p5 p6 p7 p8 p9 p10 t u v R n n2 n3 ") = true /\
    existsb (line_eqb x) (L "a b c d e f g h i j k t u v R n n2 n3 U p1 p2 p3 t u v Z W n n2 n3 t u v R n n2 n3 ") = false).
  { intros x ->. cbv [L] in Hl. vm_compute in Hl. repeat (destruct Hl as [<-|Hl]; [repeat split; vr|]). destruct Hl. }
  specialize (C l eq_refl). destruct C as (C1 & C2 & C3 & C4).
  assert (X : forall ls, existsb (line_eqb l) ls = true -> In l ls) by (intros ls K; apply existsb_exists in K as (y & K1 & K2); apply line_eqb_lawful in K2; now subst).
  split; [auto|]. split; [auto|]. split; [auto|]. intros K. apply Bool.not_true_iff_false in C4. apply C4. apply existsb_exists. exists l. split; [exact K|now apply line_eqb_lawful].
Qed.
(* a hunk given twice is put in twice, and the line behind it is dropped *)
Lemma p_C139_twice_refuted : exists h target, hunk_ok h /\ forall dbg,
  text_apply_into dbg (map text_of_hunk [h]) target false (Writer [] None) = (Done (Stats 1 0 0 0 0), Writer (bs "A X C D ") None) /\
  text_apply_into dbg (map text_of_hunk [h; h]) target false (Writer [] None) = (Done (Stats 2 0 0 0 0), Writer (bs "A X X D ") None).
Proof.
  exists (Hunk 0 0 1 (L "B ") 1 (L "X ")), (L "A B C D "). split; [repeat constructor; vm_compute; congruence|]. intros dbg. split; destruct dbg; vr.
Qed.
(* What does hold, for every patch: if no hunk was found in a part of the text that had been dealt
   with before, the text is changed in this way only.  It is so if the old lines of every hunk begin
   behind the old and new lines of the earlier ones, or behind their old lines and no hunk was
   already there.  Missing: other patches, as above. *)
Lemma p_C139_taken_partial : forall dbg hs target st out, Forall hunk_ok hs -> lines_fit hs -> fits_lines target ->
  text_apply_into dbg (map text_of_hunk hs) target false (Writer [] None) = (Done st, Writer out None) ->
  exists fates, outcome dbg target 0 0 hs (Some fates) out /\ st = tally fates /\
    (st_failed st = 0 -> out = List.concat (settled target 0 hs fates)) /\
    (apart 0 hs fates -> edited target (replacements hs fates) (settled target 0 hs fates)) /\
    (behind_both hs \/ (behind_old hs /\ st_already st = 0 /\ st_already_fuzzy st = 0) -> apart 0 hs fates).
Proof.
  intros dbg hs target st out H1 H2 H3 H. destruct (p_C73_outcome dbg hs target H1 H2 H3) as (r & out' & HO & _ & HE).
  rewrite HE in H. destruct r as [fates|]; [|discriminate]. injection H as <- ->. exists fates. split; [exact HO|]. split; [reflexivity|].
  split; [exact (outcome_settled _ _ _ _ _ _ _ HO fates eq_refl)|]. split; [exact (outcome_edited _ _ _ _ _ _ _ HO H1 fates eq_refl)|].
  intros B. apply (apart_ordered _ _ _ _ _ _ _ HO H1); [apply Forall_forall; intros h _; lia|reflexivity|].
  destruct B as [B|(B & N1 & N2)]; [now left|right]. split; [exact B|]. cbn [tally st_already st_already_fuzzy] in N1, N2. unfold how_many in *.
  clear - N1 N2. induction fates as [|f fs IH]; [constructor|]. constructor.
  - intros (fz & sh & w & ->). destruct fz; [cbn in N2|cbn in N1]; discriminate.
  - apply IH; destruct f as [[]|[]| |]; cbn [filter List.length] in *; try discriminate; assumption.
Qed.
(* in reverse, with the hunks the other way round *)
Lemma p_C139_taken_reverse_partial : forall dbg hs target st out, Forall hunk_ok hs -> lines_fit hs -> fits_lines target ->
  text_apply_into dbg (map text_of_hunk hs) target true (Writer [] None) = (Done st, Writer out None) ->
  let hs' := map swap_hunk hs in
  exists fates, outcome dbg target 0 0 hs' (Some fates) out /\ st = tally fates /\
    (st_failed st = 0 -> out = List.concat (settled target 0 hs' fates)) /\
    (apart 0 hs' fates -> edited target (replacements hs' fates) (settled target 0 hs' fates)) /\
    (behind_both hs' \/ (behind_old hs' /\ st_already st = 0 /\ st_already_fuzzy st = 0) -> apart 0 hs' fates).
Proof.
  intros dbg hs target st out H1 H2 H3 H. rewrite reverse_apply in H. cbv zeta. apply p_C139_taken_partial; auto using hunks_ok_swap, lines_fit_swap.
Qed.
(* A diff made by the program: it is so whenever no clump is already there. *)
Lemma p_C139_diff_partial : forall dbg before after context hs target st out, context <= 255 -> fits_lines (before ++ after) -> fits_lines target ->
  text_diff_clumps before after context = Ok (map text_of_hunk hs) ->
  text_apply_into dbg (map text_of_hunk hs) target false (Writer [] None) = (Done st, Writer out None) ->
  st_already st = 0 -> st_already_fuzzy st = 0 ->
  exists fates, outcome dbg target 0 0 hs (Some fates) out /\ st = tally fates /\
    (st_failed st = 0 -> out = List.concat (settled target 0 hs fates)) /\ edited target (replacements hs fates) (settled target 0 hs fates).
Proof.
  intros dbg b a context hs target st out Hc Fba Ft E H N1 N2.
  assert (Fb : fits_lines b) by (unfold fits_lines, zlen in *; rewrite app_length in Fba; lia).
  assert (Fa : fits_lines a) by (unfold fits_lines, zlen in *; rewrite app_length in Fba; lia).
  destruct (diff_facts_hs b a context hs Hc Fb Fa E) as (cs & _ & Hcov & Hok & Hord).
  destruct (p_C139_taken_partial dbg hs target st out Hok (cover_lines_fit _ _ _ _ _ Fba Hcov) Ft H) as (fates & A & B & C & D & F).
  exists fates. split; [exact A|]. split; [exact B|]. split; [exact C|]. apply D, F. right. split; [|now split]. now apply ordered_behind.
Qed.
(* Bytes: false as well. *)
Lemma p_C139_bytes_refuted : exists before after clumps target, byte_diff_clumps before after 0 = Ok clumps /\
  before = list_byte_of_string "OxyRn" /\ after = list_byte_of_string "PQTRUxyZWn" /\ target = list_byte_of_string "PQTRUxyRn" /\
  forall dbg, byte_apply_into dbg clumps target false (Writer [] None) = (Done tt, Writer (list_byte_of_string "PQTRUZWyRn") None).
Proof.
  exists (list_byte_of_string "OxyRn"), (list_byte_of_string "PQTRUxyZWn"). eexists. exists (list_byte_of_string "PQTRUxyRn").
  split; [vr|]. do 3 (split; [reflexivity|]). intros dbg. destruct dbg; vr.
Qed.
(* What does hold, for every byte patch: if no hunk is found in a part that has been dealt with before,
   there is no panic and the bytes found are replaced and nothing else; it is so if the old bytes of every
   hunk begin behind the bytes of the earlier ones, or behind their old bytes and none is already there.
   Missing: other patches, as above. *)
Lemma p_C139_bytes_partial : forall dbg hs target, bytes_fit target hs ->
  (byte_apart target 0 hs -> exists out, edited target (byte_replacements target hs) out /\
    forall w, byte_apply_into dbg (map byte_of_hunk hs) target false w = delivered (Done tt) out w) /\
  (behind_both hs \/ (behind_old hs /\ Forall (fun h => matches_at target (h_old h) (h_b h) = true \/ matches_at target (h_new h) (h_a h) = false) hs) ->
    byte_apart target 0 hs).
Proof.
  intros dbg hs target F. split.
  - intros A. destruct (byte_outcome_edited target hs 0 A ltac:(lia)) as [O E]. exists (snd (byte_outcome target 0 hs)). split; [exact E|].
    intros w. rewrite (proj1 (p_C75_byte_outcome dbg hs target F)). destruct (byte_outcome target 0 hs) as [ok out]. cbn [fst snd] in *. now subst ok.
  - intros B. apply byte_apart_ordered; [apply Forall_forall; intros; lia|exact B].
Qed.
(* in reverse, with the hunks the other way round *)
Lemma p_C139_bytes_reverse_partial : forall dbg hs target, bytes_fit target hs -> let hs' := map swap_hunk hs in
  byte_apart target 0 hs' -> exists out, edited target (byte_replacements target hs') out /\
    forall w, byte_apply_into dbg (map byte_of_hunk hs) target true w = delivered (Done tt) out w.
Proof.
  intros dbg hs target F hs' A. destruct (byte_outcome_edited target hs' 0 A ltac:(lia)) as [O E]. exists (snd (byte_outcome target 0 hs')). split; [exact E|].
  intros w. rewrite (proj2 (p_C75_byte_outcome dbg hs target F)). fold hs'. destruct (byte_outcome target 0 hs') as [ok out]. cbn [fst snd] in *. now subst ok.
Qed.
(* two hunks: one placed three lines further down, one already there *)
Lemma e_C139_example :
  let hs := [Hunk 1 1 0 (L "A B C ") 0 (L "A X Y C "); Hunk 0 0 6 (L "G ") 7 (L "H ")] in
  let target := L "p q r A B C D E F H " in let fates := [Placed true 3 Cleanly; Seen true 2 Cleanly] in
  Forall hunk_ok hs /\ lines_fit hs /\ fits_lines target /\ behind_both hs /\
  text_apply_into true (map text_of_hunk hs) target false (Writer [] None) = (Done (Stats 0 1 0 1 0), Writer (bs "p q r A X Y C D E F H ") None) /\
  apart 0 hs fates /\ settled target 0 hs fates = L "p q r A X Y C D E F H " /\ replacements hs fates = [(L "A B C ", L "A X Y C ")] /\
  edited target (replacements hs fates) (settled target 0 hs fates).
Proof.
  cbv zeta. split; [repeat constructor; vm_compute; congruence|]. split; [vr|]. split; [vr|]. split; [cbn; repeat constructor; lia|]. split; [vr|].
  split; [vm_compute; lia|]. split; [vr|]. split; [vr|].
  apply (edited_same (L "p q r ")). apply (edited_replace (L "A B C ") (L "A X Y C ") (L "D E F H ") [] (L "D E F H ")). apply edited_nothing.
Qed.
(* bytes: one hunk replaced, one already there *)
Lemma e_C139_bytes_example :
  let hs := [Hunk 0 0 1 (list_byte_of_string "bc") 1 (list_byte_of_string "x"); Hunk 0 0 4 (list_byte_of_string "e") 3 (list_byte_of_string "d")] in
  let target := list_byte_of_string "abcdf" in
  bytes_fit target hs /\ behind_both hs /\ byte_apart target 0 hs /\ byte_replacements target hs = [(list_byte_of_string "bc", list_byte_of_string "x")] /\
  byte_apply_into true (map byte_of_hunk hs) target false (Writer [] None) = (Done tt, Writer (list_byte_of_string "axdf") None) /\
  edited target (byte_replacements target hs) (list_byte_of_string "axdf").
Proof.
  cbv zeta. split; [vr|]. split; [cbn; repeat constructor; lia|]. split; [vm_compute; lia|]. split; [vr|]. split; [vr|].
  apply (edited_same (list_byte_of_string "a")). apply (edited_replace (list_byte_of_string "bc") (list_byte_of_string "x") (list_byte_of_string "df") [] (list_byte_of_string "df")). apply edited_nothing.
Qed.

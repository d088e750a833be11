(* Proof_ReadConflict.v - reading the conflicts of a patched text (C135). *)
From Verif Require Import Base Model_Seq Model_Changes Model_IO Model_Text Model_Bytes Spec Spec_Outcome Spec_Result Spec_Conflict Proof_Seq Proof_Arith Proof_IO Proof_Result Proof_Conflicts.

Lemma marks_differ : mark x3c <> mark x3d /\ mark x3c <> mark x3e /\ mark x3d <> mark x3e.
Proof. repeat split; discriminate. Qed.
Lemma unmarked_not b l : In (mark b) marks -> Forall unmarked l -> ~ In (mark b) l.
Proof. intros Hm H Hi. rewrite Forall_forall in H. exact (H _ Hi Hm). Qed.
Lemma split_at_mark {A} (m : A) : forall l l' r r', ~ In m l -> ~ In m l' -> l ++ m :: r = l' ++ m :: r' -> l = l' /\ r = r'.
Proof.
  induction l as [|x l IH]; intros [|y l'] r r' H H' E; cbn [app] in E.
  - injection E as ->. now split.
  - injection E as -> E. destruct H'. now left.
  - injection E as <- E. destruct H. now left.
  - injection E as <- E. destruct (IH l' r r') as [-> ->]; [intros K; apply H; now right|intros K; apply H'; now right|assumption|now split].
Qed.
Lemma conflicted_unique ls cs rest : conflicted ls cs rest -> forall cs' rest', conflicted ls cs' rest' -> cs' = cs /\ rest' = rest.
Proof.
  induction 1 as [|l ls cs rest Hl H IH|old new ls cs rest Ho Hn H IH]; intros cs' rest' H'.
  - inversion H'; subst. now split.
  - inversion H' as [|l0 ls0 cs0 rest0 Hl0 K|old0 new0 ls0 cs0 rest0 Ho0 Hn0 K]; subst.
    + destruct (IH _ _ K) as [-> ->]. now split.
    + destruct Hl. now left.
  - inversion H' as [|l0 ls0 cs0 rest0 Hl0 K E1|old0 new0 ls0 cs0 rest0 Ho0 Hn0 K E]; subst; [destruct Hl0; now left|].
    apply split_at_mark in E as [-> E]; [|apply unmarked_not; [right; now left|assumption]..].
    apply split_at_mark in E as [-> ->]; [|apply unmarked_not; [right; right; now left|assumption]..].
    destruct (IH _ _ K) as [-> ->]. now split.
Qed.
Lemma conflicted_lines p ls cs rest : Forall unmarked p -> conflicted ls cs rest -> conflicted (p ++ ls) cs (p ++ rest).
Proof. intros H. induction H as [|l p Hl Hp IH]; intros K; cbn [app]; [assumption|]. constructor; auto. Qed.

Lemma clear_sub ls i j : clear ls -> clear (sub ls i j).
Proof. intros [H1 H2]. rewrite Forall_forall in *. split; apply Forall_forall; intros l Hl; apply in_sub in Hl; auto. Qed.
Lemma clear_skipn ls i : clear ls -> clear (skipn i ls).
Proof. intros [H1 H2]. rewrite <- (firstn_skipn i ls) in H1, H2. apply Forall_app in H1 as [_ H1]. apply Forall_app in H2 as [_ H2]. now split. Qed.
Lemma clear_written h w : clear (h_new h) -> clear (written h w).
Proof. intros H. destruct w; [assumption|]. now apply clear_sub. Qed.

Lemma read_outcome dbg target from offset hs r out : outcome dbg target from offset hs r out -> clear target ->
  Forall (fun h => clear (h_old h) /\ clear (h_new h)) hs -> forall fates, r = Some fates ->
  exists ls, out = concat ls /\ Forall full_line ls /\ conflicted ls (rejected hs fates) (settled target from hs fates) /\
    length (rejected hs fates) = st_failed (tally fates).
Proof.
  intros H Ht.
  induction H as [from offset Hf|from offset Hf|from offset h rest fuzzy shift w r out Hfate Hw Ho IH|from offset h rest fuzzy shift w Hfate Hw|from offset h rest fuzzy shift w r out Hfate Ho IH|from offset h rest r out Hfate Ho IH|from offset h rest Hfate]; intros Hh fates E; try discriminate.
  - injection E as <-. exists (skipn from target). destruct (clear_skipn _ from Ht) as [C1 C2]. split; [reflexivity|]. split; [assumption|]. split; [|reflexivity].
    cbn [rejected settled]. rewrite <- (app_nil_r (skipn from target)). apply conflicted_lines; [assumption|constructor].
  - destruct r as [fs|]; [|discriminate]. injection E as <-. inversion Hh as [|? ? [H1 H2] H3]; subst. destruct (IH H3 fs eq_refl) as (ls & -> & F & K & L).
    destruct (clear_sub _ from (kept_from (h_b h) shift w) Ht) as [C1 C2]. destruct (clear_written h w H2) as [D1 D2].
    exists (sub target from (kept_from (h_b h) shift w) ++ written h w ++ ls). split; [now rewrite !concat_app|]. split; [now rewrite !Forall_app|].
    split; [|exact L]. cbn [rejected settled]. now repeat apply conflicted_lines.
  - destruct r as [fs|]; [|discriminate]. injection E as <-. inversion Hh as [|? ? [H1 H2] H3]; subst. destruct (IH H3 fs eq_refl) as (ls & -> & F & K & L).
    destruct (clear_sub _ from (kept_from (h_a h) shift w + kept_count (h_new h) w) Ht) as [C1 C2].
    exists (sub target from (kept_from (h_a h) shift w + kept_count (h_new h) w) ++ ls). split; [now rewrite concat_app|]. split; [now rewrite Forall_app|].
    split; [|exact L]. cbn [rejected settled]. now apply conflicted_lines.
  - destruct r as [fs|]; [|discriminate]. injection E as <-. inversion Hh as [|? ? [[A1 A2] [B1 B2]] H3]; subst. destruct (IH H3 fs eq_refl) as (ls & -> & F & K & L).
    exists (mark x3c :: h_old h ++ mark x3d :: h_new h ++ mark x3e :: ls). split; [|split; [|split]].
    + rewrite conflict_block_lines, <- concat_app. unfold conflict_lines. cbn [app]. rewrite <- !app_assoc. cbn [app]. rewrite <- !app_assoc. reflexivity.
    + pose proof (full_conflict h A1 B1) as FC. unfold conflict_lines in FC.
      replace (mark x3c :: h_old h ++ mark x3d :: h_new h ++ mark x3e :: ls) with ((mark x3c :: h_old h ++ mark x3d :: h_new h ++ [mark x3e]) ++ ls); [now apply Forall_app|].
      cbn [app]. rewrite <- !app_assoc. cbn [app]. rewrite <- !app_assoc. reflexivity.
    + cbn [rejected settled]. now constructor.
    + cbn [rejected length tally st_failed] in *. rewrite L. reflexivity.
Qed.
Lemma read_none ls cs rest : conflicted ls cs rest -> (In (mark x3c) ls <-> cs <> []).
Proof.
  induction 1 as [|l ls cs rest Hl H IH|old new ls cs rest Ho Hn H IH].
  - split; [intros []|congruence].
  - rewrite <- IH. split; [|now right]. intros [->|K]; [destruct Hl; now left|assumption].
  - split; [discriminate|]. intros _. now left.
Qed.

(* Proof_Conflicts.v - where conflicts are written (C114). *)
From Verif Require Import Base Model_Seq Model_Changes Model_IO Model_Text Model_Bytes Spec Spec_Outcome Spec_Result Proof_Seq Proof_Arith Proof_IO Proof_Result.

Lemma conflict_block_lines h : conflict_block h = concat (conflict_lines h).
Proof.
  unfold conflict_block, conflict_lines, mark. cbn [concat]. rewrite concat_app. cbn [concat]. rewrite concat_app. cbn [concat].
  rewrite app_nil_r, <- !app_assoc. reflexivity.
Qed.
Lemma shown_pieces dbg target from offset hs r out : outcome dbg target from offset hs r out -> forall fates, r = Some fates ->
  exists pieces n, out = concat (concat pieces ++ skipn n target) /\ shown target hs fates pieces.
Proof.
  assert (S : forall a b l, In l (sub target a b) -> In l target) by (intros a b l; apply in_sub).
  induction 1 as [from offset Hf|from offset Hf|from offset h rest fuzzy shift w r out Hfate Hw Ho IH|from offset h rest fuzzy shift w Hfate Hw|from offset h rest fuzzy shift w r out Hfate Ho IH|from offset h rest r out Hfate Ho IH|from offset h rest Hfate]; intros fates E; try discriminate.
  - injection E as <-. exists [], from. split; [reflexivity|constructor].
  - destruct r as [fs|]; [|discriminate]. injection E as <-. destruct (IH fs eq_refl) as (ps & n & -> & Hs).
    exists ((sub target from (kept_from (h_b h) shift w) ++ written h w) :: ps), n. split.
    + cbn [concat]. rewrite !concat_app, <- !app_assoc. reflexivity.
    + constructor; [discriminate| |assumption]. apply Forall_app. split; apply Forall_forall; intros l Hl; [left; eapply S; eassumption|right].
      destruct w as [|p]; [assumption|]. eapply in_sub. exact Hl.
  - destruct r as [fs|]; [|discriminate]. injection E as <-. destruct (IH fs eq_refl) as (ps & n & -> & Hs).
    exists (sub target from (kept_from (h_a h) shift w + kept_count (h_new h) w) :: ps), n. split.
    + cbn [concat]. rewrite !concat_app, <- !app_assoc. reflexivity.
    + constructor; [discriminate| |assumption]. apply Forall_forall. intros l Hl. left. eapply S; eassumption.
  - destruct r as [fs|]; [|discriminate]. injection E as <-. destruct (IH fs eq_refl) as (ps & n & -> & Hs).
    exists (conflict_lines h :: ps), n. split; [|now constructor]. cbn [concat]. rewrite conflict_block_lines, !concat_app, <- !app_assoc. reflexivity.
Qed.
Lemma full_mark b : b <> newline -> full_line (mark b).
Proof.
  intros H. split; exists (repeat b 7); [|reflexivity]. split; [|now left]. intros Hi. apply repeat_spec in Hi. congruence.
Qed.
Lemma full_lines ls : Forall full_line ls -> lines_of (concat ls) ls.
Proof.
  intros H. split; [reflexivity|]. split; [eapply Forall_impl; [|exact H]; now intros l []|].
  intros pre l post -> _. apply Forall_app in H as [_ H]. inversion H as [|? ? [_ H1] _]; subst. exact H1.
Qed.
Lemma full_conflict h : Forall full_line (h_old h) -> Forall full_line (h_new h) -> Forall full_line (conflict_lines h).
Proof.
  intros H1 H2. unfold conflict_lines. constructor; [apply full_mark; discriminate|]. apply Forall_app. split; [assumption|].
  constructor; [apply full_mark; discriminate|]. apply Forall_app. split; [assumption|]. constructor; [apply full_mark; discriminate|constructor].
Qed.
Lemma full_pieces target hs fs ps : shown target hs fs ps -> Forall full_line target ->
  Forall (fun h => Forall full_line (h_old h) /\ Forall full_line (h_new h)) hs -> Forall full_line (concat ps).
Proof.
  intros H Ht. induction H as [|h hs fs ps _ IH|h hs f fs p ps _ Hp _ IH]; intros Hh; [constructor| |]; inversion Hh as [|? ? [H1 H2] H3]; subst; cbn [concat]; apply Forall_app; (split; [|now apply IH]).
  - now apply full_conflict.
  - rewrite Forall_forall in *. intros l Hl. destruct (Hp l Hl); auto.
Qed.

(* nothing but conflicts *)
Lemma all_rejected dbg target : forall hs fates out from offset, outcome dbg target from offset hs (Some fates) out ->
  st_failed (tally fates) = length hs -> out = concat (map (fun h => concat (conflict_lines h)) hs) ++ concat (skipn from target).
Proof.
  assert (B : forall fates hs out from offset, outcome dbg target from offset hs (Some fates) out -> length fates = length hs).
  { intros fates. induction fates as [|f fates IH]; intros hs out from offset H.
    - inversion H; subst; try reflexivity; destruct r; discriminate.
    - inversion H; subst; try discriminate; destruct r as [fs|]; try discriminate;
      match goal with E : option_map _ _ = _ |- _ => injection E as <- <- end; cbn [length]; f_equal; eapply IH; eassumption. }
  induction hs as [|h hs IH]; intros fates out from offset H Hn.
  - inversion H; subst. reflexivity.
  - assert (C : forall l, how_many (fun f => match f with Rejected => true | _ => false end) l <= length l).
    { intros l. unfold how_many. induction l as [|x l IHl]; [apply le_n|]. cbn. destruct x; cbn; lia. }
    inversion H; subst; destruct r as [fs|]; try discriminate; match goal with E : option_map _ _ = _ |- _ => injection E as <- end.
    + match goal with O : outcome _ _ _ _ hs _ _ |- _ => pose proof (B _ _ _ _ _ O) end. cbn in Hn. specialize (C fs). unfold how_many in *. lia.
    + match goal with O : outcome _ _ _ _ hs _ _ |- _ => pose proof (B _ _ _ _ _ O) end. cbn in Hn. specialize (C fs). unfold how_many in *. lia.
    + cbn [map concat]. rewrite conflict_block_lines, <- app_assoc. f_equal. eapply IH; [eassumption|]. cbn in Hn |- *. unfold how_many in *. lia.
Qed.

(* Proof_Seen.v - patches of which every clump is reported as already applied. *)
From Verif Require Import Base Model_Seq Model_Changes Model_IO Model_Text Model_Bytes Spec Spec_Outcome Proof_Seq Proof_IO Proof_Arith Proof_Text Proof_Apply Proof_Bytes Proof_Outcome.

Definition only_seen (l : list fate) : Prop := Forall (fun f => match f with Seen _ _ _ => True | _ => False end) l.
Lemma tally_seen l : ~ In Underflow l -> st_clean (tally l) = 0 -> st_fuzzy (tally l) = 0 -> st_failed (tally l) = 0 -> only_seen l.
Proof.
  induction l as [|f l IH]; intros HU H1 H2 H3; [constructor|]. cbn [tally st_clean st_fuzzy st_failed] in *. unfold how_many in *.
  destruct f as [[] s w|b s w| |]; cbn [filter length] in *; try discriminate; [|exfalso; apply HU; now left].
  constructor; [exact I|]. apply IH; auto. intros X. apply HU. now right.
Qed.
Lemma outcome_no_underflow dbg target n o hs r out : outcome dbg target n o hs r out -> forall l, r = Some l -> ~ In Underflow l.
Proof.
  induction 1; intros l E; try discriminate; try (injection E as <-; intros []);
    destruct r as [l'|]; try discriminate; injection E as <-; intros [X|X]; try discriminate; eapply IHoutcome; eauto.
Qed.
Lemma sub_then {T} (s : list T) a b : sub s a b ++ skipn (Nat.max a b) s = skipn a s.
Proof.
  destruct (Nat.le_gt_cases b a) as [H|H].
  - rewrite sub_empty by exact H. now rewrite Nat.max_l by exact H.
  - rewrite Nat.max_r by lia. apply sub_skipn. lia.
Qed.
Lemma outcome_seen_all dbg target n o hs r out : outcome dbg target n o hs r out -> forall l, r = Some l -> only_seen l -> out = concat (skipn n target).
Proof.
  induction 1; intros l E HS; try discriminate.
  - reflexivity.
  - destruct r as [l'|]; [|discriminate]. injection E as <-. destruct (Forall_inv HS).
  - destruct r as [l'|]; [|discriminate]. injection E as <-. inversion HS; subst. rewrite (IHoutcome l' eq_refl) by assumption. rewrite <- concat_app. now rewrite sub_then.
  - destruct r as [l'|]; [|discriminate]. injection E as <-. destruct (Forall_inv HS).
Qed.

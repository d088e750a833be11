(* Proof_Behind2.v - the outcome of applying a patch to a text with lines added behind it in which there is no place for the clumps (used by C134). *)
From Coq Require Import ZifyBool.
From Verif Require Import Base Model_Seq Model_Changes Model_IO Model_Text Spec Spec_Outcome Spec_Behind Proof_Seq Proof_Diff Proof_IO Proof_Arith Proof_Text Proof_Nearby Proof_Apply Proof_Fuzzy Proof_Outcome Proof_Result Proof_Behind.
Local Open Scope Z_scope.

Lemma sub_behind {T} (l m : list T) i j : (j <= length l)%nat -> sub (l ++ m) i j = sub l i j.
Proof.
  intros H. unfold sub. rewrite skipn_app, firstn_app, skipn_length. replace (j - i - (length l - i))%nat with 0%nat by lia. cbn [firstn]. apply app_nil_r.
Qed.
Lemma occurs_behind {T} (l m items : list T) pos : occurs_at l items pos -> occurs_at (l ++ m) items pos.
Proof.
  intros (p & -> & H & E). exists p. split; [reflexivity|]. rewrite app_length. split; [lia|]. now rewrite sub_behind.
Qed.
Lemma trimmed_0 {T} (h : hunk T) : trimmed h 0 = h_old h.
Proof. unfold trimmed, sub. cbn [Nat.min]. rewrite !Nat.sub_0_r. cbn [skipn]. apply firstn_all. Qed.
Lemma occurs_whole {T} (h : hunk T) t pos : occurs_trimmed h t pos 0 <-> occurs_at t (h_old h) pos.
Proof. unfold occurs_trimmed. rewrite trimmed_0. cbn [Nat.min]. now rewrite Z.add_0_r. Qed.

Section More.
  Variables target more : list line.

  (* lines that are not lines of the hunk leave no place for it *)
  Lemma foreign_no_place h : hunk_ok h -> (0 < h_lead h + h_trail h)%nat -> foreign more h -> no_place_in h target more.
  Proof.
    intros Hok C F pos k A (p & Hp & Hl & E). exists p. split; [assumption|].
    assert (L : (0 < length (trimmed h k))%nat).
    { rewrite trimmed_length by assumption. destruct Hok as (O1 & _). destruct A as [->|A]; lia. }
    destruct (Nat.leb_spec (p + length (trimmed h k)) (length target)) as [H|H]; [split; [lia|now rewrite sub_behind in E]|]. exfalso.
    rewrite app_length in Hl. set (t := trimmed h k) in *.
    assert (N : nth_error t (length t - 1) = nth_error (target ++ more) (p + (length t - 1))).
    { rewrite <- E at 1. unfold sub. rewrite nth_error_firstn, nth_error_skipn. destruct (Nat.ltb_spec (length t - 1) (p + length t - p)); [reflexivity|lia]. }
    rewrite nth_error_app2 in N by lia. destruct (nth_error more (p + (length t - 1) - length target)) as [x|] eqn:Ex.
    - destruct (F x (nth_error_In _ _ Ex)) as [F1 _]. apply F1. apply nth_error_In in N. now apply in_sub in N.
    - apply nth_error_None in Ex. lia.
  Qed.

  Lemma decision_more h pos r : no_place_in h target more -> decision h target pos r -> decision h (target ++ more) pos r.
  Proof.
    intros N D. assert (N0 : ~ occurs_at target (h_old h) pos -> ~ occurs_at (target ++ more) (h_old h) pos).
    { intros H H'. apply H. rewrite <- occurs_whole in H' |- *. apply N; [now left|assumption]. }
    inversion D as [H|k H K1 K2 K3 K4|H K]; subst.
    - constructor. now apply occurs_behind.
    - constructor; auto; [now apply occurs_behind|]. intros k' A B C. apply (K4 k' A B). apply N; [right; lia|assumption].
    - constructor; auto. intros k A B C. apply (K k A B). apply N; [now right|assumption].
  Qed.

  Definition longer (limit limit' : Z) (h : hunk line) : Prop := limit' = limit \/ (limit = zlen target - core_length h /\ limit <= limit').
  Lemma late_none h pos : hunk_ok h -> (0 < h_lead h + h_trail h)%nat -> zlen target - core_length h <= pos -> decision h target pos None.
  Proof.
    intros Hok C H. pose proof Hok as (O1 & _). constructor.
    - intros (p & -> & Hl & _). unfold core_length, zlen in H. lia.
    - intros k K1 K2 (p & Hp & Hl & _). rewrite trimmed_length in Hl by assumption. unfold core_length, zlen in H. lia.
  Qed.
  Lemma nearest_more h expected lowest limit limit' r : hunk_ok h -> (0 < h_lead h + h_trail h)%nat -> no_place_in h target more -> longer limit limit' h ->
    nearest h target expected lowest limit r -> nearest h (target ++ more) expected lowest limit' r.
  Proof.
    intros Hok C N Hl D.
    assert (W : forall e, in_window expected lowest limit e -> in_window expected lowest limit' e) by (unfold in_window; destruct Hl; intros; lia).
    assert (W' : forall e, in_window expected lowest limit' e -> in_window expected lowest limit e \/ decision h target (expected + e) None).
    { intros e He. destruct Hl as [->|[El Hl]]; [now left|]. destruct (Z.ltb_spec (expected + e) limit).
      - left. unfold in_window in *. lia.
      - destruct He as [He|He]; [left; left; lia|]. right. apply late_none; auto. lia. }
    inversion D as [d w H1 H2 H3|H3]; subst.
    - constructor; [auto|now apply decision_more|]. intros e He1 He2. apply decision_more; [assumption|]. destruct (W' e He1); [now apply H3|assumption].
    - constructor. intros e He. apply decision_more; [assumption|]. destruct (W' e He); [now apply H3|assumption].
  Qed.
  Lemma limit_longer h next o : longer (search_limit h target next o) (search_limit h (target ++ more) next o) h.
  Proof.
    destruct next; [now left|right]. cbn [search_limit]. split; [reflexivity|]. rewrite zlen_app. pose proof (zlen_pos more). lia.
  Qed.
  Lemma searchable_more dbg o h next : searchable dbg target o h next -> searchable dbg (target ++ more) o h next.
  Proof.
    unfold searchable, underflows. intros S D. specialize (S D). intros [U1 U2]. apply S. split; [assumption|].
    destruct (limit_longer h next o); lia.
  Qed.

  Lemma fate_more dbg h next n o f : hunk_ok h -> indifferent target more h -> fate_of dbg target h next n o f -> f <> Underflow -> fate_of dbg (target ++ more) h next n o f.
  Proof.
    intros Hok (C & N1 & N2) F U. pose proof (hunk_ok_swap _ Hok) as Hok'.
    assert (C' : (0 < h_lead (swap_hunk h) + h_trail (swap_hunk h))%nat) by exact C.
    assert (D1 : forall p r, decision h target p r -> decision h (target ++ more) p r) by (intros; now apply decision_more).
    assert (D2 : forall p r, decision (swap_hunk h) target p r -> decision (swap_hunk h) (target ++ more) p r) by (intros; now apply decision_more).
    assert (M1 : forall r, old_nearby target h next n o r -> old_nearby (target ++ more) h next n o r) by (intros r; apply nearest_more; auto; apply limit_longer).
    assert (M2 : forall r, new_nearby target h next n o r -> new_nearby (target ++ more) h next n o r) by (intros r; apply nearest_more; auto; apply limit_longer).
    inversion F; subst; try congruence; econstructor; eauto using searchable_more.
  Qed.

  Lemma skipn_behind {T} (l m : list T) n : (n <= length l)%nat -> skipn n (l ++ m) = skipn n l ++ m.
  Proof. intros H. rewrite skipn_app. now replace (n - length l)%nat with 0%nat by lia. Qed.

  Lemma outcome_more dbg n o hs r out : outcome dbg target n o hs r out -> Forall hunk_ok hs -> Forall (indifferent target more) hs ->
    forall l, r = Some l -> outcome dbg (target ++ more) n o hs (Some l) (out ++ concat more).
  Proof.
    induction 1 as [n o L|n o L|n o h hs f sh w r out F W H IH|n o h hs f sh w F W|n o h hs f sh w r out F H IH|n o h hs r out F H IH|n o h hs F];
      intros Hok Hi l El; try discriminate El.
    - injection El as <-. rewrite <- concat_app, <- skipn_behind by assumption. constructor. rewrite app_length. eapply Nat.le_trans; [exact L|apply Nat.le_add_r].
    - destruct r as [l'|]; [|discriminate El]. injection El as <-. inversion Hok as [|? ? Hok1 Hok2]; subst. inversion Hi as [|? ? Hi1 Hi2]; subst.
      pose proof (decision_kept target h _ w Hok1 (fate_placed _ _ _ _ _ _ _ _ _ F)) as (_ & _ & K1 & K2).
      rewrite <- !app_assoc, <- (sub_behind target more n (kept_from (h_b h) sh w)) by (unfold kept_from, zlen in *; lia).
      change (Some (Placed f sh w :: l')) with (option_map (cons (Placed f sh w)) (Some l')). constructor; auto.
      apply fate_more; auto. discriminate.
    - destruct r as [l'|]; [|discriminate El]. injection El as <-. inversion Hok as [|? ? Hok1 Hok2]; subst. inversion Hi as [|? ? Hi1 Hi2]; subst.
      pose proof (decision_kept target _ _ w (hunk_ok_swap _ Hok1) (fate_seen_at _ _ _ _ _ _ _ _ _ F)) as (_ & _ & K1 & K2). cbn [swap_hunk h_old] in K2.
      rewrite <- !app_assoc, <- (sub_behind target more n (kept_from (h_a h) sh w + kept_count (h_new h) w)) by (unfold kept_from, zlen in *; lia).
      change (Some (Seen f sh w :: l')) with (option_map (cons (Seen f sh w)) (Some l')). constructor; auto.
      apply fate_more; auto. discriminate.
    - destruct r as [l'|]; [|discriminate El]. injection El as <-. inversion Hok as [|? ? Hok1 Hok2]; subst. inversion Hi as [|? ? Hi1 Hi2]; subst.
      rewrite <- app_assoc. change (Some (Rejected :: l')) with (option_map (cons Rejected) (Some l')). constructor; auto.
      apply fate_more; auto. discriminate.
  Qed.
  Lemma all_seen_more dbg o hs r : all_seen dbg target o hs r -> Forall hunk_ok hs -> Forall (indifferent target more) hs -> forall b, r = Some b -> all_seen dbg (target ++ more) o hs (Some b).
  Proof.
    induction 1; intros Hok Hi b' Eb; try discriminate Eb; try (injection Eb as <-);
      try (inversion Hok as [|? ? Hok1 Hok2]; subst; inversion Hi as [|? ? (C & N1 & N2) Hi2]; subst).
    - constructor.
    - eapply all_seen_here; [apply decision_more; eassumption|auto].
    - eapply all_seen_near; [apply decision_more; eassumption|now apply searchable_more|eapply nearest_more; eauto using hunk_ok_swap, limit_longer|auto].
    - eapply all_seen_not; [apply decision_more; eassumption|now apply searchable_more|eapply nearest_more; eauto using hunk_ok_swap, limit_longer].
  Qed.
End More.

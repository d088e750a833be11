(* Proof_IO.v - reasoning about writers: every computation emits a fixed byte string,
   independent of how much room the writer has. *)
From Verif Require Import Base Model_Seq Model_IO.

Definition run_emit {A} (o : list byte) (r : ores A) (w : writer) : ores A * writer :=
  match w_room w with
  | None => (r, Writer (w_out w ++ o) None)
  | Some n => if length o <=? n then (r, Writer (w_out w ++ o) (Some (n - length o)))
              else (IoErr, Writer (w_out w ++ firstn n o) (Some 0))
  end.

(* [m] writes [o] and then ends in [r] (a value, a panic, ...), failing as soon as the
   writer does *)
Definition emits {A} (m : io A) (o : list byte) (r : ores A) : Prop :=
  r <> IoErr /\ forall w, m w = run_emit o r w.
Definition emitting {A} (m : io A) : Prop := exists o r, emits m o r.

Lemma emits_ret {A} (a : A) : emits (ret a) [] (Done a).
Proof.
  split; [discriminate|]. intros [out [n|]]; unfold run_emit, ret; simpl; rewrite app_nil_r; [|reflexivity].
  now rewrite Nat.sub_0_r.
Qed.
Definition ores_of {A} (m : res A) : ores A :=
  match m with Ok a => Done a | Panic => Panicked | OutOfFuel => NoFuel end.
Lemma emits_lift {A} (m : res A) : emits (lift m) [] (ores_of m).
Proof.
  split; [destruct m; discriminate|]. intros [out [n|]]; destruct m; unfold run_emit, lift; simpl; rewrite app_nil_r; try rewrite Nat.sub_0_r; reflexivity.
Qed.
Lemma emits_write_all bs : emits (write_all bs) bs (Done tt).
Proof. split; [discriminate|]. intros [out [n|]]; reflexivity. Qed.

Definition recast {A B} (r : ores A) : ores B :=
  match r with Done _ => IoErr | IoErr => IoErr | Panicked => Panicked | NoFuel => NoFuel end.

Lemma emits_bind {A B} (m : io A) (k : A -> io B) o1 a o2 r :
  emits m o1 (Done a) -> emits (k a) o2 r -> emits (iobind m k) (o1 ++ o2) r.
Proof.
  intros [_ H1] [Hr H2]. split; [assumption|]. intros w. unfold iobind. rewrite H1. unfold run_emit at 1.
  destruct w as [out [n|]]; cbn [w_out w_room].
  - unfold run_emit. cbn [w_out w_room]. rewrite app_length.
    destruct (Nat.leb_spec (length o1) n) as [L1|L1].
    + rewrite H2. unfold run_emit. cbn [w_out w_room].
      destruct (Nat.leb_spec (length o2) (n - length o1)) as [L2|L2];
      destruct (Nat.leb_spec (length o1 + length o2) n) as [L3|L3]; try lia.
      * rewrite app_assoc. f_equal. f_equal. f_equal. lia.
      * rewrite firstn_app, app_assoc. now rewrite (firstn_all2 o1) by lia.
    + destruct (Nat.leb_spec (length o1 + length o2) n) as [L3|L3]; [lia|].
      rewrite firstn_app. replace (n - length o1) with 0 by lia. simpl. now rewrite app_nil_r.
  - rewrite H2. unfold run_emit. cbn [w_out w_room]. now rewrite app_assoc.
Qed.
Lemma emits_bind_stop {A B} (m : io A) (k : A -> io B) o r :
  emits m o r -> (forall a, r <> Done a) -> emits (iobind m k) o (recast r).
Proof.
  intros [H0 H1] Hr. split; [destruct r; simpl; try congruence; exfalso; now eapply Hr|].
  intros w. unfold iobind. rewrite H1. unfold run_emit. destruct w as [out [n|]]; cbn [w_out w_room].
  - destruct (length o <=? n); [|reflexivity]. destruct r; try reflexivity; try congruence; exfalso; now eapply Hr.
  - destruct r; try reflexivity. exfalso; now eapply Hr.
Qed.
Lemma emitting_bind {A B} (m : io A) (k : A -> io B) : emitting m -> (forall a, emitting (k a)) -> emitting (iobind m k).
Proof.
  intros (o & r & H) Hk. destruct r as [a| | |].
  - destruct (Hk a) as (o2 & r2 & H2). exists (o ++ o2), r2. eapply emits_bind; eauto.
  - destruct H; congruence.
  - exists o, Panicked. eapply emits_bind_stop in H; [exact H|discriminate].
  - exists o, NoFuel. eapply emits_bind_stop in H; [exact H|discriminate].
Qed.
Lemma emitting_ret {A} (a : A) : emitting (ret a).
Proof. eexists; eexists; apply emits_ret. Qed.
Lemma emitting_lift {A} (m : res A) : emitting (lift m).
Proof. eexists; eexists; apply emits_lift. Qed.
Lemma emitting_write_all bs : emitting (write_all bs).
Proof. eexists; eexists; apply emits_write_all. Qed.

Lemma emits_lift_bind {A B} (m : res A) a (k : A -> io B) o r :
  m = Ok a -> emits (k a) o r -> emits (iobind (lift m) k) o r.
Proof. intros -> H. apply (emits_bind _ _ [] a o r); [exact (emits_lift (Ok a))|assumption]. Qed.

Lemma emits_unique {A} (m : io A) o1 r1 o2 r2 : emits m o1 r1 -> emits m o2 r2 -> o1 = o2 /\ r1 = r2.
Proof.
  intros [_ H1] [_ H2]. specialize (H1 (Writer [] None)). rewrite H2 in H1. unfold run_emit in H1. simpl in H1.
  injection H1 as -> ->. auto.
Qed.
Lemma emits_run {A} (m : io A) o r : emits m o r -> m (Writer [] None) = (r, Writer o None).
Proof. intros [_ H]. now rewrite H. Qed.
Lemma emits_of_run {A} (m : io A) o r w : emitting m -> m (Writer [] None) = (r, Writer o w) -> emits m o r.
Proof.
  intros (o' & r' & H) E. pose proof (emits_run _ _ _ H) as E'. rewrite E' in E. injection E as -> -> _. assumption.
Qed.

Lemma emits_write_lines ls : emits (write_lines ls) (concat ls) (Done tt).
Proof.
  induction ls as [|l ls IH]; simpl; [apply emits_ret|]. eapply emits_bind; [apply emits_write_all|assumption].
Qed.
Lemma emitting_write_lines ls : emitting (write_lines ls).
Proof. eexists; eexists; apply emits_write_lines. Qed.

Lemma iobind_ext {A B} (m m' : io A) (k k' : A -> io B) :
  (forall w, m w = m' w) -> (forall a w, k a w = k' a w) -> forall w, iobind m k w = iobind m' k' w.
Proof. intros H1 H2 w. unfold iobind. rewrite H1. destruct (m' w) as [[a| | |] w']; auto. Qed.

Section ConsumableEmits.
  Context {T : Type} (write_items : list T -> io unit) (bytes_of : list T -> list byte).
  Hypothesis Hw : forall l, emits (write_items l) (bytes_of l) (Done tt).
  Variable dbg : bool.
  Variable s : list T.

  Lemma emitting_seq_write_into a b : emitting (seq_write_into write_items dbg s a b).
  Proof.
    unfold seq_write_into. apply emitting_bind; [apply emitting_lift|]. intros _.
    apply emitting_bind; [apply emitting_lift|]. intros l. eexists; eexists; apply Hw.
  Qed.
  Lemma emitting_write_into_upto c u : emitting (write_into_upto write_items dbg s c u).
  Proof.
    unfold write_into_upto. apply emitting_bind; [apply emitting_lift|]. intros _.
    destruct (c <? u)%Z; [|apply emitting_ret]. apply emitting_bind; [apply emitting_seq_write_into|]. intros _. apply emitting_ret.
  Qed.
  Lemma emitting_write_remainder c : emitting (write_remainder write_items dbg s c).
  Proof. unfold write_remainder. apply emitting_bind; [apply emitting_seq_write_into|]. intros _. apply emitting_ret. Qed.

  Lemma zslice_ok a b : a <= b -> b <= length s ->
    zslice s (Z.of_nat a) (Z.of_nat b) = Ok (firstn (b - a) (skipn a s)).
  Proof.
    intros H1 H2. unfold zslice, zlen.
    replace ((0 <=? Z.of_nat a)%Z && (Z.of_nat a <=? Z.of_nat b)%Z && (Z.of_nat b <=? Z.of_nat (length s))%Z) with true.
    - rewrite <- Nat2Z.inj_sub by assumption. now rewrite !Nat2Z.id.
    - symmetry. rewrite !andb_true_iff, !Z.leb_le. lia.
  Qed.
  Lemma debug_assert_ok c : c = true -> debug_assert dbg c = Ok tt.
  Proof. intros ->. unfold debug_assert. simpl. now rewrite andb_false_r. Qed.

  Lemma emits_seq_write_into a b : a <= b -> b <= length s ->
    emits (seq_write_into write_items dbg s (Z.of_nat a) (Z.of_nat b)) (bytes_of (firstn (b - a) (skipn a s))) (Done tt).
  Proof.
    intros H1 H2. unfold seq_write_into. eapply emits_lift_bind.
    - apply debug_assert_ok. rewrite andb_true_iff, !Z.leb_le. unfold zlen. lia.
    - eapply emits_lift_bind; [now apply zslice_ok|]. apply Hw.
  Qed.
  Lemma emits_write_into_upto a b : bytes_of [] = [] -> a <= b -> b <= length s ->
    emits (write_into_upto write_items dbg s (Z.of_nat a) (Z.of_nat b)) (bytes_of (firstn (b - a) (skipn a s))) (Done (Z.of_nat b)).
  Proof.
    intros H0 H1 H2. unfold write_into_upto. eapply emits_lift_bind.
    - apply debug_assert_ok. rewrite Z.leb_le. unfold zlen. lia.
    - destruct (Z.ltb_spec (Z.of_nat a) (Z.of_nat b)) as [H|H].
      + rewrite <- (app_nil_r (bytes_of _)). eapply emits_bind; [now apply emits_seq_write_into|apply emits_ret].
      + assert (a = b) by lia. subst. rewrite Nat.sub_diag. simpl. rewrite H0. apply emits_ret.
  Qed.
  Lemma emits_write_remainder a : a <= length s ->
    emits (write_remainder write_items dbg s (Z.of_nat a)) (bytes_of (skipn a s)) (Done (zlen s)).
  Proof.
    intros H. unfold write_remainder. rewrite <- (app_nil_r (bytes_of _)).
    eapply emits_bind; [|apply emits_ret]. unfold zlen.
    replace (skipn a s) with (firstn (length s - a) (skipn a s)); [now apply emits_seq_write_into|].
    apply firstn_all2. rewrite skipn_length. lia.
  Qed.
End ConsumableEmits.

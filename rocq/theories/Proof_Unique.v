(* Proof_Unique.v - there is only one tree a diff is saved as (C80). *)
From Coq Require Import ZifyBool.
From Verif Require Import Base Model_Seq Model_Changes Model_IO Model_Text Model_Bytes Model_Json Spec Spec_Json Proof_Grammar.
Local Open Scope Z_scope.

Definition single {A} (P : A -> Prop) : Prop := forall x y, P x -> P y -> x = y.

Definition digit_value (b : byte) : Z := Z.of_N (Byte.to_N b) - 48.
Definition dvalue (a : Z) (s : list byte) : Z := fold_left (fun a b => 10 * a + (Z.of_N (Byte.to_N b) - 48)) s a.
Lemma digit_range b : decimal_digit b -> 0 <= digit_value b < 10.
Proof. unfold decimal_digit, digit_value. destruct b; cbn; lia. Qed.
Lemma digit_value_inj b c : digit_value b = digit_value c -> b = c.
Proof.
  unfold digit_value. intros H. assert (E : Byte.to_N b = Byte.to_N c) by lia.
  apply (f_equal Byte.of_N) in E. rewrite !Byte.of_to_N in E. now injection E.
Qed.
Lemma dvalue_acc s : forall a, dvalue a s = a * 10 ^ zlen s + dvalue 0 s.
Proof.
  induction s as [|b s IH]; intros a; [cbn; lia|]. unfold dvalue. cbn [fold_left]. fold (dvalue (10 * a + (Z.of_N (Byte.to_N b) - 48)) s) (dvalue (10 * 0 + (Z.of_N (Byte.to_N b) - 48)) s).
  rewrite (IH (10 * a + _)), (IH (10 * 0 + _)). unfold zlen. cbn [length]. rewrite Nat2Z.inj_succ, Z.pow_succ_r by lia. ring.
Qed.
Lemma dvalue_cons b s : dvalue 0 (b :: s) = digit_value b * 10 ^ zlen s + dvalue 0 s.
Proof. change (dvalue 0 (b :: s)) with (dvalue (10 * 0 + digit_value b) s). rewrite dvalue_acc. ring. Qed.
Lemma dvalue_range s : Forall decimal_digit s -> 0 <= dvalue 0 s < 10 ^ zlen s.
Proof.
  induction 1 as [|b s H _ IH]; [cbn; lia|]. rewrite dvalue_cons. apply digit_range in H.
  replace (zlen (b :: s)) with (Z.succ (zlen s)) by (unfold zlen; cbn [length]; lia). rewrite Z.pow_succ_r by (unfold zlen; lia). nia.
Qed.
Lemma dvalue_inj s : forall t, length s = length t -> Forall decimal_digit s -> Forall decimal_digit t -> dvalue 0 s = dvalue 0 t -> s = t.
Proof.
  induction s as [|b s IH]; intros [|c t] L Hs Ht E; try discriminate; [reflexivity|]. injection L as L.
  inversion_clear Hs as [|? ? S1 S2]. inversion_clear Ht as [|? ? T1 T2]. rewrite !dvalue_cons in E.
  assert (Z.of_nat (length s) = Z.of_nat (length t)) as EL by lia. unfold zlen in E. rewrite EL in E. fold (zlen t) in E.
  pose proof (dvalue_range s S2) as R1. pose proof (dvalue_range t T2) as R2. unfold zlen in R1. rewrite EL in R1. fold (zlen t) in R1.
  assert (digit_value b = digit_value c) as Q by nia. f_equal; [now apply digit_value_inj|]. apply IH; auto. rewrite Q in E. lia.
Qed.
Lemma integer_inj s t : integer_form s -> integer_form t -> dvalue 0 s = dvalue 0 t -> s = t.
Proof.
  assert (K : forall b ds, decimal_digit b -> b <> x30 -> Forall decimal_digit ds -> 10 ^ zlen ds <= dvalue 0 (b :: ds) < 10 ^ Z.succ (zlen ds)).
  { intros b ds H1 H2 H3. pose proof (dvalue_range ds H3). pose proof (dvalue_range (b :: ds) (Forall_cons _ H1 H3)) as R.
    replace (zlen (b :: ds)) with (Z.succ (zlen ds)) in R by (unfold zlen; cbn [length]; lia). split; [|lia]. rewrite dvalue_cons.
    assert (digit_value b <> 0) by (intros Q; apply H2, digit_value_inj; rewrite Q; reflexivity). pose proof (digit_range b H1). nia. }
  intros H1 H2 E. apply integer_cases in H1, H2.
  destruct H1 as [->|(b & ds & -> & B1 & B2 & B3)]; destruct H2 as [->|(c & es & -> & C1 & C2 & C3)].
  - reflexivity.
  - pose proof (K c es C1 C2 C3). assert (0 < 10 ^ zlen es) by (apply Z.pow_pos_nonneg; unfold zlen; lia). change (dvalue 0 [x30]) with 0 in E. lia.
  - pose proof (K b ds B1 B2 B3). assert (0 < 10 ^ zlen ds) by (apply Z.pow_pos_nonneg; unfold zlen; lia). change (dvalue 0 [x30]) with 0 in E. lia.
  - pose proof (K b ds B1 B2 B3) as K1. pose proof (K c es C1 C2 C3) as K2. rewrite E in K1.
    assert (zlen ds < Z.succ (zlen es)) by (apply (Z.pow_lt_mono_r_iff 10); unfold zlen in *; lia).
    assert (zlen es < Z.succ (zlen ds)) by (apply (Z.pow_lt_mono_r_iff 10); unfold zlen in *; lia).
    apply dvalue_inj; [unfold zlen in *; cbn [length]; lia|constructor; assumption..|exact E].
Qed.

Lemma single_number max z : single (number max z).
Proof. intros x y (s & -> & H1 & H2 & _) (t & -> & H3 & H4 & _). f_equal. apply integer_inj; auto. unfold dvalue. congruence. Qed.
Lemma single_text t : single (exact_text t).
Proof. intros x y -> ->. reflexivity. Qed.
Lemma single_boolean b : single (boolean b).
Proof. intros x y -> ->. reflexivity. Qed.
Lemma single_two P Q : single P -> single Q -> single (two P Q).
Proof. intros HP HQ x y (a & b & -> & A & B) (c & d & -> & C & D). now rewrite (HP _ _ A C), (HQ _ _ B D). Qed.
Lemma single_forall2 {A B} (P : A -> B -> Prop) l : (forall a, In a l -> single (P a)) -> single (Forall2 P l).
Proof.
  induction l as [|a l IH]; intros HP x y H1 H2; inversion H1 as [|? ? ? ? A1 A2]; inversion H2 as [|? ? ? ? B1 B2]; subst; [reflexivity|].
  f_equal; [exact (HP a (or_introl eq_refl) _ _ A1 B1)|]. apply IH; auto. intros b Hb. apply HP. now right.
Qed.
Lemma single_array {A} (P : A -> json -> Prop) l : (forall a, single (P a)) -> single (array P l).
Proof. intros HP x y (js & -> & H1) (ks & -> & H2). f_equal. apply (single_forall2 P l); auto. Qed.
Lemma single_record fields : Forall (fun f => single (snd f)) fields -> single (exact_record fields).
Proof.
  intros HP x y (js & -> & H1) (ks & -> & H2). rewrite Forall_forall in HP.
  rewrite (single_forall2 (fun f x => snd f x) fields HP js ks H1 H2). reflexivity.
Qed.
Ltac singles := repeat first [ apply single_number | apply single_text | apply single_boolean | apply single_two
  | apply single_array; intros ? | apply single_record | apply Forall_cons; cbn [snd] | apply Forall_nil ].
Theorem saved_json_single d : single (saved_json d).
Proof.
  unfold saved_json, diff_form, exact_variant, lines_form, bytes_form, text_clump_form, byte_clump_form, snippet_form, one_byte.
  destruct d; singles.
Qed.

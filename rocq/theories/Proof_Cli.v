(* Proof_Cli.v - the command lines accepted by the model of clap are those of the grammar. *)
From Coq Require Import ZifyBool String.
From Verif Require Import Base Model_Seq Model_Changes Model_IO Model_Text Model_Bytes Model_Json Model_Files Model_Log Model_Cli Spec_Cli.

(* ------------------------------------------------------------------ *)
(* Numbers                                                             *)
(* ------------------------------------------------------------------ *)
Definition dig (b : byte) : option nat := if (48 <=? Byte.to_nat b) && (Byte.to_nat b <=? 57) then Some (Byte.to_nat b - 48) else None.
Lemma digit_dig b : digit_of b = match dig b with Some d => Some (Z.of_nat d) | None => None end.
Proof. destruct b; reflexivity. Qed.
Lemma dig_spec b d : dig b = Some d <-> d <= 9 /\ Byte.to_nat b = 48 + d.
Proof.
  unfold dig. destruct (Nat.leb_spec 48 (Byte.to_nat b)), (Nat.leb_spec (Byte.to_nat b) 57); cbn [andb]; split.
  all: try (intros [= <-]; lia). all: try (intros [? ?]; try f_equal; lia). all: discriminate.
Qed.
Fixpoint value (acc : nat) (s : list byte) : option nat :=
  match s with
  | [] => Some acc
  | b :: s' => match dig b with Some d => value (10 * acc + d) s' | None => None end
  end.
Lemma value_snoc s : forall acc b, value acc (s ++ [b]) = match value acc s, dig b with Some n, Some d => Some (10 * n + d) | _, _ => None end.
Proof.
  induction s as [|x s IH]; intros acc b; cbn [app value]; [reflexivity|]. destruct (dig x); [apply IH|reflexivity].
Qed.
Lemma value_le s : forall acc n, value acc s = Some n -> acc <= n.
Proof.
  induction s as [|b s IH]; cbn; intros acc n H; [injection H; lia|]. destruct (dig b); [|discriminate]. apply IH in H. lia.
Qed.
Lemma decimal_value s n : decimal s n <-> s <> [] /\ value 0 s = Some n.
Proof.
  split.
  - induction 1 as [b d Hd Hb|s n b d _ [_ IH] Hd Hb].
    + split; [discriminate|]. cbn [value]. now rewrite (proj2 (dig_spec b d)).
    + split; [now destruct s|]. rewrite value_snoc, IH. now rewrite (proj2 (dig_spec b d)).
  - intros [Hs H]. revert n H. induction s as [|b s IH] using rev_ind; [contradiction|]. intros n H. rewrite value_snoc in H.
    destruct (value 0 s) as [k|] eqn:Hk; [|discriminate]. destruct (dig b) as [d|] eqn:Hd; [|discriminate]. injection H as <-.
    apply dig_spec in Hd as [? ?]. destruct s as [|x s].
    + cbn in Hk. injection Hk as <-. cbn [app]. now apply decimal_one.
    + apply decimal_more; [|assumption..]. apply IH; [discriminate|reflexivity].
Qed.
Lemma pos_digits s : forall acc n, n <= 255 ->
  i64_digits false (Z.of_nat acc) s = Some (Z.of_nat n) <-> value acc s = Some n.
Proof.
  induction s as [|b s IH]; intros acc n Hn; cbn [i64_digits value].
  - split; intros [= H]; f_equal; lia.
  - rewrite digit_dig. destruct (dig b) as [d|]; [|now split].
    replace (Z.of_nat acc * 10 + Z.of_nat d)%Z with (Z.of_nat (10 * acc + d)) by lia.
    destruct (_ && _)%bool eqn:E; [now apply IH|]. split; [discriminate|]. intros H. apply value_le in H.
    unfold i64_max in E. lia.
Qed.
Lemma pos_nonneg s : forall acc r, i64_digits false (Z.of_nat acc) s = Some r -> (0 <= r)%Z.
Proof.
  induction s as [|b s IH]; intros acc r; cbn [i64_digits]; [intros [= <-]; lia|].
  rewrite digit_dig. destruct (dig b) as [d|]; [|discriminate].
  replace (Z.of_nat acc * 10 + Z.of_nat d)%Z with (Z.of_nat (10 * acc + d)) by lia. destruct (_ && _)%bool; [apply IH|discriminate].
Qed.
Lemma neg_digits s : forall acc, (exists r, (0 <= r)%Z /\ i64_digits true (- Z.of_nat acc) s = Some r) <-> value acc s = Some 0.
Proof.
  induction s as [|b s IH]; intros acc; cbn [i64_digits value].
  - split; [intros (r & Hr & [= <-]); f_equal; lia|]. intros [= ->]. exists 0%Z. now split.
  - rewrite digit_dig. destruct (dig b) as [d|]; [|split; [now intros (r & _ & [=])|discriminate]].
    replace (- Z.of_nat acc * 10 - Z.of_nat d)%Z with (- Z.of_nat (10 * acc + d))%Z by lia.
    destruct (_ && _)%bool eqn:E; [apply IH|]. split; [now intros (r & _ & [=])|]. intros H. apply value_le in H. unfold i64_max in E. lia.
Qed.
Lemma neg_le s : forall acc r, i64_digits true (- Z.of_nat acc) s = Some r -> (r <= 0)%Z.
Proof.
  induction s as [|b s IH]; intros acc r; cbn [i64_digits]; [intros [= <-]; lia|].
  rewrite digit_dig. destruct (dig b) as [d|]; [|discriminate].
  replace (- Z.of_nat acc * 10 - Z.of_nat d)%Z with (- Z.of_nat (10 * acc + d))%Z by lia. destruct (_ && _)%bool; [apply IH|discriminate].
Qed.
Lemma value_no_sign b s n : value 0 (b :: s) = Some n -> Byte.eqb b x2b = false /\ Byte.eqb b x2d = false.
Proof. cbn [value]. destruct (dig b) eqn:E; [|discriminate]. intros _. now destruct b. Qed.
Lemma byte_eqb b b' : Byte.eqb b b' = true <-> b = b'.
Proof. split; [apply Byte.byte_dec_bl|apply Byte.byte_dec_lb]. Qed.
Lemma u8_value_spec s n : u8_value s = Some n <-> amount s n.
Proof.
  assert (P : forall s, (exists r, (0 <= r <= 255)%Z /\ i64_digits false 0 s = Some r /\ Z.to_nat r = n) <-> value 0 s = Some n /\ n <= 255).
  { intros t. split.
    - intros (r & Hr & Ht & <-). split; [|lia]. apply pos_digits; [lia|]. change (Z.of_nat 0) with 0%Z. rewrite Ht. f_equal. lia.
    - intros [Ht Hn]. exists (Z.of_nat n). split; [lia|]. split; [now apply (pos_digits t 0)|lia]. }
  assert (Q : u8_value s = Some n <-> exists r, (0 <= r <= 255)%Z /\ i64_from_str s = Some r /\ Z.to_nat r = n).
  { unfold u8_value. destruct (i64_from_str s) as [r|]; [|split; [discriminate|now intros (r & _ & [=] & _)]].
    destruct (_ && _)%bool eqn:E; split.
    - intros [= <-]. exists r. repeat split; lia.
    - intros (r' & _ & [= <-] & <-). reflexivity.
    - discriminate.
    - intros (r' & Hr & [= <-] & _). lia. }
  rewrite Q. clear Q. split.
  - intros (r & Hr & H & Hn). destruct s as [|b s]; [discriminate|]. cbn [i64_from_str] in H.
    destruct (Byte.eqb b x2b) eqn:E1; [apply byte_eqb in E1 as ->|destruct (Byte.eqb b x2d) eqn:E2; [apply byte_eqb in E2 as ->|]].
    + destruct s as [|b s]; [discriminate|]. destruct (proj1 (P (b :: s))) as [Hv Hn']; [now exists r|].
      apply (amount_plus (b :: s)); [|assumption]. apply decimal_value. now split.
    + destruct s as [|b s]; [discriminate|]. pose proof (neg_le (b :: s) 0 r H). assert (n = 0) as -> by lia.
      apply (amount_minus (b :: s)). apply decimal_value. split; [discriminate|]. apply neg_digits. exists r. split; [lia|exact H].
    + destruct (proj1 (P (b :: s))) as [Hv Hn']; [now exists r|]. apply amount_plain; [|assumption]. apply decimal_value. now split.
  - intros H. destruct H as [s n H Hn|s n H Hn|s H]; apply decimal_value in H as [Hs H].
    + destruct (proj2 (P s)) as (r & Hr & H' & Hn'); [now split|]. exists r. split; [assumption|]. split; [|assumption].
      destruct s as [|b s]; [contradiction|]. apply value_no_sign in H as [E1 E2]. unfold i64_from_str. now rewrite E1, E2.
    + destruct (proj2 (P s)) as (r & Hr & H' & Hn'); [now split|]. exists r. split; [assumption|]. split; [|assumption]. now destruct s.
    + apply neg_digits in H as (r & Hr & H). pose proof (neg_le s 0 r H). exists r. split; [lia|]. split; [|lia]. now destruct s.
Qed.

(* ------------------------------------------------------------------ *)
(* Arguments                                                           *)
(* ------------------------------------------------------------------ *)
Lemma kind_end a : kind_of a = KEnd <-> a = word "--".
Proof.
  split; [|now intros ->]. destruct a as [|b [|b' s]]; cbn [kind_of]; try discriminate.
  destruct (Byte.eqb b x2d) eqn:E; [|discriminate]. destruct (Byte.eqb b' x2d) eqn:E'; [|discriminate]. destruct s; [|discriminate].
  apply byte_eqb in E as ->. now apply byte_eqb in E' as ->.
Qed.
Lemma kind_name a s : kind_of a = KName s <-> s <> [] /\ a = word "--" ++ s.
Proof.
  split.
  - destruct a as [|b [|b' t]]; cbn [kind_of]; try discriminate.
    destruct (Byte.eqb b x2d) eqn:E; [|discriminate]. destruct (Byte.eqb b' x2d) eqn:E'; [|discriminate]. destruct t; [discriminate|].
    intros [= <-]. split; [discriminate|]. apply byte_eqb in E as ->. now apply byte_eqb in E' as ->.
  - intros [Hs ->]. now destruct s.
Qed.
Lemma kind_letters a s : kind_of a = KLetters s <-> (exists b t, s = b :: t /\ b <> x2d) /\ a = word "-" ++ s.
Proof.
  split.
  - destruct a as [|b [|b' t]]; cbn [kind_of]; try discriminate.
    destruct (Byte.eqb b x2d) eqn:E; [|discriminate]. destruct (Byte.eqb b' x2d) eqn:E'; [destruct t; discriminate|].
    intros [= <-]. split; [exists b', t; split; [reflexivity|now intros ->]|]. now apply byte_eqb in E as ->.
  - intros [(b & t & -> & Hb) ->]. cbn. destruct (Byte.eqb b x2d) eqn:E; [now apply byte_eqb in E|reflexivity].
Qed.
Lemma kind_other a : a <> [] -> kind_of a = KOther <-> plain a.
Proof.
  intros Ha. split.
  - destruct a as [|b t]; [contradiction|]. intros H. destruct (Byte.eqb b x2d) eqn:E.
    + destruct t as [|b' t]; [left; now apply byte_eqb in E as ->|]. cbn [kind_of] in H. rewrite E in H. destruct (Byte.eqb b' x2d), t; discriminate.
    + right. split; [discriminate|]. intros s [= -> _]. discriminate.
  - intros [->|[_ H]]; [reflexivity|]. destruct a as [|b [|b' t]]; [contradiction|reflexivity|]. cbn [kind_of].
    destruct (Byte.eqb b x2d) eqn:E; [|reflexivity]. apply byte_eqb in E as ->. now destruct (H (b' :: t)).
Qed.
Lemma plain_nonempty a : plain a -> a <> [].
Proof. intros [->|[H _]]; [discriminate|assumption]. Qed.
Lemma plain_other a : plain a -> kind_of a = KOther.
Proof. intros H. apply kind_other; [now apply plain_nonempty|assumption]. Qed.

Lemma at_equals_none s n : at_equals s = (n, None) -> s = n /\ ~ In x3d n.
Proof.
  revert n. induction s as [|b s IH]; cbn [at_equals]; intros n H; [injection H as <-; now split|].
  destruct (Byte.eqb b x3d) eqn:E; [discriminate|]. destruct (at_equals s) as [n' v]. injection H as <- ->.
  destruct (IH n' eq_refl) as [-> Hn]. split; [reflexivity|]. intros [->|H]; [discriminate|contradiction].
Qed.
Lemma at_equals_some s n v : at_equals s = (n, Some v) -> s = n ++ x3d :: v.
Proof.
  revert n. induction s as [|b s IH]; cbn [at_equals]; intros n H; [discriminate|].
  destruct (Byte.eqb b x3d) eqn:E; [injection H as <- <-; now apply byte_eqb in E as ->|].
  destruct (at_equals s) as [n' v']. injection H as <- ->. cbn. now rewrite (IH n' eq_refl).
Qed.
Lemma at_equals_word n : ~ In x3d n -> at_equals n = (n, None).
Proof.
  induction n as [|b n IH]; intros H; cbn [at_equals]; [reflexivity|].
  destruct (Byte.eqb b x3d) eqn:E; [apply byte_eqb in E as ->; destruct H; now left|]. rewrite IH; [reflexivity|]. intros K. apply H. now right.
Qed.

(* ------------------------------------------------------------------ *)
(* Meaning                                                             *)
(* ------------------------------------------------------------------ *)
Definition add (c : command) (i : item) (m : found) : parsed found :=
  match i with
  | Verbose => see_flag OVerbose m
  | Reverse => see_flag OReverse m
  | Context n => match f_context m with None => Run (Found (f_verbose m) (f_reverse m) (Some n) (f_paths m)) | Some _ => Usage end
  | Path p => if length (f_paths m) <? c_paths c then Run (Found (f_verbose m) (f_reverse m) (f_context m) (f_paths m ++ [p])) else Usage
  end.
Fixpoint add_all (c : command) (is : list item) (m : found) : parsed found :=
  match is with [] => Run m | i :: is' => pthen (add c i m) (add_all c is') end.
Lemma pthen_assoc {A B C} (m : parsed A) (f : A -> parsed B) (g : B -> parsed C) : pthen (pthen m f) g = pthen m (fun a => pthen (f a) g).
Proof. now destruct m. Qed.
Lemma pthen_ext {A B} (m : parsed A) (f g : A -> parsed B) : (forall a, f a = g a) -> pthen m f = pthen m g.
Proof. intros H. destruct m; cbn; auto. Qed.
Lemma pthen_run {A B} (m : parsed A) (k : A -> parsed B) b : pthen m k = Run b -> exists a, m = Run a /\ k a = Run b.
Proof. destruct m; cbn; [eauto|discriminate..]. Qed.
Lemma pthen_help {A B} (m : parsed A) (k : A -> parsed B) : pthen m k = Help -> m = Help \/ exists a, m = Run a /\ k a = Help.
Proof. destruct m; cbn; [eauto|auto|discriminate]. Qed.
Lemma add_all_app c is is' m : add_all c (is ++ is') m = pthen (add_all c is m) (add_all c is').
Proof.
  revert m. induction is as [|i is IH]; intros m; cbn [app add_all pthen]; [reflexivity|]. rewrite pthen_assoc. apply pthen_ext. exact IH.
Qed.
Lemma add_no_help c i m : add c i m <> Help.
Proof. destruct i; cbn [add see_flag]; [discriminate|now destruct (f_reverse m)|now destruct (f_context m)|now destruct (_ <? _)]. Qed.
Lemma add_all_no_help c is m : add_all c is m <> Help.
Proof.
  revert m. induction is as [|i is IH]; intros m; cbn [add_all]; [discriminate|]. intros H. apply pthen_help in H as [H|(a & _ & H)]; [now apply add_no_help in H|now apply IH in H].
Qed.
Lemma see_path_add c p m : p <> [] -> see_path c p m = add c (Path p) m.
Proof. now destruct p. Qed.
Lemma see_context_add c v n m : amount v n -> see_context v m = add c (Context n) m.
Proof. intros H. apply u8_value_spec in H. unfold see_context. rewrite H. cbn. now destruct (f_context m). Qed.
Lemma see_context_run c v m m' : see_context v m = Run m' -> exists n, amount v n /\ add c (Context n) m = Run m'.
Proof.
  unfold see_context. destruct (f_context m) eqn:E; [discriminate|]. destruct (u8_value v) as [n|] eqn:Ev; [|discriminate].
  intros H. exists n. split; [now apply u8_value_spec|]. cbn. now rewrite E.
Qed.
Lemma see_context_no_help v m : see_context v m <> Help.
Proof. unfold see_context. now destruct (f_context m), (u8_value v). Qed.

(* ------------------------------------------------------------------ *)
(* Grammar                                                             *)
(* ------------------------------------------------------------------ *)
Section Grammar.
  Variable c : command.
  Variable flag : byte -> string -> item -> Prop.
  Variable has_context : Prop.
  Definition item_of (o : option_id) : option item := match o with OVerbose => Some Verbose | OReverse => Some Reverse | _ => None end.
  Hypothesis letter_sound : forall b o, by_letter c b = Some o ->
    match item_of o with Some i => exists n, flag b n i | None => match o with OContext => has_context /\ b = x63 | _ => b = x68 end end.
  Hypothesis name_sound : forall s o, by_name c s = Some o ->
    match item_of o with Some i => exists b n, s = word n /\ flag b n i | None => match o with OContext => has_context /\ s = word "context" | _ => s = word "help" end end.
  Hypothesis flag_complete : forall b n i, flag b n i -> ~ In x3d (word n) /\ word n <> [] /\
    exists o, by_letter c b = Some o /\ by_name c (word n) = Some o /\ item_of o = Some i.
  Hypothesis context_complete : has_context -> by_letter c x63 = Some OContext /\ by_name c (word "context") = Some OContext.
  Hypothesis help_complete : by_letter c x68 = Some OHelp /\ by_name c (word "help") = Some OHelp.
  Hypothesis no_dash : by_letter c x2d = None.
  Notation letters := (letters flag).
  Notation spelled := (spelled flag has_context).

  Lemma see_flag_add o i m : item_of o = Some i -> see_flag o m = add c i m.
  Proof. destruct o; intros [= <-]; reflexivity. Qed.
  Lemma item_no_value o i : item_of o = Some i -> takes_value o = false.
  Proof. destruct o; [reflexivity|discriminate|reflexivity|reflexivity]. Qed.

  (* completeness *)
  Lemma see_letters_add s fs t m : letters s fs ->
    see_letters c (s ++ t) m = pthen (add_all c fs m) (see_letters c t).
  Proof.
    intros H. revert m. induction H as [|b n i s fs Hf _ IH]; intros m; cbn [app add_all pthen]; [reflexivity|].
    destruct (flag_complete b n i Hf) as (_ & _ & o & Ho & _ & Hi). cbn [see_letters]. rewrite Ho, (item_no_value o i Hi), (see_flag_add o i m Hi), pthen_assoc.
    apply pthen_ext. exact IH.
  Qed.
  Lemma see_paths_add ps m : Forall (fun p => p <> []) ps -> see_paths c ps m = add_all c (map Path ps) m.
  Proof.
    intros H. revert m. induction H as [|p ps Hp _ IH]; intros m; cbn [see_paths map add_all]; [reflexivity|].
    rewrite see_path_add by assumption. apply pthen_ext. exact IH.
  Qed.
  Lemma letters_head s fs t : letters s fs -> s <> [] \/ t = [] -> forall b u, s ++ t = b :: u -> b <> x2d.
  Proof.
    intros H. destruct H as [|b n i s fs Hf _].
    - intros [H| ->]; [contradiction|discriminate].
    - intros _ b' u [= <- _] ->. destruct (flag_complete _ _ _ Hf) as (_ & _ & o & Ho & _). rewrite no_dash in Ho. discriminate.
  Qed.
  Lemma kind_cluster s fs b t : letters s fs -> b <> x2d -> kind_of (word "-" ++ s ++ b :: t) = KLetters (s ++ b :: t).
  Proof.
    intros H Hb. apply kind_letters. split; [|reflexivity]. destruct H as [|b' n i s fs Hf H].
    - now exists b, t.
    - exists b', (s ++ b :: t). split; [reflexivity|]. eapply (letters_head [b'] [i] []); [|left; discriminate|reflexivity].
      econstructor; [eassumption|constructor].
  Qed.
  Lemma letter_c : x63 <> x2d. Proof. discriminate. Qed.
  Lemma letter_h : x68 <> x2d. Proof. discriminate. Qed.
  Lemma see_spelled args is : spelled args is -> ~ In (word "--") args -> forall rest m,
    see_args c (args ++ rest) m false = pthen (add_all c is m) (fun m => see_args c rest m false).
  Proof.
    induction 1 as [|p args is Hp _ IH|ps Hps|b n i args is Hf _ IH|s fs args is Hs Hl _ IH|v n args is Hc Hv _ IH|v n args is Hc Hp Hv _ IH
      |s fs eq v n args is Hc Hl He Hv _ IH|s fs v n args is Hc Hl Hp Hv _ IH]; intros Hno rest m.
    - reflexivity.
    - cbn [app see_args add_all]. rewrite plain_other by assumption. rewrite see_path_add by now apply plain_nonempty. rewrite pthen_assoc.
      apply pthen_ext. intros m'. apply IH. intros K. apply Hno. now right.
    - destruct Hno. now left.
    - destruct (flag_complete b n i Hf) as (Hn & Hn' & o & _ & Ho & Hi). cbn [app see_args add_all].
      replace (kind_of (word ("--" ++ n))) with (KName (word n)) by (symmetry; apply kind_name; now split).
      unfold see_name. rewrite at_equals_word, Ho, (item_no_value o i Hi), (see_flag_add o i m Hi), !pthen_assoc by assumption. apply pthen_ext. intros m'. apply IH.
      intros K. apply Hno. now right.
    - destruct Hl as [|b n i s fs Hf Hl]; [contradiction|]. cbn [app see_args].
      assert (K : kind_of (word "-" ++ b :: s) = KLetters (b :: s)).
      { apply kind_letters. split; [|reflexivity]. exists b, s. split; [reflexivity|].
        eapply (letters_head [b] [i] []); [|left; discriminate|reflexivity]. econstructor; [eassumption|constructor]. }
      change (kind_of (word "-" ++ b :: s)) with (kind_of (x2d :: b :: s)) in K. change (word "-" ++ b :: s) with (x2d :: b :: s). rewrite K.
      pose proof (see_letters_add (b :: s) (i :: fs) [] m ltac:(econstructor; eassumption)) as E. rewrite app_nil_r in E. rewrite E. clear E.
      rewrite app_comm_cons, add_all_app, !pthen_assoc. apply pthen_ext. intros m'. cbn [see_letters pthen fst snd]. apply IH.
      intros K'. apply Hno. now right.
    - cbn [app see_args]. replace (kind_of (word "--context=" ++ v)) with (KName (word "context" ++ x3d :: v)) by reflexivity.
      unfold see_name. replace (at_equals (word "context" ++ x3d :: v)) with (word "context", Some v) by reflexivity. cbn beta iota.
      rewrite (proj2 (context_complete Hc)). cbn [takes_value add_all]. rewrite (see_context_add c v n m Hv), !pthen_assoc. apply pthen_ext. intros m'. apply IH.
      intros K'. apply Hno. now right.
    - cbn [app see_args]. replace (kind_of (word "--context")) with (KName (word "context")) by reflexivity.
      unfold see_name. replace (at_equals (word "context")) with (word "context", @None (list byte)) by reflexivity. cbn beta iota.
      rewrite (proj2 (context_complete Hc)). cbn [takes_value pthen fst snd]. rewrite plain_other by assumption. cbn [add_all].
      rewrite (see_context_add c v n m Hv), !pthen_assoc. apply pthen_ext. intros m'. apply IH.
      intros K'. apply Hno. now do 2 right.
    - cbn [app see_args]. change (word "-" ++ s ++ word "c" ++ eq ++ v) with (word "-" ++ s ++ x63 :: eq ++ v) in *.
      rewrite (kind_cluster s fs x63 (eq ++ v) Hl letter_c). rewrite (see_letters_add s fs _ m Hl), add_all_app, !pthen_assoc. apply pthen_ext. intros m'.
      cbn [see_letters]. rewrite (proj1 (context_complete Hc)). cbn [takes_value].
      assert (E : match eq ++ v with [] => Run (m', true) | b' :: w => pthen (see_context (if Byte.eqb b' x3d then w else eq ++ v) m') (fun m => Run (m, false)) end
                  = pthen (add c (Context n) m') (fun m => Run (m, false))).
      { rewrite <- (see_context_add c v n m' Hv). destruct He as [-> | ->]; [|reflexivity]. cbn [app].
        assert (Hv' := Hv). apply u8_value_spec in Hv'. destruct v as [|b v]; [discriminate|].
        destruct (Byte.eqb b x3d) eqn:E; [|reflexivity]. apply byte_eqb in E as ->. discriminate. }
      rewrite E, pthen_assoc. cbn [add_all]. rewrite pthen_assoc. apply pthen_ext. intros m2. cbn [pthen fst snd]. apply IH.
      intros K'. apply Hno. now right.
    - cbn [app see_args]. change (word "-" ++ s ++ word "c") with (word "-" ++ s ++ x63 :: []) in *.
      rewrite (kind_cluster s fs x63 [] Hl letter_c). rewrite (see_letters_add s fs _ m Hl), add_all_app, !pthen_assoc. apply pthen_ext. intros m'.
      cbn [see_letters]. rewrite (proj1 (context_complete Hc)). cbn [takes_value pthen fst snd]. rewrite plain_other by assumption.
      rewrite (see_context_add c v n m' Hv). cbn [add_all]. rewrite pthen_assoc. apply pthen_ext. intros m2. apply IH.
      intros K'. apply Hno. now do 2 right.
  Qed.
  Lemma spelled_end args is : spelled args is -> (spelled args is /\ ~ In (word "--") args) \/
    exists pre ps is', args = pre ++ word "--" :: ps /\ Forall (fun p => p <> []) ps /\ is = is' ++ map Path ps /\ spelled pre is' /\ ~ In (word "--") pre.
  Proof.
    assert (P : forall p, plain p -> p <> word "--") by (intros p Hp ->; destruct Hp as [[=]|[_ H]]; now apply (H (word "-"))).
    induction 1 as [|p args is Hp H IH|ps Hps|b n i args is Hf H IH|s fs args is Hs Hl H IH|v n args is Hc Hv H IH|v n args is Hc Hp Hv H IH
      |s fs eq v n args is Hc Hl He Hv H IH|s fs v n args is Hc Hl Hp Hv H IH].
    - left. split; [constructor|easy].
    - destruct IH as [[_ IH]|(pre & ps & is' & -> & Hps & -> & Hpre & Hno)].
      + left. split; [now constructor|]. intros [K|K]; [now apply P in Hp|contradiction].
      + right. exists (p :: pre), ps, (Path p :: is'). repeat split; try assumption; [now constructor|].
        intros [K|K]; [now apply P in Hp|contradiction].
    - right. exists [], ps, []. repeat split; try assumption; [constructor|easy].
    - assert (K0 : word ("--" ++ n) <> word "--"). { destruct (flag_complete _ _ _ Hf) as (_ & K & _). destruct n; [now destruct K|discriminate]. }
      destruct IH as [[_ IH]|(pre & ps & is' & -> & Hps & -> & Hpre & Hno)].
      + left. split; [econstructor; eassumption|]. now intros [K|K].
      + right. exists (word ("--" ++ n) :: pre), ps, (i :: is'). repeat split; try assumption; [econstructor; eassumption|]. now intros [K|K].
    - assert (K0 : word "-" ++ s <> word "--").
      { destruct Hl as [|b n i s fs Hf Hl]; [contradiction|]. intros [= -> _]. destruct (flag_complete _ _ _ Hf) as (_ & _ & o & Ho & _). rewrite no_dash in Ho. discriminate. }
      destruct IH as [[_ IH]|(pre & ps & is' & -> & Hps & -> & Hpre & Hno)].
      + left. split; [now constructor|]. now intros [K|K].
      + right. exists ((word "-" ++ s) :: pre), ps, (fs ++ is'). repeat split; try assumption; [now rewrite app_assoc|now constructor|]. now intros [K|K].
    - destruct IH as [[_ IH]|(pre & ps & is' & -> & Hps & -> & Hpre & Hno)].
      + left. split; [now constructor|]. now intros [K|K].
      + right. exists ((word "--context=" ++ v) :: pre), ps, (Context n :: is'). repeat split; try assumption; [now constructor|]. now intros [K|K].
    - destruct IH as [[_ IH]|(pre & ps & is' & -> & Hps & -> & Hpre & Hno)].
      + left. split; [now constructor|]. intros [K|[K|K]]; [discriminate|now apply P in Hp|contradiction].
      + right. exists (word "--context" :: v :: pre), ps, (Context n :: is'). repeat split; try assumption; [now constructor|].
        intros [K|[K|K]]; [discriminate|now apply P in Hp|contradiction].
    - assert (K0 : word "-" ++ s ++ word "c" ++ eq ++ v <> word "--").
      { intros K. apply (f_equal kind_of) in K. change (word "-" ++ s ++ word "c" ++ eq ++ v) with (word "-" ++ s ++ x63 :: eq ++ v) in K.
        rewrite (kind_cluster s fs x63 _ Hl letter_c) in K. discriminate. }
      destruct IH as [[_ IH]|(pre & ps & is' & -> & Hps & -> & Hpre & Hno)].
      + left. split; [now constructor|]. now intros [K|K].
      + right. exists ((word "-" ++ s ++ word "c" ++ eq ++ v) :: pre), ps, (fs ++ Context n :: is').
        repeat split; try assumption; [now rewrite <- app_assoc|now constructor|]. now intros [K|K].
    - assert (K0 : word "-" ++ s ++ word "c" <> word "--").
      { intros K. apply (f_equal kind_of) in K. change (word "-" ++ s ++ word "c") with (word "-" ++ s ++ x63 :: []) in K.
        rewrite (kind_cluster s fs x63 _ Hl letter_c) in K. discriminate. }
      destruct IH as [[_ IH]|(pre & ps & is' & -> & Hps & -> & Hpre & Hno)].
      + left. split; [now constructor|]. intros [K|[K|K]]; [contradiction|now apply P in Hp|contradiction].
      + right. exists ((word "-" ++ s ++ word "c") :: v :: pre), ps, (fs ++ Context n :: is').
        repeat split; try assumption; [now rewrite <- app_assoc|now constructor|]. intros [K|[K|K]]; [contradiction|now apply P in Hp|contradiction].
  Qed.
  Lemma see_complete args is m : spelled args is -> see_args c args m false = add_all c is m.
  Proof.
    intros H. apply spelled_end in H as [[H Hno]|(pre & ps & is' & -> & Hps & -> & H & Hno)].
    - pose proof (see_spelled _ _ H Hno [] m) as E. rewrite app_nil_r in E. rewrite E. cbn [see_args]. now destruct (add_all c is m).
    - rewrite (see_spelled _ _ H Hno), add_all_app. apply pthen_ext. intros m'. cbn [see_args]. apply see_paths_add, Hps.
  Qed.

  (* soundness *)
  Lemma see_letters_run s : forall m m' w, see_letters c s m = Run (m', w) ->
    (exists fs, w = false /\ letters s fs /\ add_all c fs m = Run m') \/
    has_context /\
    ((exists u fs eq v n, w = false /\ s = u ++ word "c" ++ eq ++ v /\ letters u fs /\ (eq = [] \/ eq = word "=") /\ amount v n /\
        add_all c (fs ++ [Context n]) m = Run m') \/
     (exists u fs, w = true /\ s = u ++ word "c" /\ letters u fs /\ add_all c fs m = Run m')).
  Proof.
    induction s as [|b s IH]; intros m m' w H; cbn [see_letters] in H.
    - injection H as <- <-. left. exists []. repeat split. constructor.
    - destruct (by_letter c b) as [o|] eqn:Eo; [|discriminate]. pose proof (letter_sound b o Eo) as Hs.
      destruct (takes_value o) eqn:Et.
      + destruct o; try discriminate. destruct Hs as [Hc ->]. right. split; [assumption|]. destruct s as [|b' v].
        * injection H as <- <-. right. exists [], []. repeat split. constructor.
        * left. apply pthen_run in H as (m1 & H1 & [= <- <-]). apply (see_context_run c) in H1 as (n & Hn & Ha).
          destruct (Byte.eqb b' x3d) eqn:E.
          -- apply byte_eqb in E as ->. exists [], [], (word "="), v, n. split; [reflexivity|]. split; [reflexivity|]. split; [constructor|].
             split; [auto|]. split; [assumption|]. cbn [app add_all]. now rewrite Ha.
          -- exists [], [], [], (b' :: v), n. split; [reflexivity|]. split; [reflexivity|]. split; [constructor|].
             split; [auto|]. split; [assumption|]. cbn [app add_all]. now rewrite Ha.
      + apply pthen_run in H as (m1 & H1 & H2). destruct (item_of o) as [i|] eqn:Ei.
        * destruct Hs as [n Hf]. rewrite (see_flag_add o i m Ei) in H1.
          destruct (IH _ _ _ H2) as [(fs & -> & Hl & Ha)|(Hc & [(u & fs & eq & v & k & -> & -> & Hl & He & Hv & Ha)|(u & fs & -> & -> & Hl & Ha)])].
          -- left. exists (i :: fs). split; [reflexivity|]. split; [econstructor; eassumption|]. cbn [add_all]. now rewrite H1.
          -- right. split; [assumption|]. left. exists (b :: u), (i :: fs), eq, v, k. split; [reflexivity|]. split; [reflexivity|].
             split; [econstructor; eassumption|]. split; [assumption|]. split; [assumption|]. cbn [app add_all]. now rewrite H1.
          -- right. split; [assumption|]. right. exists (b :: u), (i :: fs). split; [reflexivity|]. split; [reflexivity|].
             split; [econstructor; eassumption|]. cbn [add_all]. now rewrite H1.
        * destruct o; discriminate.
  Qed.
  Lemma see_letters_help s : forall m, see_letters c s m = Help -> exists u fs t m', s = u ++ word "h" ++ t /\ letters u fs /\ add_all c fs m = Run m'.
  Proof.
    induction s as [|b s IH]; intros m H; cbn [see_letters] in H; [discriminate|].
    destruct (by_letter c b) as [o|] eqn:Eo; [|discriminate]. pose proof (letter_sound b o Eo) as Hs.
    destruct (takes_value o) eqn:Et.
    - destruct s as [|b' v]; [discriminate|]. apply pthen_help in H as [H|(m1 & _ & [=])]. now apply see_context_no_help in H.
    - destruct (item_of o) as [i|] eqn:Ei.
      + destruct Hs as [n Hf]. rewrite (see_flag_add o i m Ei) in H. apply pthen_help in H as [H|(m1 & H1 & H2)]; [now apply add_no_help in H|].
        destruct (IH _ H2) as (u & fs & t & m' & -> & Hl & Ha). exists (b :: u), (i :: fs), t, m'. split; [reflexivity|].
        split; [econstructor; eassumption|]. cbn [add_all]. now rewrite H1.
      + destruct o; try discriminate. subst b. exists [], [], s, m. repeat split. constructor.
  Qed.
  Lemma see_name_run s m m' w : s <> [] -> see_name c s m = Run (m', w) ->
    (exists b n i, w = false /\ s = word n /\ flag b n i /\ add c i m = Run m') \/
    has_context /\
    ((exists v n, w = false /\ s = word "context=" ++ v /\ amount v n /\ add c (Context n) m = Run m') \/
     w = true /\ s = word "context" /\ m' = m).
  Proof.
    intros Hne. unfold see_name. destruct (at_equals s) as [n v] eqn:Ea. destruct (by_name c n) as [o|] eqn:Eo; [|discriminate].
    pose proof (name_sound n o Eo) as Hs. intros H. destruct (takes_value o) eqn:Et.
    - destruct o; try discriminate. destruct Hs as [Hc ->]. right. split; [assumption|]. destruct v as [v|].
      + apply pthen_run in H as (m1 & H1 & [= <- <-]). apply (see_context_run c) in H1 as (k & Hk & Ha). left. exists v, k.
        apply at_equals_some in Ea as ->. now repeat split.
      + injection H as <- <-. right. apply at_equals_none in Ea as [-> _]. now repeat split.
    - destruct v; [discriminate|]. apply pthen_run in H as (m1 & H1 & [= <- <-]). apply at_equals_none in Ea as [-> _].
      destruct (item_of o) as [i|] eqn:Ei; [|destruct o; discriminate]. destruct Hs as (b & n' & -> & Hf). rewrite (see_flag_add o i m Ei) in H1.
      left. now exists b, n', i.
  Qed.
  Lemma see_name_help s m : see_name c s m = Help -> s = word "help".
  Proof.
    unfold see_name. destruct (at_equals s) as [n v] eqn:Ea. destruct (by_name c n) as [o|] eqn:Eo; [|discriminate].
    pose proof (name_sound n o Eo) as Hs. intros H. destruct (takes_value o) eqn:Et.
    - destruct v as [v|]; [|discriminate]. apply pthen_help in H as [H|(? & _ & [=])]. now apply see_context_no_help in H.
    - destruct v; [discriminate|]. apply at_equals_none in Ea as [-> _]. apply pthen_help in H as [H|(? & _ & [=])].
      destruct (item_of o) as [i|] eqn:Ei; [rewrite (see_flag_add o i m Ei) in H; now apply add_no_help in H|]. destruct o; try discriminate. exact Hs.
  Qed.
  Lemma see_paths_run ps : forall m m', see_paths c ps m = Run m' -> Forall (fun p => p <> []) ps /\ add_all c (map Path ps) m = Run m'.
  Proof.
    induction ps as [|p ps IH]; intros m m' H; cbn [see_paths] in H; [split; [constructor|assumption]|].
    apply pthen_run in H as (m1 & H1 & H2). destruct (IH _ _ H2) as [Hps Ha]. assert (Hp : p <> []) by (intros ->; discriminate).
    split; [now constructor|]. cbn [map add_all]. rewrite <- see_path_add by assumption. now rewrite H1.
  Qed.
  Lemma see_paths_no_help ps : forall m, see_paths c ps m <> Help.
  Proof.
    induction ps as [|p ps IH]; intros m; cbn [see_paths]; [discriminate|]. intros H. apply pthen_help in H as [H|(m1 & _ & H)]; [|now apply IH in H].
    unfold see_path in H. destruct p; [discriminate|]. now destruct (_ <? _).
  Qed.
  (* the arguments from where an option awaits its value, or from where it does not *)
  Definition continues (waiting : bool) (args : list argument) (is : list item) : Prop :=
    if waiting then exists v n rest is', args = v :: rest /\ plain v /\ amount v n /\ spelled rest is' /\ is = Context n :: is'
    else spelled args is.
  Lemma continues_name args is m m' m2 s w : s <> [] -> see_name c s m = Run (m', w) -> continues w args is -> add_all c is m' = Run m2 ->
    exists is', spelled ((word "--" ++ s) :: args) is' /\ add_all c is' m = Run m2.
  Proof.
    intros Hs H Hc Ha. destruct (see_name_run _ _ _ _ Hs H) as [(b & n & i & -> & -> & Hf & Hi)|(Hx & [(v & n & -> & -> & Hv & Hi)|(-> & -> & ->)])].
    - exists (i :: is). split; [apply (sp_name _ _ b n); assumption|]. cbn [add_all]. now rewrite Hi.
    - exists (Context n :: is). split; [apply (sp_context_is _ _ v n); assumption|]. cbn [add_all]. now rewrite Hi.
    - destruct Hc as (v & n & rest & is' & -> & Hp & Hv & Hr & ->). exists (Context n :: is'). split; [|assumption].
      apply (sp_context _ _ v n); assumption.
  Qed.
  Lemma continues_letters args is m m' m2 s w : s <> [] -> see_letters c s m = Run (m', w) -> continues w args is -> add_all c is m' = Run m2 ->
    exists is', spelled ((word "-" ++ s) :: args) is' /\ add_all c is' m = Run m2.
  Proof.
    intros Hs H Hc Ha.
    destruct (see_letters_run _ _ _ _ H) as [(fs & -> & Hl & Hi)|(Hx & [(u & fs & eq & v & n & -> & -> & Hl & He & Hv & Hi)|(u & fs & -> & -> & Hl & Hi)])].
    - exists (fs ++ is). split; [now apply sp_letters|]. rewrite add_all_app. now rewrite Hi.
    - exists (fs ++ Context n :: is). split; [apply (sp_c_is _ _ u fs eq v n); assumption|].
      change (Context n :: is) with ([Context n] ++ is). rewrite app_assoc, add_all_app. now rewrite Hi.
    - destruct Hc as (v & n & rest & is' & -> & Hp & Hv & Hr & ->). exists (fs ++ Context n :: is'). split; [apply (sp_c _ _ u fs v n); assumption|].
      rewrite add_all_app. now rewrite Hi.
  Qed.
  Lemma letters_nonempty a s : kind_of a = KLetters s -> s <> [].
  Proof. intros H. apply kind_letters in H as [(b & t & -> & _) _]. discriminate. Qed.
  Lemma see_run args : forall m m' w, see_args c args m w = Run m' -> exists is, continues w args is /\ add_all c is m = Run m'.
  Proof.
    induction args as [|a args IH]; intros m m' w H; cbn [see_args] in H.
    - destruct w; [discriminate|]. exists []. split; [constructor|assumption].
    - destruct (kind_of a) as [|s|s|] eqn:Ek; try (destruct w; [discriminate|]).
      + apply kind_end in Ek as ->. apply see_paths_run in H as [Hps Ha]. exists (map Path args). split; [now constructor|assumption].
      + apply pthen_run in H as ([m1 w] & H1 & H2). cbn [fst snd] in H2. apply IH in H2 as (is & Hc & Ha).
        apply kind_name in Ek as [Hs ->]. eapply continues_name; eassumption.
      + apply pthen_run in H as ([m1 w] & H1 & H2). cbn [fst snd] in H2. apply IH in H2 as (is & Hc & Ha).
        pose proof (letters_nonempty _ _ Ek) as Hs. apply kind_letters in Ek as [_ ->]. eapply continues_letters; eassumption.
      + apply pthen_run in H as (m1 & H1 & H2). apply IH in H2 as (is & Hc & Ha). cbn [continues] in Hc. destruct w.
        * apply (see_context_run c) in H1 as (n & Hn & Hi). assert (Hne : a <> []) by (intros ->; apply u8_value_spec in Hn; discriminate).
          apply (kind_other a Hne) in Ek. exists (Context n :: is). split; [exists a, n, args, is; now repeat split|]. cbn [add_all]. now rewrite Hi.
        * assert (Hne : a <> []) by (intros ->; discriminate). apply (kind_other a Hne) in Ek. rewrite see_path_add in H1 by assumption.
          exists (Path a :: is). split; [now constructor|]. cbn [add_all]. now rewrite H1.
  Qed.
  (* help asked for with nothing wrong before *)
  Definition helped (waiting : bool) (args : list argument) (m : found) : Prop :=
    exists pre a post is, args = pre ++ a :: post /\ ~ In (word "--") pre /\ continues waiting pre is /\
      (a = word "--help" /\ (exists m', add_all c is m = Run m') \/
       exists s fs t, a = word "-" ++ s ++ word "h" ++ t /\ letters s fs /\ exists m', add_all c (is ++ fs) m = Run m').
  Lemma see_help args : forall m w, see_args c args m w = Help -> helped w args m.
  Proof.
    induction args as [|a args IH]; intros m w H; cbn [see_args] in H; [destruct w; discriminate|].
    destruct (kind_of a) as [|s|s|] eqn:Ek; try (destruct w; [discriminate|]).
    - now apply see_paths_no_help in H.
    - assert (Ka : a <> word "--") by (intros ->; discriminate). apply kind_name in Ek as [Hs ->].
      apply pthen_help in H as [H|([m1 w] & H1 & H2)].
      + apply see_name_help in H as ->. exists [], (word "--help"), args, []. split; [reflexivity|]. split; [easy|]. split; [constructor|].
        left. split; [reflexivity|]. now exists m.
      + cbn [fst snd] in H2. apply IH in H2 as (pre & a & post & is & -> & Hno & Hc & Hh).
        assert (G : forall fs m', add_all c (is ++ fs) m1 = Run m' -> exists is', spelled ((word "--" ++ s) :: pre) is' /\ add_all c (is' ++ fs) m = Run m').
        { intros fs m' G. rewrite add_all_app in G. apply pthen_run in G as (m2 & G1 & G2).
          destruct (continues_name _ _ _ _ _ _ _ Hs H1 Hc G1) as (is' & K1 & K2). exists is'. split; [assumption|]. rewrite add_all_app. now rewrite K2. }
        destruct Hh as [(-> & m' & Hm)|(u & fs & t & -> & Hl & m' & Hm)].
        * destruct (G [] m') as (is' & K1 & K2); [now rewrite app_nil_r|]. exists ((word "--" ++ s) :: pre), (word "--help"), post, is'.
          split; [reflexivity|]. split; [now intros [K|K]|]. split; [assumption|]. left. rewrite app_nil_r in K2. eauto.
        * destruct (G fs m' Hm) as (is' & K1 & K2). exists ((word "--" ++ s) :: pre), (word "-" ++ u ++ word "h" ++ t), post, is'.
          split; [reflexivity|]. split; [now intros [K|K]|]. split; [assumption|]. right. exists u, fs, t. eauto.
    - assert (Ka : a <> word "--") by (intros ->; discriminate). pose proof (letters_nonempty _ _ Ek) as Hs. apply kind_letters in Ek as [_ ->].
      apply pthen_help in H as [H|([m1 w] & H1 & H2)].
      + apply see_letters_help in H as (u & fs & t & m' & -> & Hl & Ha). exists [], (word "-" ++ u ++ word "h" ++ t), args, []. split; [reflexivity|].
        split; [easy|]. split; [constructor|]. right. exists u, fs, t. cbn [app]. eauto.
      + cbn [fst snd] in H2. apply IH in H2 as (pre & a & post & is & -> & Hno & Hc & Hh).
        assert (G : forall fs m', add_all c (is ++ fs) m1 = Run m' -> exists is', spelled ((word "-" ++ s) :: pre) is' /\ add_all c (is' ++ fs) m = Run m').
        { intros fs m' G. rewrite add_all_app in G. apply pthen_run in G as (m2 & G1 & G2).
          destruct (continues_letters _ _ _ _ _ _ _ Hs H1 Hc G1) as (is' & K1 & K2). exists is'. split; [assumption|]. rewrite add_all_app. now rewrite K2. }
        destruct Hh as [(-> & m' & Hm)|(u & fs & t & -> & Hl & m' & Hm)].
        * destruct (G [] m') as (is' & K1 & K2); [now rewrite app_nil_r|]. exists ((word "-" ++ s) :: pre), (word "--help"), post, is'.
          split; [reflexivity|]. split; [now intros [K|K]|]. split; [assumption|]. left. rewrite app_nil_r in K2. eauto.
        * destruct (G fs m' Hm) as (is' & K1 & K2). exists ((word "-" ++ s) :: pre), (word "-" ++ u ++ word "h" ++ t), post, is'.
          split; [reflexivity|]. split; [now intros [K|K]|]. split; [assumption|]. right. exists u, fs, t. eauto.
    - assert (Ka : a <> word "--") by (intros ->; discriminate).
      apply pthen_help in H as [H|(m1 & H1 & H2)].
      { destruct w; [now apply see_context_no_help in H|]. unfold see_path in H. destruct a; [discriminate|]. now destruct (_ <? _). }
      apply IH in H2 as (pre & a' & post & is & -> & Hno & Hc & Hh). cbn [continues] in Hc.
      assert (G : exists i, continues w (a :: pre) (i :: is) /\ add c i m = Run m1).
      { destruct w.
        - apply (see_context_run c) in H1 as (n & Hn & Hi). assert (Hne : a <> []) by (intros ->; apply u8_value_spec in Hn; discriminate).
          apply (kind_other a Hne) in Ek. exists (Context n). split; [exists a, n, pre, is; now repeat split|assumption].
        - assert (Hne : a <> []) by (intros ->; discriminate). apply (kind_other a Hne) in Ek. rewrite see_path_add in H1 by assumption.
          exists (Path a). split; [now constructor|assumption]. }
      destruct G as (i & K1 & K2). exists (a :: pre), a', post, (i :: is). split; [reflexivity|]. split; [now intros [K|K]|]. split; [assumption|].
      cbn [app add_all]. rewrite K2. exact Hh.
  Qed.
  Lemma help_given args m : helped false args m -> see_args c args m false = Help.
  Proof.
    intros (pre & a & post & is & -> & Hno & Hc & Hh). cbn [continues] in Hc. rewrite (see_spelled _ _ Hc Hno).
    destruct Hh as [(-> & m' & Hm)|(u & fs & t & -> & Hl & m' & Hm)].
    - rewrite Hm. cbn [pthen see_args]. replace (kind_of (word "--help")) with (KName (word "help")) by reflexivity.
      unfold see_name. replace (at_equals (word "help")) with (word "help", @None (list byte)) by reflexivity. cbn beta iota.
      rewrite (proj2 help_complete). reflexivity.
    - rewrite add_all_app in Hm. apply pthen_run in Hm as (m1 & H1 & H2). rewrite H1. cbn [pthen see_args].
      change (word "-" ++ u ++ word "h" ++ t) with (word "-" ++ u ++ x68 :: t). rewrite (kind_cluster u fs x68 t Hl letter_h).
      rewrite (see_letters_add u fs _ m1 Hl), H2. cbn [pthen see_letters]. rewrite (proj1 help_complete). reflexivity.
  Qed.
  Theorem sees args m m' : see_args c args m false = Run m' <-> exists is, spelled args is /\ add_all c is m = Run m'.
  Proof.
    split; [apply see_run|]. intros (is & H & Ha). now rewrite (see_complete _ _ m H).
  Qed.
  Theorem sees_help args m : see_args c args m false = Help <-> helped false args m.
  Proof. split; [apply see_help|apply help_given]. Qed.
End Grammar.

(* ------------------------------------------------------------------ *)
(* The two programs                                                    *)
(* ------------------------------------------------------------------ *)
Lemma item_dec (x y : item) : {x = y} + {x <> y}.
Proof. decide equality; [apply Nat.eq_dec|apply (list_eq_dec Byte.byte_eq_dec)]. Qed.
Lemma times_count is x n : times is x n <-> count_occ item_dec is x = n.
Proof.
  assert (R : forall k, count_occ item_dec (repeat x k) x = k).
  { induction k as [|k IH]; cbn; [reflexivity|]. destruct (item_dec x x); [now rewrite IH|contradiction]. }
  split.
  - intros (rest & HP & Hn). apply (Permutation_count_occ item_dec) with (x := x) in HP. rewrite HP, count_occ_app, R.
    apply (count_occ_not_In item_dec) in Hn. lia.
  - intros <-. induction is as [|i is (rest & HP & Hn)]; cbn [count_occ].
    + exists []. now split.
    + destruct (item_dec i x) as [->|Hi].
      * exists rest. split; [|assumption]. cbn. now constructor.
      * exists (i :: rest). split; [|now intros [K|K]]. etransitivity; [apply perm_skip, HP|]. apply Permutation_middle.
Qed.
Definition clist (m : found) : list nat := match f_context m with None => [] | Some n => [n] end.
Notation count x is := (count_occ item_dec is x).
Lemma add_all_run c is : forall m m', f_verbose m <= 255 -> length (f_paths m) <= c_paths c ->
  add_all c is m = Run m' <->
  f_verbose m' = Nat.min 255 (f_verbose m + count Verbose is) /\ Nat.b2n (f_reverse m') = Nat.b2n (f_reverse m) + count Reverse is /\
  clist m' = clist m ++ contexts is /\ f_paths m' = f_paths m ++ paths is /\ length (f_paths m') <= c_paths c.
Proof.
  induction is as [|i is IH]; intros m m' Hv Hp.
  - cbn [add_all count_occ contexts paths flat_map]. rewrite !app_nil_r. split.
    + intros [= <-]. repeat split; lia.
    + intros (H1 & H2 & H3 & H4 & _). destruct m as [v r x p], m' as [v' r' x' p']. cbn [f_verbose f_reverse f_paths] in *. subst p'.
      replace v' with v by lia. replace r' with r by (destruct r, r'; cbn in H2; lia || reflexivity).
      destruct x, x'; cbn in H3; congruence.
  - cbn [add_all]. destruct i as [| |n|p]; cbn [add see_flag].
    + cbn [pthen]. rewrite IH by (cbn [f_verbose f_paths]; lia). cbn [f_verbose f_reverse f_paths clist f_context]. cbn [count_occ contexts paths flat_map app].
      destruct (item_dec Verbose Verbose); [|contradiction]. destruct (item_dec Verbose Reverse); [discriminate|].
      fold (contexts is) (paths is). change (clist {| f_verbose := Nat.min 255 (S (f_verbose m)); f_reverse := f_reverse m; f_context := f_context m; f_paths := f_paths m |}) with (clist m).
      replace (Nat.min 255 (Nat.min 255 (S (f_verbose m)) + count_occ item_dec is Verbose)) with (Nat.min 255 (f_verbose m + S (count_occ item_dec is Verbose))) by lia.
      reflexivity.
    + cbn [count_occ contexts paths flat_map app]. destruct (item_dec Reverse Verbose); [discriminate|]. destruct (item_dec Reverse Reverse); [|contradiction].
      fold (contexts is) (paths is). destruct (f_reverse m) eqn:Er; cbn [pthen].
      * split; [discriminate|]. intros (_ & H & _). destruct (f_reverse m'); cbn in H; lia.
      * rewrite IH by (cbn [f_verbose f_paths]; lia). cbn [f_verbose f_reverse f_paths clist f_context Nat.b2n].
        change (clist {| f_verbose := f_verbose m; f_reverse := true; f_context := f_context m; f_paths := f_paths m |}) with (clist m). reflexivity.
    + cbn [count_occ contexts paths flat_map]. destruct (item_dec (Context n) Verbose); [discriminate|]. destruct (item_dec (Context n) Reverse); [discriminate|].
      fold (contexts is) (paths is). cbn [app]. destruct (f_context m) as [k|] eqn:Ec; cbn [pthen].
      * split; [discriminate|]. intros (_ & _ & H & _). unfold clist in H. rewrite Ec in H. destruct (f_context m'); discriminate.
      * rewrite IH by (cbn [f_verbose f_paths]; lia). cbn [f_verbose f_reverse f_paths clist f_context Nat.b2n]. unfold clist. cbn [f_context]. rewrite Ec. reflexivity.
    + cbn [count_occ contexts paths flat_map]. destruct (item_dec (Path p) Verbose); [discriminate|]. destruct (item_dec (Path p) Reverse); [discriminate|].
      fold (contexts is) (paths is). cbn [app]. destruct (Nat.ltb_spec (length (f_paths m)) (c_paths c)) as [H|H]; cbn [pthen].
      * rewrite IH by (cbn [f_verbose f_paths]; rewrite ?app_length; cbn; lia). cbn [f_verbose f_reverse f_paths clist f_context Nat.b2n]. rewrite <- app_assoc.
        change (clist {| f_verbose := f_verbose m; f_reverse := f_reverse m; f_context := f_context m; f_paths := f_paths m ++ [p] |}) with (clist m). reflexivity.
      * split; [discriminate|]. intros (_ & _ & _ & H1 & H2). rewrite H1, app_length in H2. cbn in H2. lia.
Qed.
Lemma allowed_run c is : allowed (c_paths c) is <-> exists m, add_all c is nothing = Run m.
Proof.
  unfold allowed. split.
  - intros (Hp & Hc & k & Hk & Ht). apply times_count in Ht.
    exists (Found (Nat.min 255 (count Verbose is)) (k =? 1) (hd_error (contexts is)) (paths is)).
    apply add_all_run; [cbn; lia..|]. cbn [f_verbose f_reverse f_paths nothing clist f_context]. repeat split.
    + rewrite Ht. cbn. destruct k as [|[|k]]; [reflexivity|reflexivity|lia].
    + unfold clist. cbn. destruct (contexts is) as [|x [|y l]]; [reflexivity|reflexivity|cbn in Hc; lia].
    + assumption.
  - intros (m & H). apply add_all_run in H; [|cbn; lia..]. destruct H as (_ & H1 & H2 & H3 & H4). cbn in H1, H2, H3.
    rewrite <- H3, <- H2. split; [assumption|]. split; [unfold clist; destruct (f_context m); cbn; lia|].
    exists (Nat.b2n (f_reverse m)). split; [destruct (f_reverse m); cbn; lia|]. now apply times_count.
Qed.
Lemma helped_asks c flag hc args : helped c flag hc false args nothing <-> asks_help flag hc (c_paths c) args.
Proof.
  unfold helped, asks_help, continues. split; intros (pre & a & post & is & H1 & H2 & H3 & H4); exists pre, a, post, is; do 3 (split; [assumption|]).
  - destruct H4 as [[-> H]|(s & fs & t & -> & Hl & H)]; [left|right; exists s, fs, t; do 2 (split; [now auto|])]; [split; [reflexivity|]|]; now apply allowed_run.
  - destruct H4 as [[-> H]|(s & fs & t & -> & Hl & H)]; [left|right; exists s, fs, t; do 2 (split; [now auto|])]; [split; [reflexivity|]|]; now apply allowed_run in H.
Qed.

Ltac options H := unfold by_letter, by_name in H; cbn [find c_options diff_command patch_command fst snd] in H.
Lemma list_eqb_bytes (s t : list byte) : list_eqb Byte.eqb s t = true -> t = s.
Proof.
  revert t. induction s as [|b s IH]; intros [|b' t] H; cbn in H; try discriminate; [reflexivity|]. apply andb_prop in H as [H1 H2].
  apply byte_eqb in H1 as ->. now rewrite (IH t H2).
Qed.
Ltac first_option H E := match type of H with context[if ?x then _ else _] => destruct x eqn:E end.
Lemma diff_letter_sound b o : by_letter diff_command b = Some o ->
  match item_of o with Some i => exists n, diff_flag b n i | None => match o with OContext => True /\ b = x63 | _ => b = x68 end end.
Proof.
  intros H. options H. first_option H E; [|first_option H E1; [|first_option H E2; [|discriminate]]]; injection H as <-; cbn [item_of].
  - apply byte_eqb in E as <-. exists "verbose"%string. constructor.
  - now apply byte_eqb in E1 as <-.
  - now apply byte_eqb in E2 as <-.
Qed.
Lemma diff_name_sound s o : by_name diff_command s = Some o ->
  match item_of o with Some i => exists b n, s = word n /\ diff_flag b n i | None => match o with OContext => True /\ s = word "context" | _ => s = word "help" end end.
Proof.
  intros H. options H. first_option H E; [|first_option H E1; [|first_option H E2; [|discriminate]]]; injection H as <-; cbn [item_of].
  - apply list_eqb_bytes in E as ->. exists x76, "verbose"%string. split; [reflexivity|constructor].
  - now apply list_eqb_bytes in E1 as ->.
  - now apply list_eqb_bytes in E2 as ->.
Qed.
Lemma patch_letter_sound b o : by_letter patch_command b = Some o ->
  match item_of o with Some i => exists n, patch_flag b n i | None => match o with OContext => False /\ b = x63 | _ => b = x68 end end.
Proof.
  intros H. options H. first_option H E; [|first_option H E1; [|first_option H E2; [|discriminate]]]; injection H as <-; cbn [item_of].
  - apply byte_eqb in E as <-. exists "verbose"%string. constructor.
  - apply byte_eqb in E1 as <-. exists "reverse"%string. constructor.
  - now apply byte_eqb in E2 as <-.
Qed.
Lemma patch_name_sound s o : by_name patch_command s = Some o ->
  match item_of o with Some i => exists b n, s = word n /\ patch_flag b n i | None => match o with OContext => False /\ s = word "context" | _ => s = word "help" end end.
Proof.
  intros H. options H. first_option H E; [|first_option H E1; [|first_option H E2; [|discriminate]]]; injection H as <-; cbn [item_of].
  - apply list_eqb_bytes in E as ->. exists x76, "verbose"%string. split; [reflexivity|constructor].
  - apply list_eqb_bytes in E1 as ->. exists x72, "reverse"%string. split; [reflexivity|constructor].
  - now apply list_eqb_bytes in E2 as ->.
Qed.
Ltac no_equals := intros K; vm_compute in K; repeat (destruct K as [K|K]; [discriminate|]); exact K.
Lemma diff_flag_complete b n i : diff_flag b n i -> ~ In x3d (word n) /\ word n <> [] /\
  exists o, by_letter diff_command b = Some o /\ by_name diff_command (word n) = Some o /\ item_of o = Some i.
Proof. intros []. split; [no_equals|]. split; [discriminate|]. now exists OVerbose. Qed.
Lemma patch_flag_complete b n i : patch_flag b n i -> ~ In x3d (word n) /\ word n <> [] /\
  exists o, by_letter patch_command b = Some o /\ by_name patch_command (word n) = Some o /\ item_of o = Some i.
Proof. intros []; (split; [no_equals|]; split; [discriminate|]); [now exists OVerbose|now exists OReverse]. Qed.

Lemma diff_sees args m m' : see_args diff_command args m false = Run m' <-> exists is, spelled diff_flag True args is /\ add_all diff_command is m = Run m'.
Proof. apply sees; try exact diff_letter_sound; try exact diff_name_sound; try exact diff_flag_complete; try reflexivity; try contradiction; now split. Qed.
Lemma patch_sees args m m' : see_args patch_command args m false = Run m' <-> exists is, spelled patch_flag False args is /\ add_all patch_command is m = Run m'.
Proof. apply sees; try exact patch_letter_sound; try exact patch_name_sound; try exact patch_flag_complete; try reflexivity; try contradiction; now split. Qed.
Lemma diff_helps args : see_args diff_command args nothing false = Help <-> asks_help diff_flag True 2 args.
Proof.
  rewrite <- (helped_asks diff_command). apply sees_help; try exact diff_letter_sound; try exact diff_name_sound; try exact diff_flag_complete; try reflexivity; try contradiction; now split.
Qed.
Lemma patch_helps args : see_args patch_command args nothing false = Help <-> asks_help patch_flag False 1 args.
Proof.
  rewrite <- (helped_asks patch_command). apply sees_help; try exact patch_letter_sound; try exact patch_name_sound; try exact patch_flag_complete; try reflexivity; try contradiction; now split.
Qed.

Lemma parse_diff_run args v x b a : diff_args args = Run (v, x, b, a) <-> calls_diff args v x b a.
Proof.
  unfold diff_args, parse_command, calls_diff. split.
  - intros H. apply pthen_run in H as (m & H & H'). apply pthen_run in H as (m1 & H & H2). apply diff_sees in H as (is & Hs & Ha).
    destruct (_ =? _); [|discriminate]. injection H2 as ->. apply add_all_run in Ha; [|cbn; lia..]. destruct Ha as (Hv & _ & Hc & Hp & _). cbn [f_verbose f_paths nothing app] in Hp, Hv. change (clist nothing) with (@nil nat) in Hc. cbn [app] in Hc.
    destruct (f_paths m) as [|b' [|a' [|]]] eqn:Ep; try discriminate. injection H' as <- <- <- <-.
    exists is, (count Verbose is). split; [assumption|]. split; [now symmetry|]. split; [now apply times_count|]. split; [lia|].
    unfold clist in Hc. destruct (f_context m); [right|left]; now rewrite <- Hc.
  - intros (is & k & Hs & Hp & Ht & -> & Hc). apply times_count in Ht.
    assert (H : see_args diff_command args nothing false = Run (Found (Nat.min k 255) false (hd_error (contexts is)) [b; a])).
    { apply diff_sees. exists is. split; [assumption|]. apply add_all_run; [cbn; lia..|]. cbn [f_verbose f_reverse f_paths nothing clist f_context].
      split; [lia|]. split; [|split; [|split; [now rewrite Hp|cbn; lia]]].
      - cbn [Nat.b2n]. symmetry. apply count_occ_not_In. clear -Hs. intros K. induction Hs; cbn in K; try (destruct K; [discriminate|contradiction]).
        + apply K.
        + apply in_map_iff in K as (p & [=] & _).
        + destruct H. destruct K; [discriminate|contradiction].
        + apply in_app_or in K as [K|K]; [|contradiction]. clear -H0 K. induction H0 as [|? ? ? ? ? []]; [destruct K|]. destruct K; [discriminate|contradiction].
        + apply in_app_or in K as [K|[K|K]]; [|discriminate|contradiction]. clear -H0 K. induction H0 as [|? ? ? ? ? []]; [destruct K|]. destruct K; [discriminate|contradiction].
        + apply in_app_or in K as [K|[K|K]]; [|discriminate|contradiction]. clear -H0 K. induction H0 as [|? ? ? ? ? []]; [destruct K|]. destruct K; [discriminate|contradiction].
      - unfold clist. cbn. now destruct Hc as [[-> ->]| ->]. }
    rewrite H. cbn [pthen f_paths length c_paths diff_command]. cbn [Nat.eqb pthen f_paths f_verbose f_context].
    destruct Hc as [[-> ->]| ->]; reflexivity.
Qed.
Lemma parse_patch_run args v r p : patch_args args = Run (v, r, p) <-> calls_patch args v r p.
Proof.
  unfold patch_args, parse_command, calls_patch. split.
  - intros H. apply pthen_run in H as (m & H & H'). apply pthen_run in H as (m1 & H & H2). apply patch_sees in H as (is & Hs & Ha).
    destruct (_ =? _); [|discriminate]. injection H2 as ->. apply add_all_run in Ha; [|cbn; lia..]. destruct Ha as (Hv & Hr & _ & Hp & _). cbn [f_verbose f_paths f_reverse nothing app Nat.b2n Nat.add] in Hp, Hv, Hr.
    destruct (f_paths m) as [|p' [|]] eqn:Ep; try discriminate. injection H' as <- <- <-.
    exists is, (count Verbose is). split; [assumption|]. split; [now symmetry|]. split; [now apply times_count|]. split; [lia|].
    apply times_count. rewrite <- Hr. now destruct (f_reverse m).
  - intros (is & k & Hs & Hp & Ht & -> & Hr). apply times_count in Ht. apply times_count in Hr.
    assert (H : see_args patch_command args nothing false = Run (Found (Nat.min k 255) r None [p])).
    { apply patch_sees. exists is. split; [assumption|]. apply add_all_run; [cbn; lia..|]. cbn [f_verbose f_reverse f_paths nothing clist f_context].
      split; [lia|]. split; [rewrite Hr; now destruct r|]. split; [|split; [now rewrite Hp|cbn; lia]].
      unfold clist. cbn. clear -Hs. assert (L : forall s fs, letters patch_flag s fs -> contexts fs = []) by (induction 1 as [|? ? ? ? ? []]; auto).
      induction Hs; cbn; try contradiction; try assumption; try reflexivity.
      - now induction H.
      - destruct H; assumption.
      - unfold contexts. rewrite flat_map_app. fold (contexts fs) (contexts is). now rewrite (L _ _ H0). }
    rewrite H. cbn [pthen f_paths length c_paths patch_command]. cbn [Nat.eqb pthen f_paths f_verbose f_reverse]. reflexivity.
Qed.
Lemma parse_diff_help args : diff_args args = Help <-> asks_help diff_flag True 2 args.
Proof.
  rewrite <- diff_helps. unfold diff_args, parse_command. destruct (see_args _ _ _ _) as [m| |]; cbn [pthen]; [|now split|now split].
  split; [|discriminate]. destruct (_ =? _); [|discriminate]. cbn [pthen]. destruct (f_paths m) as [|? [|? [|]]]; discriminate.
Qed.
Lemma parse_patch_help args : patch_args args = Help <-> asks_help patch_flag False 1 args.
Proof.
  rewrite <- patch_helps. unfold patch_args, parse_command. destruct (see_args _ _ _ _) as [m| |]; cbn [pthen]; [|now split|now split].
  split; [|discriminate]. destruct (_ =? _); [|discriminate]. cbn [pthen]. destruct (f_paths m) as [|? [|]]; discriminate.
Qed.

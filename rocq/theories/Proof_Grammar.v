(* Proof_Grammar.v - the loader accepts exactly the JSON texts that stand for a diff (C79, C80). *)
From Coq Require Import String ZifyBool.
From Verif Require Import Base Model_Seq Model_Changes Model_IO Model_Text Model_Bytes Model_Json Spec Spec_Json Proof_Utf8 Proof_Json.
Local Open Scope Z_scope.

(* ---------------- blanks ---------------- *)
Lemma blank_ws w : json_blank w <-> forallb is_ws w = true.
Proof.
  unfold json_blank. rewrite forallb_forall, Forall_forall. split; intros H b Hb; specialize (H b Hb).
  - destruct H as [<-|[<-|[<-|[<-|[]]]]]; reflexivity.
  - destruct b; try discriminate; cbn; tauto.
Qed.
Lemma skip_ws_blank_app w s : json_blank w -> skip_ws (w ++ s) = skip_ws s.
Proof. intros H. apply skip_ws_app. now apply blank_ws. Qed.
Lemma skip_ws_split s : exists w, json_blank w /\ s = w ++ skip_ws s.
Proof.
  induction s as [|b s (w & Hw & E)]; [exists []; split; [constructor|reflexivity]|]. cbn [skip_ws].
  destruct (is_ws b) eqn:Eb.
  - exists (b :: w). split; [|cbn; congruence]. apply blank_ws. cbn. rewrite Eb. now apply blank_ws.
  - exists []. split; [constructor|reflexivity].
Qed.
Lemma blank_app w w' : json_blank w -> json_blank w' -> json_blank (w ++ w').
Proof. intros H H'. apply Forall_app. now split. Qed.
Lemma blank_nil : json_blank [].
Proof. constructor. Qed.
Lemma expect_sound b s u r : expect b s = POk u r -> exists w, json_blank w /\ s = w ++ b :: r.
Proof.
  unfold expect. destruct (skip_ws_split s) as (w & Hw & E). destruct (skip_ws s) as [|c r']; [discriminate|].
  destruct (Byte.eqb c b) eqn:Eb; [|discriminate]. intros [= _ <-]. apply eqb_eq in Eb as ->. eauto.
Qed.
Lemma expect_complete b w r : json_blank w -> is_ws b = false -> expect b (w ++ b :: r) = POk tt r.
Proof. intros H. apply expect_ws. now apply blank_ws. Qed.

(* ---------------- digits and numbers ---------------- *)
Lemma is_digit_spec b : is_digit b = true <-> decimal_digit b.
Proof. apply byte_in_spec. Qed.
Lemma dec_digits l : is_dec l <-> Forall decimal_digit l.
Proof.
  unfold is_dec. rewrite forallb_forall, Forall_forall. split; intros H b Hb; apply is_digit_spec; auto.
Qed.
Lemma parse_digits_split s v : exists ds, Forall decimal_digit ds /\ s = ds ++ snd (parse_digits s v) /\
  fst (parse_digits s v) = value v ds /\ digit_follows (snd (parse_digits s v)) = false.
Proof.
  revert v. induction s as [|b s IH]; intros v; cbn [parse_digits].
  - exists []. repeat split; constructor.
  - destruct (is_digit b) eqn:Eb.
    + destruct (IH (10 * v + digit_value b)) as (ds & H1 & H2 & H3 & H4). exists (b :: ds).
      split; [constructor; [now apply is_digit_spec|assumption]|]. split; [cbn [app]; congruence|]. split; assumption.
    + exists []. split; [constructor|]. split; [reflexivity|]. split; [reflexivity|]. cbn. exact Eb.
Qed.
Lemma integer_cases s : integer_form s <-> s = [x30] \/ exists b ds, s = b :: ds /\ decimal_digit b /\ b <> x30 /\ Forall decimal_digit ds.
Proof.
  unfold integer_form, digits. cbn [chars list_byte_of_string hd_error]. split.
  - intros [HH|[[H1 H2] H3]]; [left; exact HH|right]. destruct s as [|b ds]; [congruence|]. inversion H2; subst. exists b, ds.
    split; [reflexivity|]. split; [assumption|]. split; [|assumption]. intros ->. apply H3. reflexivity.
  - intros [->|(b & ds & -> & H1 & H2 & H3)]; [left; reflexivity|right]. split; [split; [discriminate|now constructor]|].
    intros E. injection E as ->. now apply H2.
Qed.
Lemma digit_not_ws b : decimal_digit b -> is_ws b = false.
Proof. unfold decimal_digit. destruct b; try reflexivity; cbn; lia. Qed.
Lemma parse_num_sound max s z r : parse_num max s = POk z r ->
  exists w t, json_blank w /\ s = w ++ t ++ r /\ integer_form t /\ z = value 0 t /\ (z = 0 \/ z <= max).
Proof.
  unfold parse_num. destruct (skip_ws_split s) as (w & Hw & E). destruct (skip_ws s) as [|b s']; [discriminate|].
  destruct (is_digit b) eqn:Eb; [|discriminate]. destruct (Byte.eqb b x30) eqn:E0.
  - apply eqb_eq in E0 as ->. destruct (digit_follows s' || float_follows s'); [discriminate|]. intros [= <- <-].
    exists w, [x30]. split; [assumption|]. split; [exact E|]. split; [now left|]. split; [reflexivity|now left].
  - destruct (parse_digits_split s' (digit_value b)) as (ds & D1 & D2 & D3 & D4).
    destruct (parse_digits s' (digit_value b)) as [v r']. cbn [fst snd] in *.
    destruct (float_follows r'); [discriminate|]. destruct (Z.leb_spec v max) as [Hm|Hm]; [|discriminate]. intros [= <- <-].
    exists w, (b :: ds). split; [assumption|]. split; [cbn [app]; congruence|]. split.
    + apply integer_cases. right. exists b, ds. split; [reflexivity|]. split; [now apply is_digit_spec|]. split; [|assumption].
      intros ->. discriminate.
    + split; [|now right]. rewrite D3. unfold value. reflexivity.
Qed.
Lemma parse_num_complete max w t r : json_blank w -> integer_form t -> num_end r -> (value 0 t <= max) -> parse_num max (w ++ t ++ r) = POk (value 0 t) r.
Proof.
  intros Hw Ht [Hd Hf] Hm. unfold parse_num. rewrite skip_ws_blank_app by assumption. apply integer_cases in Ht.
  destruct Ht as [->|(b & ds & -> & H1 & H2 & H3)].
  - cbn [app skip_ws is_ws]. change (is_digit x30) with true. cbn [Byte.eqb]. rewrite Hd, Hf. reflexivity.
  - cbn [app]. rewrite skip_ws_stop by now apply digit_not_ws. apply is_digit_spec in H1 as Hb. rewrite Hb.
    rewrite eqb_neq by assumption. rewrite parse_digits_app by (try apply dec_digits; assumption). rewrite Hf.
    replace (value (digit_value b) ds) with (value 0 (b :: ds)) by reflexivity.
    destruct (Z.leb_spec (value 0 (b :: ds)) max); [reflexivity|lia].
Qed.
Lemma integer_number t : integer_form t -> number_form t.
Proof. intros H. exists [], t, [], []. rewrite app_nil_r. cbn. tauto. Qed.

(* ---------------- skipped numbers ---------------- *)
Lemma skip_digits_split s : digit_follows s = true -> exists ds, digits ds /\ s = ds ++ skip_digits s /\ digit_follows (skip_digits s) = false.
Proof.
  intros H. destruct (parse_digits_split s 0) as (ds & D1 & D2 & D3 & D4). exists ds. split; [|split; assumption].
  split; [|assumption]. intros ->. cbn in D2. rewrite D2 in H at 1. unfold skip_digits in *. congruence.
Qed.
Lemma skip_digits_app ds r : Forall decimal_digit ds -> digit_follows r = false -> skip_digits (ds ++ r) = r.
Proof. intros H1 H2. unfold skip_digits. now rewrite parse_digits_app by (try apply dec_digits; assumption). Qed.
Lemma digit_follows_app ds r : digits ds -> digit_follows (ds ++ r) = true.
Proof. intros [H1 H2]. destruct ds as [|b ds]; [congruence|]. inversion H2; subst. now apply is_digit_spec. Qed.
Definition exp_form (exp : list byte) : Prop := exp = [] \/ exists e sign ds, In e [chars "e"; chars "E"] /\ In sign [[]; chars "+"; chars "-"] /\ digits ds /\ exp = e ++ sign ++ ds.
Definition frac_form (frac : list byte) : Prop := frac = [] \/ exists ds, digits ds /\ frac = chars "." ++ ds.
Definition sign_ds (t : list byte) : Prop := exists sign ds, In sign [[]; chars "+"; chars "-"] /\ digits ds /\ t = sign ++ ds.
Lemma ignore_exponent_sound s u r : ignore_exponent s = POk u r -> exists t, s = t ++ r /\ sign_ds t.
Proof.
  assert (G : forall s sign, In sign [[]; chars "+"; chars "-"] -> (if digit_follows s then POk tt (skip_digits s) else PErr) = POk u r ->
    exists t, sign ++ s = t ++ r /\ sign_ds t).
  { clear s. intros s sign Hs. destruct (digit_follows s) eqn:E; [|discriminate]. intros [= _ <-].
    destruct (skip_digits_split s E) as (ds & D1 & D2 & _). exists (sign ++ ds). split; [rewrite <- app_assoc; congruence|].
    exists sign, ds. auto. }
  unfold ignore_exponent. destruct s as [|b s]; [discriminate|].
  destruct (Byte.eqb b x2b) eqn:E1; [apply eqb_eq in E1 as ->; intros H; apply (G s [x2b]); [cbn; tauto|exact H]|].
  destruct (Byte.eqb b x2d) eqn:E2; [apply eqb_eq in E2 as ->; intros H; apply (G s [x2d]); [cbn; tauto|exact H]|].
  intros H. apply (G (b :: s) []); [cbn; tauto|]. destruct b; try exact H; discriminate.
Qed.
Lemma ignore_exponent_complete t r : sign_ds t -> digit_follows r = false -> ignore_exponent (t ++ r) = POk tt r.
Proof.
  intros (sign & ds & Hs & Hd & ->) Hr.
  assert (G : ignore_exponent (sign ++ ds ++ r) = if digit_follows (ds ++ r) then POk tt (skip_digits (ds ++ r)) else PErr).
  { pose proof Hd as [Hn Hf]. destruct Hs as [<-|[<-|[<-|[]]]]; try reflexivity. cbn [app]. unfold ignore_exponent.
    destruct ds as [|b ds]; [congruence|]. inversion Hf; subst. cbn [app]. unfold decimal_digit in *. destruct b; try reflexivity; cbn in *; lia. }
  rewrite <- app_assoc, G, digit_follows_app by assumption. rewrite skip_digits_app; [reflexivity|apply Hd|assumption].
Qed.
Lemma ignore_fraction_sound s u r : ignore_fraction s = POk u r -> exists f e, s = f ++ e ++ r /\ frac_form f /\ exp_form e.
Proof.
  assert (X : forall s b, (b = x65 \/ b = x45) -> ignore_exponent s = POk u r -> exists e, b :: s = e ++ r /\ exp_form e).
  { clear s. intros s b Hb H. apply ignore_exponent_sound in H as (t & -> & (sign & ds & H1 & H2 & ->)). exists (b :: sign ++ ds). split; [reflexivity|].
    right. exists [b], sign, ds. split; [destruct Hb as [->| ->]; cbn; tauto|]. auto. }
  assert (Y : forall s, (match s with x65 :: r' | x45 :: r' => ignore_exponent r' | _ => POk tt s end) = POk u r ->
    exists e, s = e ++ r /\ exp_form e).
  { clear s. intros s H. destruct s as [|b s]; [injection H as _ <-; exists []; split; [reflexivity|now left]|].
    destruct (Byte.eqb b x65) eqn:E1; [apply eqb_eq in E1 as ->; apply X; auto|].
    destruct (Byte.eqb b x45) eqn:E2; [apply eqb_eq in E2 as ->; apply X; auto|].
    exists []. split; [|now left]. destruct b; try discriminate; injection H as _ <-; reflexivity. }
  intros H. destruct s as [|b s]; [injection H as _ <-; exists [], []; split; [reflexivity|]; split; now left|].
  destruct (Byte.eqb b x2e) eqn:E.
  - apply eqb_eq in E as ->. cbn [ignore_fraction] in H. destruct (digit_follows s) eqn:Ed; [|discriminate].
    destruct (skip_digits_split s Ed) as (ds & D1 & D2 & _).
    destruct (Y (skip_digits s)) as (e & E1 & E2).
    { destruct (skip_digits s) as [|c t]; [exact H|destruct c; exact H]. }
    exists (x2e :: ds), e. split; [cbn [app]; congruence|]. split; [right; exists ds; split; [assumption|reflexivity]|assumption].
  - destruct (Y (b :: s)) as (e & E1 & E2).
    { destruct b; try discriminate; exact H. }
    exists [], e. split; [exact E1|]. split; [now left|assumption].
Qed.
Lemma num_end_cons b r : num_end (b :: r) -> is_digit b = false /\ b <> x2e /\ b <> x65 /\ b <> x45.
Proof. intros [H1 H2]. split; [exact H1|]. repeat split; intros ->; discriminate. Qed.
Lemma ignore_fraction_complete f e r : frac_form f -> exp_form e -> num_end r -> ignore_fraction (f ++ e ++ r) = POk tt r.
Proof.
  intros Hf He Hr. pose proof Hr as [Hd Hff].
  assert (X : (match e ++ r with x65 :: r' | x45 :: r' => ignore_exponent r' | _ => POk tt (e ++ r) end) = POk tt r /\ digit_follows (e ++ r) = false /\ (forall x, e ++ r <> x2e :: x)).
  { destruct He as [->|(b & sign & ds & H1 & H2 & H3 & ->)].
    - cbn [app]. split; [|split; [assumption|]].
      + destruct r as [|b r]; [reflexivity|]. apply num_end_cons in Hr as (_ & N1 & N2 & N3). destruct b; try reflexivity; congruence.
      + intros x ->. discriminate.
    - assert (G : ignore_exponent ((sign ++ ds) ++ r) = POk tt r) by (apply ignore_exponent_complete; [exists sign, ds; auto|assumption]).
      rewrite <- !app_assoc in *. destruct H1 as [<-|[<-|[]]]; cbn [chars list_byte_of_string app]; (split; [exact G|split; [reflexivity|discriminate]]). }
  destruct X as (X1 & X2 & X3). destruct Hf as [->|(ds & D & ->)].
  - cbn [app]. unfold ignore_fraction. destruct (e ++ r) as [|b x] eqn:E; [exact X1|]. specialize (X3 x).
    destruct b; try exact X1. congruence.
  - cbn [chars list_byte_of_string app]. rewrite <- app_assoc. change (chars "." ++ ds ++ e ++ r) with (x2e :: ds ++ e ++ r).
    cbv beta iota delta [ignore_fraction]. rewrite digit_follows_app by assumption.
    rewrite skip_digits_app by (try apply D; assumption). destruct (e ++ r) as [|c t]; [exact X1|destruct c; exact X1].
Qed.
Lemma ignore_integer_sound s u r : ignore_integer s = POk u r -> exists i f e, s = i ++ f ++ e ++ r /\ integer_form i /\ frac_form f /\ exp_form e.
Proof.
  unfold ignore_integer. destruct s as [|b s]; [discriminate|]. destruct (is_digit b) eqn:Eb; [|discriminate]. destruct (Byte.eqb b x30) eqn:E0.
  - apply eqb_eq in E0 as ->. destruct (digit_follows s); [discriminate|]. intros H. apply ignore_fraction_sound in H as (f & e & -> & H1 & H2).
    exists [x30], f, e. split; [reflexivity|]. split; [now left|]. auto.
  - intros H. apply ignore_fraction_sound in H as (f & e & E & H1 & H2). destruct (parse_digits_split s 0) as (ds & D1 & D2 & _).
    exists (b :: ds), f, e. unfold skip_digits in E. split; [cbn [app]; congruence|]. split; [|auto]. apply integer_cases. right. exists b, ds.
    split; [reflexivity|]. split; [now apply is_digit_spec|]. split; [|assumption]. intros ->. discriminate.
Qed.
Lemma ignore_integer_complete i f e r : integer_form i -> frac_form f -> exp_form e -> num_end r -> ignore_integer (i ++ f ++ e ++ r) = POk tt r.
Proof.
  intros Hi Hf He Hr.
  assert (Hd : digit_follows (f ++ e ++ r) = false).
  { destruct Hf as [->|(ds & D & ->)]; [|reflexivity]. destruct He as [->|(b & sign & ds & H1 & H2 & H3 & ->)]; [apply Hr|].
    destruct H1 as [<-|[<-|[]]]; reflexivity. }
  apply integer_cases in Hi. destruct Hi as [->|(b & ds & -> & H1 & H2 & H3)].
  - cbn [app]. unfold ignore_integer. change (is_digit x30) with true. cbn [Byte.eqb]. rewrite Hd. now apply ignore_fraction_complete.
  - cbn [app]. unfold ignore_integer. apply is_digit_spec in H1 as Hb. rewrite Hb, eqb_neq by assumption.
    rewrite skip_digits_app by assumption. now apply ignore_fraction_complete.
Qed.

(* ---------------- strings ---------------- *)
Lemma hex_value_spec b n : hex_value b = Some n <-> hex b n.
Proof.
  unfold hex_value, hex. destruct (byte_in 48 57 b) eqn:E1; [|destruct (byte_in 97 102 b) eqn:E2; [|destruct (byte_in 65 70 b) eqn:E3]].
  - apply byte_in_spec in E1. split; [intros [= <-]|intros H; f_equal]; lia.
  - apply byte_in_false in E1. apply byte_in_spec in E2. split; [intros [= <-]|intros H; f_equal]; lia.
  - apply byte_in_false in E1, E2. apply byte_in_spec in E3. split; [intros [= <-]|intros H; f_equal]; lia.
  - apply byte_in_false in E1, E2, E3. split; [discriminate|lia].
Qed.
Lemma hex4_spec a b c d n : hex4 a b c d = Some n <-> unit_of [a; b; c; d] n.
Proof.
  unfold hex4, unit_of. split.
  - intros H. destruct (hex_value a) as [n1|] eqn:E1; [|discriminate]. destruct (hex_value b) as [n2|] eqn:E2; [|discriminate].
    destruct (hex_value c) as [n3|] eqn:E3; [|discriminate]. destruct (hex_value d) as [n4|] eqn:E4; [|discriminate].
    apply hex_value_spec in E1, E2, E3, E4. injection H as <-. exists a, b, c, d, n1, n2, n3, n4. repeat (split; [assumption || reflexivity|]). lia.
  - intros (b1 & b2 & b3 & b4 & n1 & n2 & n3 & n4 & E & H1 & H2 & H3 & H4 & ->). injection E as -> -> -> ->.
    apply hex_value_spec in H1, H2, H3, H4. rewrite H1, H2, H3, H4. f_equal. lia.
Qed.
Lemma unit_four u n : unit_of u n -> exists a b c d, u = [a; b; c; d] /\ hex4 a b c d = Some n.
Proof. intros H. pose proof H as (a & b & c & d & _ & _ & _ & _ & -> & _). exists a, b, c, d. split; [reflexivity|]. now apply hex4_spec. Qed.
Lemma unit_bound u n : unit_of u n -> (n < 65536)%N.
Proof. intros (a & b & c & d & n1 & n2 & n3 & n4 & -> & H1 & H2 & H3 & H4 & ->). unfold hex in *. lia. Qed.
Lemma byte_of_spec n : (n < 256)%N -> Byte.to_N (byte_of n) = n.
Proof.
  intros H. unfold byte_of. destruct (Byte.of_N n) eqn:E; [now apply Byte.to_of_N|]. apply Byte.of_N_None_iff in E. lia.
Qed.
Lemma encode_char_spec n : (n < 1114112)%N -> map Byte.to_N (encode_char n) = utf8_encode n.
Proof.
  intros H. unfold encode_char, utf8_encode.
  repeat match goal with |- context [if ?c then _ else _] => destruct c eqn:? end; cbn [map]; rewrite ?byte_of_spec; try reflexivity; try lia.
Qed.
Lemma to_N_inj l l' : map Byte.to_N l = map Byte.to_N l' -> l = l'.
Proof.
  revert l'. induction l as [|a l IH]; intros [|b l'] H; try discriminate; [reflexivity|]. injection H as H1 H2.
  f_equal; [|now apply IH]. apply (f_equal Byte.of_N) in H1. rewrite !Byte.of_to_N in H1. congruence.
Qed.
Lemma simple_escape_spec e c : simple_escape e = Some c <-> In (e, c) short_escapes.
Proof.
  split.
  - destruct e; intros H; try discriminate H; injection H as <-; cbn; tauto.
  - cbn. intros H. repeat destruct H as [H|H]; try injection H as <- <-; try reflexivity. destruct H.
Qed.
Lemma meaning_form s t : meaning s t -> string_form s.
Proof.
  induction 1.
  - constructor.
  - now constructor.
  - eapply string_short; eassumption.
  - eapply string_unit; eassumption.
  - eapply string_unit; [eassumption|]. eapply string_unit; eassumption.
Qed.
Lemma parse_chars_sound : forall n s acc x r, (length s <= n)%nat -> parse_chars s acc = POk x r ->
  exists raw t, s = raw ++ x22 :: r /\ meaning raw t /\ x = acc ++ t /\ is_utf8 x.
Proof.
  induction n as [|n IH]; intros s acc x r Hn; [destruct s; [discriminate|cbn in Hn; lia]|]. destruct s as [|c s1]; [discriminate|]. cbn [length] in Hn.
  cbn [parse_chars]. destruct (Byte.eqb c x22) eqn:E1.
  { destruct (utf8_valid acc) eqn:Eu; [|discriminate]. intros [= <- <-]. apply eqb_eq in E1 as ->. exists [], [].
    split; [reflexivity|]. split; [constructor|]. split; [now rewrite app_nil_r|]. now apply utf8_valid_spec. }
  destruct (Byte.eqb c x5c) eqn:E2.
  - apply eqb_eq in E2 as ->. destruct s1 as [|e s2]; [discriminate|]. cbn [length] in Hn. destruct (simple_escape e) as [b|] eqn:Ee.
    { intros H. apply IH in H as (raw & t & -> & M & -> & U); [|lia]. apply simple_escape_spec in Ee.
      exists (x5c :: e :: raw), (b :: t). split; [reflexivity|]. split; [now constructor|]. rewrite <- app_assoc in *. auto. }
    destruct (Byte.eqb e x75) eqn:Eu; [|discriminate]. apply eqb_eq in Eu as ->.
    destruct s2 as [|h1 [|h2 [|h3 [|h4 s3]]]]; try discriminate. cbn [length] in Hn.
    destruct (hex4 h1 h2 h3 h4) as [n1|] eqn:Eh; [|discriminate]. apply hex4_spec in Eh. pose proof (unit_bound _ _ Eh) as Bn.
    destruct ((56320 <=? n1) && (n1 <=? 57343))%N eqn:L1; [discriminate|].
    destruct ((55296 <=? n1) && (n1 <=? 56319))%N eqn:L2.
    + destruct s3 as [|c1 s3]; [discriminate|]. destruct (Byte.eqb c1 x5c) eqn:F1; [|destruct c1; discriminate]. apply eqb_eq in F1 as ->.
      destruct s3 as [|c2 s3]; [discriminate|]. destruct (Byte.eqb c2 x75) eqn:F2; [|destruct c2; discriminate]. apply eqb_eq in F2 as ->.
      destruct s3 as [|g1 [|g2 [|g3 [|g4 s4]]]]; try discriminate. cbn [length] in Hn.
      destruct (hex4 g1 g2 g3 g4) as [n2|] eqn:Eg; [|discriminate]. apply hex4_spec in Eg.
      destruct ((n2 <? 56320) || (57343 <? n2))%N eqn:L3; [discriminate|].
      intros H. apply IH in H as (raw & t & -> & M & -> & U); [|lia].
      exists (x5c :: x75 :: [h1; h2; h3; h4] ++ x5c :: x75 :: [g1; g2; g3; g4] ++ raw), (encode_char ((n1 - 55296) * 1024 + (n2 - 56320) + 65536) ++ t).
      split; [reflexivity|]. split; [|rewrite <- app_assoc in *; auto].
      apply meaning_pair with (hi := n1) (lo := n2); auto; try lia. rewrite encode_char_spec by lia. f_equal. lia.
    + intros H. apply IH in H as (raw & t & -> & M & -> & U); [|lia].
      exists (x5c :: x75 :: [h1; h2; h3; h4] ++ raw), (encode_char n1 ++ t).
      split; [reflexivity|]. split; [|rewrite <- app_assoc in *; auto].
      apply meaning_unit with (n := n1); auto; [unfold scalar; lia|]. apply encode_char_spec. lia.
  - destruct (Byte.to_N c <? 32)%N eqn:L; [discriminate|]. intros H. apply IH in H as (raw & t & -> & M & -> & U); [|lia].
    exists (c :: raw), (c :: t). split; [reflexivity|]. split; [|rewrite <- app_assoc in *; auto].
    constructor; [|assumption]. split; [lia|]. split; intros ->; discriminate.
Qed.
Lemma parse_chars_complete raw t r : meaning raw t -> forall acc, is_utf8 (acc ++ t) -> parse_chars (raw ++ x22 :: r) acc = POk (acc ++ t) r.
Proof.
  induction 1 as [|b s t P M IH|e c s t P M IH|u n c s t P S C M IH|u hi u' lo c s t P P' H1 H2 C M IH]; intros acc U.
  - cbn. rewrite app_nil_r in *. apply utf8_valid_spec in U. now rewrite U.
  - destruct P as (P1 & P2 & P3). cbn [app parse_chars]. rewrite !eqb_neq by assumption.
    replace (Byte.to_N b <? 32)%N with false by lia. change (acc ++ b :: t) with (acc ++ [b] ++ t) in *. rewrite app_assoc in *. now apply IH.
  - apply simple_escape_spec in P. cbn [app parse_chars]. cbn [Byte.eqb]. rewrite P.
    change (acc ++ c :: t) with (acc ++ [c] ++ t) in *. rewrite app_assoc in *. now apply IH.
  - pose proof (unit_bound _ _ P) as B. destruct (unit_four _ _ P) as (a & b & c' & d & -> & E). cbn [app parse_chars]. cbn [Byte.eqb simple_escape].
    rewrite E. unfold scalar in S. replace ((56320 <=? n) && (n <=? 57343))%N with false by lia. replace ((55296 <=? n) && (n <=? 56319))%N with false by lia.
    assert (c = encode_char n) as -> by (apply to_N_inj; rewrite encode_char_spec by lia; assumption).
    rewrite app_assoc in *. now apply IH.
  - destruct (unit_four _ _ P) as (a & b & c' & d & -> & E). destruct (unit_four _ _ P') as (a2 & b2 & c2 & d2 & -> & E').
    cbn [app parse_chars]. cbn [Byte.eqb simple_escape]. rewrite E.
    replace ((56320 <=? hi) && (hi <=? 57343))%N with false by lia. replace ((55296 <=? hi) && (hi <=? 56319))%N with true by lia.
    rewrite E'. replace ((lo <? 56320) || (57343 <? lo))%N with false by lia.
    assert (c = encode_char ((hi - 55296) * 1024 + (lo - 56320) + 65536)) as ->.
    { apply to_N_inj. rewrite encode_char_spec by lia. rewrite C. f_equal. lia. }
    rewrite app_assoc in *. now apply IH.
Qed.
Lemma ignore_chars_sound : forall n s u r, (length s <= n)%nat -> ignore_chars s = POk u r -> exists raw, s = raw ++ x22 :: r /\ string_form raw.
Proof.
  induction n as [|n IH]; intros s u r Hn; [destruct s; [discriminate|cbn in Hn; lia]|]. destruct s as [|c s1]; [discriminate|]. cbn [length] in Hn.
  cbn [ignore_chars]. destruct (Byte.eqb c x22) eqn:E1.
  { intros [= _ <-]. apply eqb_eq in E1 as ->. exists []. split; [reflexivity|constructor]. }
  destruct (Byte.eqb c x5c) eqn:E2.
  - apply eqb_eq in E2 as ->. destruct s1 as [|e s2]; [discriminate|]. cbn [length] in Hn. destruct (simple_escape e) as [b|] eqn:Ee.
    { intros H. apply IH in H as (raw & -> & M); [|lia]. apply simple_escape_spec in Ee.
      exists (x5c :: e :: raw). split; [reflexivity|]. econstructor; eassumption. }
    destruct (Byte.eqb e x75) eqn:Eu; [|discriminate]. apply eqb_eq in Eu as ->.
    destruct s2 as [|h1 [|h2 [|h3 [|h4 s3]]]]; try discriminate. cbn [length] in Hn.
    destruct (hex4 h1 h2 h3 h4) as [n1|] eqn:Eh; [|discriminate]. apply hex4_spec in Eh.
    intros H. apply IH in H as (raw & -> & M); [|lia]. exists (x5c :: x75 :: [h1; h2; h3; h4] ++ raw). split; [reflexivity|].
    eapply string_unit; eassumption.
  - destruct (Byte.to_N c <? 32)%N eqn:L; [discriminate|]. intros H. apply IH in H as (raw & -> & M); [|lia].
    exists (c :: raw). split; [reflexivity|]. constructor; [|assumption]. split; [lia|]. split; intros ->; discriminate.
Qed.
Lemma ignore_chars_complete raw r : string_form raw -> ignore_chars (raw ++ x22 :: r) = POk tt r.
Proof.
  induction 1 as [|b s P M IH|e c s P M IH|u n s P M IH].
  - reflexivity.
  - destruct P as (P1 & P2 & P3). cbn [app ignore_chars]. rewrite !eqb_neq by assumption.
    replace (Byte.to_N b <? 32)%N with false by lia. exact IH.
  - apply simple_escape_spec in P. cbn [app ignore_chars]. cbn [Byte.eqb]. rewrite P. exact IH.
  - destruct (unit_four _ _ P) as (a & b & c' & d & -> & E). cbn [app ignore_chars]. cbn [Byte.eqb simple_escape]. rewrite E. exact IH.
Qed.
Lemma parse_string_sound s x r : parse_string s = POk x r -> exists w raw, json_blank w /\ s = w ++ x22 :: raw ++ x22 :: r /\ stands_for raw x.
Proof.
  unfold parse_string. destruct (skip_ws_split s) as (w & Hw & E). destruct (skip_ws s) as [|b s']; [discriminate|].
  destruct (Byte.eqb b x22) eqn:Eb; [|destruct b; discriminate]. apply eqb_eq in Eb as ->. intros H.
  apply (parse_chars_sound (length s') s' [] x r (le_n _)) in H as (raw & t & -> & M & -> & U). exists w, raw. split; [assumption|]. split; [exact E|]. split; assumption.
Qed.
Lemma parse_string_complete w raw x r : json_blank w -> stands_for raw x -> parse_string (w ++ x22 :: raw ++ x22 :: r) = POk x r.
Proof.
  intros Hw [M U]. unfold parse_string. rewrite skip_ws_blank_app by assumption. cbn [skip_ws is_ws]. exact (parse_chars_complete raw x r M [] U).
Qed.
Lemma stands_for_unique raw x y : stands_for raw x -> stands_for raw y -> x = y.
Proof. intros Hx Hy. apply (parse_string_complete [] raw x [] blank_nil) in Hx. apply (parse_string_complete [] raw y [] blank_nil) in Hy. congruence. Qed.


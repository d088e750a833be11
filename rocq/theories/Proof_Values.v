(* Proof_Values.v - the loader on whole JSON values: skipped values, sequences, records (C79, C80). *)
From Coq Require Import String ZifyBool.
From Verif Require Import Base Model_Seq Model_Changes Model_IO Model_Text Model_Bytes Model_Json Spec Spec_Json Proof_Utf8 Proof_Json Proof_Grammar.
Local Open Scope Z_scope.
Ltac flat := repeat (progress (rewrite <- ?app_assoc; cbn [app])); reflexivity.

(* ---------------- the first byte of a value ---------------- *)
Lemma integer_starts i : integer_form i -> exists b r, i = b :: r /\ is_digit b = true.
Proof.
  intros H. apply integer_cases in H as [->|(b & ds & -> & H1 & _)]; [now exists x30, []|]. exists b, ds. split; [reflexivity|]. now apply is_digit_spec.
Qed.
Lemma number_starts t : number_form t -> exists b r, t = b :: r /\ (b = x2d \/ is_digit b = true).
Proof.
  intros (m & i & f & e & -> & Hm & Hi & _). destruct (integer_starts i Hi) as (b & r & -> & Hb).
  destruct Hm as [<-|[<-|[]]]; [exists b, (r ++ f ++ e)|exists x2d, ((b :: r) ++ f ++ e)]; split; auto; reflexivity.
Qed.
Definition opening (b : byte) : Prop := is_ws b = false /\ b <> x5d /\ b <> x7d /\ b <> x2c /\ b <> x3a.
Lemma digit_opening b : b = x2d \/ is_digit b = true -> opening b.
Proof.
  intros [->|H]; [repeat split; discriminate|]. apply is_digit_spec in H. split; [now apply digit_not_ws|].
  unfold decimal_digit in H. repeat split; intros ->; cbn in H; lia.
Qed.
Lemma value_starts j s : value_text j s -> exists b r, s = b :: r /\ opening b.
Proof.
  destruct 1 as [| | |s H|s H|w H|js s H|w H|ms s H]; cbn [chars list_byte_of_string]; try (eexists; eexists; split; [reflexivity|]; repeat split; discriminate).
  destruct (number_starts s H) as (b & r & -> & Hb). exists b, r. split; [reflexivity|]. now apply digit_opening.
Qed.

(* ---------------- skipped values ---------------- *)
Definition after (stack : list frame) (s : list byte) : closing :=
  match stack with [] => Return s | f :: stack' => close_frames true f stack' s end.
Definition cont (fuel : nat) (c : closing) : pres unit :=
  match c with
  | CErr => PErr
  | Return r => POk tt r
  | Break FArr stack r => ignore_loop fuel (FArr :: stack) r
  | Break FObj stack r =>
      pbind (expect x22 r) (fun _ r1 => pbind (ignore_chars r1) (fun _ r2 => pbind (expect x3a r2) (fun _ r3 => ignore_loop fuel (FObj :: stack) r3)))
  end.
Lemma ignore_loop_unfold fuel stack s : ignore_loop (S fuel) stack s =
  cont fuel (match ignore_start s with OErr => CErr | Opened f r => close_frames false f stack r | Scalar r => after stack r end).
Proof. reflexivity. Qed.
Lemma ignore_loop_mono : forall fuel fuel' stack s, (fuel <= fuel')%nat -> ignore_loop fuel stack s <> PFuel -> ignore_loop fuel' stack s = ignore_loop fuel stack s.
Proof.
  induction fuel as [|fuel IH]; intros fuel' stack s Hf; [now destruct 1|]. destruct fuel' as [|fuel']; [lia|]. rewrite !ignore_loop_unfold.
  destruct (match ignore_start s with OErr => CErr | Opened f r => close_frames false f stack r | Scalar r => after stack r end) as [[] st x|x|]; auto; cbn [cont].
  - apply IH. lia.
  - destruct (expect x22 x) as [? y| |]; cbn [pbind]; auto. destruct (ignore_chars y) as [? z| |]; cbn [pbind]; auto.
    destruct (expect x3a z) as [? z'| |]; cbn [pbind]; auto. apply IH. lia.
Qed.
Lemma after_close f stack w r : json_blank w -> after (f :: stack) (w ++ closer f :: r) = after stack r.
Proof.
  intros Hw. cbn [after]. assert (E : forall f, skip_ws (w ++ closer f :: r) = closer f :: r).
  { intros g. rewrite skip_ws_blank_app by assumption. now destruct g. }
  destruct stack as [|f' stack]; cbn [close_frames]; rewrite (E f); destruct f; reflexivity.
Qed.
Lemma after_comma f stack w r : json_blank w -> after (f :: stack) (w ++ x2c :: r) = Break f stack r.
Proof.
  intros Hw. cbn [after]. destruct stack; cbn [close_frames]; rewrite skip_ws_blank_app by assumption; reflexivity.
Qed.
Lemma ignore_start_ws w s : json_blank w -> ignore_start (w ++ s) = ignore_start s.
Proof. intros H. unfold ignore_start. now rewrite skip_ws_blank_app. Qed.
Lemma ignore_start_skip s : ignore_start (skip_ws s) = ignore_start s.
Proof. unfold ignore_start. now rewrite skip_ws_idem. Qed.
Lemma ignore_loop_skip fuel stack s : ignore_loop fuel stack (skip_ws s) = ignore_loop fuel stack s.
Proof. destruct fuel; [reflexivity|]. now rewrite !ignore_loop_unfold, ignore_start_skip. Qed.
Lemma expect_skip b s : expect b (skip_ws s) = expect b s.
Proof. unfold expect. now rewrite skip_ws_idem. Qed.
Lemma cont_skip fuel f stack s : cont fuel (Break f stack (skip_ws s)) = cont fuel (Break f stack s).
Proof. destruct f; cbn [cont]; [apply ignore_loop_skip|now rewrite expect_skip]. Qed.
Definition runs (c : closing) (x : list byte) : Prop := exists fuel, cont fuel c = POk tt x.
Lemma blank_num_end w c r : json_blank w -> num_end (c :: r) -> num_end (w ++ c :: r).
Proof. intros Hw H. destruct w as [|b w]; [assumption|]. inversion Hw; subst. destruct H2 as [<-|[<-|[<-|[<-|[]]]]]; split; reflexivity. Qed.
Lemma open_frame f stack s c r : skip_ws s = c :: r -> c <> closer f -> close_frames false f stack s = Break f stack (skip_ws s).
Proof. intros E H. destruct stack; cbn [close_frames]; rewrite E, andb_false_r, eqb_neq by assumption; reflexivity. Qed.
Lemma open_frame_empty f stack w r : json_blank w -> close_frames false f stack (w ++ closer f :: r) = after stack r.
Proof.
  intros Hw. assert (E : skip_ws (w ++ closer f :: r) = closer f :: r) by (rewrite skip_ws_blank_app by assumption; now destruct f).
  destruct stack; cbn [close_frames]; rewrite E; destruct f; reflexivity.
Qed.
Lemma parse_ident_app w r : parse_ident w (w ++ r) = POk tt r.
Proof. induction w as [|b w IH]; [now destruct r|]. cbn. now rewrite eqb_refl. Qed.
Lemma ignore_number t r : number_form t -> num_end r -> ignore_start (t ++ r) = Scalar r.
Proof.
  intros (m & i & f & e & -> & Hm & Hi & Hf & He) Hr.
  pose proof (ignore_integer_complete i f e r Hi Hf He Hr) as G. destruct (integer_starts i Hi) as (b & i' & -> & Hb).
  assert (Hw : is_ws b = false) by (apply digit_not_ws; now apply is_digit_spec).
  destruct Hm as [<-|[<-|[]]]; [|change (chars "-") with [x2d]]; rewrite <- !app_assoc in *; cbn [app] in *.
  - unfold ignore_start. rewrite skip_ws_stop by assumption. destruct b; try discriminate Hb; cbv beta iota; rewrite Hb, G; reflexivity.
  - unfold ignore_start. cbn [skip_ws is_ws]. cbn [app] in G. rewrite G. reflexivity.
Qed.
Scheme value_ind2 := Minimality for value_text Sort Prop
  with items_ind2 := Minimality for items_text Sort Prop
  with members_ind2 := Minimality for members_text Sort Prop.
Combined Scheme grammar_ind from value_ind2, items_ind2, members_ind2.

Lemma ignore_complete :
  (forall j s, value_text j s -> forall w stack rest x, json_blank w -> num_end rest -> runs (after stack rest) x ->
     exists fuel, ignore_loop fuel stack (w ++ s ++ rest) = POk tt x) /\
  (forall js s, items_text js s -> forall stack rest x, runs (after stack rest) x -> runs (Break FArr stack (s ++ x5d :: rest)) x) /\
  (forall ms s, members_text ms s -> forall stack rest x, runs (after stack rest) x -> runs (Break FObj stack (s ++ x7d :: rest)) x).
Proof.
  assert (SC : forall s w stack rest x, json_blank w -> ignore_start (s ++ rest) = Scalar rest -> runs (after stack rest) x ->
    exists fuel, ignore_loop fuel stack (w ++ s ++ rest) = POk tt x).
  { intros s w stack rest x Hw E (fuel & H). exists (S fuel). rewrite ignore_loop_unfold, ignore_start_ws, E by assumption. exact H. }
  apply grammar_ind.
  - intros w stack rest x Hw _ Hr. apply SC; auto.
  - intros w stack rest x Hw _ Hr. apply SC; auto.
  - intros w stack rest x Hw _ Hr. apply SC; auto.
  - intros s Hs w stack rest x Hw Hn Hr. apply SC; auto. now apply ignore_number.
  - intros s Hs w stack rest x Hw _ Hr. apply SC; auto. cbn [app]. rewrite <- app_assoc. cbn [app].
    unfold ignore_start. cbn [skip_ws is_ws]. now rewrite ignore_chars_complete.
  - intros w0 Hw0 w stack rest x Hw _ (fuel & H). exists (S fuel). rewrite ignore_loop_unfold, ignore_start_ws by assumption.
    cbn [app]. rewrite <- app_assoc. cbn [app]. change (ignore_start (x5b :: w0 ++ x5d :: rest)) with (Opened FArr (w0 ++ closer FArr :: rest)).
    cbv beta iota. now rewrite open_frame_empty.
  - intros js s Hi IH w stack rest x Hw _ Hr. destruct (IH stack rest x Hr) as (fuel & H). exists (S fuel).
    rewrite ignore_loop_unfold, ignore_start_ws by assumption. cbn [app]. rewrite <- app_assoc. cbn [app].
    change (ignore_start (x5b :: s ++ x5d :: rest)) with (Opened FArr (s ++ x5d :: rest)). cbv beta iota.
    assert (E : exists c r, skip_ws (s ++ x5d :: rest) = c :: r /\ c <> x5d).
    { inversion Hi as [j w1 t w2 B1 V B2|j w1 t w2 js' s' B1 V B2 I]; subst; destruct (value_starts _ _ V) as (b & r & -> & O); rewrite <- !app_assoc;
        rewrite skip_ws_blank_app by assumption; cbn [app]; rewrite skip_ws_stop by apply O; eexists; eexists; (split; [reflexivity|apply O]). }
    destruct E as (c & r & E1 & E2). rewrite (open_frame FArr stack _ c r E1 E2), cont_skip. exact H.
  - intros w0 Hw0 w stack rest x Hw _ (fuel & H). exists (S fuel). rewrite ignore_loop_unfold, ignore_start_ws by assumption.
    cbn [app]. rewrite <- app_assoc. cbn [app]. change (ignore_start (x7b :: w0 ++ x7d :: rest)) with (Opened FObj (w0 ++ closer FObj :: rest)).
    cbv beta iota. now rewrite open_frame_empty.
  - intros ms s Hi IH w stack rest x Hw _ Hr. destruct (IH stack rest x Hr) as (fuel & H). exists (S fuel).
    rewrite ignore_loop_unfold, ignore_start_ws by assumption. cbn [app]. rewrite <- app_assoc. cbn [app].
    change (ignore_start (x7b :: s ++ x7d :: rest)) with (Opened FObj (s ++ x7d :: rest)). cbv beta iota.
    assert (E : exists r, skip_ws (s ++ x7d :: rest) = x22 :: r).
    { inversion Hi; subst; rewrite <- !app_assoc; rewrite skip_ws_blank_app by assumption; cbn [app]; eexists; reflexivity. }
    destruct E as (r & E1). rewrite (open_frame FObj stack _ x22 r E1) by discriminate. rewrite cont_skip. exact H.
  - intros j w s w' B1 V IH B2 stack rest x Hr. destruct (IH w (FArr :: stack) (w' ++ x5d :: rest) x B1) as (fuel & H).
    + apply blank_num_end; [assumption|split; reflexivity].
    + change x5d with (closer FArr). now rewrite after_close.
    + exists fuel. cbn [cont]. rewrite <- !app_assoc. exact H.
  - intros j w s w' js s' B1 V IH B2 Hi IH2 stack rest x Hr. destruct (IH w (FArr :: stack) (w' ++ x2c :: s' ++ x5d :: rest) x B1) as (fuel & H).
    + apply blank_num_end; [assumption|split; reflexivity].
    + rewrite after_comma by assumption. now apply IH2.
    + exists fuel. cbn [cont]. rewrite <- !app_assoc. cbn [app]. exact H.
  - intros k w0 w1 j w s w' B0 K B1 B2 V IH B3 stack rest x Hr. destruct (IH w (FObj :: stack) (w' ++ x7d :: rest) x B2) as (fuel & H).
    + apply blank_num_end; [assumption|split; reflexivity].
    + change x7d with (closer FObj). now rewrite after_close.
    + exists fuel. cbn [cont]. rewrite <- !app_assoc. cbn [app]. rewrite <- !app_assoc. cbn [app]. rewrite <- !app_assoc. cbn [app]. rewrite <- !app_assoc.
      rewrite expect_complete by (assumption || reflexivity). cbn [pbind].
      rewrite ignore_chars_complete by assumption. cbn [pbind]. rewrite expect_complete by (assumption || reflexivity). exact H.
  - intros k w0 w1 j w s w' ms s' B0 K B1 B2 V IH B3 Hi IH2 stack rest x Hr. destruct (IH w (FObj :: stack) (w' ++ x2c :: s' ++ x7d :: rest) x B2) as (fuel & H).
    + apply blank_num_end; [assumption|split; reflexivity].
    + rewrite after_comma by assumption. now apply IH2.
    + exists fuel. cbn [cont]. repeat (rewrite <- !app_assoc; cbn [app]).
      rewrite expect_complete by (assumption || reflexivity). cbn [pbind].
      rewrite ignore_chars_complete by assumption. cbn [pbind]. rewrite expect_complete by (assumption || reflexivity). exact H.
Qed.

Definition contents (f : frame) (s : list byte) : Prop :=
  match f with FArr => exists js, items_text js s | FObj => exists ms, members_text ms s end.
Fixpoint closes (stack : list frame) (rest x : list byte) : Prop :=
  match stack with
  | [] => rest = x
  | f :: stack' => exists w rest', json_blank w /\ closes stack' rest' x /\
      (rest = w ++ closer f :: rest' \/ exists more, rest = w ++ x2c :: more ++ closer f :: rest' /\ contents f more)
  end.
Definition opener (f : frame) : byte := match f with FArr => x5b | FObj => x7b end.
Lemma parse_ident_sound w s u r : parse_ident w s = POk u r -> s = w ++ r.
Proof.
  revert s. induction w as [|b w IH]; intros [|c s] H; cbn in H; try discriminate; try (injection H as _ <-; reflexivity).
  destruct (Byte.eqb c b) eqn:E; [|discriminate]. apply eqb_eq in E as ->. cbn. f_equal. now apply IH.
Qed.
Lemma ignore_number_sound minus s u r : In minus [[]; chars "-"] -> ignore_integer s = POk u r ->
  exists t, minus ++ s = t ++ r /\ number_form t.
Proof.
  intros Hm H. apply ignore_integer_sound in H as (i & f & e & -> & Hi & Hf & He). exists (minus ++ i ++ f ++ e).
  split; [now rewrite <- !app_assoc|]. now exists minus, i, f, e.
Qed.
Lemma ignore_start_sound s : match ignore_start s with
  | Scalar r => exists w body j, json_blank w /\ s = w ++ body ++ r /\ value_text j body
  | Opened f r => exists w, json_blank w /\ s = w ++ opener f :: r
  | OErr => True
  end.
Proof.
  unfold ignore_start. destruct (skip_ws_split s) as (w & Hw & E). destruct (skip_ws s) as [|b s']; [exact I|]. subst s.
  assert (ID : forall b v j, value_text j (b :: v) -> match scalar_of (parse_ident v s') with Scalar r => exists w0 body j, json_blank w0 /\ w ++ b :: s' = w0 ++ body ++ r /\ value_text j body | Opened f r => False | OErr => True end).
  { intros c v j V. destruct (parse_ident v s') as [u r| |] eqn:E; cbn; auto. apply parse_ident_sound in E as ->. exists w, (c :: v), j. auto. }
  assert (NU : forall c m s, In m [[]; chars "-"] -> m ++ s = c :: s' -> match scalar_of (ignore_integer s) with Scalar r => exists w0 body j, json_blank w0 /\ w ++ c :: s' = w0 ++ body ++ r /\ value_text j body | Opened f r => False | OErr => True end).
  { intros c m s Hm Es. destruct (ignore_integer s) as [u r| |] eqn:E; cbn; auto. apply (ignore_number_sound m) in E as (t & E1 & E2); [|assumption].
    exists w, t, (JNum t). rewrite <- Es, E1. split; [assumption|]. split; [reflexivity|now constructor]. }
  assert (W : forall (c : byte) (o : opened), match o with Scalar r => exists w0 body j, json_blank w0 /\ w ++ c :: s' = w0 ++ body ++ r /\ value_text j body | Opened f r => False | OErr => True end ->
    match o with Scalar r => exists w0 body j, json_blank w0 /\ w ++ c :: s' = w0 ++ body ++ r /\ value_text j body | Opened f r => exists w0, json_blank w0 /\ w ++ c :: s' = w0 ++ opener f :: r | OErr => True end).
  { intros c [r|f r|]; tauto. }
  assert (D : forall c, match (if is_digit c then scalar_of (ignore_integer (c :: s')) else OErr) with Scalar r => exists w0 body j, json_blank w0 /\ w ++ c :: s' = w0 ++ body ++ r /\ value_text j body | Opened f r => exists w0, json_blank w0 /\ w ++ c :: s' = w0 ++ opener f :: r | OErr => True end).
  { intros c. destruct (is_digit c); [|exact I]. apply W. apply (NU c []); [now left|reflexivity]. }
  destruct (Byte.eqb b x6e) eqn:E1; [apply eqb_eq in E1 as ->; apply W; apply (ID x6e (str "ull") JNull); constructor|].
  destruct (Byte.eqb b x74) eqn:E2; [apply eqb_eq in E2 as ->; apply W; apply (ID x74 (str "rue") JTrue); constructor|].
  destruct (Byte.eqb b x66) eqn:E3; [apply eqb_eq in E3 as ->; apply W; apply (ID x66 (str "alse") JFalse); constructor|].
  destruct (Byte.eqb b x2d) eqn:E4; [apply eqb_eq in E4 as ->; apply W; apply (NU x2d (chars "-")); [now right; left|reflexivity]|].
  destruct (Byte.eqb b x22) eqn:E5.
  { apply eqb_eq in E5 as ->. destruct (ignore_chars s') as [u r| |] eqn:E; cbn; auto. apply (ignore_chars_sound _ _ _ _ (Nat.le_refl _)) in E as (raw & -> & F).
    exists w, (x22 :: raw ++ [x22]), (JStr raw). split; [assumption|]. split; [cbn; now rewrite <- app_assoc|now constructor]. }
  destruct (Byte.eqb b x5b) eqn:E6; [apply eqb_eq in E6 as ->; now exists w|].
  destruct (Byte.eqb b x7b) eqn:E7; [apply eqb_eq in E7 as ->; now exists w|].
  specialize (D b). destruct b; try discriminate; exact D.
Qed.
Lemma after_step f stack s : after (f :: stack) s = CErr \/
  (exists w r, json_blank w /\ s = w ++ x2c :: r /\ after (f :: stack) s = Break f stack r) \/
  (exists w r, json_blank w /\ s = w ++ closer f :: r /\ after (f :: stack) s = after stack r).
Proof.
  cbn [after]. destruct (skip_ws_split s) as (w & Hw & E).
  destruct stack as [|f' stack]; cbn [close_frames]; (destruct (skip_ws s) as [|b s']; [now left|]);
    (destruct (Byte.eqb b x2c) eqn:E1; cbn [andb]; [apply eqb_eq in E1 as ->; right; left; exists w, s'; auto|]);
    (destruct (Byte.eqb b (closer f)) eqn:E2; [apply eqb_eq in E2 as ->; right; right; exists w, s'; auto|]); now left.
Qed.
Lemma open_step f stack s : close_frames false f stack s = CErr \/
  (exists w r, json_blank w /\ s = w ++ closer f :: r /\ close_frames false f stack s = after stack r) \/
  close_frames false f stack s = Break f stack (skip_ws s).
Proof.
  destruct (skip_ws_split s) as (w & Hw & E).
  destruct stack as [|f' stack]; cbn [close_frames]; (destruct (skip_ws s) as [|b s'] eqn:Es; [now left|]); rewrite andb_false_r;
    (destruct (Byte.eqb b (closer f)) eqn:E2; [apply eqb_eq in E2 as ->; right; left; exists w, s'; auto|]); now right; right.
Qed.
Lemma expect_quote_colon fuel stack s u x :
  cont fuel (Break FObj stack s) = POk u x -> exists w0 k w1 s', json_blank w0 /\ string_form k /\ json_blank w1 /\
    s = w0 ++ x22 :: k ++ x22 :: w1 ++ x3a :: s' /\ ignore_loop fuel (FObj :: stack) s' = POk u x.
Proof.
  cbn [cont]. destruct (expect x22 s) as [u1 r1| |] eqn:E1; cbn [pbind]; try discriminate. apply expect_sound in E1 as (w0 & W0 & ->).
  destruct (ignore_chars r1) as [u2 r2| |] eqn:E2; cbn [pbind]; try discriminate. apply (ignore_chars_sound _ _ _ _ (Nat.le_refl _)) in E2 as (k & -> & K).
  destruct (expect x3a r2) as [u3 r3| |] eqn:E3; cbn [pbind]; try discriminate. apply expect_sound in E3 as (w1 & W1 & ->).
  intros H. exists w0, k, w1, r3. auto.
Qed.
Lemma ignore_sound : forall fuel stack s u x, ignore_loop fuel stack s = POk u x ->
  exists w body rest j, json_blank w /\ s = w ++ body ++ rest /\ value_text j body /\ closes stack rest x.
Proof.
  induction fuel as [|fuel IH]; intros stack s u x H; [discriminate|]. rewrite ignore_loop_unfold in H.
  assert (BR : forall f stack r, cont fuel (Break f stack r) = POk u x -> exists more rest', r = more ++ closer f :: rest' /\ contents f more /\ closes stack rest' x).
  { clear H. intros [|] st r H.
    - apply IH in H as (w & body & rest & j & W & -> & V & w' & rest' & W' & C & [->|(more & -> & js & M)]).
      + exists (w ++ body ++ w'), rest'. rewrite <- !app_assoc. split; [reflexivity|]. split; [|assumption]. exists [j]. now constructor.
      + exists (w ++ body ++ w' ++ x2c :: more), rest'. rewrite <- !app_assoc. cbn [app]. split; [reflexivity|]. split; [|assumption]. exists (j :: js). now constructor.
    - apply expect_quote_colon in H as (w0 & k & w1 & s' & W0 & K & W1 & -> & H).
      apply IH in H as (w & body & rest & j & W & -> & V & w' & rest' & W' & C & [->|(more & -> & ms & M)]).
      + exists (w0 ++ x22 :: k ++ x22 :: w1 ++ x3a :: w ++ body ++ w'), rest'. split; [repeat (rewrite <- !app_assoc; cbn [app]); reflexivity|]. split; [|assumption].
        exists [(k, j)]. now constructor.
      + exists (w0 ++ x22 :: k ++ x22 :: w1 ++ x3a :: w ++ body ++ w' ++ x2c :: more), rest'. split; [repeat (rewrite <- !app_assoc; cbn [app]); reflexivity|].
        split; [|assumption]. exists ((k, j) :: ms). now constructor. }
  assert (AF : forall stack r, cont fuel (after stack r) = POk u x -> closes stack r x).
  { clear H. induction stack0 as [|f st IHs]; intros r H; [cbn in H; congruence|].
    destruct (after_step f st r) as [E|[(w & r' & W & -> & E)|(w & r' & W & -> & E)]]; rewrite E in H; [discriminate| |].
    - apply BR in H as (more & rest' & -> & M & C). exists w, rest'. split; [assumption|]. split; [assumption|]. right. now exists more.
    - apply IHs in H. exists w, r'. auto. }
  pose proof (ignore_start_sound s) as G. destruct (ignore_start s) as [r|f r|]; [| |discriminate].
  - destruct G as (w & body & j & W & -> & V). apply AF in H. now exists w, body, r, j.
  - destruct G as (w & W & ->). destruct (open_step f stack r) as [E|[(w' & r' & W' & -> & E)|E]]; rewrite E in H; [discriminate| |].
    + apply AF in H. exists w, (opener f :: w' ++ [closer f]), r'. destruct f; eexists; (split; [assumption|]);
        (split; [cbn [app]; rewrite <- app_assoc; reflexivity|]); (split; [|assumption]); [exact (value_arr0 w' W')|exact (value_obj0 w' W')].
    + rewrite cont_skip in H. apply BR in H as (more & rest' & -> & M & C). exists w, (opener f :: more ++ [closer f]), rest'.
      destruct f; destruct M as (js & M); eexists; (split; [assumption|]);
        (split; [cbn [app]; rewrite <- app_assoc; reflexivity|]); (split; [|assumption]); [exact (value_arr _ _ M)|exact (value_obj _ _ M)].
Qed.
(* a skipped value *)
Lemma skip_sound fuel s u r : ignore_loop fuel [] s = POk u r -> exists w body j, json_blank w /\ s = w ++ body ++ r /\ value_text j body.
Proof. intros H. apply ignore_sound in H as (w & body & rest & j & W & -> & V & ->). now exists w, body, j. Qed.
Lemma skip_complete fuel w j body r : json_blank w -> value_text j body -> num_end r -> (length (w ++ body ++ r) < fuel)%nat ->
  ignore_loop fuel [] (w ++ body ++ r) = POk tt r.
Proof.
  intros W V N F. destruct (proj1 ignore_complete j body V w [] r r W N) as (fuel' & H); [now exists O|].
  assert (S : ignore_loop fuel [] (w ++ body ++ r) <> PFuel) by (pose proof (ignore_loop_shrinks fuel [] _ F) as S; intros E; now rewrite E in S).
  destruct (Nat.le_ge_cases fuel fuel') as [L|L].
  - now rewrite <- (ignore_loop_mono _ _ _ _ L S).
  - rewrite (ignore_loop_mono _ _ _ _ L); [assumption|congruence].
Qed.

(* ---------------- lists of items or members ---------------- *)
Section Bodies.
Context {A : Type} (P : A -> list byte -> Prop).
Definition separator (first : bool) (s : list byte) : Prop :=
  if first then json_blank s else exists w w', json_blank w /\ json_blank w' /\ s = w ++ x2c :: w'.
Inductive body_text : bool -> list A -> list byte -> Prop :=
| body_end first w : json_blank w -> body_text first [] w
| body_item first d j s js b : separator first d -> P j s -> body_text false js b -> body_text first (j :: js) (d ++ s ++ b).
Inductive list_text : list A -> list byte -> Prop :=
| list_one j w s w' : json_blank w -> P j s -> json_blank w' -> list_text [j] (w ++ s ++ w')
| list_more j w s w' js s' : json_blank w -> P j s -> json_blank w' -> list_text js s' -> list_text (j :: js) (w ++ s ++ w' ++ x2c :: s').
Lemma list_body js s : list_text js s -> body_text true js s.
Proof.
  assert (G : list_text js s -> forall (first : bool) (d : list byte), (if first then d = [] else exists w, json_blank w /\ d = w ++ [x2c]) -> body_text first js (d ++ s)).
  { induction 1 as [j w s w' W V W'|j w s w' js s' W V W' L IH]; intros first d Hd.
    - rewrite app_assoc. constructor; [|assumption|now constructor]. destruct first; [now subst d|]. destruct Hd as (w0 & W0 & ->).
      exists w0, w. rewrite <- app_assoc. auto.
    - rewrite app_assoc. constructor; [|assumption|].
      + destruct first; [now subst d|]. destruct Hd as (w0 & W0 & ->). exists w0, w. rewrite <- app_assoc. auto.
      + change (w' ++ x2c :: s') with (w' ++ [x2c] ++ s'). rewrite app_assoc. apply IH. now exists w'. }
  intros H. exact (G H true [] eq_refl).
Qed.
Lemma body_list (first : bool) js b : body_text first js b ->
  (js = [] /\ json_blank b) \/ exists s, list_text js s /\ (if first then b = s else exists w, json_blank w /\ b = w ++ x2c :: s).
Proof.
  induction 1 as [first w W|first d j s js b D V L IH]; [now left|right].
  assert (E : forall w, json_blank w -> exists t, list_text (j :: js) (w ++ s ++ t) /\ t = b).
  { intros w W. destruct IH as [[-> B]|(s' & L' & w' & W' & ->)].
    - exists b. split; [now constructor|reflexivity].
    - exists (w' ++ x2c :: s'). split; [now constructor|reflexivity]. }
  destruct first.
  - destruct (E d D) as (t & T & ->). eauto.
  - destruct D as (w & w' & W & W' & ->). destruct (E w' W') as (t & T & ->). eexists. split; [exact T|]. exists w. split; [assumption|]. now rewrite <- app_assoc.
Qed.
Lemma body_num_end js b c r : body_text false js b -> (c = x5d \/ c = x7d) -> num_end (b ++ c :: r).
Proof.
  intros H Hc. inversion H as [f w W|f d j s js' b' D V L]; subst; [|destruct D as (w & w' & W & W' & ->)].
  - apply blank_num_end; [assumption|]. destruct Hc as [->| ->]; split; reflexivity.
  - rewrite <- !app_assoc. cbn [app]. apply blank_num_end; [assumption|]. split; reflexivity.
Qed.
Lemma item_next c first d j s r : (forall j s, P j s -> exists b r, s = b :: r /\ opening b) -> (c = x5d \/ c = x7d) -> separator first d -> P j s -> next_item c first (d ++ s ++ r) = NItem (s ++ r).
Proof.
  intros starts Hc D V. destruct (starts j s V) as (b & s' & -> & O1 & O2 & O3 & O4 & _).
  assert (B : Byte.eqb b c = false) by (apply eqb_neq; destruct Hc; congruence). unfold next_item. destruct first.
  - rewrite skip_ws_blank_app by assumption. cbn [app]. rewrite skip_ws_stop by assumption. rewrite B, (eqb_neq b x2c) by assumption. reflexivity.
  - destruct D as (w & w' & W & W' & ->). rewrite <- !app_assoc. rewrite skip_ws_blank_app by assumption. cbn [app skip_ws is_ws].
    replace (Byte.eqb x2c c) with false by (destruct Hc; subst c; reflexivity). cbn [Byte.eqb andb negb]. rewrite skip_ws_blank_app by assumption.
    rewrite skip_ws_stop by assumption. rewrite B. reflexivity.
Qed.
End Bodies.
Arguments body_text {A}. Arguments list_text {A}.
Lemma end_next c first w r : (c = x5d \/ c = x7d) -> json_blank w -> next_item c first (w ++ c :: r) = NEnd (c :: r).
Proof.
  intros Hc W. unfold next_item. rewrite skip_ws_blank_app by assumption. rewrite skip_ws_stop by (destruct Hc; subst; reflexivity). now rewrite eqb_refl.
Qed.
Lemma next_sound c first s : match next_item c first s with
  | NEnd r => exists w r', json_blank w /\ r = c :: r' /\ s = w ++ r
  | NItem r => exists d, separator first d /\ s = d ++ r
  | NErr => True
  end.
Proof.
  unfold next_item. destruct (skip_ws_split s) as (w & W & E). destruct (skip_ws s) as [|b s']; [exact I|].
  destruct (Byte.eqb b c) eqn:E1; [apply eqb_eq in E1 as ->; eauto|]. destruct (Byte.eqb b x2c && negb first) eqn:E2.
  - apply andb_true_iff in E2 as [E2 E3]. apply eqb_eq in E2 as ->. destruct first; [discriminate|].
    destruct (skip_ws_split s') as (w' & W' & E'). destruct (skip_ws s') as [|b' s'']; [exact I|]. destruct (Byte.eqb b' c); [exact I|].
    exists (w ++ x2c :: w'). split; [now exists w, w'|]. rewrite <- app_assoc. cbn. congruence.
  - destruct first; [|exact I]. now exists w.
Qed.
Definition member_text (m : list byte * json) (s : list byte) : Prop := exists w1 w body,
  s = x22 :: fst m ++ x22 :: w1 ++ x3a :: w ++ body /\ string_form (fst m) /\ json_blank w1 /\ json_blank w /\ value_text (snd m) body.
Lemma member_starts m s : member_text m s -> exists b r, s = b :: r /\ opening b.
Proof. intros (w1 & w & body & -> & _). eexists; eexists. split; [reflexivity|]. repeat split; discriminate. Qed.
Lemma items_list js s : items_text js s <-> list_text value_text js s.
Proof. split; induction 1; now constructor. Qed.
Lemma members_list ms s : members_text ms s <-> list_text member_text ms s.
Proof.
  split.
  - induction 1 as [k w0 w1 j w s w' W0 K W1 W V W'|k w0 w1 j w s w' ms s' W0 K W1 W V W' M IH].
    + replace (w0 ++ x22 :: k ++ x22 :: w1 ++ x3a :: w ++ s ++ w') with (w0 ++ (x22 :: k ++ x22 :: w1 ++ x3a :: w ++ s) ++ w') by flat.
      constructor; auto. exists w1, w, s. auto.
    + replace (w0 ++ x22 :: k ++ x22 :: w1 ++ x3a :: w ++ s ++ w' ++ x2c :: s') with (w0 ++ (x22 :: k ++ x22 :: w1 ++ x3a :: w ++ s) ++ w' ++ x2c :: s') by flat.
      constructor; auto. exists w1, w, s. auto.
  - induction 1 as [[k j] w0 s w' W0 (w1 & w & body & -> & K & W1 & W & V) W'|[k j] w0 s w' ms s' W0 (w1 & w & body & -> & K & W1 & W & V) W' M IH]; cbn [fst snd] in *.
    + replace (w0 ++ (x22 :: k ++ x22 :: w1 ++ x3a :: w ++ body) ++ w') with (w0 ++ x22 :: k ++ x22 :: w1 ++ x3a :: w ++ body ++ w') by flat.
      now constructor.
    + replace (w0 ++ (x22 :: k ++ x22 :: w1 ++ x3a :: w ++ body) ++ w' ++ x2c :: s') with (w0 ++ x22 :: k ++ x22 :: w1 ++ x3a :: w ++ body ++ w' ++ x2c :: s') by flat.
      now constructor.
Qed.
Lemma array_text js s : value_text (JArr js) s <-> exists b, s = x5b :: b ++ [x5d] /\ body_text value_text true js b.
Proof.
  split.
  - inversion 1; subst; eexists; (split; [reflexivity|]); [now constructor|apply list_body; now apply items_list].
  - intros (b & -> & B). apply body_list in B as [[-> B]|(s' & L & ->)]; [now apply value_arr0|]. apply value_arr. now apply items_list.
Qed.
Lemma object_text ms s : value_text (JObj ms) s <-> exists b, s = x7b :: b ++ [x7d] /\ body_text member_text true ms b.
Proof.
  split.
  - inversion 1; subst; eexists; (split; [reflexivity|]); [now constructor|apply list_body; now apply members_list].
  - intros (b & -> & B). apply body_list in B as [[-> B]|(s' & L & ->)]; [now apply value_obj0|]. apply value_obj. now apply members_list.
Qed.

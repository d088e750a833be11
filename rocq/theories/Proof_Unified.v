(* Proof_Unified.v - parsing and printing of unified diff clumps. *)
From Coq Require Import String.
From Verif Require Import Base Model_Seq Model_Changes Model_Json Model_Regex Model_Unified Spec Spec_Unified.
From Verif Require Import Proof_Seq Proof_Utf8 Proof_Json Proof_Regex Proof_Changes Proof_Clumps Proof_Diff.

(* ---------------- characters ---------------- *)
Lemma encode_one n : exists x r, utf8_encode n = x :: r /\
  (n < 1114112 -> (x < 128 \/ 192 <= x) /\ Forall (fun y => 128 <= y <= 191) r)%N.
Proof.
  unfold utf8_encode.
  destruct (N.ltb_spec n 128); [eexists _, _; split; [reflexivity|]; intros _; split; [lia|constructor]|].
  assert (M : forall a, (128 <= 128 + a mod 64 <= 191)%N) by (intros a; pose proof (N.mod_lt a 64); lia).
  destruct (N.ltb_spec n 2048); [|destruct (N.ltb_spec n 65536)]; (eexists _, _; split; [reflexivity|]; intros _; split; [|repeat (constructor; [apply M|]); constructor]);
    (right; match goal with |- (_ <= ?a + ?b)%N => generalize b; intros; lia end).
Qed.
Lemma map_to_N_inj (x y : list byte) : map Byte.to_N x = map Byte.to_N y -> x = y.
Proof.
  revert y; induction x as [|a x IH]; intros [|b y] H; try discriminate; [reflexivity|]. cbn in H. injection H as H1 H2.
  f_equal; [|now apply IH]. apply (f_equal Byte.of_N) in H1. rewrite !Byte.of_to_N in H1. now injection H1.
Qed.
Lemma character_one c : character c -> one_char c.
Proof.
  intros (n & Hs & He). destruct (encode_one n) as (x & r & E & H). unfold encodes in He. rewrite E in He.
  destruct H as [H1 H2]; [destruct Hs; lia|]. destruct c as [|b c]; [discriminate|]. cbn in He. injection He as Hx Hr. cbn. split.
  - unfold is_cont. apply byte_in_false. rewrite Hx. lia.
  - clear -Hr H2. revert r Hr H2. induction c as [|y c IH]; intros r Hr H2; [constructor|].
    destruct r as [|z r]; [discriminate|]. cbn in Hr. injection Hr as Hy Hr. inversion H2 as [|? ? Hz H3 [E1 E2]]. constructor; [|now apply (IH _ Hr)].
    unfold is_cont. apply byte_in_spec. now rewrite Hy.
Qed.
Lemma characters_chars cs : Forall character cs -> chars (concat cs) = cs.
Proof. intros H. apply chars_of. eapply Forall_impl; [|exact H]. apply character_one. Qed.

Lemma char_eqb_eq c d : char_eqb c d = true <-> c = d.
Proof. apply line_eqb_lawful. Qed.
Lemma white_list_spec : Forall (fun c => exists n,
  ((9 <= n <= 13 \/ n = 32 \/ n = 133 \/ n = 160 \/ n = 5760 \/ 8192 <= n <= 8202 \/
    n = 8232 \/ n = 8233 \/ n = 8239 \/ n = 8287 \/ n = 12288)%N) /\ encodes n c) white_list.
Proof.
  assert (P : forall n l, (9 <= n <= 13 \/ n = 32 \/ n = 133 \/ n = 160 \/ n = 5760 \/ 8192 <= n <= 8202 \/
    n = 8232 \/ n = 8233 \/ n = 8239 \/ n = 8287 \/ n = 12288)%N -> map Byte.to_N l = utf8_encode n -> exists n,
    ((9 <= n <= 13 \/ n = 32 \/ n = 133 \/ n = 160 \/ n = 5760 \/ 8192 <= n <= 8202 \/
    n = 8232 \/ n = 8233 \/ n = 8239 \/ n = 8287 \/ n = 12288)%N) /\ encodes n l) by (intros n l; exists n; auto).
  unfold white_list. repeat (constructor; [match goal with |- exists n, _ /\ encodes n ?c => idtac end|]); [..|constructor].
  all: match goal with |- exists n, _ /\ encodes n ?c =>
    let l := eval vm_compute in (map Byte.to_N c) in
    match l with
    | [?a] => apply (P a)
    | [?a; ?b] => let n := eval vm_compute in ((a - 192) * 64 + (b - 128))%N in apply (P n)
    | [?a; ?b; ?d] => let n := eval vm_compute in ((a - 224) * 4096 + (b - 128) * 64 + (d - 128))%N in apply (P n)
    end end; [lia|vm_compute; reflexivity].
Qed.
Lemma white_blank c : white c = true <-> blank c.
Proof.
  unfold white. rewrite existsb_exists. split.
  - intros (d & Hd & E). apply char_eqb_eq in E. subst d. exact (proj1 (Forall_forall _ _) white_list_spec c Hd).
  - intros (n & Hn & He).
    assert (L : In n [9;10;11;12;13;32;133;160;5760;8192;8193;8194;8195;8196;8197;8198;8199;8200;8201;8202;8232;8233;8239;8287;12288]%N).
    { cbn [In].
      assert (E : forall a, (a <= n <= a + 4 -> n = a \/ n = a + 1 \/ n = a + 2 \/ n = a + 3 \/ n = a + 4)%N) by (intros; lia).
      destruct Hn as [H|Hn]; [specialize (E 9%N H); cbn in E; intuition|].
      destruct Hn as [H|Hn]; [intuition|]. destruct Hn as [H|Hn]; [intuition|]. destruct Hn as [H|Hn]; [intuition|]. destruct Hn as [H|Hn]; [intuition|].
      destruct Hn as [H|Hn]; [|intuition].
      assert (H' : (8192 <= n <= 8192 + 4 \/ 8197 <= n <= 8197 + 4 \/ n = 8202)%N) by lia.
      destruct H' as [H'|[H'|H']]; [apply E in H'; cbn in H'; intuition|apply E in H'; cbn in H'; intuition|intuition]. }
    clear Hn. exists c. split; [|now apply char_eqb_eq].
    assert (K : In (utf8_encode n) (map (map Byte.to_N) white_list)).
    { revert n He L. intros n _ L. cbn [In] in L. repeat destruct L as [<-|L]; [vm_compute; tauto..|contradiction]. }
    rewrite <- He in K. apply in_map_iff in K. destruct K as (d & E & Hd). apply map_to_N_inj in E. now subst d.
Qed.
Lemma white_false c : white c = false <-> ~ blank c.
Proof. rewrite <- white_blank. destruct (white c); split; congruence. Qed.
Lemma digit_class_spec nd c : digit_class nd c = true <-> digit_char nd c.
Proof.
  unfold digit_char. destruct c as [|b [|b' c]]; cbn [digit_class length].
  - split; [intros H; right; split; [discriminate|assumption]|]. intros [(b & H & _)|[_ H]]; [discriminate|assumption].
  - rewrite byte_in_spec. split; [intros H; left; exists b; auto|]. intros [(x & E & H)|[H _]]; [injection E as ->; assumption|lia].
  - split; [intros H; right; split; [discriminate|assumption]|]. intros [(x & H & _)|[_ H]]; [discriminate|assumption].
Qed.
Lemma is_char_eq b c : is_char b c = true <-> c = [b].
Proof. apply char_eqb_eq. Qed.
Lemma run_Forall {C} (p : C -> bool) (P : C -> Prop) t : (forall x, p x = true <-> P x) -> (run p t <-> Forall P t).
Proof. intros H. unfold run. split; apply Forall_impl; intros x; apply H. Qed.
Lemma run_white t : run white t <-> Forall blank t.
Proof. apply run_Forall. apply white_blank. Qed.
Lemma run_digit nd t : run (digit_class nd) t <-> Forall (digit_char nd) t.
Proof. apply run_Forall. apply digit_class_spec. Qed.

Lemma digit_not_white nd c : digit_table nd -> digit_class nd c = true -> white c = false.
Proof.
  intros H D. apply white_false. destruct c as [|b [|b' c]]; cbn [digit_class] in D; [now apply H| |now apply H].
  rewrite <- white_blank. destruct b; vm_compute in D; try discriminate; vm_compute; discriminate.
Qed.

(* ---------------- clump headers ---------------- *)
Definition newline_tail (e : list char) : Prop := e = [] \/ e = [[newline]].

Ltac mi :=
  repeat match goal with
  | H : mt _ (Cat _ _) _ _ _ _ |- _ => apply mt_cat_inv in H; destruct H as (? & ? & ? & ?)
  | H : mt _ (Plus (Cls _)) _ _ _ _ |- _ => apply mt_plus_cls in H; destruct H as (-> & ? & ? & ? & ->)
  | H : mt _ (Star (Cls _)) _ _ _ _ |- _ => apply mt_star_cls in H; destruct H as (-> & ? & ? & ->)
  | H : mt _ (Cls (is_char _)) _ _ _ _ |- _ =>
      apply mt_cls_inv in H; let x := fresh in let E := fresh in destruct H as (-> & x & E & ->); apply is_char_eq in E; subst x
  | H : mt _ Eps _ _ _ _ |- _ => apply mt_eps_inv in H; destruct H as (-> & ->)
  | H : mt _ (Grp _ _) _ _ _ _ |- _ => apply mt_grp_inv in H; destruct H as (? & ? & ->)
  | H : mt _ Eol _ _ _ _ |- _ => apply mt_eol_inv in H; destruct H as (-> & -> & ->)
  end.

Section Header.
  Variable nd : char -> bool.
  Hypothesis Hnd : digit_table nd.

  (* the header expression without its ^ *)
  Definition header_re : re char := match CLUMP_HEADER_REGEX nd with Cat _ r => r | r => r end.
  Lemma header_bol : CLUMP_HEADER_REGEX nd = Cat Bol header_re.
  Proof. reflexivity. Qed.

  Definition header_parts (s d1 : list char) (o2 : option (list char)) (d3 : list char) (o4 : option (list char)) : Prop :=
    exists w1 w2 w3 w4 t e,
      (w1 <> [] /\ run white w1) /\ (w2 <> [] /\ run white w2) /\ (w3 <> [] /\ run white w3) /\ run white w4 /\
      run (fun c => negb (is_char newline c)) t /\ newline_tail e /\
      (d1 <> [] /\ run (digit_class nd) d1) /\ (d3 <> [] /\ run (digit_class nd) d3) /\
      (forall d, o2 = Some d -> d <> [] /\ run (digit_class nd) d) /\ (forall d, o4 = Some d -> d <> [] /\ run (digit_class nd) d) /\
      s = asc "@@" ++ w1 ++ asc "-" ++ d1 ++ comma o2 ++ w2 ++ asc "+" ++ d3 ++ comma o4 ++ w3 ++ asc "@@" ++ w4 ++ t ++ e.

  Lemma mt_field total n m s s' c c' : mt total (Opt (Grp n (Cat (ch x2c) (Grp m (Plus (d_re nd)))))) s s' c c' ->
    exists o, s = comma o ++ s' /\ (forall d, o = Some d -> d <> [] /\ run (digit_class nd) d) /\
      c' = match o with Some d => (n, asc "," ++ d) :: (m, d) :: c | None => c end.
  Proof.
    intros H. apply mt_opt_inv in H. destruct H as [H|(-> & ->)].
    - unfold ch, d_re in H. mi.
      match goal with H1 : ?x <> [], H2 : run _ ?x |- _ => exists (Some x) end.
      split; [reflexivity|]. split; [intros d [= <-]; auto|]. f_equal; [|f_equal; f_equal; apply firstn_app_length].
      f_equal. apply (firstn_app_length (_ :: _)).
    - exists None. split; [reflexivity|]. split; [discriminate|reflexivity].
  Qed.
  Lemma field_mt total n m s o c : (forall d, o = Some d -> d <> [] /\ run (digit_class nd) d) ->
    exists c', mt total (Opt (Grp n (Cat (ch x2c) (Grp m (Plus (d_re nd)))))) (comma o ++ s) s c c'.
  Proof.
    intros H. destruct o as [d|]; cbn [comma].
    - destruct (H d eq_refl) as [H1 H2]. eexists. apply mt_alt1. apply mt_grp. eapply mt_cat; [apply mt_cls; now apply is_char_eq|].
      apply mt_grp. apply mt_plus_cls. split; [reflexivity|]. exists d. auto.
    - exists c. apply mt_alt2. constructor.
  Qed.

  Lemma header_sound s s' c : mt (length s) header_re s s' [] c -> exists d1 o2 d3 o4,
    header_parts s d1 o2 d3 o4 /\ group 1 c = Some d1 /\ group 3 c = o2 /\ group 4 c = Some d3 /\ group 6 c = o4.
  Proof.
    unfold header_re, CLUMP_HEADER_REGEX, s_re, dot_re. change (txt "@@") with (Cat (ch x40) (Cat (ch x40) Eps)).
    generalize (length s) as total. intros total H.
    repeat match goal with
    | H : mt _ (Opt (Grp ?n (Cat (ch x2c) _))) _ _ _ _ |- _ => apply mt_field in H; destruct H as (? & -> & ? & ->)
    | H : mt _ (Cat _ _) _ _ _ _ |- _ => apply mt_cat_inv in H; destruct H as (? & ? & ? & ?)
    end.
    unfold ch, d_re in *. mi.
    match goal with H : mt _ (Opt _) _ _ _ _ |- _ => apply mt_opt_inv in H; destruct H as [H|(-> & ->)] end; mi;
    repeat rewrite firstn_app_length;
    match goal with |- exists _ _ _ _, header_parts (_ :: _ :: ?w1 ++ _ :: ?e1 ++ comma ?p2 ++ ?w2 ++ _ :: ?e3 ++ comma ?p4 ++ ?w3 ++ _ :: _ :: ?w4 ++ ?t ++ ?e) _ _ _ _ /\ _ =>
      exists e1, p2, e3, p4; split; [exists w1, w2, w3, w4, t, e; repeat (split; [auto|]); [now left + right..|]; auto|destruct p2, p4; repeat split] end.
    all: try (repeat split; auto; fail).
    all: now (left + right).
  Qed.
  Lemma header_complete s d1 o2 d3 o4 : header_parts s d1 o2 d3 o4 -> exists c, mt (length s) header_re s [] [] c.
  Proof.
    unfold header_re, CLUMP_HEADER_REGEX, s_re, dot_re. change (txt "@@") with (Cat (ch x40) (Cat (ch x40) Eps)).
    generalize (length s) as total. intros total.
    intros (w1 & w2 & w3 & w4 & t & e & W1 & W2 & W3 & W4 & Ht & He & D1 & D3 & O2 & O4 & ->).
    destruct (field_mt total 2 3 (w2 ++ asc "+" ++ d3 ++ comma o4 ++ w3 ++ asc "@@" ++ w4 ++ t ++ e) o2 [(1, d1)] O2) as (c2 & F2).
    destruct (field_mt total 5 6 (w3 ++ asc "@@" ++ w4 ++ t ++ e) o4 ((4, d3) :: c2) O4) as (c4 & F4).
    assert (P : forall (p : char -> bool) t s c, t <> [] /\ run p t -> mt total (Plus (Cls p)) (t ++ s) s c c).
    { intros p u r c [U1 U2]. apply mt_plus_cls. split; [reflexivity|]. exists u. auto. }
    assert (Q : forall n (r : re char) t s c, mt total r (t ++ s) s c c -> mt total (Grp n r) (t ++ s) s c ((n, t) :: c)).
    { intros n r u v c M. pose proof (mt_grp total n r (u ++ v) v c c M) as G. now rewrite firstn_app_length in G. }
    assert (A : forall b s c, mt total (ch b) (asc (String.string_of_list_byte [b]) ++ s) s c c) by (intros b r c; destruct b; now apply mt_cls; apply is_char_eq).
    assert (AA : forall s c, mt total (Cat (ch x40) (Cat (ch x40) Eps)) (asc "@@" ++ s) s c c).
    { intros r c. apply mt_cat with (asc "@" ++ r) c; [apply (A x40)|]. apply mt_cat with r c; [apply (A x40)|constructor]. }
    assert (E : exists c, mt total (Cat (Star (Cls white)) (Cat (Grp 7 (Star (Cls (fun c => negb (is_char newline c))))) (Cat (Opt (Grp 8 (ch newline))) Eol))) (w4 ++ t ++ e) [] c4 c).
    { destruct He as [-> | ->].
      - eexists. eapply mt_cat; [apply mt_star_cls; split; [reflexivity|]; exists w4; auto|]. eapply mt_cat; [apply Q; apply mt_star_cls; split; [reflexivity|]; exists t; auto|].
        eapply mt_cat; [apply mt_alt2; constructor|constructor].
      - eexists. eapply mt_cat; [apply mt_star_cls; split; [reflexivity|]; exists w4; auto|]. eapply mt_cat; [apply Q; apply mt_star_cls; split; [reflexivity|]; exists t; auto|].
        eapply mt_cat; [apply mt_alt1; apply mt_grp; apply mt_cls; now apply is_char_eq|constructor]. }
    destruct E as (c & E). exists c.
    eapply mt_cat; [apply AA|]. eapply mt_cat; [apply P, W1|]. eapply mt_cat; [apply (A x2d)|]. eapply mt_cat; [apply Q; apply P, D1|].
    eapply mt_cat; [exact F2|]. eapply mt_cat; [apply P, W2|]. eapply mt_cat; [apply (A x2b)|]. eapply mt_cat; [apply Q; apply P, D3|].
    eapply mt_cat; [exact F4|]. eapply mt_cat; [apply P, W3|]. eapply mt_cat; [apply AA|]. exact E.
  Qed.

  Lemma header_unique s d1 o2 d3 o4 d1' o2' d3' o4' : header_parts s d1 o2 d3 o4 -> header_parts s d1' o2' d3' o4' ->
    d1' = d1 /\ o2' = o2 /\ d3' = d3 /\ o4' = o4.
  Proof.
    intros (w1 & w2 & w3 & w4 & t & e & W1 & W2 & W3 & W4 & Ht & He & D1 & D3 & O2 & O4 & ->)
      (w1' & w2' & w3' & w4' & t' & e' & W1' & W2' & W3' & W4' & Ht' & He' & D1' & D3' & O2' & O4' & E).
    (* a blank, or the first character of a literal *)
    assert (SW : forall x s, white x = false -> stops white (x :: s)) by auto.
    assert (SD : forall w s, w <> [] /\ run white w -> stops (digit_class nd) (w ++ s)).
    { intros w s [Hne Hw]. destruct w as [|x w]; [congruence|]. inversion Hw; subst. cbn. destruct (digit_class nd x) eqn:D; [|reflexivity].
      apply (digit_not_white nd x Hnd) in D. congruence. }
    assert (SO : forall o w s, w <> [] /\ run white w -> stops (digit_class nd) (comma o ++ w ++ s)).
    { intros [d|] w s H; [reflexivity|]. exact (SD w s H). }
    assert (F : forall o o' w w' s s', w <> [] /\ run white w -> w' <> [] /\ run white w' ->
      (forall d, o = Some d -> d <> [] /\ run (digit_class nd) d) -> (forall d, o' = Some d -> d <> [] /\ run (digit_class nd) d) ->
      comma o ++ w ++ s = comma o' ++ w' ++ s' -> o = o' /\ w ++ s = w' ++ s').
    { intros [d|] [d'|] w w' s s' Hw Hw' Ho Ho' Eq; cbn [comma] in Eq.
      - cbn [asc map list_byte_of_string String.list_ascii_of_string] in Eq. injection Eq as Eq.
        destruct (run_unique (digit_class nd) d d' (w ++ s) (w' ++ s') Eq) as [-> ->]; auto; [now apply Ho|now apply Ho'].
      - exfalso. destruct Hw' as [Hne Hw']. destruct w' as [|x w']; [congruence|]. injection Eq as Eq _. subst x. inversion Hw'; subst. discriminate.
      - exfalso. destruct Hw as [Hne Hw]. destruct w as [|x w]; [congruence|]. injection Eq as Eq _. subst x. inversion Hw; subst. discriminate.
      - auto. }
    apply app_inv_head in E.
    destruct (run_unique white w1 w1' _ _ E) as [<- E1]; [apply W1|apply W1'|reflexivity|reflexivity|]. apply app_inv_head in E1.
    destruct (run_unique (digit_class nd) d1 d1' _ _ E1) as [<- E2]; [apply D1|apply D1'|now apply SO|now apply SO|].
    destruct (F _ _ _ _ _ _ W2 W2' O2 O2' E2) as [<- E3].
    destruct (run_unique white w2 w2' _ _ E3) as [<- E4]; [apply W2|apply W2'|reflexivity|reflexivity|]. apply app_inv_head in E4.
    destruct (run_unique (digit_class nd) d3 d3' _ _ E4) as [<- E5]; [apply D3|apply D3'|now apply SO|now apply SO|].
    destruct (F _ _ _ _ _ _ W3 W3' O4 O4' E5) as [<- E6]. auto.
  Qed.

  Lemma header_parts_form s d1 o2 d3 o4 : header_parts s d1 o2 d3 o4 <-> header_form nd s d1 o2 d3 o4.
  Proof.
    assert (N : forall t, run (fun c => negb (is_char newline c)) t <-> ~ In [newline] t).
    { intros t. unfold run. rewrite Forall_forall. split.
      - intros H Hin. specialize (H _ Hin). discriminate.
      - intros H x Hx. destruct (is_char newline x) eqn:Ex; [|reflexivity]. apply is_char_eq in Ex. now subst. }
    split.
    - intros (w1 & w2 & w3 & w4 & t & e & W1 & W2 & W3 & W4 & Ht & He & D1 & D3 & O2 & O4 & ->).
      exists w1, w2, w3, w4, (t ++ e). rewrite !run_white, !run_digit, N in *. unfold blanks, digits.
      do 4 (split; [assumption|]). split; [exists t; split; [assumption|]; destruct He as [-> | ->]; [left; apply app_nil_r|now right]|].
      do 2 (split; [assumption|]). split; [intros d Hd; specialize (O2 d Hd); now rewrite run_digit in O2|].
      split; [intros d Hd; specialize (O4 d Hd); now rewrite run_digit in O4|reflexivity].
    - intros (w1 & w2 & w3 & w4 & r & W1 & W2 & W3 & W4 & (t & Ht & He) & D1 & D3 & O2 & O4 & ->).
      assert (X : exists e, newline_tail e /\ r = t ++ e).
      { destruct He as [-> | ->]; [exists []; split; [now left|now rewrite app_nil_r]|exists [[newline]]; split; [now right|reflexivity]]. }
      destruct X as (e & He' & ->). exists w1, w2, w3, w4, t, e. rewrite !run_white, !run_digit, N. unfold blanks, digits in *.
      do 8 (split; [assumption|]). split; [intros d Hd; rewrite run_digit; auto|]. split; [intros d Hd; rewrite run_digit; auto|reflexivity].
  Qed.

  Lemma captures_header s d1 o2 d3 o4 : header_form nd s d1 o2 d3 o4 -> exists c, captures (CLUMP_HEADER_REGEX nd) s = Some c /\
    group 1 c = Some d1 /\ group 3 c = o2 /\ group 4 c = Some d3 /\ group 6 c = o4.
  Proof.
    intros H. apply header_parts_form in H. destruct (header_complete _ _ _ _ _ H) as (c0 & M). rewrite header_bol.
    apply captures_some in M. destruct (captures (Cat Bol header_re) s) as [c|] eqn:E; [|congruence]. exists c. split; [reflexivity|].
    apply captures_mt in E. destruct E as (s' & E). apply header_sound in E. destruct E as (e1 & p2 & e3 & p4 & H' & G).
    destruct (header_unique _ _ _ _ _ _ _ _ _ H H') as (-> & -> & -> & ->). exact G.
  Qed.
  Lemma captures_no_header s : (forall d1 o2 d3 o4, ~ header_form nd s d1 o2 d3 o4) -> captures (CLUMP_HEADER_REGEX nd) s = None.
  Proof.
    intros H. destruct (captures (CLUMP_HEADER_REGEX nd) s) as [c|] eqn:E; [|reflexivity]. exfalso. rewrite header_bol in E.
    apply captures_mt in E. destruct E as (s' & E). apply header_sound in E. destruct E as (e1 & p2 & e3 & p4 & H' & G).
    apply header_parts_form in H'. eapply H; eassumption.
  Qed.
End Header.

(* ---------------- numbers ---------------- *)
Definition single (b : byte) : char := [b].
Lemma concat_single l : concat (map single l) = l.
Proof. induction l as [|b l IH]; [reflexivity|]. cbn. now rewrite IH. Qed.
Lemma asc_single s : asc s = map single (list_byte_of_string s).
Proof. reflexivity. Qed.
Lemma character_multi b c : character (b :: c) -> c <> [] -> (192 <= Byte.to_N b)%N.
Proof.
  intros (n & Hs & He) Hc. unfold encodes, utf8_encode in He. cbn [map] in He.
  destruct (n <? 128)%N; [injection He as _ He; destruct c; [congruence|discriminate]|].
  destruct (n <? 2048)%N; [|destruct (n <? 65536)%N]; apply cons_eq in He; destruct He as [-> _]; match goal with |- (_ <= ?a + ?b)%N => generalize b; intros; lia end.
Qed.
Lemma is_digit_spec b : is_digit b = true <-> (48 <= Byte.to_N b <= 57)%N.
Proof. apply byte_in_spec. Qed.
Lemma parse_digits_end s : forall v x, parse_digits s v = (x, []) -> is_dec s /\ x = value v s.
Proof.
  induction s as [|b s IH]; intros v x H; cbn [parse_digits] in H.
  - injection H as <-. split; reflexivity.
  - destruct (is_digit b) eqn:E; [|discriminate]. apply IH in H. destruct H as [H1 ->]. split; [|reflexivity]. unfold is_dec in *. cbn. now rewrite E.
Qed.
Lemma usize_from_str_dec s v : s <> [] -> (forall r, s <> x2b :: r) -> (usize_from_str s = Some v <-> is_dec s /\ v = value 0 s /\ (v < two64)%Z).
Proof.
  intros Hne Hp. assert (E : usize_from_str s = match parse_digits s 0 with (v, []) => if in_usize v then Some v else None | _ => None end).
  { destruct s as [|b s]; [congruence|]. unfold usize_from_str. destruct b; try reflexivity. exfalso. now apply (Hp s). }
  rewrite E. clear E. split.
  - destruct (parse_digits s 0) as [x [|? ?]] eqn:P; [|discriminate]. apply parse_digits_end in P. destruct P as [P ->].
    unfold in_usize. destruct (Z.leb_spec 0 (value 0 s)); [|discriminate]. destruct (Z.ltb_spec (value 0 s) two64); [|discriminate].
    intros [= <-]. auto.
  - intros (P & -> & L). pose proof (parse_digits_app s [] 0 P eq_refl) as Q. rewrite app_nil_r in Q. rewrite Q.
    assert (N : (0 <= value 0 s)%Z). { pose proof (parse_digits_nonneg s 0) as G. rewrite Q in G. apply G. lia. }
    unfold in_usize. rewrite (proj2 (Z.leb_le _ _) N), (proj2 (Z.ltb_lt _ _) L). reflexivity.
Qed.
Lemma numeral_dec d v : numeral d v <-> exists l, d = map single l /\ l <> [] /\ is_dec l /\ v = value 0 l /\ (v < two64)%Z.
Proof.
  split.
  - intros (ds & Hne & Hd & E & Ev & L).
    assert (X : forall ds d, Forall (fun d => (0 <= d < 10)%Z) ds -> map (map Byte.to_N) d = map (fun d => [Z.to_N (48 + d)]) ds ->
      exists l, d = map single l /\ length l = length ds /\ is_dec l /\ forall v, fold_left (fun v d => (10 * v + d)%Z) ds v = value v l).
    { clear. induction ds as [|x ds IH]; intros d Hd E; destruct d as [|c d]; try discriminate.
      - exists []. repeat split.
      - cbn [map] in E. apply cons_eq in E. destruct E as [E1 E2]. inversion Hd; subst. destruct (IH d) as (l & -> & HL & D & V); [assumption..|].
        destruct c as [|b [|b' c]]; try discriminate. cbn [map] in E1. apply cons_eq in E1. destruct E1 as [E1 _]. exists (b :: l). split; [reflexivity|].
        assert (Q : is_digit b = true) by (apply is_digit_spec; lia).
        split; [cbn; lia|]. split; [unfold is_dec; cbn; now rewrite Q|].
        intros v. cbn. rewrite V. unfold value. cbn. f_equal. unfold digit_value. lia. }
    destruct (X ds d Hd E) as (l & -> & HL & D & V). exists l. split; [reflexivity|]. split; [destruct l, ds; cbn in *; congruence|]. split; [assumption|].
    split; [now rewrite Ev|assumption].
  - intros (l & -> & Hne & D & -> & L). exists (map digit_value l). split; [destruct l; [congruence|discriminate]|].
    assert (X : Forall (fun b => (48 <= Byte.to_N b <= 57)%N) l).
    { apply Forall_forall. intros b Hb. apply is_digit_spec. unfold is_dec in D. rewrite forallb_forall in D. now apply D. }
    split; [|split; [|split; [|assumption]]].
    + apply Forall_map. eapply Forall_impl; [|exact X]. intros b Hb. cbn beta in Hb |- *. unfold digit_value. lia.
    + clear -X. induction X as [|b l Hb Hl IH]; [reflexivity|]. cbn [map single]. f_equal; [|exact IH]. f_equal. unfold digit_value. lia.
    + clear. unfold value. generalize 0%Z. induction l as [|b l IH]; intros v; [reflexivity|]. cbn. apply IH.
Qed.
Lemma usize_numeral nd d v : digits nd d -> Forall character d -> (usize_from_str (concat d) = Some v <-> numeral d v).
Proof.
  intros [Hne Hd] Hc. rewrite numeral_dec.
  assert (F : exists b r, concat d = b :: r /\ b <> x2b).
  { destruct d as [|c d]; [congruence|]. inversion Hd as [|? ? Hd1 _]; subst. inversion Hc as [|? ? Hc1 _]; subst. destruct Hd1 as [(b & -> & Hb)|[Hl _]].
    - exists b, (concat d). split; [reflexivity|]. intros ->. change (Byte.to_N x2b) with 43%N in Hb. lia.
    - destruct c as [|b c]; [now apply character_one in Hc1|]. destruct c as [|b' c]; [cbn in Hl; lia|].
      exists b, ((b' :: c) ++ concat d). split; [reflexivity|]. intros ->. apply character_multi in Hc1; [|discriminate]. change (Byte.to_N x2b) with 43%N in Hc1. lia. }
  destruct F as (b & r & F & Fb). rewrite usize_from_str_dec; [|rewrite F; discriminate|intros r'; rewrite F; congruence].
  split.
  - intros (D & -> & L). exists (concat d). split; [|split; [rewrite F; discriminate|auto]].
    clear F Fb Hne L. induction Hd as [|c d Hc1 Hd IH]; [reflexivity|]. inversion Hc as [|? ? Hcc Hc']; subst. cbn [concat] in D. unfold is_dec in D.
    rewrite forallb_app, andb_true_iff in D. destruct D as [D1 D2]. destruct Hc1 as [(x & -> & Hx)|[Hl _]]; [cbn; unfold single; f_equal; auto|].
    exfalso. destruct c as [|x c]; [now apply character_one in Hcc|]. destruct c as [|y c]; [cbn in Hl; lia|].
    apply character_multi in Hcc; [|discriminate]. cbn in D1. rewrite andb_true_iff in D1. destruct D1 as [D1 _]. apply is_digit_spec in D1. lia.
  - intros (l & -> & Hl & D & V & L). rewrite concat_single. auto.
Qed.

(* ---------------- the header line ---------------- *)
Section HeaderLine.
  Variable nd : char -> bool.
  Hypothesis Hnd : digit_table nd.
  Lemma digits_characters cs d1 o2 d3 o4 : Forall character cs -> header_form nd cs d1 o2 d3 o4 ->
    Forall character d1 /\ Forall character d3 /\ (forall d, o2 = Some d -> Forall character d) /\ (forall d, o4 = Some d -> Forall character d).
  Proof.
    intros H (w1 & w2 & w3 & w4 & r & _ & _ & _ & _ & _ & _ & _ & _ & _ & ->). rewrite !Forall_app in H.
    destruct H as (_ & _ & _ & H1 & H2 & _ & _ & H3 & H4 & _).
    split; [assumption|]. split; [assumption|]. split; intros d ->; cbn [comma] in *; rewrite Forall_app in *; tauto.
  Qed.
  (* what is read from the captures *)
  Lemma starts_from (c : @caps char) n m ln d o : digits nd d -> Forall character d -> (forall e, o = Some e -> digits nd e /\ Forall character e) ->
    group n c = Some d -> group m c = o ->
    (forall v l, numeral d v -> length_field o l -> start_and_length_from_captures c n m ln = DOk (SL v l)) /\
    ((forall v l, numeral d v -> length_field o l -> False) -> start_and_length_from_captures c n m ln = DErr (ParseNumberError ln)).
  Proof.
    intros Hd Hc Ho G1 G2. unfold start_and_length_from_captures, group_text. rewrite G1, G2. cbn [option_map].
    assert (U : forall d, digits nd d -> Forall character d -> (exists v, numeral d v /\ usize_from_str (concat d) = Some v) \/ ((forall v, ~ numeral d v) /\ usize_from_str (concat d) = None)).
    { intros e He1 He2. destruct (usize_from_str (concat e)) as [v|] eqn:E.
      - left. exists v. split; [|reflexivity]. now apply (usize_numeral nd) in E.
      - right. split; [|reflexivity]. intros v Hv. apply (usize_numeral nd) in Hv; [|assumption..]. congruence. }
    assert (I : forall d v w, numeral d v -> numeral d w -> digits nd d -> Forall character d -> v = w).
    { intros e v w H1 H2 H3 H4. apply (usize_numeral nd) in H1; [|assumption..]. apply (usize_numeral nd) in H2; [|assumption..]. congruence. }
    destruct (U d Hd Hc) as [(v & Nv & ->)|[Nv ->]]; cbn [dbind].
    - destruct o as [e|]; cbn [option_map length_field].
      + destruct (Ho e eq_refl) as [He1 He2]. destruct (U e He1 He2) as [(l & Nl & ->)|[Nl ->]]; cbn [dbind].
        * split; [|intros H; exfalso; eapply H; eassumption]. intros v' l' H1 H2. do 2 f_equal; eauto.
        * split; [|reflexivity]. intros v' l' _ H2. exfalso. eapply Nl; eassumption.
      + split; [|intros H; exfalso; eapply H; [eassumption|reflexivity]]. intros v' l' H1 ->. cbn. do 2 f_equal. eauto.
    - split; [|reflexivity]. intros v l H _. exfalso. eapply Nv; eassumption.
  Qed.

  Lemma starts_and_lengths_spec cs ln : Forall character cs ->
    ((forall d1 o2 d3 o4, ~ header_form nd cs d1 o2 d3 o4) -> starts_and_lengths nd (concat cs) ln = DOk None) /\
    (forall d1 o2 d3 o4, header_form nd cs d1 o2 d3 o4 ->
      (forall b bl a al, numeral d1 b -> length_field o2 bl -> numeral d3 a -> length_field o4 al ->
        starts_and_lengths nd (concat cs) ln = DOk (Some (SLs (SL b bl) (SL a al)))) /\
      ((forall b bl a al, numeral d1 b -> length_field o2 bl -> numeral d3 a -> length_field o4 al -> False) ->
        starts_and_lengths nd (concat cs) ln = DErr (ParseNumberError ln))).
  Proof.
    intros Hcs. unfold starts_and_lengths. rewrite characters_chars by assumption. split.
    - intros H. rewrite captures_no_header by assumption. reflexivity.
    - intros d1 o2 d3 o4 H. destruct (captures_header nd Hnd _ _ _ _ _ H) as (c & -> & G1 & G2 & G3 & G4).
      destruct (digits_characters _ _ _ _ _ Hcs H) as (C1 & C3 & C2 & C4).
      assert (D : digits nd d1 /\ digits nd d3 /\ (forall d, o2 = Some d -> digits nd d) /\ (forall d, o4 = Some d -> digits nd d)) by (destruct H as (? & ? & ? & ? & ? & H); tauto).
      destruct D as (D1 & D3 & D2 & D4).
      destruct (starts_from c 1 3 ln d1 o2) as [S1 S2]; [auto..|]. destruct (starts_from c 4 6 ln d3 o4) as [S3 S4]; [auto..|]. split.
      + intros b bl a al H1 H2 H3 H4. rewrite (S1 _ _ H1 H2). cbn [dbind]. now rewrite (S3 _ _ H3 H4).
      + intros N.
        assert (X : (exists b bl, numeral d1 b /\ length_field o2 bl) \/ (forall b bl, numeral d1 b -> length_field o2 bl -> False)).
        { destruct (start_and_length_from_captures c 1 3 ln) as [[b bl]|e] eqn:E.
          - left. destruct (usize_from_str (concat d1)) as [v|] eqn:U1.
            + apply (usize_numeral nd) in U1; [|assumption..]. destruct o2 as [d2|].
              * destruct (usize_from_str (concat d2)) as [l|] eqn:U2; [apply (usize_numeral nd) in U2; auto; exists v, l; auto|].
                exfalso. discriminate S2. intros v' l' _ Hl. apply (usize_numeral nd) in Hl; auto. congruence.
              * exists v, 1%Z. split; [assumption|reflexivity].
            + exfalso. discriminate S2. intros v' l' Hl _. apply (usize_numeral nd) in Hl; auto. congruence.
          - right. intros b bl H1 H2. discriminate (S1 _ _ H1 H2). }
        destruct X as [(b & bl & X1 & X2)|X]; [|rewrite (S2 X); reflexivity].
        rewrite (S1 _ _ X1 X2). cbn [dbind]. rewrite S4; [reflexivity|]. intros a al X3 X4. eapply N; eassumption.
  Qed.

  (* ---------------- printing a header and reading it ---------------- *)
  Lemma ascii_one b : (Byte.to_N b < 128)%N -> character [b].
  Proof. intros H. exists (Byte.to_N b). split; [left; lia|]. unfold encodes. now rewrite enc1. Qed.
  Lemma dec_digits z : (0 <= z)%Z -> digits nd (map single (dec z)) /\ Forall character (map single (dec z)) /\ ((z < two64)%Z -> numeral (map single (dec z)) z).
  Proof.
    intros Hz. destruct (dec_spec z Hz) as (D & V & b & l & E & _).
    assert (X : Forall (fun b => (48 <= Byte.to_N b <= 57)%N) (dec z)).
    { apply Forall_forall. intros x Hx. apply is_digit_spec. unfold is_dec in D. rewrite forallb_forall in D. now apply D. }
    split; [|split].
    - split; [rewrite E; discriminate|]. apply Forall_map. eapply Forall_impl; [|exact X]. intros x Hx. left. exists x. auto.
    - apply Forall_map. eapply Forall_impl; [|exact X]. intros x Hx. cbn beta in Hx. apply ascii_one. lia.
    - intros L. apply numeral_dec. exists (dec z). split; [reflexivity|]. split; [rewrite E; discriminate|]. auto.
  Qed.
  Definition header_chars (h : starts_lengths) : list char :=
    let f l := if (l =? 1)%Z then None else Some (map single (dec l)) in
    asc "@@" ++ asc " " ++ asc "-" ++ map single (dec (sl_start (sls_before h))) ++ comma (f (sl_length (sls_before h))) ++ asc " " ++ asc "+" ++
    map single (dec (sl_start (sls_after h))) ++ comma (f (sl_length (sls_after h))) ++ asc " " ++ asc "@@" ++ [].
  Lemma header_text_chars h : header_text h = concat (header_chars h).
  Proof.
    unfold header_text, header_chars. destruct (sl_length (sls_before h) =? 1)%Z, (sl_length (sls_after h) =? 1)%Z; cbn [comma];
      rewrite !concat_app, !asc_single, !concat_single; unfold str; cbn [list_byte_of_string]; rewrite ?app_nil_r; rewrite <- ?app_assoc; reflexivity.
  Qed.
  Lemma blank_space : blank [x20].
  Proof. exists 32%N. split; [tauto|reflexivity]. Qed.
  Lemma header_round_trip h e ln : machine_header h -> e = [] \/ e = [newline] ->
    starts_and_lengths nd (header_text h ++ e) ln = DOk (Some h).
  Proof.
    intros (H1 & H2 & H3 & H4) He. destruct h as [[b bl] [a al]]. cbn [sls_before sls_after sl_start sl_length] in *.
    set (h := SLs (SL b bl) (SL a al)). unfold is_usize in *.
    assert (Q : header_text h ++ e = concat (header_chars h ++ map single e)) by (rewrite concat_app, concat_single, header_text_chars; reflexivity).
    rewrite Q.
    set (f l := if (l =? 1)%Z then None else Some (map single (dec l))).
    assert (F : forall l, (0 <= l < two64)%Z -> length_field (f l) l /\ Forall character (comma (f l)) /\ forall d, f l = Some d -> digits nd d).
    { intros l Hl. unfold f. destruct (Z.eqb_spec l 1); [subst; split; [reflexivity|]; split; [constructor|discriminate]|].
      destruct (dec_digits l) as (D1 & D2 & D3); [lia|]. split; [apply D3; lia|]. split; [|intros d [= <-]; assumption].
      cbn [comma]. apply Forall_app. split; [|assumption]. constructor; [apply ascii_one; vm_compute; reflexivity|constructor]. }
    destruct (F bl) as (F1 & F2 & F3); [lia|]. destruct (F al) as (F4 & F5 & F6); [lia|].
    destruct (dec_digits b) as (B1 & B2 & B3); [lia|]. destruct (dec_digits a) as (A1 & A2 & A3); [lia|].
    assert (AC : forall s, forallb (fun x => (Byte.to_N x <? 128)%N) (list_byte_of_string s) = true -> Forall character (asc s)).
    { intros s Hs. rewrite asc_single. apply Forall_map. apply Forall_forall. intros x Hx. apply ascii_one. apply N.ltb_lt. now apply (proj1 (forallb_forall _ _) Hs). }
    destruct (starts_and_lengths_spec (header_chars h ++ map single e) ln) as [_ S].
    { unfold header_chars. fold f. cbn [sls_before sls_after sl_start sl_length h]. rewrite !Forall_app.
      repeat match goal with |- _ /\ _ => split end; try assumption; try (apply AC; reflexivity); try constructor.
      destruct He as [-> | ->]; cbn; [constructor|]. constructor; [apply ascii_one; vm_compute; reflexivity|constructor]. }
    eapply S with (d1 := map single (dec b)) (o2 := f bl) (d3 := map single (dec a)) (o4 := f al); [|apply B3; lia|assumption|apply A3; lia|assumption].
    exists (asc " "), (asc " "), (asc " "), [], (map single e).
    assert (BL : blanks (asc " ")) by (split; [discriminate|]; constructor; [exact blank_space|constructor]).
    do 3 (split; [assumption|]). split; [constructor|]. split; [|].
    { exists []. split; [intros []|]. destruct He as [-> | ->]; [now left|now right]. }
    do 4 (split; [assumption|]). unfold header_chars. fold f. cbn [sls_before sls_after sl_start sl_length h]. rewrite <- !app_assoc. reflexivity.
  Qed.
End HeaderLine.

Lemma header_text_written h : machine_header h ->
  header_written (header_text h) (sl_start (sls_before h)) (sl_length (sls_before h)) (sl_start (sls_after h)) (sl_length (sls_after h)).
Proof.
  intros (H1 & H2 & H3 & H4). destruct h as [[b bl] [a al]]. cbn [sls_before sls_after sl_start sl_length] in *.
  set (h := SLs (SL b bl) (SL a al)). unfold is_usize in *. set (nd := fun _ : char => false).
  set (f l := if (l =? 1)%Z then None else Some (map single (dec l))).
  assert (F : forall l, (0 <= l < two64)%Z -> length_field (f l) l /\ Forall character (comma (f l)) /\ (f l = None <-> l = 1%Z)).
  { intros l Hl. unfold f. destruct (Z.eqb_spec l 1); [subst; split; [reflexivity|]; split; [constructor|tauto]|].
    destruct (dec_digits nd l) as (D1 & D2 & D3); [lia|]. split; [apply D3; lia|]. split; [|split; [discriminate|lia]].
    cbn [comma]. apply Forall_app. split; [|assumption]. constructor; [apply ascii_one; vm_compute; reflexivity|constructor]. }
  destruct (F bl) as (F1 & F2 & F3); [lia|]. destruct (F al) as (F4 & F5 & F6); [lia|].
  destruct (dec_digits nd b) as (B1 & B2 & B3); [lia|]. destruct (dec_digits nd a) as (A1 & A2 & A3); [lia|].
  assert (AC : forall s, forallb (fun x => (Byte.to_N x <? 128)%N) (list_byte_of_string s) = true -> Forall character (asc s)).
  { intros s Hs. rewrite asc_single. apply Forall_map. apply Forall_forall. intros x Hx. apply ascii_one. apply N.ltb_lt. now apply (proj1 (forallb_forall _ _) Hs). }
  exists (map single (dec b)), (f bl), (map single (dec a)), (f al). split.
  - rewrite header_text_chars, characters_chars.
    + unfold header_chars. fold f. cbn [sls_before sls_after sl_start sl_length h]. rewrite app_nil_r. reflexivity.
    + unfold header_chars. fold f. cbn [sls_before sls_after sl_start sl_length h]. rewrite !Forall_app.
      repeat match goal with |- _ /\ _ => split end; try assumption; try (apply AC; reflexivity); try constructor.
  - split; [apply B3; lia|]. split; [assumption|]. split; [apply A3; lia|]. tauto.
Qed.

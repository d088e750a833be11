(* Proof_Paths.v - reading file names and time stamps from the file header lines. *)
From Coq Require Import String.
From Verif Require Import Base Model_Seq Model_Changes Model_Json Model_Regex Model_Unified Spec Spec_Unified.
From Verif Require Import Proof_Seq Proof_Utf8 Proof_Regex Proof_Unified.

Fixpoint take (ps : list (char -> bool)) (s : list char) : option (list char) :=
  match ps, s with
  | [], _ => Some s
  | p :: ps', x :: s' => if p x then take ps' s' else None
  | _ :: _, [] => None
  end.
Definition all2 (ps : list (char -> bool)) (t : list char) : Prop := Forall2 (fun p x => p x = true) ps t.
Lemma take_app ps : forall t s, all2 ps t -> take ps (t ++ s) = Some s.
Proof. induction ps as [|p ps IH]; intros t s H; inversion H; subst; cbn; [reflexivity|]. rewrite H2. now apply IH. Qed.
Lemma take_some ps : forall s s', take ps s = Some s' -> exists t, s = t ++ s' /\ all2 ps t.
Proof.
  induction ps as [|p ps IH]; intros s s' H; cbn in H.
  - injection H as <-. exists []. split; [reflexivity|constructor].
  - destruct s as [|x s]; [discriminate|]. destruct (p x) eqn:E; [|discriminate]. destruct (IH _ _ H) as (t & -> & Ht).
    exists (x :: t). split; [reflexivity|]. now constructor.
Qed.
Lemma take_cat ps qs : forall s, take (ps ++ qs) s = match take ps s with Some s' => take qs s' | None => None end.
Proof. induction ps as [|p ps IH]; intros s; [reflexivity|]. cbn. destruct s as [|x s]; [reflexivity|]. destruct (p x); [apply IH|reflexivity]. Qed.

(* expressions that match a fixed sequence of classes *)
Definition fixed (r : re char) (ps : list (char -> bool)) : Prop :=
  forall total s c k, bt total r s c k = match take ps s with Some s' => k s' c | None => None end.
Lemma fixed_cls p : fixed (Cls p) [p].
Proof. intros total s c k. cbn. destruct s as [|x s]; [reflexivity|]. now destruct (p x). Qed.
Lemma fixed_eps : fixed Eps [].
Proof. intros total s c k. reflexivity. Qed.
Lemma fixed_cat r1 r2 ps qs : fixed r1 ps -> fixed r2 qs -> fixed (Cat r1 r2) (ps ++ qs).
Proof. intros H1 H2 total s c k. cbn [bt]. rewrite H1, take_cat. destruct (take ps s); [apply H2|reflexivity]. Qed.
Lemma fixed_rep n r ps : fixed r ps -> fixed (Rep n r) (concat (repeat ps n)).
Proof. intros H. induction n as [|n IH]; [apply fixed_eps|]. cbn [Rep repeat concat]. now apply fixed_cat. Qed.
Lemma fixed_text w : fixed (text_re w) (map is_char w).
Proof. induction w as [|b w IH]; [apply fixed_eps|]. cbn [text_re map]. apply (fixed_cat (ch b) (text_re w) [is_char b]); [apply fixed_cls|exact IH]. Qed.
Lemma bt_grp total n r ps s c k : fixed r ps ->
  bt total (Grp n r) s c k = match take ps s with Some s' => k s' ((n, firstn (length s - length s') s) :: c) | None => None end.
Proof. intros H. cbn [bt]. rewrite H. reflexivity. Qed.

Lemma bt_cat total (r1 r2 : re char) s c k : bt total (Cat r1 r2) s c k = bt total r1 s c (fun s' c' => bt total r2 s' c' k).
Proof. reflexivity. Qed.
Lemma bt_alt total (r1 r2 : re char) s c k : bt total (Alt r1 r2) s c k = match bt total r1 s c k with Some x => Some x | None => bt total r2 s c k end.
Proof. reflexivity. Qed.
Lemma bt_group total n (r : re char) s c k : bt total (Grp n r) s c k = bt total r s c (fun s' c' => k s' ((n, firstn (length s - length s') s) :: c')).
Proof. reflexivity. Qed.

Section Paths.
  Variable nd : char -> bool.
  Hypothesis Hnd : digit_table nd.

  (* ---------------- time stamps ---------------- *)
  Definition pred_of (b : byte) : char -> bool :=
    match b with
    | "0"%byte => digit_class nd
    | "A"%byte => ascii_in 65 90
    | "a"%byte => ascii_in 97 122
    | "+"%byte => fun c => is_char x2d c || is_char x2b c
    | _ => is_char b
    end.
  Definition preds (pattern : string) : list (char -> bool) := map pred_of (list_byte_of_string pattern).
  Lemma ascii_in_spec lo hi c : ascii_in lo hi c = true <-> exists x, c = [x] /\ (lo <= Byte.to_N x <= hi)%N.
  Proof.
    destruct c as [|x [|y c]]; cbn [ascii_in]; [split; [discriminate|intros (x & [=] & _)]| |split; [discriminate|intros (z & [=] & _)]].
    rewrite byte_in_spec. split; [eauto|]. intros (z & [= <-] & H). assumption.
  Qed.
  Lemma fits_preds pattern cs : fits nd pattern cs <-> all2 (preds pattern) cs.
  Proof.
    unfold fits, all2, preds. generalize (list_byte_of_string pattern) as w. intros w. revert cs.
    assert (E : forall b c, pred_of b c = true <-> match b with
      | "0"%byte => digit_char nd c
      | "A"%byte => exists x, c = [x] /\ (65 <= Byte.to_N x <= 90)%N
      | "a"%byte => exists x, c = [x] /\ (97 <= Byte.to_N x <= 122)%N
      | "+"%byte => c = ["+"%byte] \/ c = ["-"%byte]
      | _ => c = [b]
      end).
    { intros b c. destruct b; cbn [pred_of]; try apply is_char_eq; try apply digit_class_spec; try apply ascii_in_spec.
      rewrite orb_true_iff, !is_char_eq. tauto. }
    induction w as [|b w IH]; intros cs; cbn [map]; [split; intros H; inversion H; constructor|]. (split; intros H; inversion H; subst; (constructor; [now apply E|now apply IH])).
  Qed.

  Lemma stamp_head : fixed (Cat (Rep 4 (d_re nd)) (Cat (txt "-") (Cat (Rep 2 (d_re nd)) (Cat (txt "-") (Cat (Rep 2 (d_re nd)) (Cat (txt " ")
     (Cat (Rep 2 (d_re nd)) (Cat (txt ":") (Cat (Rep 2 (d_re nd)) (Cat (txt ":") (Rep 2 (d_re nd)))))))))))) (preds "0000-00-00 00:00:00").
  Proof.
    change (preds "0000-00-00 00:00:00") with
      (concat (repeat [digit_class nd] 4) ++ map is_char (list_byte_of_string "-") ++ concat (repeat [digit_class nd] 2) ++ map is_char (list_byte_of_string "-") ++
       concat (repeat [digit_class nd] 2) ++ map is_char (list_byte_of_string " ") ++ concat (repeat [digit_class nd] 2) ++ map is_char (list_byte_of_string ":") ++
       concat (repeat [digit_class nd] 2) ++ map is_char (list_byte_of_string ":") ++ concat (repeat [digit_class nd] 2)).
    repeat match goal with |- fixed (Cat _ _) _ => apply fixed_cat end; first [apply fixed_text | apply fixed_rep, fixed_cls].
  Qed.
  Lemma stamp_frac : fixed (Cat (ch x2e) (Rep 9 (d_re nd))) (preds ".000000000").
  Proof.
    change (preds ".000000000") with ([is_char x2e] ++ concat (repeat [digit_class nd] 9)). apply fixed_cat; [apply fixed_cls|apply fixed_rep, fixed_cls].
  Qed.
  Lemma stamp_zone : fixed (Cat (txt " ") (Cat (Rep 1 sign_re) (Rep 4 (d_re nd)))) (preds " +0000").
  Proof.
    change (preds " +0000") with (map is_char (list_byte_of_string " ") ++ concat (repeat [fun c => is_char x2d c || is_char x2b c] 1) ++ concat (repeat [digit_class nd] 4)).
    repeat match goal with |- fixed (Cat _ _) _ => apply fixed_cat end; first [apply fixed_text | apply fixed_rep, fixed_cls].
  Qed.
  Lemma stamp_alt : fixed (ALT_TIMESTAMP_RE nd) (preds "Aaa Aaa 00 00:00:00 0000 +0000").
  Proof.
    change (preds "Aaa Aaa 00 00:00:00 0000 +0000") with
     ([ascii_in 65 90] ++ concat (repeat [ascii_in 97 122] 2) ++ map is_char (list_byte_of_string " ") ++ [ascii_in 65 90] ++ concat (repeat [ascii_in 97 122] 2) ++ map is_char (list_byte_of_string " ") ++
      concat (repeat [digit_class nd] 2) ++ map is_char (list_byte_of_string " ") ++ concat (repeat [digit_class nd] 2) ++ map is_char (list_byte_of_string ":") ++
      concat (repeat [digit_class nd] 2) ++ map is_char (list_byte_of_string ":") ++ concat (repeat [digit_class nd] 2) ++ map is_char (list_byte_of_string " ") ++
      concat (repeat [digit_class nd] 4) ++ map is_char (list_byte_of_string " ") ++
      concat (repeat [fun c => is_char x2d c || is_char x2b c] 1) ++ concat (repeat [digit_class nd] 4)).
    unfold ALT_TIMESTAMP_RE. repeat match goal with |- fixed (Cat _ _) _ => apply fixed_cat end; first [apply fixed_text | apply fixed_rep, fixed_cls | apply fixed_cls].
  Qed.

  (* the expression for a time stamp, regrouped *)
  Lemma bt_stamp total s c k : bt total (TIMESTAMP_RE nd) s c k =
    match take (preds "0000-00-00 00:00:00") s with
    | None => None
    | Some s1 =>
        match match take (preds ".000000000") s1 with
              | Some s2 => match take (preds " +0000") s2 with Some s3 => k s3 ((5, firstn (length s1 - length s2) s1) :: c) | None => None end
              | None => None
              end with
        | Some x => Some x
        | None => match take (preds " +0000") s1 with Some s3 => k s3 c | None => None end
        end
    end.
  Proof.
    transitivity (bt total (Cat (Rep 4 (d_re nd)) (Cat (txt "-") (Cat (Rep 2 (d_re nd)) (Cat (txt "-") (Cat (Rep 2 (d_re nd)) (Cat (txt " ")
     (Cat (Rep 2 (d_re nd)) (Cat (txt ":") (Cat (Rep 2 (d_re nd)) (Cat (txt ":") (Rep 2 (d_re nd)))))))))))) s c
      (fun s' c' => bt total (Cat (Opt (Grp 5 (Cat (ch x2e) (Rep 9 (d_re nd))))) (Cat (txt " ") (Cat (Rep 1 sign_re) (Rep 4 (d_re nd))))) s' c' k)); [reflexivity|].
    rewrite stamp_head. destruct (take (preds "0000-00-00 00:00:00") s) as [s1|]; [|reflexivity].
    rewrite bt_cat. unfold Opt.
    rewrite bt_alt, (bt_grp _ _ _ _ _ _ _ stamp_frac).
    rewrite fixed_eps. cbn [take]. rewrite stamp_zone.
    destruct (take (preds ".000000000") s1) as [s2|]; [rewrite stamp_zone|]; reflexivity.
  Qed.

  Lemma all2_app ps qs t : all2 (ps ++ qs) t <-> exists t1 t2, t = t1 ++ t2 /\ all2 ps t1 /\ all2 qs t2.
  Proof.
    unfold all2. split.
    - intros H. apply Forall2_app_inv_l in H. destruct H as (t1 & t2 & H1 & H2 & ->). eauto.
    - intros (t1 & t2 & -> & H1 & H2). now apply Forall2_app.
  Qed.

  (* captures up to groups 5 and above *)
  Definition same_below (n : nat) (c c' : @caps char) : Prop := forall m, m < n -> group m c' = group m c.

  (* [k] goes through on every rest of s *)
  Lemma stamp_found s st more c total k : s = st ++ more -> is_stamp nd st ->
    (forall c', k more c' <> None) ->
    exists c', bt total (Grp 4 (Alt (TIMESTAMP_RE nd) (ALT_TIMESTAMP_RE nd))) s c k = k more ((4, st) :: c') /\ same_below 5 c c'.
  Proof.
    intros -> H K.
    rewrite bt_group.
    rewrite bt_alt, bt_stamp. destruct H as [H|[H|H]]; apply fits_preds in H.
    - change (preds "0000-00-00 00:00:00 +0000") with (preds "0000-00-00 00:00:00" ++ preds " +0000") in H. apply all2_app in H.
      destruct H as (t1 & t2 & -> & H1 & H2). rewrite <- !app_assoc, (take_app _ _ _ H1).
      assert (N : take (preds ".000000000") (t2 ++ more) = None).
      { destruct t2 as [|x t2]; [inversion H2|]. change (preds " +0000") with (is_char x20 :: preds "+0000") in H2. inversion H2; subst.
        match goal with H : is_char x20 x = true |- _ => apply is_char_eq in H; subst x end. reflexivity. }
      rewrite N, (take_app _ _ _ H2). exists c. split; [|intros m _; reflexivity].
      rewrite app_assoc, firstn_app_length. specialize (K ((4, t1 ++ t2) :: c)). destruct (k more ((4, t1 ++ t2) :: c)); congruence.
    - change (preds "0000-00-00 00:00:00.000000000 +0000") with (preds "0000-00-00 00:00:00" ++ preds ".000000000" ++ preds " +0000") in H. apply all2_app in H.
      destruct H as (t1 & t2' & -> & H1 & H2'). apply all2_app in H2'. destruct H2' as (t2 & t3 & -> & H2 & H3).
      rewrite <- !app_assoc, (take_app _ _ _ H1), (take_app _ _ _ H2), (take_app _ _ _ H3), firstn_app_length.
      replace (t1 ++ t2 ++ t3 ++ more) with ((t1 ++ t2 ++ t3) ++ more) by (now rewrite <- !app_assoc). rewrite firstn_app_length.
      exists ((5, t2) :: c). specialize (K ((4, t1 ++ t2 ++ t3) :: (5, t2) :: c)).
      split; [destruct (k more ((4, t1 ++ t2 ++ t3) :: (5, t2) :: c)); congruence|].
      intros m Hm. cbn [group]. destruct (Nat.eqb_spec 5 m); [lia|reflexivity].
    - assert (N : take (preds "0000-00-00 00:00:00") (st ++ more) = None).
      { destruct st as [|x st]; [inversion H|]. change (preds "Aaa Aaa 00 00:00:00 0000 +0000") with (ascii_in 65 90 :: preds "aa Aaa 00 00:00:00 0000 +0000") in H.
        inversion H as [|? ? ? ? Hx _]; subst. apply ascii_in_spec in Hx. destruct Hx as (b & -> & Hb).
        change (preds "0000-00-00 00:00:00") with (digit_class nd :: preds "000-00-00 00:00:00"). cbn [app take digit_class].
        rewrite (proj2 (byte_in_false 48 57 b)) by lia. reflexivity. }
      rewrite N, stamp_alt, (take_app _ _ _ H), firstn_app_length. exists c. split; [reflexivity|]. intros m _. reflexivity.
  Qed.
  Lemma stamp_absent s c total k : (forall st more, s = st ++ more -> ~ is_stamp nd st) ->
    bt total (Grp 4 (Alt (TIMESTAMP_RE nd) (ALT_TIMESTAMP_RE nd))) s c k = None.
  Proof.
    intros H.
    rewrite bt_group.
    rewrite bt_alt, bt_stamp, stamp_alt.
    destruct (take (preds "Aaa Aaa 00 00:00:00 0000 +0000") s) as [s1|] eqn:E.
    { apply take_some in E. destruct E as (t & -> & Ht). exfalso. apply (H t s1 eq_refl). right. right. now apply fits_preds. }
    destruct (take (preds "0000-00-00 00:00:00") s) as [s1|] eqn:E1; [|reflexivity]. apply take_some in E1. destruct E1 as (t1 & -> & H1).
    destruct (take (preds " +0000") s1) as [s2|] eqn:E2.
    { apply take_some in E2. destruct E2 as (t2 & -> & H2). exfalso. apply (H (t1 ++ t2) s2); [now rewrite app_assoc|]. left. apply fits_preds.
      change (preds "0000-00-00 00:00:00 +0000") with (preds "0000-00-00 00:00:00" ++ preds " +0000"). now apply Forall2_app. }
    destruct (take (preds ".000000000") s1) as [s2|] eqn:E3; [|reflexivity]. apply take_some in E3. destruct E3 as (t2 & -> & H2).
    destruct (take (preds " +0000") s2) as [s3|] eqn:E4; [|reflexivity]. apply take_some in E4. destruct E4 as (t3 & -> & H3).
    exfalso. apply (H (t1 ++ t2 ++ t3) s3); [now rewrite <- !app_assoc|]. right. left. apply fits_preds.
    change (preds "0000-00-00 00:00:00.000000000 +0000") with (preds "0000-00-00 00:00:00" ++ preds ".000000000" ++ preds " +0000").
    apply Forall2_app; [assumption|]. now apply Forall2_app.
  Qed.

  Lemma stamp_dec rest : exists o, stamp_of nd rest o.
  Proof.
    assert (D : forall pat, (exists st more, rest = st ++ more /\ fits nd pat st) \/ (forall st more, rest = st ++ more -> ~ fits nd pat st)).
    { intros pat. destruct (take (preds pat) rest) as [more|] eqn:E.
      - left. apply take_some in E. destruct E as (st & -> & H). exists st, more. split; [reflexivity|]. now apply fits_preds.
      - right. intros st more -> H. apply fits_preds in H. rewrite (take_app _ _ _ H) in E. discriminate. }
    destruct (D "0000-00-00 00:00:00 +0000"%string) as [(st & more & -> & H)|H1]; [exists (Some st); split; [now left|now exists more]|].
    destruct (D "0000-00-00 00:00:00.000000000 +0000"%string) as [(st & more & -> & H)|H2]; [exists (Some st); split; [right; now left|now exists more]|].
    destruct (D "Aaa Aaa 00 00:00:00 0000 +0000"%string) as [(st & more & -> & H)|H3]; [exists (Some st); split; [right; now right|now exists more]|].
    exists None. intros st more E [H|[H|H]]; [eapply H1|eapply H2|eapply H3]; eassumption.
  Qed.

  (* ---------------- the end of the line ---------------- *)
  Lemma newline_only_last_app x y : newline_only_last (x ++ y) -> newline_only_last y.
  Proof.
    intros (t & Ht & E). induction x as [|a x IH] in t, Ht, E |- *; [exists t; auto|].
    destruct t as [|b t]; [destruct E as [E|E]; [discriminate|]|].
    - injection E as -> E. apply app_eq_nil in E. destruct E as [-> ->]. exists []. split; [intros []|now left].
    - apply (IH t); [intros Hin; apply Ht; now right|]. destruct E as [E|E]; injection E as _ E; auto.
  Qed.
  Definition end_re : re char := Cat (Grp 6 (Star dot_re)) (Cat (Opt (Grp 7 (ch newline))) Eol).
  Lemma bt_end total s c : newline_only_last s -> exists c', bt total end_re s c (fun _ c => Some c) = Some c' /\ same_below 6 c c'.
  Proof.
    intros (t & Ht & E).
    assert (R : run (fun c => negb (is_char newline c)) t).
    { unfold run. apply Forall_forall. intros x Hx. destruct (is_char newline x) eqn:Ex; [|reflexivity]. apply is_char_eq in Ex. now subst. }
    assert (G : forall e c0, e = [] \/ e = [[newline]] -> s = t ++ e ->
      bt total (Cat (Opt (Grp 7 (ch newline))) Eol) e ((6, firstn (length s - length e) s) :: c) (fun _ c => Some c) = Some c0 ->
      bt total end_re s c (fun _ c => Some c) = Some c0).
    { intros e c0 He -> H. unfold end_re, dot_re. rewrite bt_cat, bt_group. eapply bt_star_greedy; [exact R|destruct He as [-> | ->]; [exact I|reflexivity]|exact H]. }
    destruct E as [E|E].
    - exists ((6, firstn (length s - 0) s) :: c). split; [|intros m Hm; cbn [group]; destruct (Nat.eqb_spec 6 m); [lia|reflexivity]].
      apply (G []); [now left|now rewrite app_nil_r|reflexivity].
    - exists ((7, [[newline]]) :: (6, firstn (length s - 1) s) :: c). split; [|intros m Hm; cbn [group]; destruct (Nat.eqb_spec 7 m); [lia|]; destruct (Nat.eqb_spec 6 m); [lia|reflexivity]].
      apply (G [[newline]]); [now right|assumption|reflexivity].
  Qed.

  Definition rest_re : re char := Cat (Plus s_re) (Cat (Opt (Grp 4 (Alt (TIMESTAMP_RE nd) (ALT_TIMESTAMP_RE nd)))) end_re).
  Lemma first_not_blank_stops rest : first_not_blank rest <-> stops white rest.
  Proof. destruct rest as [|x rest]; [reflexivity|]. cbn [first_not_blank stops]. symmetry. apply white_false. Qed.
  Lemma bt_plus total p t s c (k : list char -> caps -> option caps) : t <> [] -> run p t ->
    bt total (Plus (Cls p)) (t ++ s) c k = bt total (Star (Cls p)) (tl t ++ s) c k.
  Proof. intros Hne Ht. destruct t as [|x t]; [congruence|]. inversion Ht as [|? ? Hx _]; subst. unfold Plus. rewrite bt_cat. cbn [app tl]. cbn [bt]. now rewrite Hx. Qed.
  Lemma run_tl p (t : list char) : run p t -> run p (tl t).
  Proof. intros H. destruct H; [constructor|assumption]. Qed.
  Lemma bt_rest total w rest o c : newline_only_last rest -> blanks w -> first_not_blank rest -> stamp_of nd rest o -> group 4 c = None ->
    exists c', bt total rest_re (w ++ rest) c (fun _ c => Some c) = Some c' /\ group 4 c' = o /\ same_below 4 c c'.
  Proof.
    intros Hn [Hw1 Hw2] Hf Ho Hc. unfold rest_re, s_re. rewrite bt_cat, bt_plus by (try assumption; now apply run_white).
    apply run_white in Hw2. apply first_not_blank_stops in Hf.
    assert (Q : exists c', bt total (Cat (Opt (Grp 4 (Alt (TIMESTAMP_RE nd) (ALT_TIMESTAMP_RE nd)))) end_re) rest c (fun _ c => Some c) = Some c' /\ group 4 c' = o /\ same_below 4 c c').
    { rewrite bt_cat. unfold Opt. rewrite bt_alt. destruct o as [st|].
      - destruct Ho as [Ho (more & ->)].
        destruct (stamp_found (st ++ more) st more c total (fun s' c' => bt total end_re s' c' (fun _ c => Some c)) eq_refl Ho) as (c1 & E1 & S1).
        { intros c'. destruct (bt_end total more c') as (c2 & E2 & _); [now apply newline_only_last_app in Hn|]. rewrite E2. discriminate. }
        rewrite E1. destruct (bt_end total more ((4, st) :: c1)) as (c2 & E2 & S2); [now apply newline_only_last_app in Hn|]. rewrite E2.
        exists c2. split; [reflexivity|]. split; [rewrite S2 by lia; reflexivity|]. intros m Hm. rewrite S2 by lia. cbn [group].
        destruct (Nat.eqb_spec 4 m); [lia|]. apply S1. lia.
      - rewrite stamp_absent by assumption. rewrite fixed_eps. cbn [take]. destruct (bt_end total rest c Hn) as (c2 & E2 & S2). rewrite E2.
        exists c2. split; [reflexivity|]. split; [rewrite S2 by lia; assumption|]. intros m Hm. apply S2. lia. }
    destruct Q as (c' & Q & G). exists c'. split; [|exact G]. eapply bt_star_greedy; [now apply run_tl|assumption|exact Q].
  Qed.
  Lemma bt_rest_none total s c k : stops white s -> bt total rest_re s c k = None.
  Proof. intros H. unfold rest_re, s_re, Plus. rewrite !bt_cat. destruct s as [|x s]; [reflexivity|]. cbn [stops] in H. cbn [bt]. now rewrite H. Qed.

  (* ---------------- the whole line ---------------- *)
  Definition line_re (marker : string) : re char := Cat (txt marker) (Cat (Grp 1 PATH_RE) rest_re).
  Lemma path_regex_bol marker : path_regex nd marker = Cat Bol (line_re marker).
  Proof. reflexivity. Qed.
  Lemma bt_quoted total cs name rest c k : quoted_name cs name rest ->
    exists w, blanks w /\ bt total (Cat (ch x22) (Cat (Grp 2 (Plus not_quote_re)) (ch x22))) cs c k = k (w ++ rest) ((2, name) :: c).
  Proof.
    intros (w & Hne & Hq & Hw & _ & ->). exists w. split; [assumption|].
    rewrite bt_cat. cbn [asc map list_byte_of_string String.list_ascii_of_string app].
    change (asc """") with [[x22]]. cbn [app]. unfold ch at 1. cbn [bt].
    assert (R : run (fun c => negb (is_char x22 c)) name).
    { unfold run. apply Forall_forall. intros x Hx. destruct (is_char x22 x) eqn:Ex; [|reflexivity]. apply is_char_eq in Ex. now subst. }
    change (bt total (Grp 2 (Plus not_quote_re)) (name ++ [x22] :: w ++ rest) c (fun s' c' => bt total (ch x22) s' c' k) = k (w ++ rest) ((2, name) :: c)).
    rewrite bt_group. unfold not_quote_re. rewrite bt_plus by assumption.
    rewrite bt_star_only; [|now apply run_tl|reflexivity|].
    - rewrite (firstn_app_length name). unfold ch. cbn [bt]. now rewrite (proj2 (is_char_eq x22 [x22]) eq_refl).
    - intros x s' Hx. unfold ch. cbn [bt]. destruct (is_char x22 x); [discriminate|reflexivity].
  Qed.

  (* the first alternative leads on only if a quoted name followed by a blank is there *)
  Lemma bt_is_quoted total cs c k x : (forall s c, stops white s -> k s c = None) ->
    bt total (Cat (ch x22) (Cat (Grp 2 (Plus not_quote_re)) (ch x22))) cs c k = Some x -> exists n r, quoted_name cs n r.
  Proof.
    intros K E. apply bt_sound in E. destruct E as (s' & c' & M & E). unfold ch, not_quote_re in M. mi.
    destruct (run_split white s') as (w & rest & -> & Hw & Hs).
    destruct w as [|a w]; [rewrite K in E by assumption; discriminate|].
    match goal with Hr : run _ ?n, Hn : ?n <> [] |- _ => exists n, rest, (a :: w); split; [assumption|]; split end.
    { intros Hin. match goal with Hr : run _ _ |- _ => unfold run in Hr; rewrite Forall_forall in Hr; specialize (Hr _ Hin); discriminate end. }
    split; [split; [discriminate|now apply run_white]|]. split; [now apply first_not_blank_stops|reflexivity].
  Qed.
  Lemma bt_plain total cs name rest c (k : list char -> caps -> option caps) : plain_name cs name rest ->
    (forall s c, stops white s -> k s c = None) ->
    exists w, blanks w /\ bt total (Grp 3 (Plus not_s_re)) cs c k = k (w ++ rest) ((3, name) :: c).
  Proof.
    intros (w & Hne & Hq & Hw & Hf & ->) K. exists w. split; [assumption|].
    assert (R : run (fun c => negb (white c)) name).
    { unfold run. eapply Forall_impl; [|exact Hq]. intros x Hx. apply white_false in Hx. cbn beta. now rewrite Hx. }
    rewrite bt_group. unfold not_s_re. rewrite bt_plus by assumption. rewrite bt_star_only; [|now apply run_tl| |].
    - now rewrite (firstn_app_length name).
    - destruct Hw as [Hw1 Hw2]. destruct w as [|x w]; [congruence|]. inversion Hw2 as [|? ? Hx _]; subst. cbn [app stops]. apply white_blank in Hx. now rewrite Hx.
    - intros x s' Hx. apply K. cbn [stops]. now destruct (white x).
  Qed.
  Lemma bt_is_plain total cs c k x : (forall s c, stops white s -> k s c = None) ->
    bt total (Grp 3 (Plus not_s_re)) cs c k = Some x -> exists n r, plain_name cs n r.
  Proof.
    intros K E. apply bt_sound in E. destruct E as (s' & c' & M & E). unfold not_s_re in M. mi.
    destruct (run_split white s') as (w & rest & -> & Hw & Hs).
    destruct w as [|a w]; [rewrite K in E by assumption; discriminate|].
    match goal with Hr : run _ ?n, Hn : ?n <> [] |- _ => exists n, rest, (a :: w); split; [assumption|]; split end.
    { match goal with Hr : run (fun c => negb (white c)) _ |- _ => unfold run in Hr; eapply Forall_impl; [|exact Hr] end.
      intros y Hy. apply white_false. cbn beta in Hy. now destruct (white y). }
    split; [split; [discriminate|now apply run_white]|]. split; [now apply first_not_blank_stops|reflexivity].
  Qed.
  Lemma bt_not_quoted total cs c : (forall n r, ~ quoted_name cs n r) ->
    forall k, (forall s c, stops white s -> k s c = None) ->
    bt total (Cat (ch x22) (Cat (Grp 2 (Plus not_quote_re)) (ch x22))) cs c k = None.
  Proof.
    intros H k K. destruct (bt total _ cs c k) as [x|] eqn:E; [|reflexivity]. exfalso.
    apply bt_is_quoted in E; [|assumption]. destruct E as (n & r & E). now apply (H n r).
  Qed.
  Lemma bt_not_plain total cs c k : (forall n r, ~ plain_name cs n r) -> (forall s c, stops white s -> k s c = None) ->
    bt total (Grp 3 (Plus not_s_re)) cs c k = None.
  Proof.
    intros H K. destruct (bt total _ cs c k) as [x|] eqn:E; [|reflexivity]. exfalso.
    apply bt_is_plain in E; [|assumption]. destruct E as (n & r & E). now apply (H n r).
  Qed.

  Lemma name_dec cs : (exists name rest, name_and_rest cs name rest) \/ (forall name rest, ~ name_and_rest cs name rest).
  Proof.
    set (k := fun (s : list char) (c : @caps char) => match s with x :: _ => if white x then Some c else None | [] => None end).
    assert (K : forall s c, stops white s -> k s c = None) by (intros [|x s] c H; cbn [stops k] in *; [reflexivity|now rewrite H]).
    assert (Y : forall w rest c, blanks w -> k (w ++ rest) c = Some c).
    { intros w rest c [H1 H2]. destruct w as [|x w]; [congruence|]. inversion H2 as [|? ? Hx _]; subst. cbn [app k]. apply white_blank in Hx. now rewrite Hx. }
    destruct (bt 0 (Cat (ch x22) (Cat (Grp 2 (Plus not_quote_re)) (ch x22))) cs [] k) as [x|] eqn:E.
    - left. apply bt_is_quoted in E; [|assumption]. destruct E as (n & r & E). exists n, r. now left.
    - assert (Q : forall n r, ~ quoted_name cs n r).
      { intros n r H. destruct (bt_quoted 0 cs n r [] k H) as (w & Hw & E'). rewrite Y in E' by assumption. congruence. }
      destruct (bt 0 (Grp 3 (Plus not_s_re)) cs [] k) as [x|] eqn:E2.
      + left. apply bt_is_plain in E2; [|assumption]. destruct E2 as (n & r & E2). exists n, r. right. auto.
      + right. intros n r [H|[H _]]; [now apply (Q n r)|]. destruct (bt_plain 0 cs n r [] k H K) as (w & Hw & E'). rewrite Y in E' by assumption. congruence.
  Qed.

  Lemma bt_marker total w s c k : bt total (text_re w) (map single w ++ s) c k = k s c.
  Proof.
    rewrite fixed_text, take_app; [reflexivity|]. induction w as [|b w IH]; constructor; [now apply is_char_eq|exact IH].
  Qed.
  Lemma bt_no_marker total w s c k : (forall s', s <> map single w ++ s') -> bt total (text_re w) s c k = None.
  Proof.
    intros H. rewrite fixed_text. destruct (take (map is_char w) s) as [s'|] eqn:E; [|reflexivity]. exfalso.
    apply take_some in E. destruct E as (t & -> & Ht). apply (H s'). f_equal. clear H. revert t Ht.
    induction w as [|b w IH]; intros t Ht; inversion Ht as [|? ? ? ? Hx Ht']; subst; [reflexivity|]. apply is_char_eq in Hx. subst. cbn [map]. f_equal. now apply IH.
  Qed.

  Lemma quoted_rest cs name rest : quoted_name cs name rest -> exists x, cs = x ++ rest.
  Proof. intros (w & _ & _ & _ & _ & ->). exists (asc """" ++ name ++ asc """" ++ w). now rewrite <- !app_assoc. Qed.
  Lemma plain_rest cs name rest : plain_name cs name rest -> exists x, cs = x ++ rest.
  Proof. intros (w & _ & _ & _ & _ & ->). exists (name ++ w). now rewrite <- !app_assoc. Qed.

  Lemma captures_name marker cs name rest o : newline_only_last cs -> name_and_rest cs name rest -> stamp_of nd rest o ->
    exists c, captures (path_regex nd marker) (asc marker ++ cs) = Some c /\ group 4 c = o /\
      ((group 2 c = Some name) \/ (group 2 c = None /\ group 3 c = Some name)).
  Proof.
    intros Hl Hn Ho. rewrite path_regex_bol, captures_bol. generalize (length (asc marker ++ cs)) as total. intros total.
    unfold line_re, txt. rewrite bt_cat, asc_single, bt_marker, bt_cat, bt_group. unfold PATH_RE. rewrite bt_alt.
    assert (K : forall s c, stops white s -> bt total rest_re s ((1, firstn (length cs - length s) cs) :: c) (fun _ c => Some c) = None) by (intros; now apply bt_rest_none).
    destruct Hn as [Hn|[Hn Hq]].
    - destruct (bt_quoted total cs name rest [] (fun s' c' => bt total rest_re s' ((1, firstn (length cs - length s') cs) :: c') (fun _ c => Some c)) Hn) as (w & Hw & E).
      rewrite E.
      destruct (bt_rest total w rest o ((1, firstn (length cs - length (w ++ rest)) cs) :: [(2, name)])) as (c' & E' & G & S).
      { destruct (quoted_rest _ _ _ Hn) as (x & Ex). rewrite Ex in Hl. now apply newline_only_last_app in Hl. }
      { assumption. } { now destruct Hn as (? & _ & _ & _ & ? & _). } { assumption. } { reflexivity. }
      rewrite E'. exists c'. split; [reflexivity|]. split; [assumption|]. left. rewrite S by lia. reflexivity.
    - rewrite (bt_not_quoted total cs [] Hq) by exact K.
      destruct (bt_plain total cs name rest [] (fun s' c' => bt total rest_re s' ((1, firstn (length cs - length s') cs) :: c') (fun _ c => Some c)) Hn K) as (w & Hw & E).
      rewrite E.
      destruct (bt_rest total w rest o ((1, firstn (length cs - length (w ++ rest)) cs) :: [(3, name)])) as (c' & E' & G & S).
      { destruct (plain_rest _ _ _ Hn) as (x & Ex). rewrite Ex in Hl. now apply newline_only_last_app in Hl. }
      { assumption. } { now destruct Hn as (? & _ & _ & _ & ? & _). } { assumption. } { reflexivity. }
      rewrite E'. exists c'. split; [reflexivity|]. split; [assumption|]. right. rewrite !S by lia. split; reflexivity.
  Qed.
  Lemma captures_no_name marker cs : (forall name rest, ~ name_and_rest cs name rest) -> captures (path_regex nd marker) (asc marker ++ cs) = None.
  Proof.
    intros H. rewrite path_regex_bol, captures_bol. generalize (length (asc marker ++ cs)) as total. intros total.
    unfold line_re, txt. rewrite bt_cat, asc_single, bt_marker, bt_cat, bt_group. unfold PATH_RE. rewrite bt_alt.
    assert (K : forall s c, stops white s -> bt total rest_re s ((1, firstn (length cs - length s) cs) :: c) (fun _ c => Some c) = None) by (intros; now apply bt_rest_none).
    assert (Hq : forall n r, ~ quoted_name cs n r) by (intros n r Hn; apply (H n r); now left).
    rewrite (bt_not_quoted total cs [] Hq) by exact K. apply bt_not_plain; [|exact K].
    intros n r Hn. apply (H n r). right. auto.
  Qed.
  Lemma captures_no_marker marker cs : (forall cs', cs <> asc marker ++ cs') -> captures (path_regex nd marker) cs = None.
  Proof. intros H. rewrite path_regex_bol, captures_bol. unfold line_re, txt. rewrite bt_cat. now apply bt_no_marker. Qed.

  Lemma path_line marker cs : forallb (fun b => (Byte.to_N b <? 128)%N) (list_byte_of_string marker) = true ->
    Forall character cs -> newline_only_last cs ->
    (forall name rest o, name_and_rest cs name rest -> stamp_of nd rest o ->
      path_and_time_stamp (path_regex nd marker) (concat (asc marker ++ cs)) = Ok (Some (PathStamp (concat name) (option_map (@concat byte) o)))) /\
    ((forall name rest, ~ name_and_rest cs name rest) -> path_and_time_stamp (path_regex nd marker) (concat (asc marker ++ cs)) = Ok None).
  Proof.
    intros Hm Hc Hl. unfold path_and_time_stamp. rewrite characters_chars.
    2: { apply Forall_app. split; [|assumption]. rewrite asc_single. apply Forall_map. apply Forall_forall. intros x Hx. apply ascii_one. apply N.ltb_lt. now apply (proj1 (forallb_forall _ _) Hm). }
    split.
    - intros name rest o Hn Ho. destruct (captures_name marker cs name rest o Hl Hn Ho) as (c & -> & G4 & G).
      unfold path_and_time_stamp_from_captures, group_text. rewrite G4. destruct G as [G|[G2 G3]]; [rewrite G|rewrite G2, G3]; reflexivity.
    - intros H. now rewrite captures_no_name.
  Qed.

  (* no line at all makes the unwrap fail *)
  Lemma mt_groups total (r : re char) s s' c c' m : mt total r s s' c c' -> group m c <> None -> group m c' <> None.
  Proof. induction 1; intros G; auto. cbn [group]. destruct (n =? m); [discriminate|auto]. Qed.
  Lemma path_never_panics marker l : path_and_time_stamp (path_regex nd marker) l <> Panic /\ path_and_time_stamp (path_regex nd marker) l <> OutOfFuel.
  Proof.
    unfold path_and_time_stamp. destruct (captures (path_regex nd marker) (chars l)) as [c|] eqn:E; [|split; discriminate].
    rewrite path_regex_bol in E. apply captures_mt in E. destruct E as (s' & E). generalize dependent (length (chars l)). intros total E.
    apply mt_cat_inv in E. destruct E as (s1 & c1 & _ & E). apply mt_cat_inv in E. destruct E as (s2 & c2 & E & E2).
    assert (G : group 2 c2 <> None \/ group 3 c2 <> None).
    { apply mt_grp_inv in E. destruct E as (c3 & E & ->). cbn [group Nat.eqb]. unfold PATH_RE in E. inversion E as [| | |? ? ? ? ? ? M|? ? ? ? ? ? M| | | | |]; subst.
      - left. apply mt_cat_inv in M. destruct M as (? & ? & _ & M). apply mt_cat_inv in M. destruct M as (? & ? & M & M2). apply mt_grp_inv in M. destruct M as (? & _ & ->).
        eapply mt_groups; [exact M2|]. discriminate.
      - right. apply mt_grp_inv in M. destruct M as (? & _ & ->). discriminate. }
    assert (G' : group 2 c <> None \/ group 3 c <> None) by (destruct G as [G|G]; [left|right]; eapply mt_groups; eassumption).
    unfold path_and_time_stamp_from_captures, group_text. destruct (group 2 c); [split; discriminate|]. destruct (group 3 c); [split; discriminate|]. destruct G'; congruence.
  Qed.

End Paths.

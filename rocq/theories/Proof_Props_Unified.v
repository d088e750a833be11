(* Proof_Props_Unified.v - the property lemmas on unified diffs. *)
From Coq Require Import String.
From Verif Require Import Base Model_Seq Model_Changes Model_IO Model_Text Model_Json Model_Regex Model_Unified Spec Spec_Unified Cases.
From Verif Require Import Proof_Seq Proof_Diff Proof_Regex Proof_Unified Proof_Paths Proof_UClump Proof_Props_Gen.

Lemma Forall2_in_r {A B} (P Q : A -> B -> Prop) l1 l2 : Forall2 P l1 l2 -> (forall x y, In x l1 -> In y l2 -> P x y -> Q x y) -> Forall2 Q l1 l2.
Proof.
  induction 1 as [|x y l1 l2 H1 H2 IH]; intros H; constructor; [apply H; [now left|now left|assumption]|].
  apply IH. intros u v Hu Hv. apply H; now right.
Qed.
(* the ASCII digits only *)
Definition no_more_digits (c : char) : bool := false.
Lemma no_more_digits_table : digit_table no_more_digits.
Proof. intros c H. discriminate. Qed.

(* ------------------------------------------------------------------ C43 *)
(* C43: the printed header of a clump has the documented form, and parsing it, with or
   without a newline, gives back the same numbers. *)
Lemma p_C43_header_round_trip : forall nd h ln, digit_table nd -> machine_header h ->
  header_written (header_text h) (sl_start (sls_before h)) (sl_length (sls_before h)) (sl_start (sls_after h)) (sl_length (sls_after h)) /\
  starts_and_lengths nd (header_text h) ln = DOk (Some h) /\
  starts_and_lengths nd (header_text h ++ [newline]) ln = DOk (Some h).
Proof.
  intros nd h ln Hnd Hh. split; [now apply header_text_written|]. split.
  - rewrite <- (app_nil_r (header_text h)). apply header_round_trip; auto.
  - apply header_round_trip; auto.
Qed.
Lemma e_C43_example :
  let h := SLs (SL 18446744073709551615 1) (SL 0 20) in
  digit_table no_more_digits /\ machine_header h /\ header_text h = str "@@ -18446744073709551615 +0,20 @@" /\
  starts_and_lengths no_more_digits (str "@@ -18446744073709551615 +0,20 @@") 0 = DOk (Some h) /\
  header_text (SLs (SL 3 1) (SL 4 1)) = str "@@ -3 +4 @@".
Proof.
  cbv zeta. split; [exact no_more_digits_table|]. split; [unfold machine_header, is_usize; vm_compute; intuition discriminate|].
  split; [vm_compute; reflexivity|]. split; [vm_compute; reflexivity|]. vm_compute. reflexivity.
Qed.

(* ------------------------------------------------------------------ C66 *)
(* C66: a line is taken for a clump header exactly if it has the form of one; the numbers read
   are the numbers written, and numbers too big for a machine word, or written with digits
   other than 0 to 9, are reported as an error with the line number. *)
Lemma p_C66_header_exact : forall nd cs ln, digit_table nd -> Forall character cs ->
  ((forall d1 o2 d3 o4, ~ header_form nd cs d1 o2 d3 o4) -> starts_and_lengths nd (concat cs) ln = DOk None) /\
  (forall d1 o2 d3 o4, header_form nd cs d1 o2 d3 o4 ->
    (forall b bl a al, numeral d1 b -> length_field o2 bl -> numeral d3 a -> length_field o4 al ->
      starts_and_lengths nd (concat cs) ln = DOk (Some (SLs (SL b bl) (SL a al)))) /\
    ((forall b bl a al, numeral d1 b -> length_field o2 bl -> numeral d3 a -> length_field o4 al -> False) ->
      starts_and_lengths nd (concat cs) ln = DErr (ParseNumberError ln))).
Proof. intros nd cs ln Hnd Hcs. now apply starts_and_lengths_spec. Qed.
Lemma e_C66_example :
  header_form no_more_digits (asc "@@ -12 +7,0 @@ fn main") (asc "12") None (asc "7") (Some (asc "0")) /\
  starts_and_lengths no_more_digits (str "@@ -12 +7,0 @@ fn main") 5 = DOk (Some (SLs (SL 12 1) (SL 7 0))) /\
  starts_and_lengths no_more_digits (str "@@ -18446744073709551616 +7,0 @@") 5 = DErr (ParseNumberError 5) /\
  starts_and_lengths no_more_digits (str "@@ -1, +7,0 @@") 5 = DOk None /\
  starts_and_lengths no_more_digits (str " @@ -1 +7 @@") 5 = DOk None.
Proof.
  split; [|repeat split; vm_compute; reflexivity].
  assert (B : blank [x20]) by exact blank_space.
  exists (asc " "), (asc " "), (asc " "), (asc " "), (asc "fn main").
  split; [split; [discriminate|repeat constructor; exact B]|]. split; [split; [discriminate|repeat constructor; exact B]|].
  split; [split; [discriminate|repeat constructor; exact B]|]. split; [repeat constructor; exact B|].
  split. { exists (asc "fn main"). split; [|now left]. cbn. intuition discriminate. }
  assert (D : forall x, (48 <= Byte.to_N x <= 57)%N -> digit_char no_more_digits [x]) by (intros x Hx; left; exists x; auto).
  split; [split; [discriminate|repeat (apply Forall_cons; [apply D; vm_compute; intuition discriminate|]); apply Forall_nil]|].
  split; [split; [discriminate|repeat (apply Forall_cons; [apply D; vm_compute; intuition discriminate|]); apply Forall_nil]|].
  split; [discriminate|]. split; [intros d [= <-]; split; [discriminate|repeat (apply Forall_cons; [apply D; vm_compute; intuition discriminate|]); apply Forall_nil]|].
  reflexivity.
Qed.

(* ------------------------------------------------------------------ C67 *)
(* C67, full statement: a line "--- NAME" or "+++ NAME", optionally followed by blanks and a
   time stamp, yields NAME and the time stamp, without panicking.  It is false: names with
   blanks that are not in quotes are cut at the first blank, and a name that ends the file
   without a newline is not recognised at all. *)
Lemma p_C67_file_header_refuted :
  before_path_and_time_stamp no_more_digits (str "--- my file" ++ [x09] ++ str "2002-02-21 23:30:39 -0800" ++ [newline]) = Ok (Some (PathStamp (str "my") None)) /\
  before_path_and_time_stamp no_more_digits (str "--- file") = Ok None.
Proof. split; vm_compute; reflexivity. Qed.
(* What does hold: no line makes it panic.  A line that consists of the marker and further
   characters, with a newline at most at its end, gives exactly the name in quotes (if there
   is one that blanks follow), else the characters up to the first blank (if blanks follow),
   and the time stamp that directly follows these blanks, if there is one; any other line
   that begins with the marker gives nothing.  Missing: names with blanks, names without
   anything after them. *)
Lemma p_C67_file_header_partial : forall nd,
  (forall l, exists r, before_path_and_time_stamp nd l = Ok r) /\
  (forall l, exists r, after_path_and_time_stamp nd l = Ok r) /\
  (forall cs, Forall character cs -> newline_only_last cs ->
    (forall name rest o, name_and_rest cs name rest -> stamp_of nd rest o ->
      before_path_and_time_stamp nd (str "--- " ++ concat cs) = Ok (Some (PathStamp (concat name) (option_map (@concat byte) o))) /\
      after_path_and_time_stamp nd (str "+++ " ++ concat cs) = Ok (Some (PathStamp (concat name) (option_map (@concat byte) o)))) /\
    ((forall name rest, ~ name_and_rest cs name rest) ->
      before_path_and_time_stamp nd (str "--- " ++ concat cs) = Ok None /\
      after_path_and_time_stamp nd (str "+++ " ++ concat cs) = Ok None)) /\
  (forall l, (forall s, l <> str "--- " ++ s) -> before_path_and_time_stamp nd l = Ok None) /\
  (forall l, (forall s, l <> str "+++ " ++ s) -> after_path_and_time_stamp nd l = Ok None).
Proof.
  intros nd.
  assert (T : forall m l, exists r, path_and_time_stamp (path_regex nd m) l = Ok r).
  { intros m l. destruct (path_never_panics nd m l) as [P1 P2]. destruct (path_and_time_stamp (path_regex nd m) l); [eauto|congruence|congruence]. }
  assert (P : forall m, concat (asc m) = str m) by (intros m; unfold asc, str; induction (list_byte_of_string m) as [|x l IH]; [reflexivity|cbn; now rewrite IH]).
  split; [intros l; apply T|]. split; [intros l; apply T|]. split; [|split].
  - intros cs Hc Hl.
    destruct (path_line nd "--- " cs eq_refl Hc Hl) as [B1 B2]. destruct (path_line nd "+++ " cs eq_refl Hc Hl) as [A1 A2].
    rewrite concat_app, P in B1, B2, A1, A2. split; [intros name rest o Hn Ho; split; [now apply (B1 name rest o)|now apply (A1 name rest o)]|].
    intros H. split; [now apply B2|now apply A2].
  - intros l H. unfold before_path_and_time_stamp, path_and_time_stamp. rewrite (captures_no_marker nd "--- "); [reflexivity|].
    intros cs E. apply (H (concat cs)). pose proof (chars_concat l) as Q. rewrite E, concat_app, P in Q. now symmetry.
  - intros l H. unfold after_path_and_time_stamp, path_and_time_stamp. rewrite (captures_no_marker nd "+++ "); [reflexivity|].
    intros cs E. apply (H (concat cs)). pose proof (chars_concat l) as Q. rewrite E, concat_app, P in Q. now symmetry.
Qed.
Lemma e_C67_example :
  before_path_and_time_stamp no_more_digits (str "--- lao" ++ [x09] ++ str "2002-02-21 23:30:39.942229878 -0800" ++ [newline]) =
    Ok (Some (PathStamp (str "lao") (Some (str "2002-02-21 23:30:39.942229878 -0800")))) /\
  after_path_and_time_stamp no_more_digits (str "+++ ""my file"" Mon Feb 21 23:30:39 2002 -0800 x") =
    Ok (Some (PathStamp (str "my file") (Some (str "Mon Feb 21 23:30:39 2002 -0800")))) /\
  after_path_and_time_stamp no_more_digits (str "--- lao" ++ [newline]) = Ok None.
Proof. repeat split; vm_compute; reflexivity. Qed.

(* ------------------------------------------------------------------ C69 *)
(* C69: what trying to parse a clump at line i returns, for every input and both builds.
   [outcome] lists the cases: beyond the end; at the end; no header; a bad number in the
   header; a clump; a header that announces no lines followed by a backslash line; the input
   ends too early; a line without a marker in the clump; (debug build) a run of more than
   255 context lines. *)
Lemma p_C69_parse_exact : forall nd dbg lines i r, get_from_at nd dbg lines i = r <-> outcome nd dbg lines i r.
Proof. exact get_from_at_iff. Qed.
(* the two builds differ only in that the debug build may panic *)
Lemma p_C69_builds : forall nd lines i,
  get_from_at nd true lines i = get_from_at nd false lines i \/ get_from_at nd true lines i = Panic.
Proof.
  intros nd lines i. pose proof (get_from_at_outcome nd true lines i) as O.
  remember (get_from_at nd true lines i) as r eqn:E. clear E.
  assert (W : r = Panic \/ outcome nd false lines i r); [|destruct W as [W|W]; [now right|left; symmetry; now apply get_from_at_iff]].
  destruct O; try (now left); right.
  - now apply outcome_end.
  - eapply outcome_none; eauto.
  - eapply outcome_header; eauto.
  - eapply outcome_clump; eauto; discriminate.
  - eapply outcome_short; eauto; discriminate.
  - eapply outcome_stray; eauto; discriminate.
Qed.
Definition two_clumps : list line := split_lines (str "--- a
@@ -1,3 +1,3 @@
 x
-y
+z
 w
@@ -9,2 +9,2 @@
 p
q
").
Lemma e_C69_example :
  get_from_at no_more_digits true two_clumps 1 =
    Ok (DOk (Some (UClump (SLs (SL 1 3) (SL 1 3)) (split_lines (str " x
-y
 w
")) (split_lines (str " x
+z
 w
")) (1, 1)%Z 5))) /\
  get_from_at no_more_digits true two_clumps 0 = Ok (DOk None) /\
  get_from_at no_more_digits true two_clumps 6 = Ok (DErr (UnexpectedEndClump 8)) /\
  get_from_at no_more_digits true (firstn 8 two_clumps) 6 = Ok (DErr UnexpectedEndOfInput).
Proof. repeat split; vm_compute; reflexivity. Qed.

(* ------------------------------------------------------------------ C44 *)
(* C44, full statement: forall nd dbg lines i, i <= length lines -> get_from_at nd dbg lines i <> Panic.
   It is false: a header that announces no lines, followed by a line that begins with a
   backslash, makes it panic in both builds (unwrap of an empty vector's last line) ... *)
Lemma p_C44_never_panics_refuted : exists lines, forall dbg, get_from_at no_more_digits dbg lines 0 = Panic.
Proof. exists (split_lines (str "@@ -0,0 +0,0 @@
\ No newline at end of file
")). intros [|]; vm_compute; reflexivity. Qed.
(* ... and so do 256 context lines in a row in the debug build (overflow of a u8). *)
Lemma p_C44_long_context_refuted : exists lines, get_from_at no_more_digits true lines 0 = Panic /\
  exists c, get_from_at no_more_digits false lines 0 = Ok (DOk (Some c)) /\ uc_context c = (0, 0)%Z /\ length (uc_before c) = 256.
Proof.
  exists (str "@@ -1,256 +1,256 @@" :: repeat (str " x
") 256). split; [vm_compute; reflexivity|]. eexists. split; [vm_compute; reflexivity|]. split; vm_compute; reflexivity.
Qed.
(* What does hold: within the text these are the only two ways to panic.  Missing: these
   two. *)
Lemma p_C44_never_panics_partial : forall nd dbg lines i, i <= length lines ->
  (get_from_at nd dbg lines i = Panic <->
    (exists h rest, clump_at nd lines i h [] rest /\ reaches h [] /\ backslash_first rest) \/
    (dbg = true /\ exists h ls l rest, clump_at nd lines i h (ls ++ [l]) rest /\ ~ reaches h ls /\ ~ context_runs_within 255 (ls ++ [l]))) /\
  get_from_at nd dbg lines i <> OutOfFuel.
Proof.
  intros nd dbg lines i Hi. split; [|intros E; apply get_from_at_iff in E; inversion E].
  rewrite get_from_at_iff. split.
  - intros O. inversion O; subst; [lia|left|right]; eauto 10.
  - intros [(h & rest & C & R & B)|(D & h & ls & l & rest & C & N & O)]; [eapply outcome_empty|eapply outcome_overflow]; eauto.
Qed.
Lemma e_C44_example : 1 <= length two_clumps /\ exists c, get_from_at no_more_digits true two_clumps 1 = Ok (DOk (Some c)).
Proof. split; [vm_compute; lia|]. eexists. vm_compute. reflexivity. Qed.

(* ------------------------------------------------------------------ C47 *)
Lemma sfc_machine c g1 g2 ln x : start_and_length_from_captures c g1 g2 ln = DOk x -> is_usize (sl_start x) /\ is_usize (sl_length x).
Proof.
  assert (U : forall s v, usize_from_str s = Some v -> is_usize v).
  { intros s v. unfold usize_from_str, in_usize, is_usize. destruct (match s with x2b :: (_ :: _) as r => r | _ => s end); [discriminate|].
    destruct (parse_digits _ _) as [w [|]]; [|discriminate]. destruct (_ && _)%bool eqn:E; [|discriminate]. intros [= <-]. apply andb_prop in E. lia. }
  unfold start_and_length_from_captures. destruct (group_text g1 c) as [s|]; [|discriminate]. destruct (usize_from_str s) as [v|] eqn:E; [|discriminate].
  cbn [dbind]. destruct (group_text g2 c) as [s2|]; [destruct (usize_from_str s2) as [v2|] eqn:E2; [|discriminate]|]; cbn [dbind]; intros [= <-]; cbn; eauto.
  split; [eauto|]. unfold is_usize, two64. lia.
Qed.
Lemma header_machine nd l ln h : starts_and_lengths nd l ln = DOk (Some h) -> machine_header h.
Proof.
  unfold starts_and_lengths. destruct (captures _ _) as [c|]; [|discriminate].
  destruct (start_and_length_from_captures c 1 3 ln) as [b|] eqn:E1; [|discriminate]. cbn [dbind].
  destruct (start_and_length_from_captures c 4 6 ln) as [a|] eqn:E2; [|discriminate]. cbn [dbind]. intros [= <-].
  apply sfc_machine in E1, E2. unfold machine_header. cbn. tauto.
Qed.
Lemma just_reaches_counts h ls : machine_header h -> just_reaches h ls ->
  (Z.of_nat (length (old_lines ls)) = sl_length (sls_before h) \/ Z.of_nat (length (new_lines ls)) = sl_length (sls_after h)).
Proof.
  intros (_ & M1 & _ & M2) [R J]. unfold reaches in R. unfold is_usize in *. destruct ls as [|x ls] using rev_ind.
  - cbn in *. lia.
  - clear IHls. specialize (J ls [x] eq_refl ltac:(discriminate)). unfold reaches in J. rewrite old_length_app, new_length_app in *.
    assert (length (old_lines [x]) <= 1 /\ length (new_lines [x]) <= 1).
    { unfold old_lines, new_lines. cbn [filter]. destruct (starts_with _ x), (starts_with _ x); cbn; lia. }
    lia.
Qed.
(* C47, full statement: forall nd dbg lines i c, get_from_at nd dbg lines i = Ok (DOk (Some c)) ->
   the numbers of lines of both sides are those of the header.  It is false: lines are read
   until both numbers are reached, and one side may then have too many. *)
Lemma p_C47_lengths_refuted : exists lines c, (forall dbg, get_from_at no_more_digits dbg lines 0 = Ok (DOk (Some c))) /\
  sl_length (sls_before (uc_header c)) = 1%Z /\ length (uc_before c) = 3.
Proof.
  exists (split_lines (str "@@ -1 +1,3 @@
 a
 b
 c
")). eexists. split; [intros [|]; vm_compute; reflexivity|]. split; vm_compute; reflexivity.
Qed.
(* What does hold: a parsed clump is read from the lines ls behind its header, which all have
   a marker; it has all their old and new lines, except that the last line may have been
   trimmed; no side has too few lines, ls is the shortest such piece of text, and at least
   one side has exactly the announced number.  Missing: the equality for the other side. *)
Lemma p_C47_lengths_partial : forall nd dbg lines i c, get_from_at nd dbg lines i = Ok (DOk (Some c)) ->
  exists ls rest, clump_at nd lines i (uc_header c) ls rest /\ just_reaches (uc_header c) ls /\ clump_read (uc_header c) ls rest c /\
    length (uc_before c) = length (old_lines ls) /\ length (uc_after c) = length (new_lines ls) /\
    (sl_length (sls_before (uc_header c)) <= Z.of_nat (length (uc_before c)))%Z /\
    (sl_length (sls_after (uc_header c)) <= Z.of_nat (length (uc_after c)))%Z /\
    (Z.of_nat (length (uc_before c)) = sl_length (sls_before (uc_header c)) \/
     Z.of_nat (length (uc_after c)) = sl_length (sls_after (uc_header c))).
Proof.
  intros nd dbg lines i c E. apply get_from_at_iff in E. inversion E as [| | | |h ls rest c' C J R D| | | |]; subst.
  assert (Hh : uc_header c = h) by apply R. rewrite Hh. exists ls, rest. split; [assumption|]. split; [assumption|]. split; [assumption|].
  assert (Mh : machine_header h) by (destruct C as (p & hl & _ & _ & Q & _); eapply header_machine; eauto).
  assert (TL : forall x y, trimmed_last x y -> length y = length x) by (intros x y (p & l & l' & -> & -> & _); rewrite !app_length; reflexivity).
  assert (B : length (uc_before c) = length (old_lines ls) /\ length (uc_after c) = length (new_lines ls)).
  { destruct R as (_ & _ & [(_ & -> & -> & _)|(_ & _ & p & l & _ & [(_ & -> & T)|(_ & T & ->)])]); auto. }
  destruct B as [-> ->]. pose proof (just_reaches_counts h ls Mh J) as Q. destruct J as [[J1 J2] _]. tauto.
Qed.
Lemma e_C47_example : exists c, get_from_at no_more_digits true two_clumps 1 = Ok (DOk (Some c)) /\
  sl_length (sls_before (uc_header c)) = 3%Z /\ length (uc_before c) = 3 /\ length (uc_after c) = 3.
Proof. eexists. split; [vm_compute; reflexivity|]. repeat split; vm_compute; reflexivity. Qed.

(* ------------------------------------------------------------------ C45 *)
Lemma cover_header context g (b a : list line) i j hs : cover context g b a i j hs -> (Z.of_nat (length b) < two64)%Z -> (Z.of_nat (length a) < two64)%Z ->
  Forall (fun h => machine_header (header_of h)) hs.
Proof.
  intros H Lb La. induction H as [|i j d i' j' l t rest Hg H1 H2 H3 H4 H5 H6 H7 H8 H9 H IH]; constructor; [|assumption].
  unfold machine_header, header_of, is_usize. cbn [sls_before sls_after sl_start sl_length h_b h_a h_old h_new]. rewrite !sub_length by assumption. lia.
Qed.
(* C45, full statement: for every pair of texts shorter than 2^64 lines and every context
   size, the unified form of the diff has one text for every clump, and for each of them
   [printed] holds and the new lines without their markers are the new lines of the clump.
   The last part is false: a changed line can be printed as a context line (see C10). *)
Lemma p_C45_printed_refuted : exists before after h t body,
  text_diff_clumps before after 2 = Ok [text_of_hunk h] /\ unified_diff 2 before after = Ok [t] /\
  printed h body t /\ unmark (new_lines body) <> h_new h.
Proof.
  set (h := Hunk 2 0 1 (L "B C X ") 1 (L "Z C Y ")).
  set (body := [str " B" ++ [newline]; str " C" ++ [newline]; str "+Y" ++ [newline]; str "-X" ++ [newline]]).
  exists (L "A B C X "), (L "A Z C Y "), h, (UText (header_text (header_of h)) body), body.
  split; [vm_compute; reflexivity|]. split; [vm_compute; reflexivity|]. split; [|vm_compute; discriminate].
  split; [apply header_text_written; vm_compute; intuition discriminate|]. cbn [ut_lines]. split.
  { left. split; [|reflexivity]. exists (firstn 3 body), (str "-X" ++ [newline]). split; [reflexivity|]. now exists (str "-X"). }
  split; [|split; vm_compute; reflexivity].
  exists (firstn 2 body), (skipn 2 body), []. split; [reflexivity|]. split; [reflexivity|]. split; [reflexivity|].
  split; [repeat constructor|]. split; [constructor|]. split; [do 2 eexists; split; reflexivity|].
  split; [exists [str "+Y" ++ [newline]], (str "-X" ++ [newline]); split; reflexivity|].
  cbn. constructor; [now right|]. constructor; [now right|]. constructor.
Qed.
(* What does hold: printing always succeeds, there is one text for every clump of the diff,
   and [printed] holds for each: the header carries the clump's positions and lengths, the
   old lines without their markers are the old lines of the clump, and there are as many new
   lines as the header says; without isolated mismatches the new lines without their markers
   are the new lines of the clump.  Missing: the new lines of inputs with an isolated
   mismatch. *)
Lemma p_C45_printed_partial : forall before after context, context <= 255 ->
  (Z.of_nat (length before) < two64)%Z -> (Z.of_nat (length after) < two64)%Z ->
  exists hs ts, text_diff_clumps before after context = Ok (map text_of_hunk hs) /\ unified_diff context before after = Ok ts /\
    Forall2 (fun h t => exists body, printed h body t /\ (no_isolated_mismatch before after -> unmark (new_lines body) = h_new h)) hs ts.
Proof.
  intros b a context Hc Lb La. destruct (unified_diff_spec b a context Hc) as (cs & hs & ts & _ & E1 & Hcov & Hf & E2 & F).
  exists hs, ts. split; [assumption|]. split; [assumption|]. pose proof (cover_header _ _ _ _ _ _ _ Hcov Lb La) as M. rewrite Forall_forall in M.
  apply (Forall2_in_r _ _ _ _ F). intros h t Hh _ (body & P1 & P2 & P3 & P4 & P5 & P6 & P7 & P8). exists body. split; [|auto].
  split; [rewrite P1; apply (header_text_written (header_of h)); auto|]. auto.
Qed.
Lemma e_C45_example :
  let b := L "A B C D E F G " in let a := L "A B X Y E F G H" in
  no_isolated_mismatch b a /\ unified_diff 1 b a = Ok [
    UText (str "@@ -1,4 +1,4 @@") [str " B" ++ [newline]; str "+X" ++ [newline]; str "+Y" ++ [newline]; str "-C" ++ [newline]; str "-D" ++ [newline]; str " E" ++ [newline]];
    UText (str "@@ -6 +6,2 @@") [str " G" ++ [newline]; str "+H"; [newline; x5c; newline]]].
Proof.
  cbv zeta. split; [apply (no_isolated_check line_eqb); [exact line_eqb_lawful|vm_compute; reflexivity]|]. vm_compute. reflexivity.
Qed.

(* ------------------------------------------------------------------ C46 *)
Lemma marked_counts x : marked_line x -> 1 <= length (old_lines [x]) + length (new_lines [x]).
Proof.
  intros H. unfold old_lines, new_lines. cbn [filter]. destruct x as [|m x]; [destruct H; discriminate|].
  destruct H as [H|H]; destruct m; try discriminate H; cbn; lia.
Qed.
Lemma just_exact h body : Forall marked_line body -> sl_length (sls_before h) = Z.of_nat (length (old_lines body)) ->
  sl_length (sls_after h) = Z.of_nat (length (new_lines body)) -> just_reaches h body.
Proof.
  intros M E1 E2. split; [unfold reaches; lia|]. intros p [|x q] -> Hq R; [congruence|]. unfold reaches in R. change (x :: q) with ([x] ++ q) in *.
  rewrite !old_length_app, !new_length_app in *. apply Forall_app in M as [_ M]. inversion M as [|? ? Mx _]; subst. apply marked_counts in Mx. lia.
Qed.
Lemma marked_as_marked l t body : marked_as l t body -> Forall marked_line body.
Proof.
  intros (u & v & w & -> & _ & _ & H1 & H2 & _ & _ & H3). rewrite !Forall_app. split; [|split; [assumption|]].
  - eapply Forall_impl; [|exact H1]. intros x Hx. now left.
  - eapply Forall_impl; [|exact H2]. intros x Hx. now left.
Qed.
Lemma printed_outcome nd dbg context h t pre e body post c : digit_table nd -> machine_header (header_of h) -> (dbg = true -> context <= 128) ->
  ut_header t = header_text (header_of h) -> Forall marked_line body ->
  length (old_lines body) = length (h_old h) -> length (new_lines body) = length (h_new h) -> context_runs_within (2 * context - 1) body ->
  e = [] \/ e = [newline] -> clump_read (header_of h) body post c ->
  get_from_at nd dbg (pre ++ (ut_header t ++ e) :: body ++ post) (length pre) = Ok (DOk (Some c)).
Proof.
  intros Hnd Hm Hd E MA EO EN R He Hc. apply get_from_at_iff. apply outcome_clump with (h := header_of h) (ls := body) (rest := post); auto.
  - exists pre, (ut_header t ++ e). split; [reflexivity|]. split; [reflexivity|]. split; [rewrite E; apply header_round_trip; auto|]. assumption.
  - apply just_exact; [assumption| |]; cbn [header_of sls_before sls_after sl_length]; [now rewrite EO|now rewrite EN].
  - intros D. specialize (Hd D). intros x y z Q Hy. specialize (R x y z Q Hy). lia.
Qed.
Lemma cover_context {T} context g (b a : list T) i j hs : cover context g b a i j hs -> Forall (fun h => h_lead h <= context /\ h_trail h <= context) hs.
Proof. induction 1; constructor; cbn; auto. Qed.
Lemma marked_newline m l : ends_in_newline l -> ends_in_newline (m :: l).
Proof. intros (x & ->). now exists (m :: x). Qed.
Lemma body_newlines (b a body : list line) : Forall (fun x => exists m l, x = m :: l /\ (In l b \/ In l a)) body ->
  Forall ends_in_newline b -> Forall ends_in_newline a -> Forall ends_in_newline body.
Proof.
  intros H Hb Ha. rewrite Forall_forall in *. intros x Hx. destruct (H x Hx) as (m & l & -> & [Q|Q]); apply marked_newline; auto.
Qed.
Lemma newline_body l t body printed : marked_as l t body -> Forall ends_in_newline body -> with_marker body printed -> printed = body.
Proof.
  intros (u & v & w & E & _ & _ & _ & _ & (x & m & Q & _) & _) H [[_ W]|[W _]]; [assumption|]. exfalso. apply W.
  assert (N : body <> []) by (subst; destruct u; discriminate). destruct (exists_last N) as (p & z & ->). exists p, z. split; [reflexivity|].
  apply Forall_app in H as [_ H]. now inversion H.
Qed.

(* C46, full statement: for texts of newline-terminated lines, parsing the printed form of a
   clump returns its positions, its context lengths, its old lines and its new lines, and
   consumes exactly the lines printed.  It is false: the lines returned still have their
   markers ... *)
Lemma p_C46_print_parse_refuted : exists before after h t c,
  Forall ends_in_newline before /\ Forall ends_in_newline after /\
  text_diff_clumps before after 1 = Ok [text_of_hunk h] /\ unified_diff 1 before after = Ok [t] /\
  (forall dbg, get_from_at no_more_digits dbg ((ut_header t ++ [newline]) :: ut_lines t) 0 = Ok (DOk (Some c))) /\
  uc_before c <> h_old h /\ uc_after c <> h_new h.
Proof.
  exists (L "A B "), (L "A C "), (Hunk 1 0 0 (L "A B ") 0 (L "A C ")). do 2 eexists.
  split; [repeat constructor; [now exists (str "A")|now exists (str "B")]|]. split; [repeat constructor; [now exists (str "A")|now exists (str "C")]|].
  split; [vm_compute; reflexivity|]. split; [vm_compute; reflexivity|]. split; [intros [|]; vm_compute; reflexivity|]. split; vm_compute; discriminate.
Qed.
(* ... and with more than 128 lines of context the debug build may panic on its own output. *)
Definition numbered : list line := map (fun n => dec (Z.of_nat n) ++ [newline]) (seq 0 256).
Lemma p_C46_debug_refuted : exists before after t, unified_diff 129 before after = Ok [t] /\
  get_from_at no_more_digits true ((ut_header t ++ [newline]) :: ut_lines t) 0 = Panic.
Proof.
  exists (L "A " ++ numbered ++ L "C "), (L "X " ++ numbered ++ L "Z ").
  destruct (unified_diff 129 (L "A " ++ numbered ++ L "C ") (L "X " ++ numbered ++ L "Z ")) as [[|t [|]]| |] eqn:E; try (vm_compute in E; discriminate).
  exists t. split; [reflexivity|].
  assert (Q : match unified_diff 129 (L "A " ++ numbered ++ L "C ") (L "X " ++ numbered ++ L "Z ") with
              | Ok [t] => get_from_at no_more_digits true ((ut_header t ++ [newline]) :: ut_lines t) 0 | _ => OutOfFuel end = Panic) by (vm_compute; reflexivity).
  rewrite E in Q. exact Q.
Qed.
(* What does hold: with at most 128 lines of context, or in the release build, parsing a
   printed clump, wherever it stands in a text, unless a line beginning with a backslash
   follows, returns its positions, its context lengths, and the printed old and new lines
   with their markers, and consumes exactly the lines printed; without the markers these are
   the old lines, and without isolated mismatches the new lines, of the clump.
   Missing: the markers are not removed; debug build with more context. *)
Lemma p_C46_print_parse_partial : forall nd dbg before after context, digit_table nd -> context <= 255 -> (dbg = true -> context <= 128) ->
  (Z.of_nat (length before) < two64)%Z -> (Z.of_nat (length after) < two64)%Z ->
  Forall ends_in_newline before -> Forall ends_in_newline after ->
  exists hs ts, text_diff_clumps before after context = Ok (map text_of_hunk hs) /\ unified_diff context before after = Ok ts /\
    Forall2 (fun h t =>
      (forall pre e post, e = [] \/ e = [newline] -> ~ backslash_first post ->
        get_from_at nd dbg (pre ++ (ut_header t ++ e) :: ut_lines t ++ post) (length pre) =
          Ok (DOk (Some (UClump (SLs (SL (Z.of_nat (h_b h)) (Z.of_nat (length (h_old h)))) (SL (Z.of_nat (h_a h)) (Z.of_nat (length (h_new h)))))
                                (old_lines (ut_lines t)) (new_lines (ut_lines t)) (Z.of_nat (h_lead h), Z.of_nat (h_trail h)) (1 + length (ut_lines t)))))) /\
      unmark (old_lines (ut_lines t)) = h_old h /\
      (no_isolated_mismatch before after -> unmark (new_lines (ut_lines t)) = h_new h)) hs ts.
Proof.
  intros nd dbg b a context Hnd Hc Hd Lb La Nb Na. destruct (unified_diff_spec b a context Hc) as (cs & hs & ts & _ & E1 & Hcov & Hf & E2 & F).
  exists hs, ts. split; [assumption|]. split; [assumption|]. pose proof (cover_header _ _ _ _ _ _ _ Hcov Lb La) as M.
  pose proof (cover_context _ _ _ _ _ _ _ Hcov) as X. rewrite Forall_forall in M, X.
  apply (Forall2_in_r _ _ _ _ F). intros h t Hh _ (body & P1 & P2 & P3 & P4 & P5 & P6 & P7 & P8).
  pose proof (newline_body _ _ _ _ P3 (body_newlines _ _ _ P8 Nb Na) P2) as E. rewrite E. split; [|auto].
  intros pre e post He Hpost. destruct (X h Hh) as [X1 X2]. apply printed_outcome with (context := context) (h := h); auto.
  - eapply marked_as_marked; eauto.
  - rewrite <- P4. unfold unmark. now rewrite map_length.
  - split; [reflexivity|]. cbn [uc_context uc_before uc_after uc_consumed]. split; [exists (h_lead h), (h_trail h); split; [now right|]; rewrite !Z.mod_small by lia; reflexivity|].
    left. auto.
Qed.
Lemma e_C46_example : let b := L "A B C D E F G " in let a := L "A B X Y E F G H " in
  Forall ends_in_newline b /\ Forall ends_in_newline a /\ no_isolated_mismatch b a /\
  exists t1 t2, unified_diff 1 b a = Ok [t1; t2] /\
    get_from_at no_more_digits true ((ut_header t1 ++ [newline]) :: ut_lines t1 ++ (ut_header t2 ++ [newline]) :: ut_lines t2) 0 =
      Ok (DOk (Some (UClump (SLs (SL 1 4) (SL 1 4)) [str " B" ++ [newline]; str "-C" ++ [newline]; str "-D" ++ [newline]; str " E" ++ [newline]]
        [str " B" ++ [newline]; str "+X" ++ [newline]; str "+Y" ++ [newline]; str " E" ++ [newline]] (1, 1)%Z 7))).
Proof.
  assert (N : forall s, forallb ends_with_newline (L s) = true -> Forall ends_in_newline (L s)).
  { intros s H. apply Forall_forall. intros x Hx. apply ends_with_newline_iff. rewrite forallb_forall in H. auto. }
  cbv zeta. split; [apply N; vm_compute; reflexivity|]. split; [apply N; vm_compute; reflexivity|].
  split; [apply (no_isolated_check line_eqb); [exact line_eqb_lawful|vm_compute; reflexivity]|]. do 2 eexists. split; [vm_compute; reflexivity|]. vm_compute. reflexivity.
Qed.

(* ------------------------------------------------------------------ C68 *)
Definition with_newline (x : line) : line := if ends_with_newline x then x else x ++ [newline].
Lemma starts_with_newline ms x : existsb (Byte.eqb newline) ms = false -> starts_with ms (with_newline x) = starts_with ms x.
Proof.
  intros H. unfold with_newline. destruct (ends_with_newline x) eqn:E; [reflexivity|]. destruct x as [|m x]; [exact H|reflexivity].
Qed.
Lemma filter_with_newline ms ls : existsb (Byte.eqb newline) ms = false -> filter (starts_with ms) (map with_newline ls) = map with_newline (filter (starts_with ms) ls).
Proof.
  intros H. induction ls as [|x ls IH]; [reflexivity|]. cbn [map filter]. rewrite starts_with_newline by assumption. destruct (starts_with ms x); cbn [map]; now rewrite IH.
Qed.
Lemma ctxs_with_newline ls : Forall (fun x => context_line x = true) ls -> Forall (fun x => context_line x = true) (map with_newline ls).
Proof. intros H. apply Forall_map. eapply Forall_impl; [|exact H]. intros x Hx. unfold context_line. now rewrite starts_with_newline. Qed.
Lemma marked_with_newline x : marked_line x -> marked_line (with_newline x).
Proof. unfold marked_line, context_line, changed_line. now rewrite !starts_with_newline. Qed.
Lemma marked_as_with_newline l t ls : marked_as l t ls -> marked_as l t (map with_newline ls).
Proof.
  intros (u & v & w & -> & <- & <- & H1 & H2 & (x & m & E1 & Hx) & (n & y & E2 & Hy) & H3). exists (map with_newline u), (map with_newline v), (map with_newline w).
  rewrite !map_app, !map_length. split; [reflexivity|]. split; [reflexivity|]. split; [reflexivity|]. split; [now apply ctxs_with_newline|]. split; [now apply ctxs_with_newline|].
  split; [exists (with_newline x), (map with_newline m); rewrite E1; split; [reflexivity|]; unfold changed_line; now rewrite starts_with_newline|].
  split; [exists (map with_newline n), (with_newline y); rewrite E2, map_app; split; [reflexivity|]; unfold changed_line; now rewrite starts_with_newline|].
  apply Forall_map. eapply Forall_impl; [|exact H3]. intros z Hz. now apply marked_with_newline.
Qed.
Lemma runs_with_newline n ls : context_runs_within n ls -> context_runs_within n (map with_newline ls).
Proof.
  intros H x y z E Hy. apply map_eq_app in E as (x' & r & -> & <- & E). apply map_eq_app in E as (y' & z' & -> & <- & <-).
  rewrite map_length. apply (H x' y' z' eq_refl). rewrite Forall_map in Hy. eapply Forall_impl; [|exact Hy]. intros l Hl. cbn beta in Hl. unfold context_line in *. now rewrite starts_with_newline in Hl.
Qed.
Lemma split_full ls rest : Forall is_line ls -> Forall ends_in_newline ls -> split_lines (concat ls ++ rest) = ls ++ split_lines rest.
Proof.
  induction ls as [|l ls IH]; intros H1 H2; [reflexivity|]. inversion H1 as [|? ? L1 L2]; subst. inversion H2 as [|? ? (x & ->) N2]; subst.
  cbn [concat]. rewrite <- !app_assoc. cbn [app]. rewrite split_lines_nl; [now rewrite IH|].
  destruct L1 as (bd & Hb & [E|[E _]]).
  - apply app_inj_tail in E as [-> _]. assumption.
  - exfalso. apply Hb. rewrite <- E. apply in_or_app. right. now left.
Qed.
Lemma header_no_newline h : machine_header h -> ~ In newline (header_text h).
Proof.
  intros (H1 & H2 & H3 & H4). unfold is_usize in *.
  assert (D : forall z, (0 <= z)%Z -> ~ In newline (dec z)).
  { intros z Hz Hin. destruct (dec_digits no_more_digits z Hz) as ((_ & D) & _). rewrite Forall_forall in D.
    destruct (D (single newline)) as [(x & E & Hx)|[_ Q]]; [now apply in_map| |discriminate]. injection E as <-. vm_compute in Hx. destruct Hx. congruence. }
  assert (S : forall s, existsb (Byte.eqb newline) (str s) = false -> ~ In newline (str s)).
  { intros s Hs Hin. assert (existsb (Byte.eqb newline) (str s) = true) by (apply existsb_exists; exists newline; split; [assumption|reflexivity]). congruence. }
  unfold header_text. destruct (_ =? 1)%Z, (_ =? 1)%Z; rewrite !in_app_iff; intros Q; repeat (destruct Q as [Q|Q]; [first [(refine (D _ _ Q); lia)|(refine (S _ _ Q); reflexivity)]|]); first [(refine (D _ _ Q); lia)|(refine (S _ _ Q); reflexivity)].
Qed.
Lemma marked_is_line m l : In m [x20; x2d; x2b] -> is_line l -> is_line (m :: l).
Proof.
  intros Hm (bd & Hb & H). exists (m :: bd). split; [intros [E|Q]; [subst m; cbn in Hm; intuition discriminate|contradiction]|].
  destruct H as [-> | [-> _]]; [now left|right; split; [reflexivity|discriminate]].
Qed.
Lemma marked_marker m l : marked_line (m :: l) -> In m [x20; x2d; x2b].
Proof. intros [H|H]; destruct m; try discriminate H; cbn; tauto. Qed.
Lemma body_is_line (b a body : list line) : Forall (fun x => exists m l, x = m :: l /\ (In l b \/ In l a)) body -> Forall marked_line body ->
  Forall is_line b -> Forall is_line a -> Forall is_line body.
Proof.
  intros H M Hb Ha. rewrite Forall_forall in *. intros x Hx. specialize (M x Hx). destruct (H x Hx) as (m & l & -> & Q).
  apply marked_is_line; [now apply marked_marker in M|]. destruct Q; auto.
Qed.
Lemma with_newline_ends x : ends_in_newline (with_newline x).
Proof. unfold with_newline. destruct (ends_with_newline x) eqn:E; [now apply ends_with_newline_iff|now exists x]. Qed.
Lemma with_newline_id ls : Forall ends_in_newline ls -> map with_newline ls = ls.
Proof.
  induction 1 as [|x ls Hx H IH]; [reflexivity|]. cbn [map]. rewrite IH. unfold with_newline. now rewrite (proj2 (ends_with_newline_iff x) Hx).
Qed.
Lemma is_line_with_newline x : is_line x -> is_line (with_newline x).
Proof.
  intros H. unfold with_newline. destruct (ends_with_newline x) eqn:E; [assumption|]. destruct H as (bd & Hb & [-> | [-> _]]); exists bd; (split; [assumption|]).
  - exfalso. assert (ends_with_newline (bd ++ [newline]) = true) by (apply ends_with_newline_iff; now exists bd). congruence.
  - now left.
Qed.
Lemma trimmed_newline x : (forall p c, chars x = p ++ [c] -> ~ blank c) -> trimmed (x ++ [newline]) x.
Proof.
  intros H. exists (chars x), [[newline]]. split; [now rewrite chars_app|]. split; [now rewrite chars_concat|].
  split; [|assumption]. constructor; [|constructor]. exists 10%N. split; [lia|reflexivity].
Qed.

(* C68, full statement: writing out a printed clump, splitting the text into lines again and
   parsing them gives back the printed old and new lines, also if the last line of a text has
   no newline.  It is false: if the unterminated line is not printed last, the next line is
   appended to it; if it is a context line, the new side keeps a newline it did not have; and
   blanks at its end are lost. *)
Lemma p_C68_no_newline_refuted :
  (exists t, unified_diff 1 (L "A") (L "B C ") = Ok [t] /\
     ut_lines t = [str "-A"; str "+B" ++ [newline]; str "+C" ++ [newline]] /\
     get_from_at no_more_digits true (split_lines (written_out t)) 0 = Ok (DErr UnexpectedEndOfInput)) /\
  (exists t c, unified_diff 1 (L "X A") (L "Y A") = Ok [t] /\
     get_from_at no_more_digits true (split_lines (written_out t)) 0 = Ok (DOk (Some c)) /\
     unmark (uc_before c) = L "X A" /\ unmark (uc_after c) = L "Y A ") /\
  (exists t c, unified_diff 1 (L "X ") (L "X " ++ [str "Y "]) = Ok [t] /\
     get_from_at no_more_digits true (split_lines (written_out t)) 0 = Ok (DOk (Some c)) /\
     unmark (uc_after c) = L "X Y").
Proof.
  split; [eexists; split; [vm_compute; reflexivity|]; split; vm_compute; reflexivity|].
  split; (do 2 eexists; split; [vm_compute; reflexivity|]; split; [vm_compute; reflexivity|]; repeat split; vm_compute; reflexivity).
Qed.
(* What does hold, for the clumps of the diff of two files: if all printed lines have their
   newline, the clump read has exactly the printed lines; if only the line printed last has
   none, and it does not end in a blank, the clump read has exactly the printed lines, except
   that a context line gets a newline on the new side.  Missing: the cases above. *)
Lemma p_C68_no_newline_partial : forall nd dbg before after context, digit_table nd -> context <= 255 -> (dbg = true -> context <= 128) ->
  (Z.of_nat (length (split_lines before)) < two64)%Z -> (Z.of_nat (length (split_lines after)) < two64)%Z ->
  exists hs ts, text_diff_clumps (split_lines before) (split_lines after) context = Ok (map text_of_hunk hs) /\
    unified_diff context (split_lines before) (split_lines after) = Ok ts /\
    Forall2 (fun h t => exists body, printed h body t /\
      (Forall ends_in_newline body -> get_from_at nd dbg (split_lines (written_out t)) 0 =
         Ok (DOk (Some (UClump (header_of h) (old_lines body) (new_lines body) (Z.of_nat (h_lead h), Z.of_nat (h_trail h)) (1 + length body))))) /\
      (forall pre x, body = pre ++ [x] -> Forall ends_in_newline pre -> ~ ends_in_newline x -> (forall p c, chars x = p ++ [c] -> ~ blank c) ->
         get_from_at nd dbg (split_lines (written_out t)) 0 =
         Ok (DOk (Some (UClump (header_of h) (old_lines body) (if context_line x then new_lines pre ++ [x ++ [newline]] else new_lines body)
                               (Z.of_nat (h_lead h), Z.of_nat (h_trail h)) (2 + length body)))))) hs ts.
Proof.
  intros nd dbg sb sa context Hnd Hc Hd Lb La. set (b := split_lines sb) in *. set (a := split_lines sa) in *.
  destruct (unified_diff_spec b a context Hc) as (cs & hs & ts & _ & E1 & Hcov & Hf & E2 & F).
  exists hs, ts. split; [assumption|]. split; [assumption|]. pose proof (cover_header _ _ _ _ _ _ _ Hcov Lb La) as M.
  pose proof (cover_context _ _ _ _ _ _ _ Hcov) as X. rewrite Forall_forall in M, X.
  apply (Forall2_in_r _ _ _ _ F). intros h t Hh _ (body & P1 & P2 & P3 & P4 & P5 & P6 & P7 & P8).
  destruct (X h Hh) as [X1 X2]. specialize (M h Hh). exists body.
  split; [split; [rewrite P1; now apply (header_text_written (header_of h))|]; auto|].
  pose proof (marked_as_marked _ _ _ P3) as MK.
  pose proof (body_is_line _ _ _ P8 MK (split_lines_is_line sb) (split_lines_is_line sa)) as IL.
  assert (LO : length (old_lines body) = length (h_old h)) by (rewrite <- P4; unfold unmark; now rewrite map_length).
  assert (HD : is_line (ut_header t ++ [newline])) by (exists (ut_header t); split; [rewrite P1; now apply header_no_newline|now left]).
  assert (SP : forall ls post, ut_lines t = ls -> concat ls = concat (map with_newline body) ++ post ->
     split_lines (written_out t) = (ut_header t ++ [newline]) :: map with_newline body ++ split_lines post).
  { intros ls post E Q. unfold written_out. rewrite E, Q. change (ut_header t ++ [newline] ++ concat (map with_newline body) ++ post) with (ut_header t ++ ([newline] ++ concat (map with_newline body) ++ post)).
    rewrite app_assoc. change ((ut_header t ++ [newline]) ++ concat (map with_newline body) ++ post) with (concat [ut_header t ++ [newline]] ++ concat (map with_newline body) ++ post) || idtac.
    replace ((ut_header t ++ [newline]) ++ concat (map with_newline body) ++ post) with (concat ((ut_header t ++ [newline]) :: map with_newline body) ++ post) by (cbn [concat]; now rewrite <- app_assoc).
    rewrite split_full; [reflexivity| |].
    - constructor; [assumption|]. apply Forall_map. eapply Forall_impl; [|exact IL]. intros y. apply is_line_with_newline.
    - constructor; [now exists (ut_header t)|]. apply Forall_map. apply Forall_forall. intros y _. apply with_newline_ends. }
  assert (PO : forall post c, clump_read (header_of h) (map with_newline body) post c ->
     get_from_at nd dbg ((ut_header t ++ [newline]) :: map with_newline body ++ post) 0 = Ok (DOk (Some c))).
  { intros post c Hr. apply (printed_outcome nd dbg context h t [] [newline]); auto.
    - apply Forall_map. eapply Forall_impl; [|exact MK]. intros y. apply marked_with_newline.
    - unfold old_lines. rewrite filter_with_newline, map_length by reflexivity. assumption.
    - unfold new_lines. rewrite filter_with_newline, map_length by reflexivity. assumption.
    - now apply runs_with_newline. }
  assert (CX : forall y z, (Z.of_nat (h_lead h), Z.of_nat (h_trail h)) = (y, z) -> exists l t, context_lengths (map with_newline body) l t /\ (y, z) = (Z.of_nat l mod 256, Z.of_nat t mod 256)%Z).
  { intros y z [= <- <-]. exists (h_lead h), (h_trail h). split; [right; now apply marked_as_with_newline|]. rewrite !Z.mod_small by lia. reflexivity. }
  split.
  - intros N. pose proof (newline_body _ _ _ _ P3 N P2) as E.
    rewrite (SP body []); [|assumption|rewrite with_newline_id by assumption; now rewrite app_nil_r]. apply PO. cbn [split_lines].
    split; [reflexivity|]. cbn [uc_context uc_before uc_after uc_consumed]. split; [now apply CX|]. rewrite with_newline_id by assumption. left.
    split; [intros (? & ? & Q); discriminate|]. auto.
  - intros pre x EB N NX BX.
    assert (E : ut_lines t = body ++ [[newline; x5c; newline]]).
    { destruct P2 as [[(p & z & Q & Hz) _]|[_ W]]; [|exact W]. exfalso. rewrite EB in Q. apply app_inj_tail in Q as [_ ->]. contradiction. }
    assert (WX : with_newline x = x ++ [newline]).
    { unfold with_newline. destruct (ends_with_newline x) eqn:W; [|reflexivity]. apply ends_with_newline_iff in W. contradiction. }
    assert (WB : map with_newline body = pre ++ [x ++ [newline]]) by (rewrite EB, map_app, with_newline_id by assumption; cbn; now rewrite WX).
    rewrite (SP _ [x5c; newline] E).
    2:{ rewrite WB, EB, !concat_app. cbn [concat]. rewrite !app_nil_r, <- !app_assoc. reflexivity. }
    change (split_lines [x5c; newline]) with [[x5c; newline]]. apply PO.
    split; [reflexivity|]. cbn [uc_context uc_before uc_after uc_consumed]. split; [now apply CX|]. right.
    split; [now exists [newline], []|]. rewrite map_length. split; [reflexivity|].
    exists pre, (x ++ [newline]). split; [exact WB|]. rewrite WB, EB.
    assert (MX : marked_line x) by (rewrite EB in MK; apply Forall_app in MK as [_ MK]; now inversion MK).
    destruct x as [|m x']; [destruct MX; discriminate|]. 
    assert (OL : forall y, old_lines (pre ++ [m :: y]) = old_lines pre ++ (if existsb (Byte.eqb m) [x20; x2d] then [m :: y] else [])) by (intros y; rewrite old_lines_app; unfold old_lines; cbn [filter starts_with]; destruct (existsb (Byte.eqb m) [x20; x2d]); reflexivity).
    assert (NL : forall y, new_lines (pre ++ [m :: y]) = new_lines pre ++ (if existsb (Byte.eqb m) [x20; x2b] then [m :: y] else [])) by (intros y; rewrite new_lines_app; unfold new_lines; cbn [filter starts_with]; destruct (existsb (Byte.eqb m) [x20; x2b]); reflexivity).
    change ((m :: x') ++ [newline]) with (m :: (x' ++ [newline])). rewrite !OL, !NL.
    pose proof (trimmed_newline _ BX) as TX. change ((m :: x') ++ [newline]) with (m :: (x' ++ [newline])) in TX.
    apply marked_marker in MX. cbn [In] in MX. destruct MX as [<-|[<-|[<-|[]]]]; cbn [context_line starts_with existsb Byte.eqb orb].
    + right. split; [reflexivity|]. split; [|reflexivity]. exists (old_lines pre), (x20 :: x' ++ [newline]), (x20 :: x'). auto.
    + right. split; [reflexivity|]. split; [|reflexivity]. exists (old_lines pre), (x2d :: x' ++ [newline]), (x2d :: x'). auto.
    + left. split; [reflexivity|]. split; [reflexivity|]. exists (new_lines pre), (x2b :: x' ++ [newline]), (x2b :: x'). auto.
Qed.
Lemma e_C68_example : exists t c, unified_diff 1 (L "A B ") (L "A B C") = Ok [t] /\
  ut_lines t = [str " B" ++ [newline]; str "+C"; [newline; x5c; newline]] /\
  get_from_at no_more_digits true (split_lines (written_out t)) 0 = Ok (DOk (Some c)) /\
  unmark (uc_before c) = L "B " /\ unmark (uc_after c) = L "B C".
Proof. do 2 eexists. split; [vm_compute; reflexivity|]. split; [vm_compute; reflexivity|]. split; [vm_compute; reflexivity|]. split; vm_compute; reflexivity. Qed.

(* ------------------------------------------------------------------ C70 *)
(* C70, full statement: the positions in the printed header are written as unified diffs
   write them: [unified_position].  It is false: lines are counted from 0. *)
Lemma p_C70_positions_refuted : exists before after t, unified_diff 0 before after = Ok [t] /\ ut_header t = str "@@ -0 +0 @@" /\
  unified_position 0 1 = 1.
Proof. exists (L "A "), (L "B "). eexists. split; [vm_compute; reflexivity|]. split; vm_compute; reflexivity. Qed.
(* What does hold: the positions are the numbers of lines in front of the clump in the old
   and the new text, so that a position is the right one exactly if the clump has no lines
   on that side, and one too small otherwise.  Missing: the positions of the other sides. *)
Lemma p_C70_positions_partial : forall before after context, context <= 255 ->
  (Z.of_nat (length before) < two64)%Z -> (Z.of_nat (length after) < two64)%Z ->
  exists hs ts, unified_diff context before after = Ok ts /\
    Forall2 (fun h t =>
      (exists rest, before = firstn (h_b h) before ++ h_old h ++ rest) /\ (exists rest, after = firstn (h_a h) after ++ h_new h ++ rest) /\
      header_written (ut_header t) (Z.of_nat (h_b h)) (Z.of_nat (length (h_old h))) (Z.of_nat (h_a h)) (Z.of_nat (length (h_new h))) /\
      (unified_position (h_b h) (length (h_old h)) = h_b h <-> h_old h = []) /\
      (unified_position (h_a h) (length (h_new h)) = h_a h <-> h_new h = [])) hs ts.
Proof.
  intros b a context Hc Lb La. destruct (unified_diff_spec b a context Hc) as (cs & hs & ts & _ & E1 & Hcov & Hf & E2 & F).
  exists hs, ts. split; [assumption|]. pose proof (cover_header _ _ _ _ _ _ _ Hcov Lb La) as M.
  assert (SUB : forall (s : list line) i j, i <= j -> exists rest, s = firstn i s ++ sub s i j ++ rest).
  { intros s i j H. exists (skipn (j - i) (skipn i s)). unfold sub. now rewrite firstn_skipn, firstn_skipn. }
  assert (X : Forall (fun h => (exists rest, b = firstn (h_b h) b ++ h_old h ++ rest) /\ (exists rest, a = firstn (h_a h) a ++ h_new h ++ rest)) hs).
  { clear - Hcov SUB. induction Hcov; constructor; auto. cbn. split; apply SUB; lia. }
  rewrite Forall_forall in M, X.
  assert (U : forall n (l : list line), unified_position n (length l) = n <-> l = []).
  { intros n l. unfold unified_position. destruct l; cbn; [tauto|]. split; [lia|discriminate]. }
  apply (Forall2_in_r _ _ _ _ F). intros h t Hh _ (body & P1 & _). destruct (X h Hh) as [X1 X2].
  split; [assumption|]. split; [assumption|]. split; [rewrite P1; apply (header_text_written (header_of h)); auto|]. split; apply U.
Qed.
Lemma e_C70_example : exists t, unified_diff 1 (L "A B ") (L "A B C ") = Ok [t] /\ ut_header t = str "@@ -1 +1,2 @@".
Proof. eexists. split; vm_compute; reflexivity. Qed.

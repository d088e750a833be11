(* Proof_Props_Gen.v - the property lemmas on lines, indices, changes and clumps. *)
From Coq Require Import String.
From Verif Require Import Base Model_Seq Model_Changes Model_IO Model_Text Model_Bytes Spec Cases Proof_Seq Proof_Utf8 Proof_Lcs Proof_Changes Proof_Clumps Proof_IO Proof_Diff Proof_Contained Proof_Blocks.

(* checking the side condition of the conditional theorems on concrete inputs *)
Definition isolated_at {T} (eqb : T -> T -> bool) (b a : list T) (x y : nat) : bool :=
  match nth_error b x, nth_error a y, nth_error b (S x), nth_error a (S y), nth_error b (S (S x)), nth_error a (S (S y)) with
  | Some v0, Some w0, Some v1, Some w1, Some v2, Some w2 => eqb v0 w0 && negb (eqb v1 w1) && eqb v2 w2
  | _, _, _, _, _, _ => false
  end.
Lemma no_isolated_check {T} (eqb : T -> T -> bool) (b a : list T) : lawful eqb ->
  forallb (fun x => forallb (fun y => negb (isolated_at eqb b a x y)) (seq 0 (length a))) (seq 0 (length b)) = true ->
  no_isolated_mismatch b a.
Proof.
  intros He H x y ((v & E1 & E2) & (v1 & w1 & E3 & E4 & Hd) & (v2 & E5 & E6)).
  assert (Hx : In x (seq 0 (length b))) by (apply in_seq; split; [lia|]; apply nth_error_Some; congruence).
  assert (Hy : In y (seq 0 (length a))) by (apply in_seq; split; [lia|]; apply nth_error_Some; congruence).
  rewrite forallb_forall in H. specialize (H x Hx). rewrite forallb_forall in H. specialize (H y Hy).
  unfold isolated_at in H. rewrite E1, E2, E3, E4, E5, E6 in H.
  rewrite (proj2 (He v v) eq_refl), (proj2 (He v2 v2) eq_refl) in H.
  destruct (eqb v1 w1) eqn:E; [now apply He in E|discriminate].
Qed.

(* ------------------------------------------------------------------ C01 *)
(* C01: splitting into lines is the one decomposition into lines; nothing is lost. *)
Lemma p_C01_split_lines : forall s ls, split_lines s = ls <-> lines_of s ls.
Proof. intros s ls. split; [intros <-; apply split_lines_lines_of|intros H; symmetry; now apply lines_of_unique]. Qed.
Lemma e_C01_example : lines_of (bs "ab  c") [bs "ab "; bs " "; bs "c"] /\ ~ lines_of (bs "ab  c") [bs "ab  "; bs "c"].
Proof. rewrite <- !p_C01_split_lines. vm_compute. split; [reflexivity|discriminate]. Qed.

(* ------------------------------------------------------------------ C02 *)
(* C02: reading a file as lines succeeds exactly on well-formed UTF-8 and gives its lines. *)
Lemma p_C02_read_lines : forall s,
  (is_utf8 s -> exists ls, read_lines s = Ok (Some ls) /\ lines_of s ls) /\
  (~ is_utf8 s -> read_lines s = Ok None).
Proof.
  intros s. rewrite read_lines_spec, <- utf8_valid_spec. split; intros H.
  - rewrite H. eexists; split; [reflexivity|apply split_lines_lines_of].
  - destruct (utf8_valid s); [congruence|reflexivity].
Qed.
(* U+20AC U+000A U+00E9 U+1F600 is read as two lines; the surrogate U+D800, an overlong NUL,
   a code above U+10FFFF and a lone continuation byte after a newline are rejected *)
Lemma e_C02_example :
  is_utf8 [xe2; x82; xac; x0a; xc3; xa9; xf0; x9f; x98; x80] /\
  read_lines [xe2; x82; xac; x0a; xc3; xa9; xf0; x9f; x98; x80] = Ok (Some [[xe2; x82; xac; x0a]; [xc3; xa9; xf0; x9f; x98; x80]]) /\
  ~ is_utf8 [xed; xa0; x80] /\ ~ is_utf8 [xc0; x80] /\ ~ is_utf8 [xf4; x90; x80; x80] /\ ~ is_utf8 [x41; x0a; x80].
Proof.
  rewrite <- !utf8_valid_spec. vm_compute. repeat split; discriminate.
Qed.

(* ------------------------------------------------------------------ C03 *)
(* C03: both content indices return exactly the positions of an item, ascending. *)
Lemma p_C03_indices :
  (forall s x, index_spec s x (string_indices_of (string_generate_from s) x)) /\
  (forall s x, index_spec s x (byte_indices_of (byte_generate_from s) x)).
Proof. split; [exact string_indices_spec|exact byte_indices_spec]. Qed.
Lemma e_C03_example :
  string_indices_of (string_generate_from (L "A B A A ")) (bs "A ") = Some [0; 2; 3] /\
  string_indices_of (string_generate_from (L "A B A A ")) (bs "C ") = None /\
  byte_indices_of (byte_generate_from [x01; xff; x01]) x01 = Some [0; 2].
Proof. vm_compute. repeat split. Qed.

(* ------------------------------------------------------------------ C04 *)
(* C04: the block search never panics, finds nothing exactly when the ranges share no item,
   and otherwise returns a non-empty block inside both ranges that starts with a shared item. *)
Lemma p_C04_search_total : forall T (eqb : T -> T -> bool) indices before after br ar,
  lawful eqb -> (forall x, index_spec before x (indices x)) -> in_bounds before br -> in_bounds after ar ->
  exists found, longest_common_subsequence eqb indices before after br ar = Ok found /\
    match found with
    | None => forall x y, inside br x 1 -> inside ar y 1 -> ~ same_at before after x y
    | Some c => 0 < cs_n c /\ inside br (cs_b c) (cs_n c) /\ inside ar (cs_a c) (cs_n c) /\
                same_at before after (cs_b c) (cs_a c)
    end.
Proof.
  intros T eqb indices b a br ar He Hi Hb Ha.
  destruct (lcs_spec eqb He indices b a Hi br ar Hb Ha) as [[E H]|(x & y & n & ext & E & (Hn & (I1 & I2 & Hc) & _) & Hext & _)]; rewrite E.
  - eexists; split; [reflexivity|assumption].
  - eexists; split; [reflexivity|]. cbn. unfold inside in *. specialize (Hc 0). rewrite !Nat.add_0_r in Hc.
    repeat split; try lia. now apply Hc.
Qed.
Lemma e_C04_example :
  let b := L "A B C D E " in let a := L "X C D Y " in
  let find := longest_common_subsequence line_eqb (string_indices_of (string_generate_from b)) b a in
  find (Range 0 5) (Range 0 4) = Ok (Some (CS 2 1 2)) /\ find (Range 0 2) (Range 0 4) = Ok None /\
  find (Range 3 5) (Range 0 4) = Ok (Some (CS 3 2 1)) /\ find (Range 5 5) (Range 4 4) = Ok None.
Proof. vm_compute. repeat split. Qed.

(* ------------------------------------------------------------------ C05 *)
(* C05: no common block inside the two ranges is longer than the returned one. *)
Lemma p_C05_longest : forall T (eqb : T -> T -> bool) indices before after br ar c,
  lawful eqb -> (forall x, index_spec before x (indices x)) -> in_bounds before br -> in_bounds after ar ->
  longest_common_subsequence eqb indices before after br ar = Ok (Some c) ->
  forall x y n, block_in before after br ar x y n -> n <= cs_n c.
Proof.
  intros T eqb indices b a br ar c He Hi Hb Ha Hc x' y' n' Hbl.
  destruct (lcs_spec eqb He indices b a Hi br ar Hb Ha) as [[E H]|(x & y & n & ext & E & (Hn & _ & Hmax) & Hext & _)]; rewrite E in Hc; [discriminate|].
  injection Hc as <-. cbn. destruct (Hmax _ _ _ Hbl). lia.
Qed.
Lemma e_C05_example :
  let b := L "A B X C D E Y " in let a := L "C D E Z A B " in
  longest_common_subsequence line_eqb (string_indices_of (string_generate_from b)) b a (Range 0 7) (Range 0 6) = Ok (Some (CS 3 0 3)) /\
  block_in b a (Range 0 7) (Range 0 6) 0 4 2.
Proof.
  vm_compute. split; [reflexivity|]. repeat split; try (repeat constructor).
  intros [|[|t]] Ht; [eexists; split; reflexivity|eexists; split; reflexivity|lia].
Qed.

(* ------------------------------------------------------------------ C06 *)
(* C06, full statement: forall ..., longest_common_subsequence ... = Ok (Some c) ->
     common_block before after (cs_b c) (cs_a c) (cs_n c).
   It is false: the forward extension (changes.rs:193-206) starts comparing one item past
   the end of the block, so a mismatching item is swallowed. *)
Lemma p_C06_block_is_common_refuted : exists before after c,
  longest_common_subsequence line_eqb (string_indices_of (string_generate_from before)) before after
    (range_from before 0) (range_from after 0) = Ok (Some c) /\
  ~ common_block before after (cs_b c) (cs_a c) (cs_n c).
Proof.
  exists (L "A B C X D "), (L "A B C Y D "), (CS 0 0 4). split; [vm_compute; reflexivity|].
  intros H. destruct (H 3) as (v & E1 & E2); [cbn; lia|]. vm_compute in E1, E2. congruence.
Qed.
(* What does hold: at most one pair of the block differs, it is not the first and is directly
   between two equal pairs; and without such isolated mismatches the block is common.
   Missing for the full statement: inputs with an isolated mismatch. *)
Lemma p_C06_block_is_common_partial : forall T (eqb : T -> T -> bool) indices before after br ar c,
  lawful eqb -> (forall x, index_spec before x (indices x)) -> in_bounds before br -> in_bounds after ar ->
  longest_common_subsequence eqb indices before after br ar = Ok (Some c) ->
  nearly_common before after (cs_b c) (cs_a c) (cs_n c) /\
  (forall t u, t < cs_n c -> u < cs_n c -> differ_at before after (cs_b c + t) (cs_a c + t) ->
     differ_at before after (cs_b c + u) (cs_a c + u) -> t = u) /\
  (no_isolated_mismatch before after -> common_block before after (cs_b c) (cs_a c) (cs_n c)).
Proof.
  intros T eqb indices b a br ar c He Hi Hb Ha Hc.
  destruct (lcs_spec eqb He indices b a Hi br ar Hb Ha) as [[E H]|(x & y & n & ext & E & (Hn & (_ & _ & Hbl) & Hmax) & Hext & _)]; rewrite E in Hc; [discriminate|].
  injection Hc as <-. cbn [cs_b cs_a cs_n].
  assert (Hcol : collected b a (CS x y (n + ext))).
  { exists n, ext. cbn [cs_b cs_a cs_n]. repeat split; auto. destruct Hext as [?|(? & _ & _ & ?)]; auto. }
  split; [exact (collected_nearly b a _ Hcol)|]. split; [|intros Hno; exact (collected_common b a _ Hno Hcol)].
  assert (Hone : forall t, t < n + ext -> differ_at b a (x + t) (y + t) -> t = n).
  { intros t Ht (v & w & E1 & E2 & Hvw). destruct (Nat.lt_ge_cases t n) as [H|H].
    - destruct (Hbl t H) as (v' & F1 & F2). congruence.
    - destruct (Nat.eq_dec t n) as [?|Hne]; [assumption|]. destruct Hext as [->|(_ & _ & _ & Hb2)]; [lia|].
      destruct (Hb2 (t - n - 1)) as (v' & F1 & F2); [lia|].
      replace (x + n + 1 + (t - n - 1)) with (x + t) in F1 by lia. replace (y + n + 1 + (t - n - 1)) with (y + t) in F2 by lia. congruence. }
  intros t u Ht Hu H1 H2. now rewrite (Hone t Ht H1), (Hone u Hu H2).
Qed.
Lemma e_C06_example :
  let b := L "A B C D " in let a := L "X B C Y Z " in
  no_isolated_mismatch b a /\
  longest_common_subsequence line_eqb (string_indices_of (string_generate_from b)) b a (Range 0 4) (Range 0 5) = Ok (Some (CS 1 1 2)).
Proof.
  split; [apply (no_isolated_check line_eqb); [exact line_eqb_lawful|]|]; vm_compute; reflexivity.
Qed.

(* ------------------------------------------------------------------ C07 *)
(* C07: unless the returned block contains a mismatch (C06), it is the first of the longest
   common blocks: it ends (equivalently, starts) first in after and then first in before. *)
Lemma p_C07_tie_break : forall T (eqb : T -> T -> bool) indices before after br ar c,
  lawful eqb -> (forall x, index_spec before x (indices x)) -> in_bounds before br -> in_bounds after ar ->
  longest_common_subsequence eqb indices before after br ar = Ok (Some c) ->
  common_block before after (cs_b c) (cs_a c) (cs_n c) ->
  forall x y n, block_in before after br ar x y n ->
    n < cs_n c \/ (n = cs_n c /\ (cs_a c + cs_n c < y + n \/ (cs_a c + cs_n c = y + n /\ cs_b c + cs_n c <= x + n))).
Proof.
  intros T eqb indices b a br ar c He Hi Hb Ha Hc Hcom x' y' n' Hbl'.
  destruct (lcs_spec eqb He indices b a Hi br ar Hb Ha) as [[E H]|(x & y & n & ext & E & (Hn & (_ & _ & Hbl) & Hmax) & Hext & _)]; rewrite E in Hc; [discriminate|].
  injection Hc as <-. cbn [cs_b cs_a cs_n] in *.
  assert (ext = 0) as ->.
  { destruct Hext as [->|((v & w & E1 & E2 & Hvw) & _ & _ & _)]; [reflexivity|]. destruct (Nat.eq_dec ext 0) as [?|Hne]; [assumption|].
    destruct (Hcom n) as (v' & F1 & F2); [lia|]. congruence. }
  rewrite Nat.add_0_r in *. destruct (Hmax _ _ _ Hbl') as [H1 H2]. destruct (Nat.eq_dec n' n) as [->|]; [|lia].
  destruct (H2 eq_refl); lia.
Qed.
Lemma e_C07_example :
  let b := L "A B C A B D " in let a := L "X A B A B " in
  longest_common_subsequence line_eqb (string_indices_of (string_generate_from b)) b a (Range 0 6) (Range 0 5) = Ok (Some (CS 0 1 2)) /\
  common_block b a 0 1 2 /\ common_block b a 3 1 2 /\ common_block b a 0 3 2.
Proof.
  split; [vm_compute; reflexivity|].
  repeat split; intros [|[|t]] Ht; try lia; eexists; split; vm_compute; reflexivity.
Qed.

(* ------------------------------------------------------------------ C08 *)
(* C08: computing changes never panics and always terminates (for any item type, and for the
   line and byte instances used by the tools). *)
Lemma p_C08_changes_total :
  (forall T (eqb : T -> T -> bool) indices before after, lawful eqb -> (forall x, index_spec before x (indices x)) ->
     exists cs, generate eqb indices before after = Ok cs) /\
  (forall before after, exists cs, text_changes before after = Ok cs) /\
  (forall before after, exists cs, byte_changes before after = Ok cs).
Proof.
  split; [|split].
  - intros T eqb indices b a He Hi. destruct (generate_spec eqb He indices b a Hi) as (cs & E & _). eauto.
  - intros b a. destruct (text_changes_spec b a) as (cs & E & _). eauto.
  - intros b a. destruct (byte_changes_spec b a) as (cs & E & _). eauto.
Qed.
Lemma e_C08_example :
  text_changes (L "A B C D ") (L "B X D E ") = Ok [Delete (Range 0 1) 0; NoChange (CS 1 0 3); Insert 4 (Range 3 4)] /\
  byte_changes [x01; x02; x03] [x02; x03; x04] = Ok [Delete (Range 0 1) 0; NoChange (CS 1 0 2); Insert 3 (Range 2 3)].
Proof. vm_compute. split; reflexivity. Qed.

(* ------------------------------------------------------------------ C09 *)
(* C09: the change list partitions both sequences in order, alternates, and has no empty change. *)
Lemma p_C09_partition :
  (forall before after cs, text_changes before after = Ok cs ->
     tiles 0 0 cs (length before) (length after) /\ alternating cs /\ Forall non_empty cs) /\
  (forall before after cs, byte_changes before after = Ok cs ->
     tiles 0 0 cs (length before) (length after) /\ alternating cs /\ Forall non_empty cs).
Proof.
  split; intros b a cs E.
  - destruct (text_changes_spec b a) as (cs' & E' & H1 & H2 & H3 & _). rewrite E in E'. injection E' as ->. auto.
  - destruct (byte_changes_spec b a) as (cs' & E' & H1 & H2 & H3 & _). rewrite E in E'. injection E' as ->. auto.
Qed.
Lemma e_C09_example :
  text_changes (L "A B C D E ") (L "A X Y C F G ") =
    Ok [NoChange (CS 0 0 1); Replace (Range 1 2) (Range 1 3); NoChange (CS 2 3 1); Replace (Range 3 5) (Range 4 6)].
Proof. vm_compute. reflexivity. Qed.

(* ------------------------------------------------------------------ C10 *)
(* C10, full statement: forall b a cs, text_changes b a = Ok cs -> faithful b a cs.
   It is false: a whole differing line can be reported as unchanged. *)
Lemma p_C10_unchanged_is_unchanged_refuted : exists before after cs,
  text_changes before after = Ok cs /\ ~ faithful before after cs.
Proof.
  exists (L "A B C X D "), (L "A B C Y D "), [NoChange (CS 0 0 5)]. split; [vm_compute; reflexivity|].
  intros H. destruct (H _ (or_introl eq_refl) 3) as (v & E1 & E2); [cbn; lia|]. vm_compute in E1, E2. congruence.
Qed.
(* the same for bytes *)
Lemma p_C10_unchanged_is_unchanged_bytes_refuted : exists before after cs,
  byte_changes before after = Ok cs /\ ~ faithful before after cs.
Proof.
  exists [x01; x02; x03], [x01; x04; x03], [NoChange (CS 0 0 3)]. split; [vm_compute; reflexivity|].
  intros H. destruct (H _ (or_introl eq_refl) 1) as (v & E1 & E2); [cbn; lia|]. vm_compute in E1, E2. congruence.
Qed.
(* What does hold: every differing pair inside a block reported unchanged is a single one
   directly between two equal pairs; hence without isolated mismatches every block reported
   unchanged is unchanged.  Missing: inputs with an isolated mismatch. *)
Lemma p_C10_unchanged_is_unchanged_partial :
  (forall before after cs, text_changes before after = Ok cs ->
     (forall m, In (NoChange m) cs -> nearly_common before after (cs_b m) (cs_a m) (cs_n m)) /\
     (no_isolated_mismatch before after -> faithful before after cs)) /\
  (forall before after cs, byte_changes before after = Ok cs ->
     (forall m, In (NoChange m) cs -> nearly_common before after (cs_b m) (cs_a m) (cs_n m)) /\
     (no_isolated_mismatch before after -> faithful before after cs)).
Proof.
  split; intros b a cs E; split.
  - intros m Hm. exact (generate_nearly line_eqb line_eqb_lawful _ b a (string_indices_spec b) cs m E Hm).
  - destruct (text_changes_spec b a) as (cs' & E' & _ & _ & _ & H). rewrite E in E'. injection E' as ->. exact H.
  - intros m Hm. exact (generate_nearly Byte.eqb byte_eqb_lawful _ b a (byte_indices_spec b) cs m E Hm).
  - destruct (byte_changes_spec b a) as (cs' & E' & _ & _ & _ & H). rewrite E in E'. injection E' as ->. exact H.
Qed.
Lemma e_C10_example :
  let b := L "A B C D " in let a := L "X B C Y Z " in
  no_isolated_mismatch b a /\
  text_changes b a = Ok [Replace (Range 0 1) (Range 0 1); NoChange (CS 1 1 2); Replace (Range 3 4) (Range 3 5)].
Proof. split; [exact (proj1 e_C06_example)|vm_compute; reflexivity]. Qed.

(* ------------------------------------------------------------------ C11 *)
(* C11, first half: a diff of equal sequences has no clumps. *)
Lemma p_C11_equal_empty :
  (forall s context, text_diff_clumps s s context = Ok []) /\ (forall s context, byte_diff_clumps s s context = Ok []).
Proof. split; [exact text_diff_same|exact byte_diff_same]. Qed.
(* C11, second half, full statement: forall b a context, text_diff_clumps b a context = Ok [] -> b = a.
   It is false: two different texts can have an empty diff. *)
Lemma p_C11_empty_equal_refuted : exists before after context,
  text_diff_clumps before after context = Ok [] /\ before <> after.
Proof. exists (L "A B C X D "), (L "A B C Y D "), 3. split; [vm_compute; reflexivity|vm_compute; discriminate]. Qed.
Lemma p_C11_empty_equal_bytes_refuted : exists before after context,
  byte_diff_clumps before after context = Ok [] /\ before <> after.
Proof. exists [x01; x02; x03], [x01; x04; x03], 3. split; [vm_compute; reflexivity|discriminate]. Qed.
(* What does hold: texts with an empty diff have the same length and differ at most in
   isolated lines, and are equal if there are no isolated mismatches.  Missing: the rest. *)
Lemma diff_nil_aux {T} (b a : list T) (cs : list change) context clumps hs (C : Type) (of_hunk : hunk T -> C) :
  (forall m, In (NoChange m) cs -> nearly_common b a (cs_b m) (cs_a m) (cs_n m)) ->
  spread cs 0 0 clumps (length b) (length a) -> cover context (unchanged cs) b a 0 0 hs -> map of_hunk hs = [] ->
  length b = length a /\ (forall t, t < length b -> same_at b a t t \/
    (differ_at b a t t /\ 0 < t /\ same_at b a (t - 1) (t - 1) /\ same_at b a (S t) (S t))).
Proof.
  intros Hn Hs Hc Hm. destruct hs; [|discriminate]. inversion Hc as [i j d Hg E1 E2|]; subst.
  cbn in E1, E2. split; [congruence|]. intros t Ht.
  destruct Hg as [->|(m & p & Hin & E3 & E4 & Hle)]; [lia|].
  destruct (Hn m Hin (p + t)) as [H|(H1 & H2 & H3 & H4)]; [lia| |].
  - left. replace (cs_b m + (p + t)) with t in H by lia. replace (cs_a m + (p + t)) with t in H by lia. exact H.
  - destruct (Nat.eq_dec t 0) as [->|Hne].
    + assert (p = 0) by lia. lia.
    + right. replace (cs_b m + (p + t)) with t in H1 by lia. replace (cs_a m + (p + t)) with t in H1 by lia.
      replace (cs_b m + (p + t - 1)) with (t - 1) in H3 by lia. replace (cs_a m + (p + t - 1)) with (t - 1) in H3 by lia.
      replace (cs_b m + S (p + t)) with (S t) in H4 by lia. replace (cs_a m + S (p + t)) with (S t) in H4 by lia.
      repeat split; auto; lia.
Qed.
Lemma same_all_equal {T} (b a : list T) : length b = length a -> (forall t, t < length b -> same_at b a t t) -> b = a.
Proof.
  intros Hl H. apply nth_error_ext. intros i. destruct (Nat.lt_ge_cases i (length b)) as [Hi|Hi].
  - destruct (H i Hi) as (v & E1 & E2). congruence.
  - rewrite (proj2 (nth_error_None b i)) by lia. symmetry. apply nth_error_None. lia.
Qed.
Lemma isolated_equal {T} (b a : list T) : no_isolated_mismatch b a -> length b = length a ->
  (forall t, t < length b -> same_at b a t t \/
    (differ_at b a t t /\ 0 < t /\ same_at b a (t - 1) (t - 1) /\ same_at b a (S t) (S t))) -> b = a.
Proof.
  intros Hno Hl H. apply same_all_equal; [assumption|]. intros t Ht. destruct (H t Ht) as [?|(H1 & H2 & H3 & H4)]; [assumption|].
  exfalso. apply (Hno (t - 1) (t - 1)). replace (S (t - 1)) with t by lia. auto.
Qed.
Lemma p_C11_empty_equal_partial :
  (forall before after context, context <= 255 -> text_diff_clumps before after context = Ok [] ->
     length before = length after /\
     (forall t, t < length before -> same_at before after t t \/
        (differ_at before after t t /\ 0 < t /\ same_at before after (t - 1) (t - 1) /\ same_at before after (S t) (S t))) /\
     (no_isolated_mismatch before after -> before = after)) /\
  (forall before after context, context <= 255 -> byte_diff_clumps before after context = Ok [] ->
     length before = length after /\
     (forall t, t < length before -> same_at before after t t \/
        (differ_at before after t t /\ 0 < t /\ same_at before after (t - 1) (t - 1) /\ same_at before after (S t) (S t))) /\
     (no_isolated_mismatch before after -> before = after)).
Proof.
  split; intros b a context Hctx E.
  - destruct (text_diff_spec b a context Hctx) as (cs & clumps & hs & E1 & E2 & E3 & E4 & E5 & E6). rewrite E in E5. injection E5 as E5.
    destruct (diff_nil_aux b a cs context clumps hs _ text_of_hunk) as [H1 H2]; auto.
    { intros m Hm. exact (proj1 (proj1 p_C10_unchanged_is_unchanged_partial b a cs E1) m Hm). }
    repeat split; auto. intros Hno. now apply isolated_equal.
  - destruct (byte_diff_spec b a context Hctx) as (cs & clumps & hs & E1 & E2 & E3 & E4 & E5 & E6). rewrite E in E5. injection E5 as E5.
    destruct (diff_nil_aux b a cs context clumps hs _ byte_of_hunk) as [H1 H2]; auto.
    { intros m Hm. exact (proj1 (proj2 p_C10_unchanged_is_unchanged_partial b a cs E1) m Hm). }
    repeat split; auto. intros Hno. now apply isolated_equal.
Qed.
Lemma e_C11_example :
  text_diff_clumps (L "A B C ") (L "A B C ") 3 = Ok [] /\
  no_isolated_mismatch (L "A B C D ") (L "X B C Y Z ") /\
  text_diff_clumps (L "A B C D ") (L "X B C Y Z ") 1 <> Ok [].
Proof. split; [|split]; [vm_compute; reflexivity|exact (proj1 e_C06_example)|vm_compute; discriminate]. Qed.

(* ------------------------------------------------------------------ C12 *)
(* C12: with any sorting of the collected blocks (whatever the thread schedule) the change
   list is the same. *)
Lemma p_C12_any_sort : forall T (eqb : T -> T -> bool) indices before after raw sorted,
  lcs_loop eqb indices before after (lcs_fuel before) [(range_from before 0, range_from after 0)] [] = Ok raw ->
  Permutation raw sorted -> StronglySorted block_le sorted ->
  generate eqb indices before after = Ok (generate_loop before after (merge_adjacent sorted) 0 0).
Proof. intros T eqb indices b a raw sorted. exact (generate_any_sort eqb indices b a raw sorted). Qed.
(* the blocks are collected out of order *)
Lemma e_C12_example :
  let b := L "A B X C D E Y F " in let a := L "A B P C D E Q R F " in
  lcs_loop line_eqb (string_indices_of (string_generate_from b)) b a (lcs_fuel b) [(range_from b 0, range_from a 0)] [] =
    Ok [CS 3 3 3; CS 7 8 1; CS 0 0 2] /\
  Permutation [CS 3 3 3; CS 7 8 1; CS 0 0 2] [CS 0 0 2; CS 3 3 3; CS 7 8 1] /\
  StronglySorted block_le [CS 0 0 2; CS 3 3 3; CS 7 8 1].
Proof.
  split; [vm_compute; reflexivity|]. split.
  - eapply perm_trans; [apply perm_skip, perm_swap|]. apply perm_swap.
  - repeat constructor; cbn; unfold block_le; cbn; lia.
Qed.

(* ------------------------------------------------------------------ C13 *)
(* C13: if one text occurs contiguously in the other, the only unchanged block is a genuine
   occurrence of the whole shorter text (the first one), and all the rest is inserted/deleted. *)
Lemma contained_text s : s <> [] -> (forall pre post, exists y,
     text_changes s (pre ++ s ++ post) = Ok (after_extra (length s) y (length (pre ++ s ++ post))) /\
     common_block s (pre ++ s ++ post) 0 y (length s) /\ y <= length pre) /\
  (forall pre post, exists x,
     text_changes (pre ++ s ++ post) s = Ok (before_extra (length s) x (length (pre ++ s ++ post))) /\
     common_block (pre ++ s ++ post) s x 0 (length s) /\ x <= length pre).
Proof.
  intros Hs. split; intros pre post.
  - destruct (generate_inside line_eqb line_eqb_lawful (fun s => string_indices_of (string_generate_from s)) string_indices_spec
                s (pre ++ s ++ post) (length pre) Hs (common_block_app pre s post)) as (y & E & H1 & H2 & H3).
    { rewrite !app_length. lia. }
    exists y. split; [exact E|]. split; [assumption|]. apply H3; [rewrite !app_length; lia|apply common_block_app].
  - destruct (generate_around line_eqb line_eqb_lawful (fun s => string_indices_of (string_generate_from s)) string_indices_spec
                (pre ++ s ++ post) s (length pre) Hs (common_block_app' pre s post)) as (y & E & H1 & H2 & H3).
    { rewrite !app_length. lia. }
    exists y. split; [exact E|]. split; [assumption|]. apply H3; [rewrite !app_length; lia|apply common_block_app'].
Qed.
Lemma contained_bytes s : s <> [] -> (forall pre post, exists y,
     byte_changes s (pre ++ s ++ post) = Ok (after_extra (length s) y (length (pre ++ s ++ post))) /\
     common_block s (pre ++ s ++ post) 0 y (length s) /\ y <= length pre) /\
  (forall pre post, exists x,
     byte_changes (pre ++ s ++ post) s = Ok (before_extra (length s) x (length (pre ++ s ++ post))) /\
     common_block (pre ++ s ++ post) s x 0 (length s) /\ x <= length pre).
Proof.
  intros Hs. split; intros pre post.
  - destruct (generate_inside Byte.eqb byte_eqb_lawful (fun s => byte_indices_of (byte_generate_from s)) byte_indices_spec
                s (pre ++ s ++ post) (length pre) Hs (common_block_app pre s post)) as (y & E & H1 & H2 & H3).
    { rewrite !app_length. lia. }
    exists y. split; [exact E|]. split; [assumption|]. apply H3; [rewrite !app_length; lia|apply common_block_app].
  - destruct (generate_around Byte.eqb byte_eqb_lawful (fun s => byte_indices_of (byte_generate_from s)) byte_indices_spec
                (pre ++ s ++ post) s (length pre) Hs (common_block_app' pre s post)) as (y & E & H1 & H2 & H3).
    { rewrite !app_length. lia. }
    exists y. split; [exact E|]. split; [assumption|]. apply H3; [rewrite !app_length; lia|apply common_block_app'].
Qed.
Lemma p_C13_contained_text : forall s pre post, s <> [] ->
  (exists y, text_changes s (pre ++ s ++ post) = Ok (after_extra (length s) y (length (pre ++ s ++ post))) /\
     common_block s (pre ++ s ++ post) 0 y (length s) /\ y <= length pre) /\
  (exists x, text_changes (pre ++ s ++ post) s = Ok (before_extra (length s) x (length (pre ++ s ++ post))) /\
     common_block (pre ++ s ++ post) s x 0 (length s) /\ x <= length pre).
Proof. intros s pre post Hs. destruct (contained_text s Hs) as [H1 H2]. auto. Qed.
Lemma p_C13_contained_bytes : forall s pre post, s <> [] ->
  (exists y, byte_changes s (pre ++ s ++ post) = Ok (after_extra (length s) y (length (pre ++ s ++ post))) /\
     common_block s (pre ++ s ++ post) 0 y (length s) /\ y <= length pre) /\
  (exists x, byte_changes (pre ++ s ++ post) s = Ok (before_extra (length s) x (length (pre ++ s ++ post))) /\
     common_block (pre ++ s ++ post) s x 0 (length s) /\ x <= length pre).
Proof. intros s pre post Hs. destruct (contained_bytes s Hs) as [H1 H2]. auto. Qed.
(* the inserted lines may repeat the original ones *)
Lemma e_C13_example :
  text_changes (L "A B ") (L "X A B A B ") = Ok [Insert 0 (Range 0 1); NoChange (CS 0 1 2); Insert 2 (Range 3 5)] /\
  text_changes (L "X A B A B ") (L "A B ") = Ok [Delete (Range 0 1) 0; NoChange (CS 1 0 2); Delete (Range 3 5) 2].
Proof. vm_compute. split; reflexivity. Qed.

(* ------------------------------------------------------------------ C14 *)
(* C14: iterating clumps terminates; the clumps carry the real changes once each, in order. *)
Lemma p_C14_clumps_carry_changes : forall context cs, alternating cs ->
  exists clumps, change_clumps context cs = Ok clumps /\
    filter real (concat clumps) = filter real cs /\
    (forall c, In c clumps -> exists x, In x c /\ real x = true).
Proof.
  intros context cs Ha. destruct (change_clumps_spec context cs Ha) as (clumps & E & Hc).
  exists clumps. split; [assumption|]. unfold clumps_of in Hc. destruct cs as [|[m| | |] cs'].
  all: split; [now rewrite (clumping_reals _ _ _ _ Hc)|intros c Hin; eapply clumping_has_real; eauto].
Qed.
Lemma e_C14_example :
  let cs := [NoChange (CS 0 0 9); Delete (Range 9 10) 9; NoChange (CS 10 9 3); Insert 13 (Range 12 14); NoChange (CS 13 14 7); Replace (Range 20 21) (Range 21 22)] in
  alternating cs /\
  change_clumps 2 cs = Ok [[NoChange (CS 7 7 2); Delete (Range 9 10) 9; NoChange (CS 10 9 3); Insert 13 (Range 12 14); NoChange (CS 13 14 2)];
                           [NoChange (CS 18 19 2); Replace (Range 20 21) (Range 21 22)]].
Proof.
  split; [|vm_compute; reflexivity].
  assert (H : alt_from None [NoChange (CS 0 0 9); Delete (Range 9 10) 9; NoChange (CS 10 9 3); Insert 13 (Range 12 14); NoChange (CS 13 14 7); Replace (Range 20 21) (Range 21 22)]).
  { cbn. repeat split; discriminate. }
  exact (alt_from_alternating _ _ H).
Qed.

(* ------------------------------------------------------------------ C15 *)
(* C15: clumps are ordered, disjoint, gap-free, and everything outside them is unchanged and
   equally long on both sides. *)
Lemma p_C15_clumps_spread : forall context cs n m, alternating cs -> tiles 0 0 cs n m ->
  exists clumps, change_clumps context cs = Ok clumps /\ spread cs 0 0 clumps n m.
Proof.
  intros context cs n m Ha Ht. destruct (change_clumps_spec context cs Ha) as (clumps & E & Hc).
  exists clumps. split; [assumption|]. eapply clumps_of_spread; eauto.
Qed.
Lemma e_C15_example :
  let cs := [NoChange (CS 0 0 9); Delete (Range 9 10) 9; NoChange (CS 10 9 3); Insert 13 (Range 12 14); NoChange (CS 13 14 7); Replace (Range 20 21) (Range 21 22)] in
  tiles 0 0 cs 21 22.
Proof. repeat constructor. Qed.

(* ------------------------------------------------------------------ C16 *)
(* C16: clumps are the maximal runs of changes separated by fewer than 2*context unchanged
   items, with min(context, available) items of context on each side; the recorded context
   lengths are those lengths (context is a u8). *)
Lemma clumping_shape context p cs clumps c : clumping context p cs clumps -> In c clumps ->
  exists p' body q, c = lead context p' ++ body ++ trail context q /\ close_run context body /\
    (match p' with Some m => p = Some m \/ In (NoChange m) cs | None => p = None end) /\
    (match q with Some m => In (NoChange m) cs | None => True end).
Proof.
  induction 1 as [p|p body q Hr|p body m rest clumps Hr Hne Hle Hc IH]; intros Hin; [contradiction| |].
  - destruct Hin as [<-|[]]. exists p, body, q. repeat split; auto; try apply Hr.
    + destruct p; auto.
    + destruct q; [|exact I]. apply in_or_app. right. now left.
  - destruct Hin as [<-|Hin].
    + exists p, body, (Some m). repeat split; auto; try apply Hr.
      * destruct p; auto.
      * apply in_or_app. right. now left.
    + destruct (IH Hin) as (p' & body' & q & E & H1 & H2 & H3). exists p', body', q. split; [assumption|]. split; [assumption|]. split.
      * destruct p' as [m'|]; [|discriminate]. right. apply in_or_app. right. destruct H2 as [[= ->]|H2]; [now left|now right].
      * destruct q; [|exact I]. apply in_or_app. right. now right.
Qed.
Lemma p_C16_context_limits : forall context cs, context <= 255 -> alternating cs ->
  exists clumps, change_clumps context cs = Ok clumps /\ clumps_of context cs clumps /\
    forall c, In c clumps -> exists p body q,
      c = lead context p ++ body ++ trail context q /\ close_run context body /\
      clump_context_lengths c = (match p with Some b => Nat.min context (cs_n b) | None => 0 end,
                                 match q with Some b => Nat.min context (cs_n b) | None => 0 end) /\
      (forall b, p = Some b -> In (NoChange b) cs) /\ (forall b, q = Some b -> In (NoChange b) cs).
Proof.
  intros context cs Hctx Ha. destruct (change_clumps_spec context cs Ha) as (clumps & E & Hc).
  exists clumps. split; [assumption|]. split; [assumption|]. intros c Hin.
  unfold clumps_of in Hc.
  assert (exists p cs', clumping context p cs' clumps /\ (forall m, In (NoChange m) cs' -> In (NoChange m) cs) /\
            match p with Some m => In (NoChange m) cs | None => True end) as (p & cs' & Hc' & H1 & H2).
  { destruct cs as [|[m| | |] cs']; eexists _, _; (split; [exact Hc|split; [|try exact I]]); auto.
    - intros m' Hm'. now right.
    - now left. }
  destruct (clumping_shape _ _ _ _ _ Hc' Hin) as (p' & body & q & -> & H3 & H4 & H5).
  exists p', body, q. split; [reflexivity|]. split; [assumption|]. split; [now apply clump_context_lengths_shape|].
  split; intros b ->; [|auto]. destruct H4 as [->|H4]; auto.
Qed.
(* three unchanged items keep two changes together for context 2, not for context 1 *)
Lemma e_C16_example :
  let cs := [Delete (Range 0 1) 0; NoChange (CS 1 0 3); Insert 4 (Range 3 4)] in
  change_clumps 2 cs = Ok [cs] /\
  change_clumps 1 cs = Ok [[Delete (Range 0 1) 0; NoChange (CS 1 0 1)]; [NoChange (CS 3 2 1); Insert 4 (Range 3 4)]].
Proof. vm_compute. split; reflexivity. Qed.

(* ------------------------------------------------------------------ C17 *)
(* C17, full statement: for a clump covering before i..n and after j..m, clump_starts,
   clump_ends, clump_ranges and before_start/before_end agree with i, j, n, m.
   It is false for before_end (changes.rs:387-393): it uses the first change. *)
Lemma p_C17_accessors_refuted : exists before after context cs clump n m,
  text_changes before after = Ok cs /\ change_clumps context cs = Ok [clump] /\
  tiles 0 0 clump n m /\ clump_before_end clump false <> n.
Proof.
  exists (L "A B "), (L "A C "), 3. eexists _, _, _, _. split; [vm_compute; reflexivity|]. split; [vm_compute; reflexivity|].
  split; [repeat constructor|vm_compute; discriminate].
Qed.
(* What does hold: all other accessors; before_end is that of the first change.
   Missing: before_end (and so before_length) of clumps with more than one change. *)
Lemma p_C17_accessors_partial : forall i j c n m, c <> [] -> tiles i j c n m ->
  clump_starts c = (i, j) /\ clump_ends c = (n, m) /\ clump_ranges c = (Range i n, Range j m) /\
  clump_before_start c false = i /\ clump_before_start c true = j /\
  (length c = 1 -> clump_before_end c false = n /\ clump_before_end c true = m).
Proof.
  intros i j c n m Hc Ht. split; [eapply clump_starts_tiles; eauto|]. split; [eapply clump_ends_tiles; eauto|].
  split; [eapply clump_ranges_tiles; eauto|].
  inversion Ht as [|? ? x c' ? ? E1 E2 Ht']; subst; [congruence|].
  split; [destruct x; reflexivity|]. split; [destruct x; reflexivity|].
  intros Hl. destruct c'; [|discriminate]. inversion Ht'; subst. split; destruct x; reflexivity.
Qed.
Lemma e_C17_example :
  let c := [NoChange (CS 7 7 2); Delete (Range 9 10) 9; NoChange (CS 10 9 2)] in
  tiles 7 7 c 12 11 /\ clump_ranges c = (Range 7 12, Range 7 11) /\ clump_before_end c false = 9.
Proof. vm_compute. repeat split; repeat constructor. Qed.

(* ------------------------------------------------------------------ C48 *)
(* C48: trimming and splitting an unchanged block keep exactly the wanted items. *)
Lemma p_C48_trim_split : forall m k,
  starts_trimmed m k = last_items k m /\ ends_trimmed m k = first_items k m /\
  split m k = (if 2 * k <=? cs_n m then Some (first_items k m, last_items k m) else None) /\
  (2 * k <= cs_n m -> cs_b (first_items k m) + cs_n (first_items k m) <= cs_b (last_items k m) /\
                      cs_a (first_items k m) + cs_n (first_items k m) <= cs_a (last_items k m)).
Proof.
  intros m k. split; [apply starts_trimmed_spec|]. split; [apply ends_trimmed_spec|]. split; [apply split_spec|].
  unfold first_items, last_items; cbn; lia.
Qed.
Lemma e_C48_example :
  split (CS 10 20 7) 3 = Some (CS 10 20 3, CS 14 24 3) /\ split (CS 10 20 5) 3 = None /\
  starts_trimmed (CS 10 20 2) 3 = CS 10 20 2.
Proof. vm_compute. repeat split. Qed.

(* Growing a block backwards by [k] moves both starts back by [k] and leaves both ends where
   they are; growing it at the end leaves both starts.  Moving a start below zero panics. *)
Lemma p_C48_grow :
  (forall m k, k <= cs_b m -> k <= cs_a m -> exists m', incr_size_moving_starts m k = Ok m' /\
     cs_b m' + k = cs_b m /\ cs_a m' + k = cs_a m /\
     cs_before_end m' = cs_before_end m /\ cs_after_end m' = cs_after_end m) /\
  (forall m k, cs_b m < k \/ cs_a m < k -> incr_size_moving_starts m k = Panic) /\
  (forall m k, let m' := incr_size_moving_ends m k in
     cs_b m' = cs_b m /\ cs_a m' = cs_a m /\
     cs_before_end m' = cs_before_end m + k /\ cs_after_end m' = cs_after_end m + k).
Proof.
  split; [|split].
  - intros [b a n] k H1 H2. unfold incr_size_moving_starts, usub. cbn [cs_b cs_a cs_n] in *.
    rewrite (proj2 (Nat.leb_le k b) H1), (proj2 (Nat.leb_le k a) H2). cbn [bind].
    eexists; split; [reflexivity|]. unfold cs_before_end, cs_after_end. cbn. lia.
  - intros [b a n] k H. unfold incr_size_moving_starts, usub. cbn [cs_b cs_a cs_n] in *.
    destruct (k <=? b) eqn:E1; cbn [bind]; [|reflexivity].
    destruct (k <=? a) eqn:E2; cbn [bind]; [|reflexivity].
    apply Nat.leb_le in E1, E2. lia.
  - intros [b a n] k. unfold cs_before_end, cs_after_end. cbn. lia.
Qed.
Lemma e_C48_grow_example :
  incr_size_moving_starts (CS 10 20 7) 3 = Ok (CS 7 17 10) /\ incr_size_moving_starts (CS 10 2 7) 3 = Panic /\
  incr_size_moving_ends (CS 10 20 7) 3 = CS 10 20 10.
Proof. vm_compute. repeat split. Qed.

(* ------------------------------------------------------------------ C49 *)
(* C49: building a diff never panics, and its clumps hold the exact items of both sides at
   their positions, in bounds, in order, with the recorded context inside them and at most
   [context] long; what is left out lies in blocks reported unchanged. *)
Lemma p_C49_snippets :
  (forall before after context, context <= 255 -> exists cs hs, text_changes before after = Ok cs /\
     text_diff_clumps before after context = Ok (map text_of_hunk hs) /\
     cover context (unchanged cs) before after 0 0 hs) /\
  (forall before after context, context <= 255 -> exists cs hs, byte_changes before after = Ok cs /\
     byte_diff_clumps before after context = Ok (map byte_of_hunk hs) /\
     cover context (unchanged cs) before after 0 0 hs).
Proof.
  split; intros b a context Hctx.
  - destruct (text_diff_spec b a context Hctx) as (cs & clumps & hs & E1 & _ & _ & _ & E5 & E6). eauto.
  - destruct (byte_diff_spec b a context Hctx) as (cs & clumps & hs & E1 & _ & _ & _ & E5 & E6). eauto.
Qed.
Lemma e_C49_example :
  text_diff_clumps (L "A B C D E F ") (L "A B X Y D E F G ") 1 =
    Ok (map text_of_hunk [Hunk 1 1 1 (L "B C D ") 1 (L "B X Y D "); Hunk 1 0 5 (L "F ") 6 (L "F G ")]).
Proof. vm_compute. reflexivity. Qed.

(* ------------------------------------------------------------------ C71 *)
(* C71: a replacement has nothing in common: no item of the replaced part occurs in the part
   that replaces it. *)
Lemma p_C71_nothing_in_common :
  (forall before after cs rb ra, text_changes before after = Ok cs -> In (Replace rb ra) cs ->
     forall x y, inside rb x 1 -> inside ra y 1 -> ~ same_at before after x y) /\
  (forall before after cs rb ra, byte_changes before after = Ok cs -> In (Replace rb ra) cs ->
     forall x y, inside rb x 1 -> inside ra y 1 -> ~ same_at before after x y).
Proof.
  split; intros b a cs rb ra E Hin x y [H1 H2] [H3 H4].
  - destruct (generate_blocks line_eqb line_eqb_lawful _ b a (string_indices_spec b)) as (cs' & l & E' & _ & _ & _ & R).
    unfold text_changes in E. rewrite E in E'. injection E' as <-. apply (R _ _ Hin); lia.
  - destruct (generate_blocks Byte.eqb byte_eqb_lawful _ b a (byte_indices_spec b)) as (cs' & l & E' & _ & _ & _ & R).
    unfold byte_changes in E. rewrite E in E'. injection E' as <-. apply (R _ _ Hin); lia.
Qed.
Lemma e_C71_example :
  exists cs, text_changes (L "A B C D E ") (L "A X Y C F G ") = Ok cs /\ In (Replace (Range 3 5) (Range 4 6)) cs.
Proof. eexists. split; [vm_compute; reflexivity|]. simpl. tauto. Qed.

(* ------------------------------------------------------------------ C72 *)
(* C72: the change list is exactly the one that reports as unchanged the pairs of the blocks
   chosen by taking the first longest common block and going on left and right of it
   (including the pairs that the forward extension adds, see C06), and no other. *)
Lemma p_C72_changes_exact :
  (forall before after cs, text_changes before after = Ok cs <->
     proper (length before) (length after) cs /\
     exists blocks, blocks_of before after (Range 0 (length before)) (Range 0 (length after)) blocks /\
       forall i j, reported_same cs i j <-> paired blocks i j) /\
  (forall before after cs, byte_changes before after = Ok cs <->
     proper (length before) (length after) cs /\
     exists blocks, blocks_of before after (Range 0 (length before)) (Range 0 (length after)) blocks /\
       forall i j, reported_same cs i j <-> paired blocks i j).
Proof.
  split; intros b a cs.
  - apply (generate_iff line_eqb line_eqb_lawful _ b a (string_indices_spec b)).
  - apply (generate_iff Byte.eqb byte_eqb_lawful _ b a (byte_indices_spec b)).
Qed.
(* the first longest block of the whole is A; right of it the first longest is C *)
Lemma e_C72_example :
  let b := L "A B C D E " in let a := L "A X Y C F G " in
  text_changes b a = Ok [NoChange (CS 0 0 1); Replace (Range 1 2) (Range 1 3); NoChange (CS 2 3 1); Replace (Range 3 5) (Range 4 6)] /\
  blocks_of b a (Range 0 5) (Range 0 6) [CS 0 0 1; CS 2 3 1].
Proof.
  intros b a. split; [vm_compute; reflexivity|].
  assert (Hs : forall x y, same_at b a x y -> (x = 0 /\ y = 0) \/ (x = 2 /\ y = 3)).
  { intros x y (v & V1 & V2).
    do 6 (destruct x as [|x]; [do 7 (destruct y as [|y]; [vm_compute in V1, V2; try (left; split; reflexivity); try (right; split; reflexivity); congruence|]);
          vm_compute in V2; destruct y; discriminate|]).
    vm_compute in V1. destruct x; discriminate. }
  assert (Hm : forall br ar x y n, block_in b a br ar x y n -> n = 0 \/ (n = 1 /\ ((x = 0 /\ y = 0) \/ (x = 2 /\ y = 3)))).
  { intros br ar x y n (_ & _ & H). destruct n as [|[|n]]; [now left|right|right].
    - split; [reflexivity|]. specialize (H 0 ltac:(lia)). rewrite !Nat.add_0_r in H. now apply Hs.
    - exfalso. pose proof (H 0 ltac:(lia)) as H0. specialize (H 1 ltac:(lia)). apply Hs in H, H0. lia. }
  apply (blocks_some b a (Range 0 5) (Range 0 6) 0 0 1 0 [] [CS 2 3 1]).
  - split; [lia|]. split.
    + repeat split; simpl; try lia. intros t Ht. replace t with 0 by lia. eexists. vm_compute. split; reflexivity.
    + intros x y n H. apply Hm in H. lia.
  - split; [lia|]. intros (_ & _ & H). apply Hs in H. lia.
  - constructor. intros x y H _ _. unfold inside in H. cbn [r_start r_end] in H. lia.
  - apply (blocks_some b a (Range 1 5) (Range 1 6) 2 3 1 0 [] []).
    + split; [lia|]. split.
      * repeat split; simpl; try lia. intros t Ht. replace t with 0 by lia. eexists. vm_compute. split; reflexivity.
      * intros x y n H. pose proof H as ((B1 & _) & _). cbn [r_start] in B1. apply Hm in H. lia.
    + split; [lia|]. intros (_ & _ & H). apply Hs in H. lia.
    + constructor. intros x y B1 B2 H. unfold inside in *. cbn [r_start r_end] in *. apply Hs in H. lia.
    + constructor. intros x y B1 B2 H. unfold inside in *. cbn [r_start r_end] in *. apply Hs in H. lia.
Qed.

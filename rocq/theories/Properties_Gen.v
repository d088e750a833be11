(* Properties_Gen.v - the property theorems and a concrete case beside each; proofs are in
   Proof_Props_Gen.v.  Generated by tools/mkthms.py. *)
From Coq Require Import String.
From Verif Require Import Proof_Props_Gen Base Model_Seq Model_Changes Model_IO Model_Text Model_Bytes Spec Cases Proof_Seq Proof_Utf8 Proof_Lcs Proof_Changes Proof_Clumps Proof_IO Proof_Diff Proof_Contained Proof_Blocks.

(* ------------------------------------------------------------------ C01 *)
(* C01: splitting into lines is the one decomposition into lines; nothing is lost. *)
Theorem C01_split_lines : forall s ls, split_lines s = ls <-> lines_of s ls.
Proof. exact p_C01_split_lines. Qed.
Print Assumptions C01_split_lines.

Example C01_example : lines_of (bs "ab  c") [bs "ab "; bs " "; bs "c"] /\ ~ lines_of (bs "ab  c") [bs "ab  "; bs "c"].
Proof. exact e_C01_example. Qed.

(* ------------------------------------------------------------------ C02 *)
(* C02: reading a file as lines succeeds exactly on well-formed UTF-8 and gives its lines. *)
Theorem C02_read_lines : forall s,
  (is_utf8 s -> exists ls, read_lines s = Ok (Some ls) /\ lines_of s ls) /\
  (~ is_utf8 s -> read_lines s = Ok None).
Proof. exact p_C02_read_lines. Qed.
Print Assumptions C02_read_lines.

(* U+20AC U+000A U+00E9 U+1F600 is read as two lines; the surrogate U+D800, an overlong NUL,
   a code above U+10FFFF and a lone continuation byte after a newline are rejected *)
Example C02_example :
  is_utf8 [xe2; x82; xac; x0a; xc3; xa9; xf0; x9f; x98; x80] /\
  read_lines [xe2; x82; xac; x0a; xc3; xa9; xf0; x9f; x98; x80] = Ok (Some [[xe2; x82; xac; x0a]; [xc3; xa9; xf0; x9f; x98; x80]]) /\
  ~ is_utf8 [xed; xa0; x80] /\ ~ is_utf8 [xc0; x80] /\ ~ is_utf8 [xf4; x90; x80; x80] /\ ~ is_utf8 [x41; x0a; x80].
Proof. exact e_C02_example. Qed.

(* ------------------------------------------------------------------ C03 *)
(* C03: both content indices return exactly the positions of an item, ascending. *)
Theorem C03_indices :
  (forall s x, index_spec s x (string_indices_of (string_generate_from s) x)) /\
  (forall s x, index_spec s x (byte_indices_of (byte_generate_from s) x)).
Proof. exact p_C03_indices. Qed.
Print Assumptions C03_indices.

Example C03_example :
  string_indices_of (string_generate_from (L "A B A A ")) (bs "A ") = Some [0; 2; 3] /\
  string_indices_of (string_generate_from (L "A B A A ")) (bs "C ") = None /\
  byte_indices_of (byte_generate_from [x01; xff; x01]) x01 = Some [0; 2].
Proof. exact e_C03_example. Qed.

(* ------------------------------------------------------------------ C04 *)
(* C04: the block search never panics, finds nothing exactly when the ranges share no item,
   and otherwise returns a non-empty block inside both ranges that starts with a shared item. *)
Theorem C04_search_total : forall T (eqb : T -> T -> bool) indices before after br ar,
  lawful eqb -> (forall x, index_spec before x (indices x)) -> in_bounds before br -> in_bounds after ar ->
  exists found, longest_common_subsequence eqb indices before after br ar = Ok found /\
    match found with
    | None => forall x y, inside br x 1 -> inside ar y 1 -> ~ same_at before after x y
    | Some c => 0 < cs_n c /\ inside br (cs_b c) (cs_n c) /\ inside ar (cs_a c) (cs_n c) /\
                same_at before after (cs_b c) (cs_a c)
    end.
Proof. exact p_C04_search_total. Qed.
Print Assumptions C04_search_total.

Example C04_example :
  let b := L "A B C D E " in let a := L "X C D Y " in
  let find := longest_common_subsequence line_eqb (string_indices_of (string_generate_from b)) b a in
  find (Range 0 5) (Range 0 4) = Ok (Some (CS 2 1 2)) /\ find (Range 0 2) (Range 0 4) = Ok None /\
  find (Range 3 5) (Range 0 4) = Ok (Some (CS 3 2 1)) /\ find (Range 5 5) (Range 4 4) = Ok None.
Proof. exact e_C04_example. Qed.

(* ------------------------------------------------------------------ C05 *)
(* C05: no common block inside the two ranges is longer than the returned one. *)
Theorem C05_longest : forall T (eqb : T -> T -> bool) indices before after br ar c,
  lawful eqb -> (forall x, index_spec before x (indices x)) -> in_bounds before br -> in_bounds after ar ->
  longest_common_subsequence eqb indices before after br ar = Ok (Some c) ->
  forall x y n, block_in before after br ar x y n -> n <= cs_n c.
Proof. exact p_C05_longest. Qed.
Print Assumptions C05_longest.

Example C05_example :
  let b := L "A B X C D E Y " in let a := L "C D E Z A B " in
  longest_common_subsequence line_eqb (string_indices_of (string_generate_from b)) b a (Range 0 7) (Range 0 6) = Ok (Some (CS 3 0 3)) /\
  block_in b a (Range 0 7) (Range 0 6) 0 4 2.
Proof. exact e_C05_example. Qed.

(* ------------------------------------------------------------------ C06 *)
(* C06, full statement: forall ..., longest_common_subsequence ... = Ok (Some c) ->
     common_block before after (cs_b c) (cs_a c) (cs_n c).
   It is false: the forward extension (changes.rs:193-206) starts comparing one item past
   the end of the block, so a mismatching item is swallowed. *)
Theorem C06_block_is_common_refuted : exists before after c,
  longest_common_subsequence line_eqb (string_indices_of (string_generate_from before)) before after
    (range_from before 0) (range_from after 0) = Ok (Some c) /\
  ~ common_block before after (cs_b c) (cs_a c) (cs_n c).
Proof. exact p_C06_block_is_common_refuted. Qed.
Print Assumptions C06_block_is_common_refuted.

(* What does hold: at most one pair of the block differs, it is not the first and is directly
   between two equal pairs; and without such isolated mismatches the block is common.
   Missing for the full statement: inputs with an isolated mismatch. *)
Theorem C06_block_is_common_partial : forall T (eqb : T -> T -> bool) indices before after br ar c,
  lawful eqb -> (forall x, index_spec before x (indices x)) -> in_bounds before br -> in_bounds after ar ->
  longest_common_subsequence eqb indices before after br ar = Ok (Some c) ->
  nearly_common before after (cs_b c) (cs_a c) (cs_n c) /\
  (forall t u, t < cs_n c -> u < cs_n c -> differ_at before after (cs_b c + t) (cs_a c + t) ->
     differ_at before after (cs_b c + u) (cs_a c + u) -> t = u) /\
  (no_isolated_mismatch before after -> common_block before after (cs_b c) (cs_a c) (cs_n c)).
Proof. exact p_C06_block_is_common_partial. Qed.
Print Assumptions C06_block_is_common_partial.

Example C06_example :
  let b := L "A B C D " in let a := L "X B C Y Z " in
  no_isolated_mismatch b a /\
  longest_common_subsequence line_eqb (string_indices_of (string_generate_from b)) b a (Range 0 4) (Range 0 5) = Ok (Some (CS 1 1 2)).
Proof. exact e_C06_example. Qed.

(* ------------------------------------------------------------------ C07 *)
(* C07: unless the returned block contains a mismatch (C06), it is the first of the longest
   common blocks: it ends (equivalently, starts) first in after and then first in before. *)
Theorem C07_tie_break : forall T (eqb : T -> T -> bool) indices before after br ar c,
  lawful eqb -> (forall x, index_spec before x (indices x)) -> in_bounds before br -> in_bounds after ar ->
  longest_common_subsequence eqb indices before after br ar = Ok (Some c) ->
  common_block before after (cs_b c) (cs_a c) (cs_n c) ->
  forall x y n, block_in before after br ar x y n ->
    n < cs_n c \/ (n = cs_n c /\ (cs_a c + cs_n c < y + n \/ (cs_a c + cs_n c = y + n /\ cs_b c + cs_n c <= x + n))).
Proof. exact p_C07_tie_break. Qed.
Print Assumptions C07_tie_break.

Example C07_example :
  let b := L "A B C A B D " in let a := L "X A B A B " in
  longest_common_subsequence line_eqb (string_indices_of (string_generate_from b)) b a (Range 0 6) (Range 0 5) = Ok (Some (CS 0 1 2)) /\
  common_block b a 0 1 2 /\ common_block b a 3 1 2 /\ common_block b a 0 3 2.
Proof. exact e_C07_example. Qed.

(* ------------------------------------------------------------------ C08 *)
(* C08: computing changes never panics and always terminates (for any item type, and for the
   line and byte instances used by the tools). *)
Theorem C08_changes_total :
  (forall T (eqb : T -> T -> bool) indices before after, lawful eqb -> (forall x, index_spec before x (indices x)) ->
     exists cs, generate eqb indices before after = Ok cs) /\
  (forall before after, exists cs, text_changes before after = Ok cs) /\
  (forall before after, exists cs, byte_changes before after = Ok cs).
Proof. exact p_C08_changes_total. Qed.
Print Assumptions C08_changes_total.

Example C08_example :
  text_changes (L "A B C D ") (L "B X D E ") = Ok [Delete (Range 0 1) 0; NoChange (CS 1 0 3); Insert 4 (Range 3 4)] /\
  byte_changes [x01; x02; x03] [x02; x03; x04] = Ok [Delete (Range 0 1) 0; NoChange (CS 1 0 2); Insert 3 (Range 2 3)].
Proof. exact e_C08_example. Qed.

(* ------------------------------------------------------------------ C09 *)
(* C09: the change list partitions both sequences in order, alternates, and has no empty change. *)
Theorem C09_partition :
  (forall before after cs, text_changes before after = Ok cs ->
     tiles 0 0 cs (length before) (length after) /\ alternating cs /\ Forall non_empty cs) /\
  (forall before after cs, byte_changes before after = Ok cs ->
     tiles 0 0 cs (length before) (length after) /\ alternating cs /\ Forall non_empty cs).
Proof. exact p_C09_partition. Qed.
Print Assumptions C09_partition.

Example C09_example :
  text_changes (L "A B C D E ") (L "A X Y C F G ") =
    Ok [NoChange (CS 0 0 1); Replace (Range 1 2) (Range 1 3); NoChange (CS 2 3 1); Replace (Range 3 5) (Range 4 6)].
Proof. exact e_C09_example. Qed.

(* ------------------------------------------------------------------ C10 *)
(* C10, full statement: forall b a cs, text_changes b a = Ok cs -> faithful b a cs.
   It is false: a whole differing line can be reported as unchanged. *)
Theorem C10_unchanged_is_unchanged_refuted : exists before after cs,
  text_changes before after = Ok cs /\ ~ faithful before after cs.
Proof. exact p_C10_unchanged_is_unchanged_refuted. Qed.
Print Assumptions C10_unchanged_is_unchanged_refuted.

(* the same for bytes *)
Theorem C10_unchanged_is_unchanged_bytes_refuted : exists before after cs,
  byte_changes before after = Ok cs /\ ~ faithful before after cs.
Proof. exact p_C10_unchanged_is_unchanged_bytes_refuted. Qed.
Print Assumptions C10_unchanged_is_unchanged_bytes_refuted.

(* What does hold: every differing pair inside a block reported unchanged is a single one
   directly between two equal pairs; hence without isolated mismatches every block reported
   unchanged is unchanged.  Missing: inputs with an isolated mismatch. *)
Theorem C10_unchanged_is_unchanged_partial :
  (forall before after cs, text_changes before after = Ok cs ->
     (forall m, In (NoChange m) cs -> nearly_common before after (cs_b m) (cs_a m) (cs_n m)) /\
     (no_isolated_mismatch before after -> faithful before after cs)) /\
  (forall before after cs, byte_changes before after = Ok cs ->
     (forall m, In (NoChange m) cs -> nearly_common before after (cs_b m) (cs_a m) (cs_n m)) /\
     (no_isolated_mismatch before after -> faithful before after cs)).
Proof. exact p_C10_unchanged_is_unchanged_partial. Qed.
Print Assumptions C10_unchanged_is_unchanged_partial.

Example C10_example :
  let b := L "A B C D " in let a := L "X B C Y Z " in
  no_isolated_mismatch b a /\
  text_changes b a = Ok [Replace (Range 0 1) (Range 0 1); NoChange (CS 1 1 2); Replace (Range 3 4) (Range 3 5)].
Proof. exact e_C10_example. Qed.

(* ------------------------------------------------------------------ C11 *)
(* C11, first half: a diff of equal sequences has no clumps. *)
Theorem C11_equal_empty :
  (forall s context, text_diff_clumps s s context = Ok []) /\ (forall s context, byte_diff_clumps s s context = Ok []).
Proof. exact p_C11_equal_empty. Qed.
Print Assumptions C11_equal_empty.

(* C11, second half, full statement: forall b a context, text_diff_clumps b a context = Ok [] -> b = a.
   It is false: two different texts can have an empty diff. *)
Theorem C11_empty_equal_refuted : exists before after context,
  text_diff_clumps before after context = Ok [] /\ before <> after.
Proof. exact p_C11_empty_equal_refuted. Qed.
Print Assumptions C11_empty_equal_refuted.

Theorem C11_empty_equal_bytes_refuted : exists before after context,
  byte_diff_clumps before after context = Ok [] /\ before <> after.
Proof. exact p_C11_empty_equal_bytes_refuted. Qed.
Print Assumptions C11_empty_equal_bytes_refuted.

Theorem C11_empty_equal_partial :
  (forall before after context, context <= 255 -> text_diff_clumps before after context = Ok [] ->
     length before = length after /\
     (forall t, t < length before -> same_at before after t t \/
        (differ_at before after t t /\ 0 < t /\ same_at before after (t - 1) (t - 1) /\ same_at before after (S t) (S t))) /\
     (no_isolated_mismatch before after -> before = after)) /\
  (forall before after context, context <= 255 -> byte_diff_clumps before after context = Ok [] ->
     length before = length after /\
     (forall t, t < length before -> same_at before after t t \/
        (differ_at before after t t /\ 0 < t /\ same_at before after (t - 1) (t - 1) /\ same_at before after (S t) (S t))) /\
     (no_isolated_mismatch before after -> before = after)).
Proof. exact p_C11_empty_equal_partial. Qed.
Print Assumptions C11_empty_equal_partial.

Example C11_example :
  text_diff_clumps (L "A B C ") (L "A B C ") 3 = Ok [] /\
  no_isolated_mismatch (L "A B C D ") (L "X B C Y Z ") /\
  text_diff_clumps (L "A B C D ") (L "X B C Y Z ") 1 <> Ok [].
Proof. exact e_C11_example. Qed.

(* ------------------------------------------------------------------ C12 *)
(* C12: with any sorting of the collected blocks (whatever the thread schedule) the change
   list is the same. *)
Theorem C12_any_sort : forall T (eqb : T -> T -> bool) indices before after raw sorted,
  lcs_loop eqb indices before after (lcs_fuel before) [(range_from before 0, range_from after 0)] [] = Ok raw ->
  Permutation raw sorted -> StronglySorted block_le sorted ->
  generate eqb indices before after = Ok (generate_loop before after (merge_adjacent sorted) 0 0).
Proof. exact p_C12_any_sort. Qed.
Print Assumptions C12_any_sort.

(* the blocks are collected out of order *)
Example C12_example :
  let b := L "A B X C D E Y F " in let a := L "A B P C D E Q R F " in
  lcs_loop line_eqb (string_indices_of (string_generate_from b)) b a (lcs_fuel b) [(range_from b 0, range_from a 0)] [] =
    Ok [CS 3 3 3; CS 7 8 1; CS 0 0 2] /\
  Permutation [CS 3 3 3; CS 7 8 1; CS 0 0 2] [CS 0 0 2; CS 3 3 3; CS 7 8 1] /\
  StronglySorted block_le [CS 0 0 2; CS 3 3 3; CS 7 8 1].
Proof. exact e_C12_example. Qed.

Theorem C13_contained_text : forall s pre post, s <> [] ->
  (exists y, text_changes s (pre ++ s ++ post) = Ok (after_extra (length s) y (length (pre ++ s ++ post))) /\
     common_block s (pre ++ s ++ post) 0 y (length s) /\ y <= length pre) /\
  (exists x, text_changes (pre ++ s ++ post) s = Ok (before_extra (length s) x (length (pre ++ s ++ post))) /\
     common_block (pre ++ s ++ post) s x 0 (length s) /\ x <= length pre).
Proof. exact p_C13_contained_text. Qed.
Print Assumptions C13_contained_text.

Theorem C13_contained_bytes : forall s pre post, s <> [] ->
  (exists y, byte_changes s (pre ++ s ++ post) = Ok (after_extra (length s) y (length (pre ++ s ++ post))) /\
     common_block s (pre ++ s ++ post) 0 y (length s) /\ y <= length pre) /\
  (exists x, byte_changes (pre ++ s ++ post) s = Ok (before_extra (length s) x (length (pre ++ s ++ post))) /\
     common_block (pre ++ s ++ post) s x 0 (length s) /\ x <= length pre).
Proof. exact p_C13_contained_bytes. Qed.
Print Assumptions C13_contained_bytes.

(* the inserted lines may repeat the original ones *)
Example C13_example :
  text_changes (L "A B ") (L "X A B A B ") = Ok [Insert 0 (Range 0 1); NoChange (CS 0 1 2); Insert 2 (Range 3 5)] /\
  text_changes (L "X A B A B ") (L "A B ") = Ok [Delete (Range 0 1) 0; NoChange (CS 1 0 2); Delete (Range 3 5) 2].
Proof. exact e_C13_example. Qed.

(* ------------------------------------------------------------------ C14 *)
(* C14: iterating clumps terminates; the clumps carry the real changes once each, in order. *)
Theorem C14_clumps_carry_changes : forall context cs, alternating cs ->
  exists clumps, change_clumps context cs = Ok clumps /\
    filter real (concat clumps) = filter real cs /\
    (forall c, In c clumps -> exists x, In x c /\ real x = true).
Proof. exact p_C14_clumps_carry_changes. Qed.
Print Assumptions C14_clumps_carry_changes.

Example C14_example :
  let cs := [NoChange (CS 0 0 9); Delete (Range 9 10) 9; NoChange (CS 10 9 3); Insert 13 (Range 12 14); NoChange (CS 13 14 7); Replace (Range 20 21) (Range 21 22)] in
  alternating cs /\
  change_clumps 2 cs = Ok [[NoChange (CS 7 7 2); Delete (Range 9 10) 9; NoChange (CS 10 9 3); Insert 13 (Range 12 14); NoChange (CS 13 14 2)];
                           [NoChange (CS 18 19 2); Replace (Range 20 21) (Range 21 22)]].
Proof. exact e_C14_example. Qed.

(* ------------------------------------------------------------------ C15 *)
(* C15: clumps are ordered, disjoint, gap-free, and everything outside them is unchanged and
   equally long on both sides. *)
Theorem C15_clumps_spread : forall context cs n m, alternating cs -> tiles 0 0 cs n m ->
  exists clumps, change_clumps context cs = Ok clumps /\ spread cs 0 0 clumps n m.
Proof. exact p_C15_clumps_spread. Qed.
Print Assumptions C15_clumps_spread.

Example C15_example :
  let cs := [NoChange (CS 0 0 9); Delete (Range 9 10) 9; NoChange (CS 10 9 3); Insert 13 (Range 12 14); NoChange (CS 13 14 7); Replace (Range 20 21) (Range 21 22)] in
  tiles 0 0 cs 21 22.
Proof. exact e_C15_example. Qed.

Theorem C16_context_limits : forall context cs, context <= 255 -> alternating cs ->
  exists clumps, change_clumps context cs = Ok clumps /\ clumps_of context cs clumps /\
    forall c, In c clumps -> exists p body q,
      c = lead context p ++ body ++ trail context q /\ close_run context body /\
      clump_context_lengths c = (match p with Some b => Nat.min context (cs_n b) | None => 0 end,
                                 match q with Some b => Nat.min context (cs_n b) | None => 0 end) /\
      (forall b, p = Some b -> In (NoChange b) cs) /\ (forall b, q = Some b -> In (NoChange b) cs).
Proof. exact p_C16_context_limits. Qed.
Print Assumptions C16_context_limits.

(* three unchanged items keep two changes together for context 2, not for context 1 *)
Example C16_example :
  let cs := [Delete (Range 0 1) 0; NoChange (CS 1 0 3); Insert 4 (Range 3 4)] in
  change_clumps 2 cs = Ok [cs] /\
  change_clumps 1 cs = Ok [[Delete (Range 0 1) 0; NoChange (CS 1 0 1)]; [NoChange (CS 3 2 1); Insert 4 (Range 3 4)]].
Proof. exact e_C16_example. Qed.

(* ------------------------------------------------------------------ C17 *)
(* C17, full statement: for a clump covering before i..n and after j..m, clump_starts,
   clump_ends, clump_ranges and before_start/before_end agree with i, j, n, m.
   It is false for before_end (changes.rs:387-393): it uses the first change. *)
Theorem C17_accessors_refuted : exists before after context cs clump n m,
  text_changes before after = Ok cs /\ change_clumps context cs = Ok [clump] /\
  tiles 0 0 clump n m /\ clump_before_end clump false <> n.
Proof. exact p_C17_accessors_refuted. Qed.
Print Assumptions C17_accessors_refuted.

(* What does hold: all other accessors; before_end is that of the first change.
   Missing: before_end (and so before_length) of clumps with more than one change. *)
Theorem C17_accessors_partial : forall i j c n m, c <> [] -> tiles i j c n m ->
  clump_starts c = (i, j) /\ clump_ends c = (n, m) /\ clump_ranges c = (Range i n, Range j m) /\
  clump_before_start c false = i /\ clump_before_start c true = j /\
  (length c = 1 -> clump_before_end c false = n /\ clump_before_end c true = m).
Proof. exact p_C17_accessors_partial. Qed.
Print Assumptions C17_accessors_partial.

Example C17_example :
  let c := [NoChange (CS 7 7 2); Delete (Range 9 10) 9; NoChange (CS 10 9 2)] in
  tiles 7 7 c 12 11 /\ clump_ranges c = (Range 7 12, Range 7 11) /\ clump_before_end c false = 9.
Proof. exact e_C17_example. Qed.

(* ------------------------------------------------------------------ C48 *)
(* C48: trimming and splitting an unchanged block keep exactly the wanted items. *)
Theorem C48_trim_split : forall m k,
  starts_trimmed m k = last_items k m /\ ends_trimmed m k = first_items k m /\
  split m k = (if 2 * k <=? cs_n m then Some (first_items k m, last_items k m) else None) /\
  (2 * k <= cs_n m -> cs_b (first_items k m) + cs_n (first_items k m) <= cs_b (last_items k m) /\
                      cs_a (first_items k m) + cs_n (first_items k m) <= cs_a (last_items k m)).
Proof. exact p_C48_trim_split. Qed.
Print Assumptions C48_trim_split.

Example C48_example :
  split (CS 10 20 7) 3 = Some (CS 10 20 3, CS 14 24 3) /\ split (CS 10 20 5) 3 = None /\
  starts_trimmed (CS 10 20 2) 3 = CS 10 20 2.
Proof. exact e_C48_example. Qed.

(* Growing a block backwards by [k] moves both starts back by [k] and leaves both ends where
   they are; growing it at the end leaves both starts.  Moving a start below zero panics. *)
Theorem C48_grow :
  (forall m k, k <= cs_b m -> k <= cs_a m -> exists m', incr_size_moving_starts m k = Ok m' /\
     cs_b m' + k = cs_b m /\ cs_a m' + k = cs_a m /\
     cs_before_end m' = cs_before_end m /\ cs_after_end m' = cs_after_end m) /\
  (forall m k, cs_b m < k \/ cs_a m < k -> incr_size_moving_starts m k = Panic) /\
  (forall m k, let m' := incr_size_moving_ends m k in
     cs_b m' = cs_b m /\ cs_a m' = cs_a m /\
     cs_before_end m' = cs_before_end m + k /\ cs_after_end m' = cs_after_end m + k).
Proof. exact p_C48_grow. Qed.
Print Assumptions C48_grow.

Example C48_grow_example :
  incr_size_moving_starts (CS 10 20 7) 3 = Ok (CS 7 17 10) /\ incr_size_moving_starts (CS 10 2 7) 3 = Panic /\
  incr_size_moving_ends (CS 10 20 7) 3 = CS 10 20 10.
Proof. exact e_C48_grow_example. Qed.

(* ------------------------------------------------------------------ C49 *)
(* C49: building a diff never panics, and its clumps hold the exact items of both sides at
   their positions, in bounds, in order, with the recorded context inside them and at most
   [context] long; what is left out lies in blocks reported unchanged. *)
Theorem C49_snippets :
  (forall before after context, context <= 255 -> exists cs hs, text_changes before after = Ok cs /\
     text_diff_clumps before after context = Ok (map text_of_hunk hs) /\
     cover context (unchanged cs) before after 0 0 hs) /\
  (forall before after context, context <= 255 -> exists cs hs, byte_changes before after = Ok cs /\
     byte_diff_clumps before after context = Ok (map byte_of_hunk hs) /\
     cover context (unchanged cs) before after 0 0 hs).
Proof. exact p_C49_snippets. Qed.
Print Assumptions C49_snippets.

Example C49_example :
  text_diff_clumps (L "A B C D E F ") (L "A B X Y D E F G ") 1 =
    Ok (map text_of_hunk [Hunk 1 1 1 (L "B C D ") 1 (L "B X Y D "); Hunk 1 0 5 (L "F ") 6 (L "F G ")]).
Proof. exact e_C49_example. Qed.

(* ------------------------------------------------------------------ C71 *)
(* C71: a replacement has nothing in common: no item of the replaced part occurs in the part
   that replaces it. *)
Theorem C71_nothing_in_common :
  (forall before after cs rb ra, text_changes before after = Ok cs -> In (Replace rb ra) cs ->
     forall x y, inside rb x 1 -> inside ra y 1 -> ~ same_at before after x y) /\
  (forall before after cs rb ra, byte_changes before after = Ok cs -> In (Replace rb ra) cs ->
     forall x y, inside rb x 1 -> inside ra y 1 -> ~ same_at before after x y).
Proof. exact p_C71_nothing_in_common. Qed.
Print Assumptions C71_nothing_in_common.

Example C71_example :
  exists cs, text_changes (L "A B C D E ") (L "A X Y C F G ") = Ok cs /\ In (Replace (Range 3 5) (Range 4 6)) cs.
Proof. exact e_C71_example. Qed.

(* ------------------------------------------------------------------ C72 *)
(* C72: the change list is exactly the one that reports as unchanged the pairs of the blocks
   chosen by taking the first longest common block and going on left and right of it
   (including the pairs that the forward extension adds, see C06), and no other. *)
Theorem C72_changes_exact :
  (forall before after cs, text_changes before after = Ok cs <->
     proper (length before) (length after) cs /\
     exists blocks, blocks_of before after (Range 0 (length before)) (Range 0 (length after)) blocks /\
       forall i j, reported_same cs i j <-> paired blocks i j) /\
  (forall before after cs, byte_changes before after = Ok cs <->
     proper (length before) (length after) cs /\
     exists blocks, blocks_of before after (Range 0 (length before)) (Range 0 (length after)) blocks /\
       forall i j, reported_same cs i j <-> paired blocks i j).
Proof. exact p_C72_changes_exact. Qed.
Print Assumptions C72_changes_exact.

(* the first longest block of the whole is A; right of it the first longest is C *)
Example C72_example :
  let b := L "A B C D E " in let a := L "A X Y C F G " in
  text_changes b a = Ok [NoChange (CS 0 0 1); Replace (Range 1 2) (Range 1 3); NoChange (CS 2 3 1); Replace (Range 3 5) (Range 4 6)] /\
  blocks_of b a (Range 0 5) (Range 0 6) [CS 0 0 1; CS 2 3 1].
Proof. exact e_C72_example. Qed.

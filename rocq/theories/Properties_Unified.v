(* Properties_Unified.v - the property theorems and a concrete case beside each; proofs are in
   Proof_Props_Unified.v.  Generated by tools/mkthms.py. *)
From Coq Require Import String.
From Verif Require Import Proof_Props_Unified Base Model_Seq Model_Changes Model_IO Model_Text Model_Json Model_Regex Model_Unified Spec Spec_Unified Cases.

(* ------------------------------------------------------------------ C43 *)
(* C43: the printed header of a clump has the documented form, and parsing it, with or
   without a newline, gives back the same numbers. *)
Theorem C43_header_round_trip : forall nd h ln, digit_table nd -> machine_header h ->
  header_written (header_text h) (sl_start (sls_before h)) (sl_length (sls_before h)) (sl_start (sls_after h)) (sl_length (sls_after h)) /\
  starts_and_lengths nd (header_text h) ln = DOk (Some h) /\
  starts_and_lengths nd (header_text h ++ [newline]) ln = DOk (Some h).
Proof. exact p_C43_header_round_trip. Qed.
Print Assumptions C43_header_round_trip.

Example C43_example :
  let h := SLs (SL 18446744073709551615 1) (SL 0 20) in
  digit_table no_more_digits /\ machine_header h /\ header_text h = str "@@ -18446744073709551615 +0,20 @@" /\
  starts_and_lengths no_more_digits (str "@@ -18446744073709551615 +0,20 @@") 0 = DOk (Some h) /\
  header_text (SLs (SL 3 1) (SL 4 1)) = str "@@ -3 +4 @@".
Proof. exact e_C43_example. Qed.

(* ------------------------------------------------------------------ C66 *)
(* C66: a line is taken for a clump header exactly if it has the form of one; the numbers read
   are the numbers written, and numbers too big for a machine word, or written with digits
   other than 0 to 9, are reported as an error with the line number. *)
Theorem C66_header_exact : forall nd cs ln, digit_table nd -> Forall character cs ->
  ((forall d1 o2 d3 o4, ~ header_form nd cs d1 o2 d3 o4) -> starts_and_lengths nd (concat cs) ln = DOk None) /\
  (forall d1 o2 d3 o4, header_form nd cs d1 o2 d3 o4 ->
    (forall b bl a al, numeral d1 b -> length_field o2 bl -> numeral d3 a -> length_field o4 al ->
      starts_and_lengths nd (concat cs) ln = DOk (Some (SLs (SL b bl) (SL a al)))) /\
    ((forall b bl a al, numeral d1 b -> length_field o2 bl -> numeral d3 a -> length_field o4 al -> False) ->
      starts_and_lengths nd (concat cs) ln = DErr (ParseNumberError ln))).
Proof. exact p_C66_header_exact. Qed.
Print Assumptions C66_header_exact.

Example C66_example :
  header_form no_more_digits (asc "@@ -12 +7,0 @@ fn main") (asc "12") None (asc "7") (Some (asc "0")) /\
  starts_and_lengths no_more_digits (str "@@ -12 +7,0 @@ fn main") 5 = DOk (Some (SLs (SL 12 1) (SL 7 0))) /\
  starts_and_lengths no_more_digits (str "@@ -18446744073709551616 +7,0 @@") 5 = DErr (ParseNumberError 5) /\
  starts_and_lengths no_more_digits (str "@@ -1, +7,0 @@") 5 = DOk None /\
  starts_and_lengths no_more_digits (str " @@ -1 +7 @@") 5 = DOk None.
Proof. exact e_C66_example. Qed.

(* ------------------------------------------------------------------ C67 *)
(* C67, full statement: a line "--- NAME" or "+++ NAME", optionally followed by blanks and a
   time stamp, yields NAME and the time stamp, without panicking.  It is false: names with
   blanks that are not in quotes are cut at the first blank, and a name that ends the file
   without a newline is not recognised at all. *)
Theorem C67_file_header_refuted :
  before_path_and_time_stamp no_more_digits (str "--- my file" ++ [x09] ++ str "2002-02-21 23:30:39 -0800" ++ [newline]) = Ok (Some (PathStamp (str "my") None)) /\
  before_path_and_time_stamp no_more_digits (str "--- file") = Ok None.
Proof. exact p_C67_file_header_refuted. Qed.
Print Assumptions C67_file_header_refuted.

(* What does hold: no line makes it panic.  A line that consists of the marker and further
   characters, with a newline at most at its end, gives exactly the name in quotes (if there
   is one that blanks follow), else the characters up to the first blank (if blanks follow),
   and the time stamp that directly follows these blanks, if there is one; any other line
   that begins with the marker gives nothing.  Missing: names with blanks, names without
   anything after them. *)
Theorem C67_file_header_partial : forall nd,
  (forall l, exists r, before_path_and_time_stamp nd l = Ok r) /\
  (forall l, exists r, after_path_and_time_stamp nd l = Ok r) /\
  (forall cs, Forall character cs -> newline_only_last cs ->
    (forall name rest o, name_and_rest cs name rest -> stamp_of nd rest o ->
      before_path_and_time_stamp nd (str "--- " ++ concat cs) = Ok (Some (PathStamp (concat name) (option_map (@concat byte) o))) /\
      after_path_and_time_stamp nd (str "+++ " ++ concat cs) = Ok (Some (PathStamp (concat name) (option_map (@concat byte) o)))) /\
    ((forall name rest, ~ name_and_rest cs name rest) ->
      before_path_and_time_stamp nd (str "--- " ++ concat cs) = Ok None /\
      after_path_and_time_stamp nd (str "+++ " ++ concat cs) = Ok None)) /\
  (forall l, (forall s, l <> str "--- " ++ s) -> before_path_and_time_stamp nd l = Ok None) /\
  (forall l, (forall s, l <> str "+++ " ++ s) -> after_path_and_time_stamp nd l = Ok None).
Proof. exact p_C67_file_header_partial. Qed.
Print Assumptions C67_file_header_partial.

Example C67_example :
  before_path_and_time_stamp no_more_digits (str "--- lao" ++ [x09] ++ str "2002-02-21 23:30:39.942229878 -0800" ++ [newline]) =
    Ok (Some (PathStamp (str "lao") (Some (str "2002-02-21 23:30:39.942229878 -0800")))) /\
  after_path_and_time_stamp no_more_digits (str "+++ ""my file"" Mon Feb 21 23:30:39 2002 -0800 x") =
    Ok (Some (PathStamp (str "my file") (Some (str "Mon Feb 21 23:30:39 2002 -0800")))) /\
  after_path_and_time_stamp no_more_digits (str "--- lao" ++ [newline]) = Ok None.
Proof. exact e_C67_example. Qed.

(* ------------------------------------------------------------------ C69 *)
(* C69: what trying to parse a clump at line i returns, for every input and both builds.
   [outcome] lists the cases: beyond the end; at the end; no header; a bad number in the
   header; a clump; a header that announces no lines followed by a backslash line; the input
   ends too early; a line without a marker in the clump; (debug build) a run of more than
   255 context lines. *)
Theorem C69_parse_exact : forall nd dbg lines i r, get_from_at nd dbg lines i = r <-> outcome nd dbg lines i r.
Proof. exact p_C69_parse_exact. Qed.
Print Assumptions C69_parse_exact.

(* the two builds differ only in that the debug build may panic *)
Theorem C69_builds : forall nd lines i,
  get_from_at nd true lines i = get_from_at nd false lines i \/ get_from_at nd true lines i = Panic.
Proof. exact p_C69_builds. Qed.
Print Assumptions C69_builds.

Example C69_example :
  get_from_at no_more_digits true two_clumps 1 =
    Ok (DOk (Some (UClump (SLs (SL 1 3) (SL 1 3)) (split_lines (str " x
-y
 w
")) (split_lines (str " x
+z
 w
")) (1, 1)%Z 5))) /\
  get_from_at no_more_digits true two_clumps 0 = Ok (DOk None) /\
  get_from_at no_more_digits true two_clumps 6 = Ok (DErr (UnexpectedEndClump 8)) /\
  get_from_at no_more_digits true (firstn 8 two_clumps) 6 = Ok (DErr UnexpectedEndOfInput).
Proof. exact e_C69_example. Qed.

(* ------------------------------------------------------------------ C44 *)
(* C44, full statement: forall nd dbg lines i, i <= length lines -> get_from_at nd dbg lines i <> Panic.
   It is false: a header that announces no lines, followed by a line that begins with a
   backslash, makes it panic in both builds (unwrap of an empty vector's last line) ... *)
Theorem C44_never_panics_refuted : exists lines, forall dbg, get_from_at no_more_digits dbg lines 0 = Panic.
Proof. exact p_C44_never_panics_refuted. Qed.
Print Assumptions C44_never_panics_refuted.

(* ... and so do 256 context lines in a row in the debug build (overflow of a u8). *)
Theorem C44_long_context_refuted : exists lines, get_from_at no_more_digits true lines 0 = Panic /\
  exists c, get_from_at no_more_digits false lines 0 = Ok (DOk (Some c)) /\ uc_context c = (0, 0)%Z /\ length (uc_before c) = 256.
Proof. exact p_C44_long_context_refuted. Qed.
Print Assumptions C44_long_context_refuted.

(* What does hold: within the text these are the only two ways to panic.  Missing: these
   two. *)
Theorem C44_never_panics_partial : forall nd dbg lines i, i <= length lines ->
  (get_from_at nd dbg lines i = Panic <->
    (exists h rest, clump_at nd lines i h [] rest /\ reaches h [] /\ backslash_first rest) \/
    (dbg = true /\ exists h ls l rest, clump_at nd lines i h (ls ++ [l]) rest /\ ~ reaches h ls /\ ~ context_runs_within 255 (ls ++ [l]))) /\
  get_from_at nd dbg lines i <> OutOfFuel.
Proof. exact p_C44_never_panics_partial. Qed.
Print Assumptions C44_never_panics_partial.

Example C44_example : 1 <= length two_clumps /\ exists c, get_from_at no_more_digits true two_clumps 1 = Ok (DOk (Some c)).
Proof. exact e_C44_example. Qed.

(* C47, full statement: forall nd dbg lines i c, get_from_at nd dbg lines i = Ok (DOk (Some c)) ->
   the numbers of lines of both sides are those of the header.  It is false: lines are read
   until both numbers are reached, and one side may then have too many. *)
Theorem C47_lengths_refuted : exists lines c, (forall dbg, get_from_at no_more_digits dbg lines 0 = Ok (DOk (Some c))) /\
  sl_length (sls_before (uc_header c)) = 1%Z /\ length (uc_before c) = 3.
Proof. exact p_C47_lengths_refuted. Qed.
Print Assumptions C47_lengths_refuted.

(* What does hold: a parsed clump is read from the lines ls behind its header, which all have
   a marker; it has all their old and new lines, except that the last line may have been
   trimmed; no side has too few lines, ls is the shortest such piece of text, and at least
   one side has exactly the announced number.  Missing: the equality for the other side. *)
Theorem C47_lengths_partial : forall nd dbg lines i c, get_from_at nd dbg lines i = Ok (DOk (Some c)) ->
  exists ls rest, clump_at nd lines i (uc_header c) ls rest /\ just_reaches (uc_header c) ls /\ clump_read (uc_header c) ls rest c /\
    length (uc_before c) = length (old_lines ls) /\ length (uc_after c) = length (new_lines ls) /\
    (sl_length (sls_before (uc_header c)) <= Z.of_nat (length (uc_before c)))%Z /\
    (sl_length (sls_after (uc_header c)) <= Z.of_nat (length (uc_after c)))%Z /\
    (Z.of_nat (length (uc_before c)) = sl_length (sls_before (uc_header c)) \/
     Z.of_nat (length (uc_after c)) = sl_length (sls_after (uc_header c))).
Proof. exact p_C47_lengths_partial. Qed.
Print Assumptions C47_lengths_partial.

Example C47_example : exists c, get_from_at no_more_digits true two_clumps 1 = Ok (DOk (Some c)) /\
  sl_length (sls_before (uc_header c)) = 3%Z /\ length (uc_before c) = 3 /\ length (uc_after c) = 3.
Proof. exact e_C47_example. Qed.

(* C45, full statement: for every pair of texts shorter than 2^64 lines and every context
   size, the unified form of the diff has one text for every clump, and for each of them
   [printed] holds and the new lines without their markers are the new lines of the clump.
   The last part is false: a changed line can be printed as a context line (see C10). *)
Theorem C45_printed_refuted : exists before after h t body,
  text_diff_clumps before after 2 = Ok [text_of_hunk h] /\ unified_diff 2 before after = Ok [t] /\
  printed h body t /\ unmark (new_lines body) <> h_new h.
Proof. exact p_C45_printed_refuted. Qed.
Print Assumptions C45_printed_refuted.

(* What does hold: printing always succeeds, there is one text for every clump of the diff,
   and [printed] holds for each: the header carries the clump's positions and lengths, the
   old lines without their markers are the old lines of the clump, and there are as many new
   lines as the header says; without isolated mismatches the new lines without their markers
   are the new lines of the clump.  Missing: the new lines of inputs with an isolated
   mismatch. *)
Theorem C45_printed_partial : forall before after context, context <= 255 ->
  (Z.of_nat (length before) < two64)%Z -> (Z.of_nat (length after) < two64)%Z ->
  exists hs ts, text_diff_clumps before after context = Ok (map text_of_hunk hs) /\ unified_diff context before after = Ok ts /\
    Forall2 (fun h t => exists body, printed h body t /\ (no_isolated_mismatch before after -> unmark (new_lines body) = h_new h)) hs ts.
Proof. exact p_C45_printed_partial. Qed.
Print Assumptions C45_printed_partial.

Example C45_example :
  let b := L "A B C D E F G " in let a := L "A B X Y E F G H" in
  no_isolated_mismatch b a /\ unified_diff 1 b a = Ok [
    UText (str "@@ -1,4 +1,4 @@") [str " B" ++ [newline]; str "+X" ++ [newline]; str "+Y" ++ [newline]; str "-C" ++ [newline]; str "-D" ++ [newline]; str " E" ++ [newline]];
    UText (str "@@ -6 +6,2 @@") [str " G" ++ [newline]; str "+H"; [newline; x5c; newline]]].
Proof. exact e_C45_example. Qed.

(* C46, full statement: for texts of newline-terminated lines, parsing the printed form of a
   clump returns its positions, its context lengths, its old lines and its new lines, and
   consumes exactly the lines printed.  It is false: the lines returned still have their
   markers ... *)
Theorem C46_print_parse_refuted : exists before after h t c,
  Forall ends_in_newline before /\ Forall ends_in_newline after /\
  text_diff_clumps before after 1 = Ok [text_of_hunk h] /\ unified_diff 1 before after = Ok [t] /\
  (forall dbg, get_from_at no_more_digits dbg ((ut_header t ++ [newline]) :: ut_lines t) 0 = Ok (DOk (Some c))) /\
  uc_before c <> h_old h /\ uc_after c <> h_new h.
Proof. exact p_C46_print_parse_refuted. Qed.
Print Assumptions C46_print_parse_refuted.

Theorem C46_debug_refuted : exists before after t, unified_diff 129 before after = Ok [t] /\
  get_from_at no_more_digits true ((ut_header t ++ [newline]) :: ut_lines t) 0 = Panic.
Proof. exact p_C46_debug_refuted. Qed.
Print Assumptions C46_debug_refuted.

(* What does hold: with at most 128 lines of context, or in the release build, parsing a
   printed clump, wherever it stands in a text, unless a line beginning with a backslash
   follows, returns its positions, its context lengths, and the printed old and new lines
   with their markers, and consumes exactly the lines printed; without the markers these are
   the old lines, and without isolated mismatches the new lines, of the clump.
   Missing: the markers are not removed; debug build with more context. *)
Theorem C46_print_parse_partial : forall nd dbg before after context, digit_table nd -> context <= 255 -> (dbg = true -> context <= 128) ->
  (Z.of_nat (length before) < two64)%Z -> (Z.of_nat (length after) < two64)%Z ->
  Forall ends_in_newline before -> Forall ends_in_newline after ->
  exists hs ts, text_diff_clumps before after context = Ok (map text_of_hunk hs) /\ unified_diff context before after = Ok ts /\
    Forall2 (fun h t =>
      (forall pre e post, e = [] \/ e = [newline] -> ~ backslash_first post ->
        get_from_at nd dbg (pre ++ (ut_header t ++ e) :: ut_lines t ++ post) (length pre) =
          Ok (DOk (Some (UClump (SLs (SL (Z.of_nat (h_b h)) (Z.of_nat (length (h_old h)))) (SL (Z.of_nat (h_a h)) (Z.of_nat (length (h_new h)))))
                                (old_lines (ut_lines t)) (new_lines (ut_lines t)) (Z.of_nat (h_lead h), Z.of_nat (h_trail h)) (1 + length (ut_lines t)))))) /\
      unmark (old_lines (ut_lines t)) = h_old h /\
      (no_isolated_mismatch before after -> unmark (new_lines (ut_lines t)) = h_new h)) hs ts.
Proof. exact p_C46_print_parse_partial. Qed.
Print Assumptions C46_print_parse_partial.

Example C46_example : let b := L "A B C D E F G " in let a := L "A B X Y E F G H " in
  Forall ends_in_newline b /\ Forall ends_in_newline a /\ no_isolated_mismatch b a /\
  exists t1 t2, unified_diff 1 b a = Ok [t1; t2] /\
    get_from_at no_more_digits true ((ut_header t1 ++ [newline]) :: ut_lines t1 ++ (ut_header t2 ++ [newline]) :: ut_lines t2) 0 =
      Ok (DOk (Some (UClump (SLs (SL 1 4) (SL 1 4)) [str " B" ++ [newline]; str "-C" ++ [newline]; str "-D" ++ [newline]; str " E" ++ [newline]]
        [str " B" ++ [newline]; str "+X" ++ [newline]; str "+Y" ++ [newline]; str " E" ++ [newline]] (1, 1)%Z 7))).
Proof. exact e_C46_example. Qed.

(* C68, full statement: writing out a printed clump, splitting the text into lines again and
   parsing them gives back the printed old and new lines, also if the last line of a text has
   no newline.  It is false: if the unterminated line is not printed last, the next line is
   appended to it; if it is a context line, the new side keeps a newline it did not have; and
   blanks at its end are lost. *)
Theorem C68_no_newline_refuted :
  (exists t, unified_diff 1 (L "A") (L "B C ") = Ok [t] /\
     ut_lines t = [str "-A"; str "+B" ++ [newline]; str "+C" ++ [newline]] /\
     get_from_at no_more_digits true (split_lines (written_out t)) 0 = Ok (DErr UnexpectedEndOfInput)) /\
  (exists t c, unified_diff 1 (L "X A") (L "Y A") = Ok [t] /\
     get_from_at no_more_digits true (split_lines (written_out t)) 0 = Ok (DOk (Some c)) /\
     unmark (uc_before c) = L "X A" /\ unmark (uc_after c) = L "Y A ") /\
  (exists t c, unified_diff 1 (L "X ") (L "X " ++ [str "Y "]) = Ok [t] /\
     get_from_at no_more_digits true (split_lines (written_out t)) 0 = Ok (DOk (Some c)) /\
     unmark (uc_after c) = L "X Y").
Proof. exact p_C68_no_newline_refuted. Qed.
Print Assumptions C68_no_newline_refuted.

(* What does hold, for the clumps of the diff of two files: if all printed lines have their
   newline, the clump read has exactly the printed lines; if only the line printed last has
   none, and it does not end in a blank, the clump read has exactly the printed lines, except
   that a context line gets a newline on the new side.  Missing: the cases above. *)
Theorem C68_no_newline_partial : forall nd dbg before after context, digit_table nd -> context <= 255 -> (dbg = true -> context <= 128) ->
  (Z.of_nat (length (split_lines before)) < two64)%Z -> (Z.of_nat (length (split_lines after)) < two64)%Z ->
  exists hs ts, text_diff_clumps (split_lines before) (split_lines after) context = Ok (map text_of_hunk hs) /\
    unified_diff context (split_lines before) (split_lines after) = Ok ts /\
    Forall2 (fun h t => exists body, printed h body t /\
      (Forall ends_in_newline body -> get_from_at nd dbg (split_lines (written_out t)) 0 =
         Ok (DOk (Some (UClump (header_of h) (old_lines body) (new_lines body) (Z.of_nat (h_lead h), Z.of_nat (h_trail h)) (1 + length body))))) /\
      (forall pre x, body = pre ++ [x] -> Forall ends_in_newline pre -> ~ ends_in_newline x -> (forall p c, chars x = p ++ [c] -> ~ blank c) ->
         get_from_at nd dbg (split_lines (written_out t)) 0 =
         Ok (DOk (Some (UClump (header_of h) (old_lines body) (if context_line x then new_lines pre ++ [x ++ [newline]] else new_lines body)
                               (Z.of_nat (h_lead h), Z.of_nat (h_trail h)) (2 + length body)))))) hs ts.
Proof. exact p_C68_no_newline_partial. Qed.
Print Assumptions C68_no_newline_partial.

Example C68_example : exists t c, unified_diff 1 (L "A B ") (L "A B C") = Ok [t] /\
  ut_lines t = [str " B" ++ [newline]; str "+C"; [newline; x5c; newline]] /\
  get_from_at no_more_digits true (split_lines (written_out t)) 0 = Ok (DOk (Some c)) /\
  unmark (uc_before c) = L "B " /\ unmark (uc_after c) = L "B C".
Proof. exact e_C68_example. Qed.

(* ------------------------------------------------------------------ C70 *)
(* C70, full statement: the positions in the printed header are written as unified diffs
   write them: [unified_position].  It is false: lines are counted from 0. *)
Theorem C70_positions_refuted : exists before after t, unified_diff 0 before after = Ok [t] /\ ut_header t = str "@@ -0 +0 @@" /\
  unified_position 0 1 = 1.
Proof. exact p_C70_positions_refuted. Qed.
Print Assumptions C70_positions_refuted.

(* What does hold: the positions are the numbers of lines in front of the clump in the old
   and the new text, so that a position is the right one exactly if the clump has no lines
   on that side, and one too small otherwise.  Missing: the positions of the other sides. *)
Theorem C70_positions_partial : forall before after context, context <= 255 ->
  (Z.of_nat (length before) < two64)%Z -> (Z.of_nat (length after) < two64)%Z ->
  exists hs ts, unified_diff context before after = Ok ts /\
    Forall2 (fun h t =>
      (exists rest, before = firstn (h_b h) before ++ h_old h ++ rest) /\ (exists rest, after = firstn (h_a h) after ++ h_new h ++ rest) /\
      header_written (ut_header t) (Z.of_nat (h_b h)) (Z.of_nat (length (h_old h))) (Z.of_nat (h_a h)) (Z.of_nat (length (h_new h))) /\
      (unified_position (h_b h) (length (h_old h)) = h_b h <-> h_old h = []) /\
      (unified_position (h_a h) (length (h_new h)) = h_a h <-> h_new h = [])) hs ts.
Proof. exact p_C70_positions_partial. Qed.
Print Assumptions C70_positions_partial.

Example C70_example : exists t, unified_diff 1 (L "A B ") (L "A B C ") = Ok [t] /\ ut_header t = str "@@ -1 +1,2 @@".
Proof. exact e_C70_example. Qed.

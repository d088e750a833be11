(* Spec_Unified.v - vocabulary for the properties of the unified diff code. *)
From Coq Require Import String.
From Verif Require Import Base Model_Seq Model_Changes Model_Json Model_Regex Model_Unified Spec.

(* ---------------- characters ---------------- *)
Definition encodes (n : N) (c : char) : Prop := map Byte.to_N c = utf8_encode n.
(* the bytes of one Unicode character *)
Definition character (c : char) : Prop := exists n, scalar n /\ encodes n c.
(* the Unicode White_Space characters *)
Definition blank (c : char) : Prop := exists n,
  ((9 <= n <= 13 \/ n = 32 \/ n = 133 \/ n = 160 \/ n = 5760 \/ 8192 <= n <= 8202 \/
    n = 8232 \/ n = 8233 \/ n = 8239 \/ n = 8287 \/ n = 12288)%N) /\ encodes n c.
Definition blanks (cs : list char) : Prop := cs <> [] /\ Forall blank cs.
(* the decimal digits: 0 to 9 and the further ones of the table [nd] *)
Definition digit_char (nd : char -> bool) (c : char) : Prop :=
  (exists b, c = [b] /\ (48 <= Byte.to_N b <= 57)%N) \/ (length c <> 1 /\ nd c = true).
Definition digits (nd : char -> bool) (cs : list char) : Prop := cs <> [] /\ Forall (digit_char nd) cs.
(* a table of digits is usable if it contains no white space *)
Definition digit_table (nd : char -> bool) : Prop := forall c, nd c = true -> ~ blank c.

(* ASCII text as characters *)
Definition asc (s : string) : list char := map (fun b => [b]) (list_byte_of_string s).

(* cs is the number v written with the digits 0 to 9, and v is a machine word *)
Definition numeral (cs : list char) (v : Z) : Prop := exists ds,
  ds <> [] /\ Forall (fun d => (0 <= d < 10)%Z) ds /\
  map (map Byte.to_N) cs = map (fun d => [Z.to_N (48 + d)]) ds /\
  v = fold_left (fun v d => (10 * v + d)%Z) ds 0%Z /\ (v < two64)%Z.

(* ---------------- clump headers ---------------- *)
Definition comma (o : option (list char)) : list char := match o with Some d => asc "," ++ d | None => [] end.
(* no newline, except as the last character *)
Definition newline_only_last (cs : list char) : Prop := exists t, ~ In [newline] t /\ (cs = t \/ cs = t ++ [[newline]]).

(* @@ -d1,o2 +d3,o4 @@ anything *)
Definition header_form (nd : char -> bool) (cs d1 : list char) (o2 : option (list char)) (d3 : list char) (o4 : option (list char)) : Prop :=
  exists w1 w2 w3 w4 rest,
    blanks w1 /\ blanks w2 /\ blanks w3 /\ Forall blank w4 /\ newline_only_last rest /\
    digits nd d1 /\ digits nd d3 /\
    (forall d, o2 = Some d -> digits nd d) /\ (forall d, o4 = Some d -> digits nd d) /\
    cs = asc "@@" ++ w1 ++ asc "-" ++ d1 ++ comma o2 ++ w2 ++ asc "+" ++ d3 ++ comma o4 ++ w3 ++ asc "@@" ++ w4 ++ rest.
(* a length that is not written is 1 *)
Definition length_field (o : option (list char)) (v : Z) : Prop :=
  match o with Some d => numeral d v | None => v = 1%Z end.

(* the four numbers are machine words *)
Definition machine_header (h : starts_lengths) : Prop :=
  is_usize (sl_start (sls_before h)) /\ is_usize (sl_length (sls_before h)) /\
  is_usize (sl_start (sls_after h)) /\ is_usize (sl_length (sls_after h)).
(* the text of a header: @@ -b,bl +a,al @@ without lengths that are 1 *)
Definition header_written (text : list byte) (b bl a al : Z) : Prop := exists d1 o2 d3 o4,
  chars text = asc "@@ -" ++ d1 ++ comma o2 ++ asc " +" ++ d3 ++ comma o4 ++ asc " @@" /\
  numeral d1 b /\ length_field o2 bl /\ numeral d3 a /\ length_field o4 al /\
  (o2 = None <-> bl = 1%Z) /\ (o4 = None <-> al = 1%Z).

(* ---------------- file header lines ---------------- *)
(* 0 stands for a digit, A and a for a capital and a small letter, + for a sign *)
Definition fits (nd : char -> bool) (pattern : string) (cs : list char) : Prop :=
  Forall2 (fun b c =>
    match b with
    | "0"%byte => digit_char nd c
    | "A"%byte => exists x, c = [x] /\ (65 <= Byte.to_N x <= 90)%N
    | "a"%byte => exists x, c = [x] /\ (97 <= Byte.to_N x <= 122)%N
    | "+"%byte => c = ["+"%byte] \/ c = ["-"%byte]
    | _ => c = [b]
    end) (list_byte_of_string pattern) cs.
Definition is_stamp (nd : char -> bool) (cs : list char) : Prop :=
  fits nd "0000-00-00 00:00:00 +0000" cs \/ fits nd "0000-00-00 00:00:00.000000000 +0000" cs \/
  fits nd "Aaa Aaa 00 00:00:00 0000 +0000" cs.
(* the time stamp at the beginning of [rest], if there is one *)
Definition stamp_of (nd : char -> bool) (rest : list char) (o : option (list char)) : Prop :=
  match o with
  | Some st => is_stamp nd st /\ exists more, rest = st ++ more
  | None => forall st more, rest = st ++ more -> ~ is_stamp nd st
  end.
Definition first_not_blank (rest : list char) : Prop := match rest with c :: _ => ~ blank c | [] => True end.
(* a file name in quotes, blanks, the rest *)
Definition quoted_name (cs name rest : list char) : Prop := exists w,
  name <> [] /\ ~ In ["""" % byte] name /\ blanks w /\ first_not_blank rest /\
  cs = asc """" ++ name ++ asc """" ++ w ++ rest.
(* a file name without blanks, blanks, the rest *)
Definition plain_name (cs name rest : list char) : Prop := exists w,
  name <> [] /\ Forall (fun c => ~ blank c) name /\ blanks w /\ first_not_blank rest /\ cs = name ++ w ++ rest.
(* the name is in quotes if it can be *)
Definition name_and_rest (cs name rest : list char) : Prop :=
  quoted_name cs name rest \/ (plain_name cs name rest /\ forall n r, ~ quoted_name cs n r).

(* ---------------- clumps ---------------- *)
Definition starts_with (markers : list byte) (l : line) : bool :=
  match l with m :: _ => existsb (Byte.eqb m) markers | [] => false end.
Definition context_line : line -> bool := starts_with [" "%byte].
Definition changed_line : line -> bool := starts_with ["-"%byte; "+"%byte].
(* the lines of the old and of the new text in a clump, and these without their markers *)
Definition old_lines : list line -> list line := filter (starts_with [" "%byte; "-"%byte]).
Definition new_lines : list line -> list line := filter (starts_with [" "%byte; "+"%byte]).
Definition unmark : list line -> list line := map (@tl byte).

Definition header_of (h : hunk line) : starts_lengths :=
  SLs (SL (Z.of_nat (h_b h)) (Z.of_nat (length (h_old h)))) (SL (Z.of_nat (h_a h)) (Z.of_nat (length (h_new h)))).

(* the marked lines of a hunk: leading context, a part that begins and ends with a changed
   line, trailing context *)
Definition marked_as (l t : nat) (body : list line) : Prop := exists lead mid trail,
  body = lead ++ mid ++ trail /\ length lead = l /\ length trail = t /\
  Forall (fun x => context_line x = true) lead /\ Forall (fun x => context_line x = true) trail /\
  (exists x more, mid = x :: more /\ changed_line x = true) /\
  (exists more x, mid = more ++ [x] /\ changed_line x = true) /\
  Forall (fun x => context_line x = true \/ changed_line x = true) mid.

(* the last line of a list of lines has a newline *)
Definition last_has_newline (ls : list line) : Prop := exists pre l, ls = pre ++ [l] /\ ends_in_newline l.
(* the printed lines: the marked lines, and if the last one has no newline a newline, a
   backslash and a newline *)
Definition with_marker (body printed : list line) : Prop :=
  (last_has_newline body /\ printed = body) \/ (~ last_has_newline body /\ printed = body ++ [[newline; "\"%byte; newline]]).

(* at most n context lines in a row *)
Definition context_runs_within (n : nat) (ls : list line) : Prop :=
  forall x y z, ls = x ++ y ++ z -> Forall (fun l => context_line l = true) y -> length y <= n.

(* numbers of context lines at both ends of a clump; without a changed line they all count
   as leading *)
Definition context_lengths (ls : list line) (l t : nat) : Prop :=
  (Forall (fun x => context_line x = true) ls /\ l = length ls /\ t = 0) \/ marked_as l t ls.
(* ls has as many old and new lines as the header announces, or more *)
Definition reaches (h : starts_lengths) (ls : list line) : Prop :=
  (sl_length (sls_before h) <= Z.of_nat (length (old_lines ls)))%Z /\
  (sl_length (sls_after h) <= Z.of_nat (length (new_lines ls)))%Z.
Definition marked_line (l : line) : Prop := context_line l = true \/ changed_line l = true.

(* the printed form [t] of the hunk [h], with the marked lines [body] *)
Definition printed (h : hunk line) (body : list line) (t : unified_text) : Prop :=
  header_written (ut_header t) (Z.of_nat (h_b h)) (Z.of_nat (length (h_old h))) (Z.of_nat (h_a h)) (Z.of_nat (length (h_new h))) /\
  with_marker body (ut_lines t) /\
  marked_as (h_lead h) (h_trail h) body /\
  unmark (old_lines body) = h_old h /\ length (new_lines body) = length (h_new h).

(* ---------------- parsing a clump ---------------- *)
(* at line i there is a clump header h, followed by the marked lines ls, then rest *)
Definition clump_at (nd : char -> bool) (lines : list line) (i : nat) (h : starts_lengths) (ls rest : list line) : Prop :=
  exists pre hl, lines = pre ++ hl :: ls ++ rest /\ length pre = i /\
    starts_and_lengths nd hl i = DOk (Some h) /\ Forall marked_line ls.
(* ls is just long enough for the header h *)
Definition just_reaches (h : starts_lengths) (ls : list line) : Prop :=
  reaches h ls /\ forall p q, ls = p ++ q -> q <> [] -> ~ reaches h p.
Definition backslash_first (rest : list line) : Prop := exists s more, rest = ("\"%byte :: s) :: more.
(* l' is l without the blanks at its end *)
Definition trimmed (l l' : line) : Prop := exists cs ws,
  chars l = cs ++ ws /\ l' = concat cs /\ Forall blank ws /\ (forall pre c, cs = pre ++ [c] -> ~ blank c).
Definition trimmed_last (ls ls' : list line) : Prop := exists pre l l', ls = pre ++ [l] /\ ls' = pre ++ [l'] /\ trimmed l l'.

(* the clump read from the header h, the lines ls and what follows *)
Definition clump_read (h : starts_lengths) (ls rest : list line) (c : unified_clump) : Prop :=
  uc_header c = h /\
  (exists l t, context_lengths ls l t /\ uc_context c = (Z.of_nat l mod 256, Z.of_nat t mod 256)%Z) /\
  ((~ backslash_first rest /\ uc_before c = old_lines ls /\ uc_after c = new_lines ls /\ uc_consumed c = 1 + length ls) \/
   (backslash_first rest /\ uc_consumed c = 2 + length ls /\ exists pre l, ls = pre ++ [l] /\
      ((starts_with ["+"%byte] l = true /\ uc_before c = old_lines ls /\ trimmed_last (new_lines ls) (uc_after c)) \/
       (starts_with ["+"%byte] l = false /\ trimmed_last (old_lines ls) (uc_before c) /\ uc_after c = new_lines ls)))).

(* the outcomes of get_from_at *)
Inductive outcome (nd : char -> bool) (dbg : bool) (lines : list line) (i : nat) : res (dres (option unified_clump)) -> Prop :=
| outcome_range : length lines < i -> outcome nd dbg lines i Panic
| outcome_end : length lines = i -> outcome nd dbg lines i (Ok (DOk None))
| outcome_none pre hl rest : lines = pre ++ hl :: rest -> length pre = i -> starts_and_lengths nd hl i = DOk None -> outcome nd dbg lines i (Ok (DOk None))
| outcome_header pre hl rest e : lines = pre ++ hl :: rest -> length pre = i -> starts_and_lengths nd hl i = DErr e -> outcome nd dbg lines i (Ok (DErr e))
| outcome_clump h ls rest c : clump_at nd lines i h ls rest -> just_reaches h ls -> clump_read h ls rest c ->
    (dbg = true -> context_runs_within 255 ls) -> outcome nd dbg lines i (Ok (DOk (Some c)))
| outcome_empty h rest : clump_at nd lines i h [] rest -> reaches h [] -> backslash_first rest -> outcome nd dbg lines i Panic
| outcome_short h ls : clump_at nd lines i h ls [] -> ~ reaches h ls -> (dbg = true -> context_runs_within 255 ls) ->
    outcome nd dbg lines i (Ok (DErr UnexpectedEndOfInput))
| outcome_stray h ls l rest : clump_at nd lines i h ls (l :: rest) -> ~ marked_line l -> ~ reaches h ls -> (dbg = true -> context_runs_within 255 ls) ->
    outcome nd dbg lines i (Ok (DErr (UnexpectedEndClump (i + length ls + 1))))
| outcome_overflow h ls l rest : clump_at nd lines i h (ls ++ [l]) rest -> ~ reaches h ls -> dbg = true ->
    ~ context_runs_within 255 (ls ++ [l]) -> outcome nd dbg lines i Panic.

(* the text of a printed clump: the header line, then the lines *)
Definition written_out (t : unified_text) : list byte := ut_header t ++ [newline] ++ concat (ut_lines t).
(* how positions are written in unified diffs: lines count from 1, and for no lines the
   number of the line before *)
Definition unified_position (start length : nat) : nat := if length =? 0 then start else S start.

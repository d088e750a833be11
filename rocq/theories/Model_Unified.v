(* Model_Unified.v - pw_cub_diff_lib/src/unified_diff.rs and the error types of
   pw_cub_diff_lib/src/text_diff.rs. *)
From Coq Require Import String.
From Verif Require Import Base Model_Seq Model_Changes Model_Json Model_Regex.
Local Open Scope Z_scope.

(* pw_cub_diff_lib/src/text_diff.rs:7-13  DiffParseError (the ParseIntError is left out) *)
Inductive parse_error :=
| ParseNumberError (line_number : nat)
| UnexpectedEndOfInput
| UnexpectedEndClump (line_number : nat)
| SyntaxError (line_number : nat).

(* text_diff.rs:24  DiffParseResult<T> *)
Inductive dres (A : Type) := DOk (a : A) | DErr (e : parse_error).
Arguments DOk {A} a.
Arguments DErr {A} e.
Definition dbind {A B} (m : dres A) (k : A -> dres B) : dres B :=
  match m with DOk a => k a | DErr e => DErr e end.

(* text_diff.rs:39-43, 45-49 *)
Record path_stamp := PathStamp { ps_path : list byte; ps_stamp : option (list byte) }.
Record start_length := SL { sl_start : Z; sl_length : Z }.

(* <usize as FromStr>::from_str *)
Definition usize_from_str (s : list byte) : option Z :=
  let digits := match s with x2b :: ((_ :: _) as r) => r | _ => s end in
  match digits with
  | [] => None
  | _ :: _ =>
      match parse_digits digits 0 with
      | (v, []) => if in_usize v then Some v else None
      | _ => None
      end
  end.

(* unified_diff.rs:72-76 *)
Record starts_lengths := SLs { sls_before : start_length; sls_after : start_length }.

(* unified_diff.rs:78-104  impl Display for StartsAndLengths *)
Definition header_text (h : starts_lengths) : list byte :=
  let b := sls_before h in
  let a := sls_after h in
  if sl_length b =? 1 then
    if sl_length a =? 1 then
      str "@@ -" ++ dec (sl_start b) ++ str " +" ++ dec (sl_start a) ++ str " @@"
    else
      str "@@ -" ++ dec (sl_start b) ++ str " +" ++ dec (sl_start a) ++ str "," ++ dec (sl_length a) ++ str " @@"
  else if sl_length a =? 1 then
    str "@@ -" ++ dec (sl_start b) ++ str "," ++ dec (sl_length b) ++ str " +" ++ dec (sl_start a) ++ str " @@"
  else
    str "@@ -" ++ dec (sl_start b) ++ str "," ++ dec (sl_length b) ++ str " +" ++ dec (sl_start a)
    ++ str "," ++ dec (sl_length a) ++ str " @@".

(* the &str of a capture group *)
Definition group_text (n : nat) (c : @caps char) : option (list byte) :=
  option_map (@concat byte) (@group char n c).

(* unified_diff.rs:30-41.  [None]: no match; the unwrap at line 34 is the [Panic]. *)
Definition path_and_time_stamp_from_captures (c : @caps char) : res path_stamp :=
  let! file_path :=
    match group_text 2 c with
    | Some path => Ok path
    | None => match group_text 3 c with Some path => Ok path | None => Panic end
    end in
  Ok (PathStamp file_path (group_text 4 c)).

Section Parser.
  Variable nd : char -> bool.   (* the decimal digits beyond ASCII, see Model_Regex.v *)
  Variable dbg : bool.          (* overflow checks *)

  (* unified_diff.rs:43-46, 48-51 *)
  Definition path_and_time_stamp (r : re char) (l : line) : res (option path_stamp) :=
    match captures r (chars l) with
    | None => Ok None
    | Some c => let! p := path_and_time_stamp_from_captures c in Ok (Some p)
    end.
  Definition before_path_and_time_stamp : line -> res (option path_stamp) :=
    path_and_time_stamp (BEFORE_PATH_REGEX nd).
  Definition after_path_and_time_stamp : line -> res (option path_stamp) :=
    path_and_time_stamp (AFTER_PATH_REGEX nd).

  (* unified_diff.rs:53-70 *)
  Definition start_and_length_from_captures (c : @caps char) (start_group length_group : nat) (line_number : nat)
    : dres start_length :=
    dbind
      match group_text start_group c with
      | Some m => match usize_from_str m with Some v => DOk v | None => DErr (ParseNumberError line_number) end
      | None => DErr (SyntaxError line_number)
      end (fun start =>
    dbind
      match group_text length_group c with
      | Some m => match usize_from_str m with Some v => DOk v | None => DErr (ParseNumberError line_number) end
      | None => DOk 1
      end (fun length =>
    DOk (SL start length))).

  (* unified_diff.rs:106-118 *)
  Definition starts_and_lengths (l : line) (line_number : nat) : dres (option starts_lengths) :=
    match captures (CLUMP_HEADER_REGEX nd) (chars l) with
    | Some c =>
        dbind (start_and_length_from_captures c 1 3 line_number) (fun before =>
        dbind (start_and_length_from_captures c 4 6 line_number) (fun after =>
        DOk (Some (SLs before after))))
    | None => DOk None
    end.

  (* unified_diff.rs:120-126 *)
  Record unified_clump := UClump {
    uc_header : starts_lengths;
    uc_before : list line;
    uc_after : list line;
    uc_context : Z * Z;
    uc_consumed : nat }.

  (* += 1 on a u8 *)
  Definition u8_incr (n : Z) : res Z :=
    if n <? 255 then Ok (n + 1) else if dbg then Panic else Ok 0.

  (* the values of last_line_type: "X", "-", "+" *)
  Inductive line_type := TypeX | TypeMinus | TypePlus.

  (* the variables of the loop, unified_diff.rs:139-145 *)
  Record pstate := PState {
    p_start : Z; p_end : Z; p_front : bool;
    p_before : list line; p_after : list line; p_index : nat; p_last : line_type }.
  Definition p_init : pstate := PState 0 0 true [] [] 0 TypeX.

  (* unified_diff.rs:150-173: one line of the clump *)
  Definition take_line (start_index : nat) (st : pstate) (l : line) : res (dres pstate) :=
    match l with
    | x2d :: _ =>
        Ok (DOk (PState (p_start st) 0 false (p_before st ++ [l]) (p_after st) (S (p_index st)) TypeMinus))
    | x2b :: _ =>
        Ok (DOk (PState (p_start st) 0 false (p_before st) (p_after st ++ [l]) (S (p_index st)) TypePlus))
    | x20 :: _ =>
        let! (s, e) :=
          (if p_front st then let! s := u8_incr (p_start st) in Ok (s, p_end st)
           else let! e := u8_incr (p_end st) in Ok (p_start st, e)) in
        Ok (DOk (PState s e (p_front st) (p_before st ++ [l]) (p_after st ++ [l]) (S (p_index st)) TypeMinus))
    | _ => Ok (DErr (UnexpectedEndClump (start_index + p_index st + 1)))
    end.

  (* unified_diff.rs:146-174: the while loop; the result also holds the unread lines *)
  Fixpoint take_lines (h : starts_lengths) (start_index : nat) (st : pstate) (iter : list line)
    : res (dres (pstate * list line)) :=
    if (zlen (p_before st) <? sl_length (sls_before h)) || (zlen (p_after st) <? sl_length (sls_after h)) then
      match iter with
      | [] => Ok (DErr UnexpectedEndOfInput)
      | l :: iter' =>
          let! r := take_line start_index st l in
          match r with
          | DErr e => Ok (DErr e)
          | DOk st' => take_lines h start_index st' iter'
          end
      end
    else Ok (DOk (st, iter)).

  (* let line = v.pop().unwrap(); v.push(line.trim_end().to_string()) *)
  Definition trim_last (ls : list line) : res (list line) :=
    match rev ls with
    | [] => Panic
    | l :: r => Ok (rev (trim_end l :: r))
    end.

  (* unified_diff.rs:174-191 *)
  Definition no_newline_marker (st : pstate) (iter : list line) : res (list line * list line * nat) :=
    match iter with
    | (x5c :: _) :: _ =>
        match p_last st with
        | TypeMinus =>
            let! b := trim_last (p_before st) in Ok (b, p_after st, (p_index st + 2)%nat)
        | TypePlus =>
            let! a := trim_last (p_after st) in Ok (p_before st, a, (p_index st + 2)%nat)
        | TypeX =>
            let! b := trim_last (p_before st) in
            let! a := trim_last (p_after st) in
            Ok (b, a, (p_index st + 2)%nat)
        end
    | _ => Ok (p_before st, p_after st, (p_index st + 1)%nat)
    end.

  (* unified_diff.rs:128-199  UnifiedDiffClump::get_from_at *)
  Definition get_from_at (lines : list line) (start_index : nat) : res (dres (option unified_clump)) :=
    let! iter := subsequence lines (range_from lines start_index) in
    match iter with
    | [] => Ok (DOk None)
    | l :: iter1 =>
        match starts_and_lengths l start_index with
        | DErr e => Ok (DErr e)
        | DOk None => Ok (DOk None)
        | DOk (Some h) =>
            let! r := take_lines h start_index p_init iter1 in
            match r with
            | DErr e => Ok (DErr e)
            | DOk (st, iter2) =>
                let! (b, a, n) := no_newline_marker st iter2 in
                Ok (DOk (Some (UClump h b a (p_start st, p_end st) n)))
            end
        end
    end.

  (* unified_diff.rs:202-222  impl ChangeBasics for UnifiedDiffClump *)
  Definition uc_before_start (c : unified_clump) (reverse : bool) : Z :=
    if reverse then sl_start (sls_after (uc_header c)) else sl_start (sls_before (uc_header c)).
  Definition uc_before_length (c : unified_clump) (reverse : bool) : Z :=
    if reverse then sl_length (sls_after (uc_header c)) else sl_length (sls_before (uc_header c)).
  Definition uc_before_end (c : unified_clump) (reverse : bool) : res Z :=
    uadd dbg (uc_before_start c reverse) (uc_before_length c reverse).

  (* unified_diff.rs:229-243 *)
  Definition uc_before_lines (c : unified_clump) (r : option range) (reverse : bool) : res (list line) :=
    let ls := if reverse then uc_after c else uc_before c in
    match r with
    | Some r => slice ls (r_start r) (r_end r)
    | None => Ok ls
    end.
End Parser.

(* ------------------------------------------------------------------ *)
(* Printing                                                            *)
(* ------------------------------------------------------------------ *)
(* unified_diff.rs:246-249 *)
Record unified_text := UText { ut_header : list byte; ut_lines : list line }.

(* for line in seq.subsequence(range) { lines.push(format!("{marker}{line}")) } *)
Definition marked_lines (marker : byte) (seq : list line) (r : range) : res (list line) :=
  let! ls := subsequence seq r in Ok (map (cons marker) ls).

(* unified_diff.rs:280-316: the lines of one change *)
Definition unified_change (before after : list line) (c : change) : res (list line) :=
  match c with
  | NoChange m => marked_lines x20 before (cs_before_range m)
  | Delete r _ => marked_lines x2d before r
  | Insert _ r => marked_lines x2b after r
  | Replace rb ra =>
      if (range_len rb <? range_len ra)%nat then
        let! ls := marked_lines x2d before rb in
        let! ls' := marked_lines x2b after ra in
        Ok (ls ++ ls')
      else
        let! ls := marked_lines x2b after ra in
        let! ls' := marked_lines x2d before rb in
        Ok (ls ++ ls')
  end.
Fixpoint unified_lines (before after : list line) (c : clump) : res (list line) :=
  match c with
  | [] => Ok []
  | ch :: c' =>
      let! ls := unified_change before after ch in
      let! ls' := unified_lines before after c' in
      Ok (ls ++ ls')
  end.

(* str::ends_with("\n") *)
Definition ends_with_newline (l : line) : bool :=
  match rev l with c :: _ => is_newline c | [] => false end.

(* unified_diff.rs:260-326: one step of the iterator, for a clump that is not empty *)
Definition unified_clump_text (before after : list line) (c : clump) : res unified_text :=
  let (before_start, after_start) := clump_starts c in
  let (before_end, after_end) := clump_ends c in
  let! before_length := usub before_end before_start in
  let! after_length := usub after_end after_start in
  let header := header_text (SLs (SL (Z.of_nat before_start) (Z.of_nat before_length))
                                 (SL (Z.of_nat after_start) (Z.of_nat after_length))) in
  let! lines := unified_lines before after c in
  match rev lines with
  | [] => Panic
  | l :: _ => Ok (UText header (if ends_with_newline l then lines else lines ++ [[x0a; x5c; x0a]]))
  end.

Fixpoint unified_texts (before after : list line) (cs : list clump) : res (list unified_text) :=
  match cs with
  | [] => Ok []
  | c :: cs' =>
      let! t := unified_clump_text before after c in
      let! ts := unified_texts before after cs' in
      Ok (t :: ts)
  end.

(* unified_diff.rs:251-327: collecting UnifiedClumpIter { before, after, iter } where iter
   walks the clumps of the changes between the same two sequences *)
Definition unified_diff (context : nat) (before after : list line) : res (list unified_text) :=
  let! changes := text_changes before after in
  let! clumps := change_clumps context changes in
  unified_texts before after clumps.

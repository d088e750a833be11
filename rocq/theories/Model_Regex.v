(* Model_Regex.v - the part of the regex crate that pw_cub_diff_lib uses: a backtracking
   matcher with the crate's documented "leftmost-first" preference order (greedy
   repetition tries more before fewer, alternation tries left before right), capture
   groups, ^ and $ (start and end of the text only).  The crate runs other engines, but
   documents this result for them.  Repetition bodies in the modelled expressions never
   match the empty text, so the crate's rule for empty iterations does not matter. *)
From Coq Require Import String.
From Verif Require Import Base Model_Seq.

Section Matcher.
  Context {C : Type}.

  Inductive re :=
  | Eps
  | Cls (p : C -> bool)
  | Cat (r1 r2 : re)
  | Alt (r1 r2 : re)
  | Star (r : re)
  | Grp (n : nat) (r : re)
  | Bol
  | Eol.

  Definition Plus (r : re) : re := Cat r (Star r).
  Definition Opt (r : re) : re := Alt r Eps.
  Fixpoint Rep (n : nat) (r : re) : re :=
    match n with O => Eps | S n' => Cat r (Rep n' r) end.

  (* group number and text matched last, most recent first *)
  Definition caps := list (nat * list C).

  (* [total]: length of the whole text; [s]: the text from the current position;
     [k]: what has to match afterwards *)
  Fixpoint bt (total : nat) (r : re) (s : list C) (c : caps)
           (k : list C -> caps -> option caps) : option caps :=
    match r with
    | Eps => k s c
    | Cls p => match s with x :: s' => if p x then k s' c else None | [] => None end
    | Cat r1 r2 => bt total r1 s c (fun s' c' => bt total r2 s' c' k)
    | Alt r1 r2 =>
        match bt total r1 s c k with Some x => Some x | None => bt total r2 s c k end
    | Star r1 =>
        (fix loop (n : nat) (s : list C) (c : caps) : option caps :=
           match n with
           | O => k s c
           | S n' =>
               match bt total r1 s c
                        (fun s' c' => if length s' <? length s then loop n' s' c' else None) with
               | Some x => Some x
               | None => k s c
               end
           end) (length s) s c
    | Grp n r1 =>
        bt total r1 s c (fun s' c' => k s' ((n, firstn (length s - length s') s) :: c'))
    | Bol => if length s =? total then k s c else None
    | Eol => match s with [] => k s c | _ :: _ => None end
    end.

  (* Regex::captures: the leftmost match *)
  Fixpoint search (total : nat) (r : re) (s : list C) : option caps :=
    match bt total r s [] (fun _ c => Some c) with
    | Some c => Some c
    | None => match s with [] => None | _ :: s' => search total r s' end
    end.
  Definition captures (r : re) (s : list C) : option caps := search (length s) r s.

  (* Captures::get *)
  Fixpoint group (n : nat) (c : caps) : option (list C) :=
    match c with
    | [] => None
    | (m, t) :: c' => if Nat.eqb m n then Some t else group n c'
    end.
End Matcher.
Arguments re : clear implicits.

(* ------------------------------------------------------------------ *)
(* Characters: the bytes that encode one char of a str                  *)
(* ------------------------------------------------------------------ *)
Definition char := list byte.
Definition char_eqb : char -> char -> bool := line_eqb.

(* str::chars: a continuation byte belongs to the character before it *)
Fixpoint chars (s : list byte) : list char :=
  match s with
  | [] => []
  | b :: s' =>
      match chars s' with
      | (b1 :: c) :: cs => if is_cont b1 then (b :: b1 :: c) :: cs else [b] :: (b1 :: c) :: cs
      | cs => [b] :: cs
      end
  end.

(* char::is_whitespace and \s: the Unicode White_Space characters
   U+0009-000D, 0020, 0085, 00A0, 1680, 2000-200A, 2028, 2029, 202F, 205F, 3000 *)
Definition white_list : list char :=
  [[x09]; [x0a]; [x0b]; [x0c]; [x0d]; [x20]; [xc2; x85]; [xc2; xa0]; [xe1; x9a; x80];
   [xe2; x80; x80]; [xe2; x80; x81]; [xe2; x80; x82]; [xe2; x80; x83]; [xe2; x80; x84];
   [xe2; x80; x85]; [xe2; x80; x86]; [xe2; x80; x87]; [xe2; x80; x88]; [xe2; x80; x89];
   [xe2; x80; x8a]; [xe2; x80; xa8]; [xe2; x80; xa9]; [xe2; x80; xaf]; [xe2; x81; x9f];
   [xe3; x80; x80]].
Definition white (c : char) : bool := existsb (char_eqb c) white_list.

(* str::trim_end *)
Fixpoint drop_white (cs : list char) : list char :=
  match cs with
  | c :: cs' => if white c then drop_white cs' else cs
  | [] => []
  end.
Definition trim_end (s : list byte) : list byte := concat (rev (drop_white (rev (chars s)))).

(* an ASCII character in a range; a given ASCII character *)
Definition ascii_in (lo hi : N) (c : char) : bool :=
  match c with [b] => byte_in lo hi b | _ => false end.
Definition is_char (b : byte) (c : char) : bool := char_eqb c [b].

Section Classes.
  (* \d is the Unicode class Nd.  Which characters beyond ASCII it contains depends on
     the Unicode version of the crate, so that part is a parameter. *)
  Variable nd : char -> bool.
  Definition digit_class (c : char) : bool :=
    match c with [b] => byte_in 48 57 b | _ => nd c end.

  Definition ch (b : byte) : re char := Cls (is_char b).
  (* literal text *)
  Fixpoint text_re (s : list byte) : re char :=
    match s with [] => Eps | b :: s' => Cat (ch b) (text_re s') end.
  Definition txt (s : string) : re char := text_re (list_byte_of_string s).
  Definition d_re : re char := Cls digit_class.                     (* \d *)
  Definition s_re : re char := Cls white.                           (* \s *)
  Definition not_s_re : re char := Cls (fun c => negb (white c)).   (* \S *)
  Definition dot_re : re char := Cls (fun c => negb (is_char newline c)).  (* . *)
  Definition upper_re : re char := Cls (ascii_in 65 90).            (* [A-Z] *)
  Definition lower_re : re char := Cls (ascii_in 97 122).           (* [a-z] *)
  Definition sign_re : re char := Cls (fun c => is_char x2d c || is_char x2b c). (* [-+] *)
  Definition not_quote_re : re char := Cls (fun c => negb (is_char x22 c)).      (* anything but a double quote *)

  Infix "&" := Cat (at level 60, right associativity).

  (* unified_diff.rs:26-27  ^@@\s+-(\d+)(,(\d+))?\s+\+(\d+)(,(\d+))?\s+@@\s*(. * )(\n)?$ (blanks inserted in the last-but-one group only) *)
  Definition CLUMP_HEADER_REGEX : re char :=
    Bol & txt "@@" & Plus s_re & ch x2d & Grp 1 (Plus d_re) & Opt (Grp 2 (ch x2c & Grp 3 (Plus d_re)))
    & Plus s_re & ch x2b & Grp 4 (Plus d_re) & Opt (Grp 5 (ch x2c & Grp 6 (Plus d_re)))
    & Plus s_re & txt "@@" & Star s_re & Grp 7 (Star dot_re) & Opt (Grp 8 (ch newline)) & Eol.

  (* lib.rs:6  \d{4}-\d{2}-\d{2} \d{2}:\d{2}:\d{2}(\.\d{9})? [-+]{1}\d{4}  (its group is number 5) *)
  Definition TIMESTAMP_RE : re char :=
    Rep 4 d_re & txt "-" & Rep 2 d_re & txt "-" & Rep 2 d_re & txt " " & Rep 2 d_re & txt ":"
    & Rep 2 d_re & txt ":" & Rep 2 d_re & Opt (Grp 5 (ch x2e & Rep 9 d_re)) & txt " "
    & Rep 1 sign_re & Rep 4 d_re.
  (* lib.rs:7-8  [A-Z][a-z]{2} [A-Z][a-z]{2} \d{2} \d{2}:\d{2}:\d{2} \d{4} [-+]{1}\d{4} *)
  Definition ALT_TIMESTAMP_RE : re char :=
    upper_re & Rep 2 lower_re & txt " " & upper_re & Rep 2 lower_re & txt " " & Rep 2 d_re & txt " "
    & Rep 2 d_re & txt ":" & Rep 2 d_re & txt ":" & Rep 2 d_re & txt " " & Rep 4 d_re & txt " "
    & Rep 1 sign_re & Rep 4 d_re.
  (* lib.rs:9: text between double quotes (group 2), or else non-blanks (group 3) *)
  Definition PATH_RE : re char :=
    Alt (ch x22 & Grp 2 (Plus not_quote_re) & ch x22) (Grp 3 (Plus not_s_re)).
  (* unified_diff.rs:20-24  ^<marker>(PATH)\s+(TIMESTAMP|ALT_TIMESTAMP)?(. * )(\n)?$ *)
  Definition path_regex (marker : string) : re char :=
    Bol & txt marker & Grp 1 PATH_RE & Plus s_re & Opt (Grp 4 (Alt TIMESTAMP_RE ALT_TIMESTAMP_RE))
    & Grp 6 (Star dot_re) & Opt (Grp 7 (ch newline)) & Eol.
  Definition BEFORE_PATH_REGEX : re char := path_regex "--- ".
  Definition AFTER_PATH_REGEX : re char := path_regex "+++ ".
End Classes.

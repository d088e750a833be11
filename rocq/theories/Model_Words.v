(* Model_Words.v - the texts of the messages: the format strings of log::error!, log::warn! and
   log::info! in pw_diff_lib/src/apply_text.rs:276-384, apply_bytes.rs:47-66, pw_diff/src/main.rs:42-50
   and pw_patch/src/main.rs:38-239.  The text of an error ({err}) comes from the standard
   library or serde_json and is a parameter.  {:?} of a path, a pair and a structure are the
   standard library's Debug (modelled from knowledge of its behaviour). *)
From Coq Require Import String.
From Verif Require Import Base Model_Seq Model_Changes Model_IO Model_Text Model_Bytes Model_Json Model_Files Model_Log.
Local Open Scope Z_scope.

(* Display of isize, usize, i32, u8 *)
Definition show (z : Z) : list byte := if z <? 0 then x2d :: dec (- z) else dec z.

(* ---------------- Debug of a path ---------------- *)
Definition hex_upper (n : N) : byte :=
  match Byte.of_N (if (n <? 10)%N then 48 + n else 55 + n) with Some b => b | None => x00 end.
(* {:x} *)
Fixpoint hex_loop (fuel : nat) (n : N) : list byte :=
  match fuel with
  | O => []
  | S fuel' => if (n <? 16)%N then [hex_digit n] else hex_loop fuel' (n / 16)%N ++ [hex_digit (n mod 16)%N]
  end.
Definition hex (n : N) : list byte := hex_loop 8 n.
(* the number of bytes of the UTF-8 character with this first byte *)
Definition char_len (b : byte) : nat :=
  if byte_in 0 127 b then 1 else if byte_in 194 223 b then 2 else if byte_in 224 239 b then 3 else if byte_in 240 244 b then 4 else 0.
(* the character at the beginning, if it is valid (Utf8Chunks) *)
Definition char_at (s : list byte) : option (list byte) :=
  match s with
  | [] => None
  | b :: _ => let c := firstn (char_len b) s in
      if (0 <? char_len b)%nat && (List.length c =? char_len b)%nat && utf8_valid c then Some c else None
  end.
Definition scalar_of (c : list byte) : N :=
  match map Byte.to_N c with
  | [x] => x
  | [x; y] => (x - 192) * 64 + (y - 128)
  | [x; y; z] => (x - 224) * 4096 + (y - 128) * 64 + (z - 128)
  | [x; y; z; t] => (x - 240) * 262144 + (y - 128) * 4096 + (z - 128) * 64 + (t - 128)
  | _ => 0
  end%N.
Section Quote.
  Variable printable : list byte -> bool.   (* which characters beyond ASCII are shown as they are *)
  Variable single : bool.                   (* whether an apostrophe is escaped (older versions of the library) *)
  Definition escape_char (c : list byte) : list byte :=
    let unicode := str "\u{" ++ hex (scalar_of c) ++ str "}" in
    match c with
    | [x00] => str "\0" | [x09] => str "\t" | [x0d] => str "\r" | [x0a] => str "\n"
    | [x22] => str "\""" | [x5c] => str "\\"
    | [x27] => if single then str "\'" else [x27]
    | [b] => if byte_in 32 126 b then [b] else unicode
    | _ => if printable c then c else unicode
    end.
  Definition escape_invalid (b : byte) : list byte :=
    str "\x" ++ [hex_upper (Byte.to_N b / 16); hex_upper (Byte.to_N b mod 16)].
  (* [skip]: bytes of a character already dealt with *)
  Fixpoint escape_from (skip : nat) (s : list byte) : list byte :=
    match s, skip with
    | [], _ => []
    | _ :: r, S k => escape_from k r
    | b :: r, O => match char_at s with
                   | Some c => escape_char c ++ escape_from (List.length c - 1) r
                   | None => escape_invalid b ++ escape_from 0 r
                   end
    end.
  Definition quote (p : path) : list byte := x22 :: escape_from 0 p ++ [x22].

  (* ---------------- the messages ---------------- *)
  (* Debug of (u8, u8) *)
  Definition show_pair (r : Z * Z) : list byte := str "(" ++ show (fst r) ++ str ", " ++ show (snd r) ++ str ")".
  (* derived Debug of Statistics (apply_text.rs:241-248) *)
  Definition show_stats (s : statistics) : list byte :=
    str "Statistics { clean: " ++ show (Z.of_nat (st_clean s)) ++ str ", fuzzy: " ++ show (Z.of_nat (st_fuzzy s)) ++
    str ", already_applied: " ++ show (Z.of_nat (st_already s)) ++ str ", already_applied_fuzzy: " ++ show (Z.of_nat (st_already_fuzzy s)) ++
    str ", failed: " ++ show (Z.of_nat (st_failed s)) ++ str " }".
  Definition words (err : list byte) (m : message) : list byte :=
    match m with
    | AboutClump n v r o =>
        str "Clump #" ++ show (Z.of_nat n) ++
        match v, r, o with
        | Applies, None, None => str " applies cleanly."
        | Applies, Some r, None => str " applies with " ++ show_pair r ++ str " reductions."
        | Applies, None, Some o => str " applies with offset " ++ show o ++ str "."
        | Applies, Some r, Some o => str " applies with " ++ show_pair r ++ str " reductions and offset " ++ show o ++ str "."
        | AlreadyApplied, None, None => str " already applied"
        | AlreadyApplied, Some r, None => str " already applied with " ++ show_pair r ++ str " reductions."
        | AlreadyApplied, None, Some o => str " already applied with offset " ++ show o
        | AlreadyApplied, Some r, Some o => str " already applied with " ++ show_pair r ++ str " reductions and offset " ++ show o ++ str "."
        | NotApplied, _, _ => str " could NOT be applied!"
        | NotAlreadyApplied, _, _ => str " NOT already applied!"
        end
    | DiffFailed => str "Error: " ++ err
    | WritingDiffFailed => str "Error writing diff: " ++ err
    | OpeningFailed p => str "Error opening " ++ quote p ++ str ": " ++ err
    | BadPatch => str "Error reading patch file: " ++ err
    | ReadingFailed p => str "Error reading " ++ quote p ++ str ": " ++ err
    | TempOpenFailed => str "Error opening temporary file: " ++ err
    | RenameFailed => str "Error writing patched file: " ++ err
    | PatchFailed => str "Patch failed to apply: " ++ err
    | TempFailed => str "Error creating temp file: " ++ err
    | PatchDone (Some s) => show_stats s
    | PatchDone None => str "()"
    | Deleted p => quote p ++ str " deleted"
    | DeletionFailed p => quote p ++ str " deletion failed: " ++ err
    | Created p => quote p ++ str " created"
    | CreationFailed p => quote p ++ str " creation failed: " ++ err
    end.
End Quote.

(* Model_Seq.v - pw_diff_lib/src/range.rs, snippet.rs (data), sequence.rs
   (sequences, lines, indices). *)
From Verif Require Import Base.

(* range.rs:13-14  pub struct Range(pub usize, pub usize) *)
Record range := Range { r_start : nat; r_end : nat }.

(* range.rs:16-24  impl Len for Range *)
Definition range_len (r : range) : nat :=
  if r_start r <? r_end r then r_end r - r_start r else 0.

(* range.rs:35-37 *)
Definition range_is_valid (r : range) : bool := r_start r <=? r_end r.

(* range.rs:39-41 *)
Definition range_is_valid_for_max_end (r : range) (max_end : nat) : bool :=
  range_is_valid r && (r_end r <=? max_end).

(* A text line: the bytes of a Rust [String]. *)
Definition line := list byte.

(* sequence.rs:11-12  pub struct Seq<T>(pub Box<[T]>): [list T]. *)

(* sequence.rs:23-25 *)
Definition range_from {T} (s : list T) (from : nat) : range := Range from (length s).

(* sequence.rs:27-29: the iterator over self.0[range.0..range.1] *)
Definition subsequence {T} (s : list T) (r : range) : res (list T) :=
  slice s (r_start r) (r_end r).

Section Items.
  Context {T : Type} (eqb : T -> T -> bool).

  (* zip(..).all(|(b, a)| a == b) over two sequences (zip stops at the shorter) *)
  Fixpoint zip_all_eq (l r : list T) : bool :=
    match l, r with
    | x :: l', y :: r' => eqb y x && zip_all_eq l' r'
    | _, _ => true
    end.

  (* sequence.rs:31-40, on a machine-word position (positions come from a patch file).
     self.0[at..] cannot panic in the branch where it is evaluated. *)
  Definition has_subsequence_at_z (s sub : list T) (at_ : Z) : bool :=
    if (at_ <? zlen s)%Z && (zlen sub <=? zlen s - at_)%Z
    then zip_all_eq sub (skipn (Z.to_nat at_) s)
    else false.
End Items.

(* snippet.rs:8-12  pub struct Snippet<T> { start: usize, items: Box<[T]> } *)
Record snippet (T : Type) := Snippet { sn_start : Z; sn_items : list T }.
Arguments Snippet {T} _ _.
Arguments sn_start {T} _.
Arguments sn_items {T} _.

(* sequence.rs:42-46 *)
Definition extract_snippet {T} (s : list T) (r : range) : res (snippet T) :=
  let! items := slice s (r_start r) (r_end r) in
  Ok (Snippet (Z.of_nat (r_start r)) items).

(* ------------------------------------------------------------------ *)
(* Lines                                                               *)
(* ------------------------------------------------------------------ *)
Definition newline : byte := x0a.
Definition is_newline (c : byte) : bool := Byte.eqb c newline.

(* sequence.rs:74-78  text.split_inclusive('\n') *)
Fixpoint split_lines (s : list byte) : list line :=
  match s with
  | [] => []
  | c :: s' =>
      if is_newline c then [c] :: split_lines s'
      else match split_lines s' with
           | [] => [[c]]
           | l :: ls => (c :: l) :: ls
           end
  end.

(* std BufRead::read_until(b'\n'): the bytes up to and including the first newline,
   and the unread rest. *)
Fixpoint read_until_newline (s : list byte) : list byte * list byte :=
  match s with
  | [] => ([], [])
  | c :: s' =>
      if is_newline c then ([c], s')
      else let (l, r) := read_until_newline s' in (c :: l, r)
  end.

(* std str::from_utf8 (well-formed UTF-8, Unicode table 3-7), used by BufRead::read_line. *)
Definition byte_in (lo hi : N) (b : byte) : bool :=
  ((lo <=? Byte.to_N b) && (Byte.to_N b <=? hi))%N.
Definition is_cont (b : byte) : bool := byte_in 128 191 b.

Fixpoint utf8_valid (s : list byte) : bool :=
  match s with
  | [] => true
  | b0 :: r0 =>
      if byte_in 0 127 b0 then utf8_valid r0
      else if byte_in 194 223 b0 then
        match r0 with
        | b1 :: r1 => is_cont b1 && utf8_valid r1
        | _ => false
        end
      else if byte_in 224 239 b0 then
        match r0 with
        | b1 :: b2 :: r2 =>
            (if byte_in 224 224 b0 then byte_in 160 191 b1
             else if byte_in 237 237 b0 then byte_in 128 159 b1
             else is_cont b1)
            && is_cont b2 && utf8_valid r2
        | _ => false
        end
      else if byte_in 240 244 b0 then
        match r0 with
        | b1 :: b2 :: b3 :: r3 =>
            (if byte_in 240 240 b0 then byte_in 144 191 b1
             else if byte_in 244 244 b0 then byte_in 128 143 b1
             else is_cont b1)
            && is_cont b2 && is_cont b3 && utf8_valid r3
        | _ => false
        end
      else false
  end.

(* sequence.rs:49-63  Seq::<String>::read (same loop as text_diff.rs:141-158):
   read_line until it returns 0 bytes; read_line fails on a line that is not UTF-8.
   The reader is the file's content; [None] is io::Error(InvalidData).
   Fuel: one iteration per line plus one. *)
Fixpoint read_lines_loop (fuel : nat) (content : list byte) (lines : list line)
  : res (option (list line)) :=
  match fuel with
  | 0 => OutOfFuel
  | S fuel' =>
      let (l, rest) := read_until_newline content in
      if utf8_valid l then
        if length l =? 0 then Ok (Some lines)
        else read_lines_loop fuel' rest (lines ++ [l])
      else Ok None
  end.
Definition read_lines (content : list byte) : res (option (list line)) :=
  read_lines_loop (S (length content)) content [].

(* ------------------------------------------------------------------ *)
(* Content indices                                                     *)
(* ------------------------------------------------------------------ *)
Fixpoint list_eqb {T} (eqb : T -> T -> bool) (l r : list T) : bool :=
  match l, r with
  | [], [] => true
  | x :: l', y :: r' => eqb x y && list_eqb eqb l' r'
  | _, _ => false
  end.
Definition line_eqb : line -> line -> bool := list_eqb Byte.eqb.

(* sequence.rs:105-106  HashMap<String, Vec<usize>> as an association list *)
Definition string_indices := list (line * list nat).

Fixpoint smap_get (m : string_indices) (k : line) : option (list nat) :=
  match m with
  | [] => None
  | (k', v) :: m' => if line_eqb k' k then Some v else smap_get m' k
  end.
(* in-place update of the vector found by get_mut *)
Fixpoint smap_push (m : string_indices) (k : line) (i : nat) : string_indices :=
  match m with
  | [] => []
  | (k', v) :: m' => if line_eqb k' k then (k', v ++ [i]) :: m' else (k', v) :: smap_push m' k i
  end.

(* sequence.rs:109-120 *)
Fixpoint string_generate_loop (items : list line) (index : nat) (m : string_indices) : string_indices :=
  match items with
  | [] => m
  | l :: items' =>
      let m' := match smap_get m l with
                | Some _ => smap_push m l index
                | None => (l, [index]) :: m
                end in
      string_generate_loop items' (S index) m'
  end.
Definition string_generate_from (s : list line) : string_indices := string_generate_loop s 0 [].
(* sequence.rs:122-124 *)
Definition string_indices_of (m : string_indices) (item : line) : option (list nat) := smap_get m item.

(* sequence.rs:127-128  [Vec<usize>; 256] *)
Definition byte_indices := list (list nat).

Definition byte_index (b : byte) : nat := N.to_nat (Byte.to_N b).

(* indices[k].push(index) *)
Fixpoint array_push (a : byte_indices) (k : nat) (i : nat) : byte_indices :=
  match a, k with
  | [], _ => []
  | v :: a', 0 => (v ++ [i]) :: a'
  | v :: a', S k' => v :: array_push a' k' i
  end.

(* sequence.rs:131-138 *)
Fixpoint byte_generate_loop (items : list byte) (index : nat) (a : byte_indices) : byte_indices :=
  match items with
  | [] => a
  | b :: items' => byte_generate_loop items' (S index) (array_push a (byte_index b) index)
  end.
Definition byte_generate_from (s : list byte) : byte_indices := byte_generate_loop s 0 (repeat [] 256).
(* sequence.rs:140-147 *)
Definition byte_indices_of (a : byte_indices) (item : byte) : option (list nat) :=
  match nth (byte_index item) a [] with
  | [] => None
  | v => Some v
  end.

(* Model_Watch.v - Diff::new (pw_diff_lib/src/diff.rs:22-58) while other processes change the
   files.

   The function is a sequence of file operations, none of which changes anything; each of them
   finds the files as they are at its moment.  A file that is opened and then read gives its
   content at the opening, even if another file has taken its place by then (as in
   Model_Conc.v).  With files that do not change it is [diff_new] of Model_Files.v (theorem
   C109_alone). *)
From Verif Require Import Base Model_Seq Model_Changes Model_IO Model_Text Model_Bytes Model_Json Model_Files.

(* an answer, or an operation (what it finds, from its fault and the files) and what follows *)
Inductive look (A : Type) : Type :=
| Answer (o : outcome A)
| Look (B : Type) (f : fault -> fs -> B) (k : B -> look A).
Arguments Answer {A} o.
Arguments Look {A B} f k.
Definition l_ret {A} (a : A) : look A := Answer (Val a).
Definition l_pure {A} (m : res A) : look A :=
  Answer (match m with Ok a => Val a | Panic => Abort | OutOfFuel => Stuck end).
Fixpoint l_then {A B} (l : look A) (k : A -> look B) : look B :=
  match l with
  | Answer (Val a) => k a
  | Answer (Exit c) => Answer (Exit c)
  | Answer Abort => Answer Abort
  | Answer Stuck => Answer Stuck
  | Look f k' => Look f (fun b => l_then (k' b) k)
  end.
Notation "'see!' x ':=' e 'in' k" := (l_then e (fun x => k))
  (at level 200, x pattern, e at level 200, k at level 200, right associativity).

(* Path::exists *)
Definition l_exists (p : path) : look bool :=
  Look (fun flt f => match flt, f p with NoFault, Some _ => true | _, _ => false end) l_ret.
(* File::open, then reading to the end *)
Definition l_open (p : path) (flt : fault) (f : fs) : option (option (list byte)) :=
  match flt, f p with
  | NoFault, Some (File m d) => if readable m then Some (Some d) else None
  | NoFault, Some Dir => Some None
  | _, _ => None
  end.
Definition l_read (p : path) : look (option (list byte)) :=
  Look (l_open p) (fun h =>
    match h with
    | None => l_ret None
    | Some h => Look (fun flt _ => match flt with NoFault => h | _ => None end) l_ret
    end).

(* text_diff.rs:141-157, sequence.rs:49-63 *)
Definition l_text (p : path) : look (option (list line)) :=
  see! content := l_read p in
  match content with
  | Some d => l_pure (read_lines d)
  | None => l_ret None
  end.
(* text_diff.rs:93-107 *)
Definition l_text_change (before after : path) (context : nat) : look (option text_diff) :=
  see! b := l_text before in
  match b with
  | None => l_ret None
  | Some b =>
      see! a := l_text after in
      match a with
      | None => l_ret None
      | Some a =>
          see! clumps := l_pure (text_diff_clumps b a context) in
          l_ret (Some (TextDiff before after clumps))
      end
  end.
(* byte_diff.rs:97-112 *)
Definition l_byte_change (before after : path) (context : nat) : look (option byte_diff) :=
  see! b := l_read before in
  match b with
  | None => l_ret None
  | Some b =>
      see! a := l_read after in
      match a with
      | None => l_ret None
      | Some a =>
          see! clumps := l_pure (byte_diff_clumps b a context) in
          l_ret (Some (ByteDiff before after false clumps))
      end
  end.
(* diff.rs:23-58 *)
Definition l_diff_new (before after : path) (context : nat) : look (option diff) :=
  see! be := l_exists before in
  if be then
    see! ae := l_exists after in
    if ae then
      see! t := l_text_change before after context in
      match t with
      | Some d => l_ret (Some (TextChange d))
      | None =>
          see! d := l_byte_change before after context in
          l_ret (option_map' ByteChange d)
      end
    else
      see! t := l_text before in
      match t with
      | Some ls => l_ret (Some (TextRemove (PathAndLines before ls)))
      | None =>
          see! d := l_read before in
          l_ret (option_map' (fun b => ByteRemove (PathAndBytes before false b)) d)
      end
  else
    see! ae := l_exists after in
    if ae then
      see! t := l_text after in
      match t with
      | Some ls => l_ret (Some (TextAdd (PathAndLines before ls)))
      | None =>
          see! d := l_read after in
          l_ret (option_map' (fun b => ByteAdd (PathAndBytes before false b)) d)
      end
    else l_ret None.

(* The answer, and the number of operations: [at_ n] is the state at the operation [n]. *)
Fixpoint watch {A} (flt : nat -> fault) (at_ : nat -> fs) (n : nat) (l : look A) : outcome A * nat :=
  match l with
  | Answer o => (o, n)
  | Look f k => watch flt at_ (S n) (k (f (flt n) (at_ n)))
  end.
(* pw_diff/src/main.rs:38 with the files of each moment *)
Definition diff_while (E : env) (at_ : nat -> fs) (before after : path) (context : nat) : outcome (option diff) * nat :=
  watch (e_fault E) at_ 0 (l_diff_new before after context).

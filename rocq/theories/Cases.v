(* Cases.v - notation for concrete inputs: L "A B C " is the text with lines "A\n", "B\n",
   "C\n"; a missing final blank is a missing final newline. *)
From Coq Require Import String.
From Verif Require Import Base Model_Seq Model_IO.
Local Open Scope string_scope.

Definition nl : string := String (Coq.Strings.Ascii.ascii_of_nat 10) EmptyString.
(* "a b c" -> "a\nb\nc\n": every blank becomes a newline *)
Fixpoint blanks_to_nl (s : string) : string :=
  match s with
  | EmptyString => EmptyString
  | String c s' =>
      String (if Coq.Strings.Ascii.eqb c (Coq.Strings.Ascii.ascii_of_nat 32)
              then Coq.Strings.Ascii.ascii_of_nat 10 else c) (blanks_to_nl s')
  end.
Definition bs (s : string) : list byte := list_byte_of_string (blanks_to_nl s).
Definition L (s : string) : list line := split_lines (bs s).
Definition sink : writer := Writer [] None.

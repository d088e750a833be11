(* Model_IO.v - std::io::Write as used by the code, and
   pw_diff_lib/src/sequence.rs:150-260 (WriteDataInto, ConsumableSeq). *)
From Verif Require Import Base Model_Seq.

(* A writer: the bytes accepted so far, and how many more it will accept before
   failing ([None]: it never fails). *)
Record writer := Writer { w_out : list byte; w_room : option nat }.

(* Outcome of an io::Result<A>-returning computation. *)
Inductive ores (A : Type) : Type :=
| Done (a : A)
| IoErr
| Panicked
| NoFuel.
Arguments Done {A} a.
Arguments IoErr {A}.
Arguments Panicked {A}.
Arguments NoFuel {A}.

Definition io (A : Type) : Type := writer -> ores A * writer.

Definition ret {A} (a : A) : io A := fun w => (Done a, w).

(* the `?` operator *)
Definition iobind {A B} (m : io A) (k : A -> io B) : io B := fun w =>
  match m w with
  | (Done a, w') => k a w'
  | (IoErr, w') => (IoErr, w')
  | (Panicked, w') => (Panicked, w')
  | (NoFuel, w') => (NoFuel, w')
  end.

Notation "'do!' x ':=' e 'in' k" := (iobind e (fun x => k))
  (at level 200, x pattern, e at level 200, k at level 200, right associativity).

(* a pure computation inside an io function *)
Definition lift {A} (m : res A) : io A := fun w =>
  match m with
  | Ok a => (Done a, w)
  | Panic => (Panicked, w)
  | OutOfFuel => (NoFuel, w)
  end.

(* std::io::Write::write_all *)
Definition write_all (bytes : list byte) : io unit := fun w =>
  match w_room w with
  | None => (Done tt, Writer (w_out w ++ bytes) None)
  | Some n =>
      if length bytes <=? n
      then (Done tt, Writer (w_out w ++ bytes) (Some (n - length bytes)))
      else (IoErr, Writer (w_out w ++ firstn n bytes) (Some 0))
  end.

(* for datum in items { into.write_all(datum.as_bytes())?; } *)
Fixpoint write_lines (items : list line) : io unit :=
  match items with
  | [] => ret tt
  | l :: items' => do! _ := write_all l in write_lines items'
  end.

Section Consumable.
  (* [T = u8]: one write_all of the slice; [T = String]: one write_all per line. *)
  Context {T : Type} (write_items : list T -> io unit).
  Variable dbg : bool.
  Variable sequence : list T.
  Open Scope Z_scope.

  (* sequence.rs:155-159, 167-174  Seq::write_into(into, Range(s, e)) *)
  Definition seq_write_into (s e : Z) : io unit :=
    do! _ := lift (debug_assert dbg ((s <=? e) && (e <=? zlen sequence))) in
    do! items := lift (zslice sequence s e) in
    write_items items.

  (* ConsumableSeq { sequence, consumed }: methods that mutate return the new [consumed]. *)

  (* sequence.rs:238-240 *)
  Definition advance_consumed_by (consumed increment : Z) : res Z := uadd dbg consumed increment.

  (* sequence.rs:242-253 *)
  Definition write_into_upto (consumed upto : Z) : io Z :=
    do! _ := lift (debug_assert dbg (upto <=? zlen sequence)) in
    if consumed <? upto then
      do! _ := seq_write_into consumed upto in
      ret upto
    else ret consumed.

  (* sequence.rs:255-259 *)
  Definition write_remainder (consumed : Z) : io Z :=
    do! _ := seq_write_into consumed (zlen sequence) in
    ret (zlen sequence).
End Consumable.

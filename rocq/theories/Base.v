(* Base.v - outcomes, machine arithmetic and slices shared by all model files.
   Nothing here models a particular function of /repo; it models the Rust
   primitives the code is written in. *)
From Coq Require Export List Arith ZArith Lia Bool Permutation Sorted.
From Coq Require Export NArith.
From Coq.Strings Require Export Byte.
Export ListNotations.

(* Outcome of a computation: a value, a Rust panic, or (model artefact)
   exhaustion of the fuel that stands for an unbounded loop. *)
Inductive res (A : Type) : Type :=
| Ok (a : A)
| Panic
| OutOfFuel.
Arguments Ok {A} a.
Arguments Panic {A}.
Arguments OutOfFuel {A}.

Definition bind {A B} (m : res A) (k : A -> res B) : res B :=
  match m with
  | Ok a => k a
  | Panic => Panic
  | OutOfFuel => OutOfFuel
  end.

Notation "'let!' x ':=' e 'in' k" := (bind e (fun x => k))
  (at level 200, x pattern, e at level 200, k at level 200, right associativity).

(* [usize] subtraction on values bounded by slice lengths: underflow panics. *)
Definition usub (a b : nat) : res nat := if b <=? a then Ok (a - b) else Panic.

(* [&l[a..b]]: panics unless a <= b <= l.len(). *)
Definition slice {T} (l : list T) (a b : nat) : res (list T) :=
  if (a <=? b) && (b <=? length l) then Ok (firstn (b - a) (skipn a l)) else Panic.

(* ------------------------------------------------------------------ *)
(* 64-bit machine words as [Z] (used where values are not bounded by   *)
(* slice lengths).  [dbg = true]: debug profile (overflow checks on,   *)
(* [debug_assert!] active); [dbg = false]: release profile (wrapping). *)
(* ------------------------------------------------------------------ *)
Local Open Scope Z_scope.

Definition two63 : Z := 9223372036854775808.
Definition two64 : Z := 18446744073709551616.

Definition in_usize (z : Z) : bool := (0 <=? z) && (z <? two64).
Definition in_isize (z : Z) : bool := (- two63 <=? z) && (z <? two63).

(* wrap-around into the range of the type *)
Definition wrap_usize (z : Z) : Z := z mod two64.
Definition wrap_isize (z : Z) : Z := (z + two63) mod two64 - two63.

(* [x as usize] / [x as isize] *)
Definition as_usize (i : Z) : Z := wrap_usize i.
Definition as_isize (u : Z) : Z := wrap_isize u.

Definition arith_usize (dbg : bool) (z : Z) : res Z :=
  if in_usize z then Ok z else if dbg then Panic else Ok (wrap_usize z).
Definition arith_isize (dbg : bool) (z : Z) : res Z :=
  if in_isize z then Ok z else if dbg then Panic else Ok (wrap_isize z).

Definition uadd (dbg : bool) (a b : Z) : res Z := arith_usize dbg (a + b).
Definition usubz (dbg : bool) (a b : Z) : res Z := arith_usize dbg (a - b).
Definition iadd (dbg : bool) (a b : Z) : res Z := arith_isize dbg (a + b).
Definition isubz (dbg : bool) (a b : Z) : res Z := arith_isize dbg (a - b).

(* [l.len()] as a machine word *)
Definition zlen {T} (l : list T) : Z := Z.of_nat (length l).

(* [&l[a..b]] with machine-word bounds *)
Definition zslice {T} (l : list T) (a b : Z) : res (list T) :=
  if (0 <=? a) && (a <=? b) && (b <=? zlen l)
  then Ok (firstn (Z.to_nat (b - a)) (skipn (Z.to_nat a) l))
  else Panic.

(* [debug_assert!(c)] *)
Definition debug_assert (dbg c : bool) : res unit :=
  if dbg && negb c then Panic else Ok tt.

Local Close Scope Z_scope.

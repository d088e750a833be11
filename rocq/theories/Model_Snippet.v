(* Model_Snippet.v - the public functions of pw_diff_lib/src/snippet.rs and sequence.rs that the
   library itself does not call: Snippet::range, adj_length, adj_start, SnippetWrite::write_into,
   WriteDataInto::write_into_all_from. *)
From Verif Require Import Base Model_Seq Model_IO.
Local Open Scope Z_scope.

Section SnippetRest.
  Context {T : Type} (write_items : list T -> io unit).
  Variable dbg : bool.
  (* reductions are pairs of u8 *)
  Implicit Type reductions : option (Z * Z).

  (* snippet.rs:21-30 *)
  Definition snippet_range (s : snippet T) reductions : res (Z * Z) :=
    match reductions with
    | Some (r0, r1) => let! e := usubz dbg (zlen (sn_items s)) r1 in Ok (r0, e)
    | None => Ok (0, zlen (sn_items s))
    end.

  (* snippet.rs:32-38 *)
  Definition snippet_adj_length (s : snippet T) reductions : res Z :=
    match reductions with
    | Some (r0, r1) => let! l := usubz dbg (zlen (sn_items s)) r0 in usubz dbg l r1
    | None => Ok (zlen (sn_items s))
    end.

  (* usize::checked_add_signed(..).expect("underflow") *)
  Definition add_signed_expect (a i : Z) : res Z := if in_usize (a + i) then Ok (a + i) else Panic.

  (* snippet.rs:40-46 *)
  Definition snippet_adj_start (s : snippet T) (offset : Z) reductions : res Z :=
    match reductions with
    | Some (r0, _) => let! a := add_signed_expect (sn_start s) offset in uadd dbg r0 a
    | None => add_signed_expect (sn_start s) offset
    end.

  (* snippet.rs:62-70 (T = u8), 71-84 (T = String) *)
  Definition snippet_write_into (s : snippet T) reductions : io unit :=
    match reductions with
    | Some (r0, r1) =>
        do! e := lift (usubz dbg (zlen (sn_items s)) r1) in
        do! items := lift (zslice (sn_items s) r0 e) in
        write_items items
    | None => write_items (sn_items s)
    end.

  (* sequence.rs:161-164 (T = u8), 176-182 (T = String) *)
  Definition seq_write_into_all_from (sequence : list T) (from : Z) : io unit :=
    do! _ := lift (debug_assert dbg (from <=? zlen sequence)) in
    do! items := lift (zslice sequence from (zlen sequence)) in
    write_items items.
End SnippetRest.

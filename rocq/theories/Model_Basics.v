(* Model_Basics.v - the default methods of the trait ChangeBasics (pw_diff_lib/src/changes.rs:22-68)
   for the implementors Change, ChangeClump and UnifiedDiffClump.  (For TextChangeClump they are
   in Model_Text.v, where they are used.) *)
From Verif Require Import Base Model_Seq Model_Changes Model_Regex Model_Unified.
Local Open Scope Z_scope.

Section Basics.
  Variable dbg : bool.
  (* the required methods before_start and before_end *)
  Variables start end_ : bool -> res Z.

  (* changes.rs:26-28 *)
  Definition basic_length (reverse : bool) : res Z :=
    let! e := end_ reverse in
    let! s := start reverse in
    usubz dbg e s.

  (* changes.rs:30-39 *)
  Definition basic_range (reductions : option (Z * Z)) (reverse : bool) : res (Z * Z) :=
    match reductions with
    | Some (r0, r1) =>
        let! s := start reverse in
        let! s' := uadd dbg s r0 in
        let! e := end_ reverse in
        let! e' := usubz dbg e r1 in
        Ok (s', e')
    | None =>
        let! s := start reverse in
        let! e := end_ reverse in
        Ok (s, e)
    end.

  (* changes.rs:40-47; [length] is before_length, which UnifiedDiffClump overrides *)
  Variable length : bool -> res Z.
  Definition basic_my_range (reductions : option (Z * Z)) (reverse : bool) : res (Z * Z) :=
    let! l := length reverse in
    match reductions with
    | Some (r0, r1) => let! e := usubz dbg l r1 in Ok (r0, e)
    | None => Ok (0, l)
    end.
End Basics.

(* changes.rs:49-67: after_start, after_end, after_length, after_range and my_after_range are the
   methods above with [negb reverse]. *)
Definition after_of {A} (method : bool -> res A) (reverse : bool) : res A := method (negb reverse).

(* changes.rs:70-106 *)
Definition change_start (c : change) (reverse : bool) : res Z := Ok (Z.of_nat (change_before_start c reverse)).
Definition change_end (c : change) (reverse : bool) : res Z := Ok (Z.of_nat (change_before_end c reverse)).
(* changes.rs:378-394 *)
Definition clump_start (c : clump) (reverse : bool) : res Z := Ok (Z.of_nat (clump_before_start c reverse)).
Definition clump_end (c : clump) (reverse : bool) : res Z := Ok (Z.of_nat (clump_before_end c reverse)).
(* unified_diff.rs:202-222 *)
Definition unified_start (c : unified_clump) (reverse : bool) : res Z := Ok (uc_before_start c reverse).
Definition unified_end (dbg : bool) (c : unified_clump) (reverse : bool) : res Z := uc_before_end dbg c reverse.
Definition unified_length (c : unified_clump) (reverse : bool) : res Z := Ok (uc_before_length c reverse).
(* apply_text.rs:14-16 *)
Definition unified_after_lines (c : unified_clump) (r : option range) (reverse : bool) : res (list line) :=
  uc_before_lines c r (negb reverse).

(* Model_Work.v - pw_diff_lib/src/apply_text.rs:101-192, 258-351 with a count of the attempts.
   Each function does what the function of Model_Text.v without [_c] does (theorem C111_same) and
   counts: one for each comparison of the lines of a clump with lines of the text (105, 119), also
   if the place turns out to be outside of the text, and one for each round of `for i in 1isize..`
   (164).  What one comparison takes (at most the lines of the clump) is not looked into; nor are
   reading and writing. *)
From Verif Require Import Base Model_Seq Model_Changes Model_IO Model_Text Model_Cost.
Local Open Scope Z_scope.

(* a computation that writes, with a count *)
Definition cio (A : Type) : Type := writer -> nat * (ores A * writer).
Definition plain {A} (m : io A) : cio A := fun w => (0%nat, m w).
Definition cread {A} (m : counted A) : cio A := fun w => (fst m, lift (snd m) w).
Definition cthen {A B} (m : cio A) (k : A -> cio B) : cio B := fun w =>
  match m w with
  | (n, (Done a, w')) => let r := k a w' in ((n + fst r)%nat, snd r)
  | (n, (IoErr, w')) => (n, (IoErr, w'))
  | (n, (Panicked, w')) => (n, (Panicked, w'))
  | (n, (NoFuel, w')) => (n, (NoFuel, w'))
  end.
Notation "'work!' x ':=' e 'in' k" := (cthen e (fun x => k))
  (at level 200, x pattern, e at level 200, k at level 200, right associativity).

Section Work.
  Variable dbg : bool.

  (* apply_text.rs:115-129 *)
  Fixpoint will_apply_loop_c (c : text_clump) (patchable : list line) (start : Z) (reverse : bool)
           (redns : list nat) : counted (option will) :=
    match redns with
    | [] => uncounted (Ok None)
    | redn :: redns' =>
        tick (
        let start_redn := Z.min (Z.of_nat redn) (fst (tc_context c)) in
        let end_redn := Z.min (Z.of_nat redn) (snd (tc_context c)) in
        count! adj_start := uncounted (iadd dbg start start_redn) in
        count! hit := uncounted (if 0 <=? adj_start
                     then before_is_subsequence_in_at dbg c patchable (as_usize adj_start)
                            (Some (start_redn, end_redn)) reverse
                     else Ok false) in
        if hit then uncounted (Ok (Some (WithReductions (start_redn, end_redn))))
        else will_apply_loop_c c patchable start reverse redns')
    end.

  (* apply_text.rs:101-132 *)
  Definition will_apply_c (c : text_clump) (patchable : list line) (offset : Z) (reverse : bool)
    : counted (option will) :=
    tick (
    count! start := uncounted (before_adjusted_start dbg c offset None reverse) in
    count! hit := uncounted (if 0 <=? start
                 then before_is_subsequence_in_at dbg c patchable (as_usize start) None reverse
                 else Ok false) in
    if hit then uncounted (Ok (Some Cleanly))
    else
      let max_reduction := Z.max (fst (tc_context c)) (snd (tc_context c)) in
      will_apply_loop_c c patchable start reverse (seq 1 (Z.to_nat max_reduction - 1))).

  (* apply_text.rs:164-190 *)
  Fixpoint nearby_loop_c (fuel : nat) (c : text_clump) (patchable : list line) (consumed not_after offset : Z)
           (reverse : bool) (i : Z) (backward_done forward_done : bool) : counted (option (Z * will)) :=
    match fuel with
    | O => uncounted OutOfFuel
    | S fuel' =>
        tick (
        count! (found_b, backward_done) :=
          (if backward_done then uncounted (Ok (None, true))
           else
             count! adjusted_offset := uncounted (isubz dbg offset i) in
             count! s := uncounted (before_adjusted_start dbg c adjusted_offset None reverse) in
             if s <? as_isize consumed then uncounted (Ok (None, true))
             else
               count! w := will_apply_c c patchable adjusted_offset reverse in
               uncounted (Ok (w, false))) in
        match found_b with
        | Some w => uncounted (Ok (Some (- i, w)))
        | None =>
            count! (found_f, forward_done) :=
              (if forward_done then uncounted (Ok (None, true))
               else
                 count! adjusted_offset := uncounted (iadd dbg offset i) in
                 count! s := uncounted (before_adjusted_start dbg c adjusted_offset None reverse) in
                 if s <? as_isize not_after then
                   count! w := will_apply_c c patchable adjusted_offset reverse in
                   uncounted (Ok (w, false))
                 else uncounted (Ok (None, true))) in
            match found_f with
            | Some w => uncounted (Ok (Some (i, w)))
            | None =>
                if forward_done && backward_done then uncounted (Ok None)
                else nearby_loop_c fuel' c patchable consumed not_after offset reverse (i + 1)
                       backward_done forward_done
            end
        end)
    end.

  (* apply_text.rs:149-192 *)
  Definition will_apply_nearby_c (c : text_clump) (patchable : list line) (consumed : Z)
             (next_clump : option text_clump) (offset : Z) (reverse : bool) : counted (option (Z * will)) :=
    count! not_after := uncounted (nearby_not_after dbg c patchable next_clump offset reverse) in
    nearby_loop_c (nearby_fuel c consumed not_after offset reverse) c patchable consumed not_after offset
                  reverse 1 false false.

  (* apply_text.rs:269-348: one iteration of the clump loop *)
  Definition apply_step_c (patchable : list line) (reverse : bool) (c : text_clump) (next : option text_clump)
             (consumed offset : Z) (stats : statistics) : cio (Z * Z * statistics) :=
    (* 271-283 *)
    work! w := cread (will_apply_c c patchable offset reverse) in
    match w with
    | Some Cleanly =>
        plain (do! consumed' := clump_apply_into dbg c patchable consumed offset None reverse in
               ret (consumed', offset, add_clean stats))
    | Some (WithReductions r) =>
        plain (do! consumed' := clump_apply_into dbg c patchable consumed offset (Some r) reverse in
               ret (consumed', offset, add_fuzzy stats))
    | None =>
    (* 284-299 *)
    work! n := cread (will_apply_nearby_c c patchable consumed next offset reverse) in
    match n with
    | Some (offset_adj, w) =>
        plain (do! offset' := lift (iadd dbg offset offset_adj) in
               do! consumed' := clump_apply_into dbg c patchable consumed offset' (reductions_of w) reverse in
               ret (consumed', offset', add_fuzzy stats))
    | None =>
    (* 300-320 *)
    work! a := cread (will_apply_c c patchable offset (negb reverse)) in
    match a with
    | Some Cleanly =>
        plain (do! consumed' := already_applied_into dbg c patchable consumed offset None reverse in
               ret (consumed', offset, add_already stats))
    | Some (WithReductions r) =>
        plain (do! consumed' := already_applied_into dbg c patchable consumed offset (Some r) reverse in
               ret (consumed', offset, add_already_fuzzy stats))
    | None =>
    (* 321-342 *)
    work! n := cread (will_apply_nearby_c c patchable consumed next offset (negb reverse)) in
    match n with
    | Some (offset_adj, w) =>
        plain (do! offset' := lift (iadd dbg offset offset_adj) in
               do! consumed' := already_applied_into dbg c patchable consumed offset' (reductions_of w) reverse in
               ret (consumed', offset', add_already_fuzzy stats))
    | None =>
    (* 343-347 *)
        plain (do! _ := write_failure_data_into dbg c reverse in
               ret (consumed, offset, add_failed stats))
    end end end end.

  (* apply_text.rs:269-348 *)
  Fixpoint apply_clumps_c (patchable : list line) (reverse : bool) (clumps : list text_clump)
           (consumed offset : Z) (stats : statistics) : cio (Z * statistics) :=
    match clumps with
    | [] => plain (ret (consumed, stats))
    | c :: rest =>
        work! (consumed', offset', stats') :=
          apply_step_c patchable reverse c (hd_error rest) consumed offset stats in
        apply_clumps_c patchable reverse rest consumed' offset' stats'
    end.

  (* apply_text.rs:258-351 *)
  Definition text_apply_into_c (clumps : list text_clump) (patchable : list line) (reverse : bool)
    : cio statistics :=
    work! (consumed, stats) := apply_clumps_c patchable reverse clumps 0 0 stats0 in
    plain (do! _ := write_remainder write_lines dbg patchable consumed in ret stats).
End Work.

(* Model_Text.v - pw_diff_lib/src/text_diff.rs (TextChangeClump),
   changes.rs:22-68 (ChangeBasics defaults), snippet.rs:48-55 and apply_text.rs.
   The traits TextClumpBasics/ApplyClumpFuzzy have one implementor of ApplyClumpFuzzy,
   TextChangeClump (text_diff.rs:83), so trait methods are plain functions on it. *)
From Verif Require Import Base Model_Seq Model_Changes Model_IO.
Local Open Scope Z_scope.

(* text_diff.rs:14-19; context lengths are u8 values *)
Record text_clump := TextClump {
  tc_context : Z * Z;
  tc_before : snippet line;
  tc_after : snippet line }.

(* text_diff.rs:21-31 *)
Definition text_clump_from (before after : list line) (c : clump) : res text_clump :=
  let (before_range, after_range) := clump_ranges c in
  let (cs, ce) := clump_context_lengths c in
  let! b := extract_snippet before before_range in
  let! a := extract_snippet after after_range in
  Ok (TextClump (Z.of_nat cs, Z.of_nat ce) b a).

Fixpoint map_res {A B} (f : A -> res B) (l : list A) : res (list B) :=
  match l with
  | [] => Ok []
  | x :: l' => let! y := f x in let! ys := map_res f l' in Ok (y :: ys)
  end.

(* text_diff.rs:96-104 without the files: the clumps of TextChangeDiff::new *)
Definition text_diff_clumps (before after : list line) (context : nat) : res (list text_clump) :=
  let! changes := text_changes before after in
  let! clumps := change_clumps context changes in
  map_res (text_clump_from before after) clumps.

(* the side called "before" under [reverse] (text_diff.rs:66-72) *)
Definition tc_side (c : text_clump) (reverse : bool) : snippet line :=
  if reverse then tc_after c else tc_before c.

Section ApplyText.
  Variable dbg : bool.

  (* text_diff.rs:34-40 *)
  Definition before_start (c : text_clump) (reverse : bool) : Z := sn_start (tc_side c reverse).

  (* text_diff.rs:42-48 *)
  Definition before_end (c : text_clump) (reverse : bool) : res Z :=
    uadd dbg (sn_start (tc_side c reverse)) (zlen (sn_items (tc_side c reverse))).

  (* changes.rs:26-28 *)
  Definition before_length (c : text_clump) (reverse : bool) : res Z :=
    let! e := before_end c reverse in
    usubz dbg e (before_start c reverse).

  (* changes.rs:30-39 *)
  Definition before_range (c : text_clump) (reductions : option (Z * Z)) (reverse : bool) : res (Z * Z) :=
    match reductions with
    | Some (r0, r1) =>
        let! s := uadd dbg (before_start c reverse) r0 in
        let! e := before_end c reverse in
        let! e' := usubz dbg e r1 in
        Ok (s, e')
    | None =>
        let! e := before_end c reverse in
        Ok (before_start c reverse, e)
    end.

  (* changes.rs:40-47 *)
  Definition my_before_range (c : text_clump) (reductions : option (Z * Z)) (reverse : bool) : res (Z * Z) :=
    let! length := before_length c reverse in
    match reductions with
    | Some (r0, r1) => let! e := usubz dbg length r1 in Ok (r0, e)
    | None => Ok (0, length)
    end.

  (* range.rs:16-24 *)
  Definition zrange_len (r : Z * Z) : Z := if fst r <? snd r then snd r - fst r else 0.

  (* snippet.rs:48-55 *)
  Definition snippet_items {T} (s : snippet T) (r : option (Z * Z)) : res (list T) :=
    match r with
    | Some (a, b) =>
        let! _ := (if dbg
                   then let! m := uadd dbg (zlen (sn_items s)) (sn_start s) in
                        debug_assert dbg ((a <=? b) && (b <=? m))
                   else Ok tt) in
        zslice (sn_items s) a b
    | None => Ok (sn_items s)
    end.

  (* text_diff.rs:56-62 *)
  Definition before_lines (c : text_clump) (r : option (Z * Z)) (reverse : bool) : res (list line) :=
    snippet_items (tc_side c reverse) r.

  (* apply_text.rs:20-31 *)
  Definition before_adjusted_start (c : text_clump) (offset : Z) (reductions : option (Z * Z))
             (reverse : bool) : res Z :=
    let! s := iadd dbg (as_isize (before_start c reverse)) offset in
    match reductions with
    | Some (r0, _) => iadd dbg s r0
    | None => Ok s
    end.

  (* apply_text.rs:42-48 *)
  Definition before_adjusted_length (c : text_clump) (reductions : option (Z * Z)) (reverse : bool) : res Z :=
    let! l := before_length c reverse in
    match reductions with
    | Some (r0, r1) => let! l1 := usubz dbg l r0 in usubz dbg l1 r1
    | None => Ok l
    end.

  (* apply_text.rs:54-71 *)
  Definition before_is_subsequence_in_at (c : text_clump) (patchable : list line) (at_ : Z)
             (reductions : option (Z * Z)) (reverse : bool) : res bool :=
    let! my_range := my_before_range c reductions reverse in
    let! end_ := uadd dbg at_ (zrange_len my_range) in
    if zlen patchable <? end_ then Ok false
    else
      let! mine := before_lines c (Some my_range) reverse in
      let! theirs := zslice patchable at_ end_ in
      Ok (zip_all_eq line_eqb mine theirs).

  (* apply_text.rs:73-90 *)
  Definition before_write_into (c : text_clump) (reductions : option (Z * Z)) (reverse : bool) : io unit :=
    match reductions with
    | Some _ =>
        do! r := lift (before_range c reductions reverse) in
        do! ls := lift (before_lines c (Some r) reverse) in
        write_lines ls
    | None =>
        do! ls := lift (before_lines c None reverse) in
        write_lines ls
    end.

  (* apply_text.rs:92-99 *)
  Definition after_write_into (c : text_clump) (reductions : option (Z * Z)) (reverse : bool) : io unit :=
    before_write_into c reductions (negb reverse).

  (* apply_text.rs:235-239 *)
  Inductive will := Cleanly | WithReductions (r : Z * Z).

  (* apply_text.rs:115-129: for redn in 1..max_reduction, over the list of redn values *)
  Fixpoint will_apply_loop (c : text_clump) (patchable : list line) (start : Z) (reverse : bool)
           (redns : list nat) : res (option will) :=
    match redns with
    | [] => Ok None
    | redn :: redns' =>
        let start_redn := Z.min (Z.of_nat redn) (fst (tc_context c)) in
        let end_redn := Z.min (Z.of_nat redn) (snd (tc_context c)) in
        let! adj_start := iadd dbg start start_redn in
        let! hit := (if 0 <=? adj_start
                     then before_is_subsequence_in_at c patchable (as_usize adj_start)
                            (Some (start_redn, end_redn)) reverse
                     else Ok false) in
        if hit then Ok (Some (WithReductions (start_redn, end_redn)))
        else will_apply_loop c patchable start reverse redns'
    end.

  (* apply_text.rs:101-132 *)
  Definition will_apply (c : text_clump) (patchable : list line) (offset : Z) (reverse : bool)
    : res (option will) :=
    let! start := before_adjusted_start c offset None reverse in
    let! hit := (if 0 <=? start
                 then before_is_subsequence_in_at c patchable (as_usize start) None reverse
                 else Ok false) in
    if hit then Ok (Some Cleanly)
    else
      let max_reduction := Z.max (fst (tc_context c)) (snd (tc_context c)) in
      will_apply_loop c patchable start reverse (seq 1 (Z.to_nat max_reduction - 1)).

  (* apply_text.rs:134-147; returns the new [consumed] *)
  Definition clump_apply_into (c : text_clump) (patchable : list line) (consumed : Z) (offset : Z)
             (reductions : option (Z * Z)) (reverse : bool) : io Z :=
    do! end_ := lift (before_adjusted_start c offset reductions reverse) in
    do! consumed1 := write_into_upto write_lines dbg patchable consumed (as_usize end_) in
    do! _ := after_write_into c reductions reverse in
    do! l := lift (before_adjusted_length c reductions reverse) in
    lift (advance_consumed_by dbg consumed1 l).

  (* apply_text.rs:164-190: for i in 1isize.. (i itself never reaches isize::MAX in
     any run that finishes, so its increment is not checked) *)
  Fixpoint nearby_loop (fuel : nat) (c : text_clump) (patchable : list line) (consumed not_after offset : Z)
           (reverse : bool) (i : Z) (backward_done forward_done : bool) : res (option (Z * will)) :=
    match fuel with
    | O => OutOfFuel
    | S fuel' =>
        (* 165-176 *)
        let! (found_b, backward_done) :=
          (if backward_done then Ok (None, true)
           else
             let! adjusted_offset := isubz dbg offset i in
             let! s := before_adjusted_start c adjusted_offset None reverse in
             if s <? as_isize consumed then Ok (None, true)
             else
               let! w := will_apply c patchable adjusted_offset reverse in
               Ok (w, false)) in
        match found_b with
        | Some w => Ok (Some (- i, w))
        | None =>
            (* 177-186 *)
            let! (found_f, forward_done) :=
              (if forward_done then Ok (None, true)
               else
                 let! adjusted_offset := iadd dbg offset i in
                 let! s := before_adjusted_start c adjusted_offset None reverse in
                 if s <? as_isize not_after then
                   let! w := will_apply c patchable adjusted_offset reverse in
                   Ok (w, false)
                 else Ok (None, true)) in
            match found_f with
            | Some w => Ok (Some (i, w))
            | None =>
                (* 187-189 *)
                if forward_done && backward_done then Ok None
                else nearby_loop fuel' c patchable consumed not_after offset reverse (i + 1)
                       backward_done forward_done
            end
        end
    end.

  (* apply_text.rs:156-161 *)
  Definition nearby_not_after (c : text_clump) (patchable : list line) (next_clump : option text_clump)
             (offset : Z) (reverse : bool) : res Z :=
    match next_clump with
    | Some next =>
        let! s := before_adjusted_start next offset (Some (tc_context c)) reverse in
        let! l := before_adjusted_length c (Some (tc_context c)) reverse in
        usubz dbg (as_usize s) l
    | None =>
        let! l := before_adjusted_length c (Some (tc_context c)) reverse in
        usubz dbg (zlen patchable) l
    end.

  (* Enough iterations for both directions to leave the window, even if the positions wrap
     around (see C54). *)
  Definition nearby_fuel (c : text_clump) (consumed not_after offset : Z) (reverse : bool) : nat :=
    let s := as_isize (before_start c reverse) + offset in
    (Z.to_nat (Z.max (wrap_isize (s - 1) - as_isize consumed) (as_isize not_after - wrap_isize (s + 1))) + 3)%nat.

  (* apply_text.rs:149-192 *)
  Definition will_apply_nearby (c : text_clump) (patchable : list line) (consumed : Z)
             (next_clump : option text_clump) (offset : Z) (reverse : bool) : res (option (Z * will)) :=
    let! not_after := nearby_not_after c patchable next_clump offset reverse in
    nearby_loop (nearby_fuel c consumed not_after offset reverse) c patchable consumed not_after offset
                reverse 1 false false.

  (* apply_text.rs:194-201 *)
  Definition is_already_applied (c : text_clump) (patchable : list line) (offset : Z) (reverse : bool)
    : res (option will) := will_apply c patchable offset (negb reverse).

  (* apply_text.rs:203-211 *)
  Definition is_already_applied_nearby (c : text_clump) (patchable : list line) (consumed : Z)
             (next_clump : option text_clump) (offset : Z) (reverse : bool) : res (option (Z * will)) :=
    will_apply_nearby c patchable consumed next_clump offset (negb reverse).

  (* apply_text.rs:213-224 (after_adjusted_start/length: lines 33-40, 50-52) *)
  Definition already_applied_into (c : text_clump) (patchable : list line) (consumed : Z) (offset : Z)
             (reductions : option (Z * Z)) (reverse : bool) : io Z :=
    do! s := lift (before_adjusted_start c offset reductions (negb reverse)) in
    do! l := lift (before_adjusted_length c reductions (negb reverse)) in
    do! end_ := lift (uadd dbg (as_usize s) l) in
    write_into_upto write_lines dbg patchable consumed end_.

  (* the literals of apply_text.rs:227-231 *)
  Definition marker_before : list byte := [x3c; x3c; x3c; x3c; x3c; x3c; x3c; x0a]. (* "<<<<<<<\n" *)
  Definition marker_middle : list byte := [x3d; x3d; x3d; x3d; x3d; x3d; x3d; x0a]. (* "=======\n" *)
  Definition marker_after  : list byte := [x3e; x3e; x3e; x3e; x3e; x3e; x3e; x0a]. (* ">>>>>>>\n" *)

  (* apply_text.rs:226-232 *)
  Definition write_failure_data_into (c : text_clump) (reverse : bool) : io unit :=
    do! _ := write_all marker_before in
    do! _ := before_write_into c None reverse in
    do! _ := write_all marker_middle in
    do! _ := after_write_into c None reverse in
    write_all marker_after.

  (* apply_text.rs:241-248 *)
  Record statistics := Stats {
    st_clean : nat; st_fuzzy : nat; st_already : nat; st_already_fuzzy : nat; st_failed : nat }.
  Definition stats0 : statistics := Stats 0 0 0 0 0.
  Definition add_clean (s : statistics) := Stats (S (st_clean s)) (st_fuzzy s) (st_already s) (st_already_fuzzy s) (st_failed s).
  Definition add_fuzzy (s : statistics) := Stats (st_clean s) (S (st_fuzzy s)) (st_already s) (st_already_fuzzy s) (st_failed s).
  Definition add_already (s : statistics) := Stats (st_clean s) (st_fuzzy s) (S (st_already s)) (st_already_fuzzy s) (st_failed s).
  Definition add_already_fuzzy (s : statistics) := Stats (st_clean s) (st_fuzzy s) (st_already s) (S (st_already_fuzzy s)) (st_failed s).
  Definition add_failed (s : statistics) := Stats (st_clean s) (st_fuzzy s) (st_already s) (st_already_fuzzy s) (S (st_failed s)).

  Definition reductions_of (w : will) : option (Z * Z) :=
    match w with Cleanly => None | WithReductions r => Some r end.

  (* apply_text.rs:269-348: one iteration of the clump loop.
     State: (consumed, offset, stats). *)
  Definition apply_step (patchable : list line) (reverse : bool) (c : text_clump) (next : option text_clump)
             (consumed offset : Z) (stats : statistics) : io (Z * Z * statistics) :=
    (* 271-283 *)
    do! w := lift (will_apply c patchable offset reverse) in
    match w with
    | Some Cleanly =>
        do! consumed' := clump_apply_into c patchable consumed offset None reverse in
        ret (consumed', offset, add_clean stats)
    | Some (WithReductions r) =>
        do! consumed' := clump_apply_into c patchable consumed offset (Some r) reverse in
        ret (consumed', offset, add_fuzzy stats)
    | None =>
    (* 284-299 *)
    do! n := lift (will_apply_nearby c patchable consumed next offset reverse) in
    match n with
    | Some (offset_adj, w) =>
        do! offset' := lift (iadd dbg offset offset_adj) in
        do! consumed' := clump_apply_into c patchable consumed offset' (reductions_of w) reverse in
        ret (consumed', offset', add_fuzzy stats)
    | None =>
    (* 300-320 *)
    do! a := lift (is_already_applied c patchable offset reverse) in
    match a with
    | Some Cleanly =>
        do! consumed' := already_applied_into c patchable consumed offset None reverse in
        ret (consumed', offset, add_already stats)
    | Some (WithReductions r) =>
        do! consumed' := already_applied_into c patchable consumed offset (Some r) reverse in
        ret (consumed', offset, add_already_fuzzy stats)
    | None =>
    (* 321-342 *)
    do! n := lift (is_already_applied_nearby c patchable consumed next offset reverse) in
    match n with
    | Some (offset_adj, w) =>
        do! offset' := lift (iadd dbg offset offset_adj) in
        do! consumed' := already_applied_into c patchable consumed offset' (reductions_of w) reverse in
        ret (consumed', offset', add_already_fuzzy stats)
    | None =>
    (* 343-347 *)
        do! _ := write_failure_data_into c reverse in
        ret (consumed, offset, add_failed stats)
    end end end end.

  (* apply_text.rs:269-348: while let Some(clump) = iter.next(); iter.peek() is the next clump *)
  Fixpoint apply_clumps (patchable : list line) (reverse : bool) (clumps : list text_clump)
           (consumed offset : Z) (stats : statistics) : io (Z * statistics) :=
    match clumps with
    | [] => ret (consumed, stats)
    | c :: rest =>
        do! (consumed', offset', stats') :=
          apply_step patchable reverse c (hd_error rest) consumed offset stats in
        apply_clumps patchable reverse rest consumed' offset' stats'
    end.

  (* apply_text.rs:258-351  ApplyClumpsFuzzy::apply_into *)
  Definition text_apply_into (clumps : list text_clump) (patchable : list line) (reverse : bool)
    : io statistics :=
    do! (consumed, stats) := apply_clumps patchable reverse clumps 0 0 stats0 in
    do! _ := write_remainder write_lines dbg patchable consumed in
    ret stats.

  (* apply_text.rs:353-389  ApplyClumpsFuzzy::is_already_applied (consumed stays 0) *)
  Fixpoint text_already_applied_loop (clumps : list text_clump) (patchable : list line) (reverse : bool)
           (offset : Z) : res bool :=
    match clumps with
    | [] => Ok true
    | c :: rest =>
        let! a := is_already_applied c patchable offset reverse in
        match a with
        | Some _ => text_already_applied_loop rest patchable reverse offset
        | None =>
            let! n := is_already_applied_nearby c patchable 0 (hd_error rest) offset reverse in
            match n with
            | Some (offset_adj, _) =>
                let! offset' := iadd dbg offset offset_adj in
                text_already_applied_loop rest patchable reverse offset'
            | None => Ok false
            end
        end
    end.
  Definition text_is_already_applied (clumps : list text_clump) (patchable : list line) (reverse : bool)
    : res bool := text_already_applied_loop clumps patchable reverse 0.
End ApplyText.

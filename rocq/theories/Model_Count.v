(* Model_Count.v - the number of the clump in pw_diff_lib/src/apply_text.rs:267-270, 356-359 and
   apply_bytes.rs:41-44, 59-62: `let mut clump_num = 0;` and `clump_num += 1;`.  Nothing gives the
   type of the variable, so it is an i32.  Everything else is as in Model_Text.v and Model_Bytes.v
   and the messages as in Model_Log.v, where the number is a natural number. *)
From Verif Require Import Base Model_Seq Model_Changes Model_IO Model_Text Model_Bytes Model_Json Model_Files Model_Log.
Local Open Scope Z_scope.

Definition two31 : Z := 2147483648.
Definition two32 : Z := 4294967296.
Definition in_i32 (z : Z) : bool := (- two31 <=? z) && (z <? two31).
Definition wrap_i32 (z : Z) : Z := (z + two31) mod two32 - two31.

(* clump_num += 1 *)
Definition next_number (dbg : bool) (number : Z) : res Z :=
  if in_i32 (number + 1) then Ok (number + 1) else if dbg then Panic else Ok (wrap_i32 (number + 1)).

(* a message about a clump, with the number it shows *)
Record told := Told {
  td_level : level; td_number : Z; td_verdict : verdict; td_reductions : option (Z * Z); td_offset : option Z }.
Definition tell_as (number : Z) (e : event) : list told :=
  match ev_message e with
  | AboutClump _ v r o => [Told (ev_level e) number v r o]
  | _ => []
  end.

(* writing with such messages *)
Definition cio (A : Type) : Type := writer -> list told * (ores A * writer).
Definition cret {A} (a : A) : cio A := fun w => ([], (Done a, w)).
Definition untold {A} (m : io A) : cio A := fun w => ([], m w).
(* [m] gives its messages on a clump, whose number is [number] *)
Definition numbered {A} (number : Z) (m : lio A) : cio A := fun w =>
  let (ev, x) := m w in (flat_map (tell_as number) ev, x).
Definition cbind {A B} (m : cio A) (k : A -> cio B) : cio B := fun w =>
  match m w with
  | (ev, (Done a, w')) => let (ev', x) := k a w' in (ev ++ ev', x)
  | (ev, (IoErr, w')) => (ev, (IoErr, w'))
  | (ev, (Panicked, w')) => (ev, (Panicked, w'))
  | (ev, (NoFuel, w')) => (ev, (NoFuel, w'))
  end.
Notation "'count!' x ':=' e 'in' k" := (cbind e (fun x => k))
  (at level 200, x pattern, e at level 200, k at level 200, right associativity).

Section Counting.
  Variable dbg : bool.

  (* apply_text.rs:269-348 *)
  Fixpoint text_clumps_counted (patchable : list line) (reverse : bool) (clumps : list text_clump)
           (number consumed offset : Z) (stats : statistics) : cio (Z * statistics) :=
    match clumps with
    | [] => cret (consumed, stats)
    | c :: rest =>
        count! number' := untold (lift (next_number dbg number)) in
        count! (consumed', offset', stats') :=
          numbered number' (apply_step_logged dbg patchable reverse c (hd_error rest) 0 consumed offset stats) in
        text_clumps_counted patchable reverse rest number' consumed' offset' stats'
    end.
  (* apply_text.rs:258-351 *)
  Definition text_apply_counted (clumps : list text_clump) (patchable : list line) (reverse : bool) : cio statistics :=
    count! (consumed, stats) := text_clumps_counted patchable reverse clumps 0 0 0 stats0 in
    count! _ := untold (write_remainder write_lines dbg patchable consumed) in
    cret stats.

  (* apply_text.rs:353-389 *)
  Fixpoint text_query_counted (clumps : list text_clump) (patchable : list line) (reverse : bool)
           (number offset : Z) : list told * res bool :=
    match clumps with
    | [] => ([], Ok true)
    | c :: rest =>
        match next_number dbg number with
        | Ok number =>
            match is_already_applied dbg c patchable offset reverse with
            | Ok (Some w) =>
                let (ev, r) := text_query_counted rest patchable reverse number offset in
                let lv := match w with Cleanly => Info | WithReductions _ => Warn end in
                (Told lv number AlreadyApplied (reductions_of w) None :: ev, r)
            | Ok None =>
                match is_already_applied_nearby dbg c patchable 0 (hd_error rest) offset reverse with
                | Ok (Some (offset_adj, w)) =>
                    match iadd dbg offset offset_adj with
                    | Ok offset' =>
                        let (ev, r) := text_query_counted rest patchable reverse number offset' in
                        (Told Warn number AlreadyApplied (reductions_of w) (Some offset_adj) :: ev, r)
                    | Panic => ([], Panic)
                    | OutOfFuel => ([], OutOfFuel)
                    end
                | Ok None => ([Told Error number NotAlreadyApplied None None], Ok false)
                | Panic => ([], Panic)
                | OutOfFuel => ([], OutOfFuel)
                end
            | Panic => ([], Panic)
            | OutOfFuel => ([], OutOfFuel)
            end
        | Panic => ([], Panic)
        | OutOfFuel => ([], OutOfFuel)
        end
    end.

  (* apply_bytes.rs:42-54 *)
  Fixpoint byte_clumps_counted (patchable : list byte) (reverse : bool) (clumps : list byte_clump)
           (number consumed : Z) : cio Z :=
    match clumps with
    | [] => cret consumed
    | c :: rest =>
        count! number' := untold (lift (next_number dbg number)) in
        count! consumed' := numbered number' (byte_clumps_logged dbg patchable reverse [c] 0 consumed) in
        byte_clumps_counted patchable reverse rest number' consumed'
    end.
  (* apply_bytes.rs:34-56 *)
  Definition byte_apply_counted (clumps : list byte_clump) (patchable : list byte) (reverse : bool) : cio unit :=
    count! consumed := byte_clumps_counted patchable reverse clumps 0 0 in
    count! _ := untold (write_remainder write_all dbg patchable consumed) in
    cret tt.

  (* apply_bytes.rs:58-71 *)
  Fixpoint byte_query_counted (clumps : list byte_clump) (patchable : list byte) (reverse : bool)
           (number : Z) : list told * res bool :=
    match clumps with
    | [] => ([], Ok true)
    | c :: rest =>
        match next_number dbg number with
        | Ok number =>
            if byte_is_already_applied c patchable reverse then
              let (ev, r) := byte_query_counted rest patchable reverse number in
              (Told Info number AlreadyApplied None None :: ev, r)
            else ([Told Error number NotAlreadyApplied None None], Ok false)
        | Panic => ([], Panic)
        | OutOfFuel => ([], OutOfFuel)
        end
    end.
End Counting.

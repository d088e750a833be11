(* Model_Bytes.v - pw_diff_lib/src/byte_diff.rs (ByteChangeClump) and apply_bytes.rs. *)
From Verif Require Import Base Model_Seq Model_Changes Model_IO Model_Text.
Local Open Scope Z_scope.

(* byte_diff.rs:16-21 *)
Record byte_clump := ByteClump {
  bc_context : Z * Z;
  bc_before : snippet byte;
  bc_after : snippet byte }.

(* byte_diff.rs:23-33 *)
Definition byte_clump_from (before after : list byte) (c : clump) : res byte_clump :=
  let (before_range, after_range) := clump_ranges c in
  let (cs, ce) := clump_context_lengths c in
  let! b := extract_snippet before before_range in
  let! a := extract_snippet after after_range in
  Ok (ByteClump (Z.of_nat cs, Z.of_nat ce) b a).

(* byte_diff.rs:100-110 without the files *)
Definition byte_diff_clumps (before after : list byte) (context : nat) : res (list byte_clump) :=
  let! changes := byte_changes before after in
  let! clumps := change_clumps context changes in
  map_res (byte_clump_from before after) clumps.

(* byte_diff.rs:36-42; `after(reverse)` (44-50) is [bc_side c (negb reverse)] *)
Definition bc_side (c : byte_clump) (reverse : bool) : snippet byte :=
  if reverse then bc_after c else bc_before c.

Section ApplyBytes.
  Variable dbg : bool.

  (* byte_diff.rs:54-57 *)
  Definition byte_will_apply (c : byte_clump) (data : list byte) (reverse : bool) : bool :=
    let before := bc_side c reverse in
    has_subsequence_at_z Byte.eqb data (sn_items before) (sn_start before).

  (* byte_diff.rs:59-62 *)
  Definition byte_is_already_applied (c : byte_clump) (data : list byte) (reverse : bool) : bool :=
    let after := bc_side c (negb reverse) in
    has_subsequence_at_z Byte.eqb data (sn_items after) (sn_start after).

  (* byte_diff.rs:64-75 (Snippet<u8>::write_into with None: snippet.rs:62-70) *)
  Definition byte_clump_apply_into (c : byte_clump) (data : list byte) (consumed : Z) (reverse : bool) : io Z :=
    let before := bc_side c reverse in
    do! consumed1 := write_into_upto write_all dbg data consumed (sn_start before) in
    do! _ := write_all (sn_items (bc_side c (negb reverse))) in
    lift (advance_consumed_by dbg consumed1 (zlen (sn_items before))).

  (* byte_diff.rs:77-85 *)
  Definition byte_already_applied_into (c : byte_clump) (data : list byte) (consumed : Z) (reverse : bool) : io Z :=
    let after := bc_side c (negb reverse) in
    do! end_ := lift (uadd dbg (sn_start after) (zlen (sn_items after))) in
    write_into_upto write_all dbg data consumed end_.

  (* apply_bytes.rs:43-54 *)
  Fixpoint byte_apply_clumps (patchable : list byte) (reverse : bool) (clumps : list byte_clump)
           (consumed : Z) : io Z :=
    match clumps with
    | [] => ret consumed
    | c :: rest =>
        do! consumed' :=
          (if byte_will_apply c patchable reverse
           then byte_clump_apply_into c patchable consumed reverse
           else if byte_is_already_applied c patchable reverse
           then byte_already_applied_into c patchable consumed reverse
           else ret consumed) in
        byte_apply_clumps patchable reverse rest consumed'
    end.

  (* apply_bytes.rs:34-56 *)
  Definition byte_apply_into (clumps : list byte_clump) (patchable : list byte) (reverse : bool) : io unit :=
    do! consumed := byte_apply_clumps patchable reverse clumps 0 in
    do! _ := write_remainder write_all dbg patchable consumed in
    ret tt.
End ApplyBytes.

(* apply_bytes.rs:58-71 *)
Definition byte_already_applied (clumps : list byte_clump) (patchable : list byte) (reverse : bool) : bool :=
  forallb (fun c => byte_is_already_applied c patchable reverse) clumps.

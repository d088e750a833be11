(* Model_ByteWork.v - pw_diff_lib/src/apply_bytes.rs:34-71 and sequence.rs:31-40 with a count of the
   bytes compared.  Each function does what the function of Model_Bytes.v or Model_Seq.v without
   [_c] does (theorem C115_same) and counts one for each pair of bytes that
   `zip(..).all(|(b, a)| a == b)` (sequence.rs:33-36) compares; `all` ends at the first pair that
   differs.  Reading and writing are not counted (for what is written see C113). *)
From Verif Require Import Base Model_Seq Model_Changes Model_IO Model_Text Model_Bytes Model_Cost Model_Work.
Local Open Scope Z_scope.

(* sequence.rs:33-36 *)
Fixpoint zip_all_eq_c (l r : list byte) : nat * bool :=
  match l, r with
  | x :: l', y :: r' =>
      if Byte.eqb y x then let n := zip_all_eq_c l' r' in (S (fst n), snd n) else (1%nat, false)
  | _, _ => (0%nat, true)
  end.

(* sequence.rs:31-40 *)
Definition has_subsequence_at_c (s sub : list byte) (at_ : Z) : nat * bool :=
  if (at_ <? zlen s) && (zlen sub <=? zlen s - at_)
  then zip_all_eq_c sub (skipn (Z.to_nat at_) s)
  else (0%nat, false).

(* byte_diff.rs:54-57; with [negb reverse] byte_diff.rs:59-62 *)
Definition byte_will_apply_c (c : byte_clump) (data : list byte) (reverse : bool) : nat * bool :=
  has_subsequence_at_c data (sn_items (bc_side c reverse)) (sn_start (bc_side c reverse)).

Definition asks {A} (m : nat * A) : cio A := fun w => (fst m, (Done (snd m), w)).

Section ByteWork.
  Variable dbg : bool.

  (* apply_bytes.rs:43-54 *)
  Fixpoint byte_apply_clumps_c (patchable : list byte) (reverse : bool) (clumps : list byte_clump)
           (consumed : Z) : cio Z :=
    match clumps with
    | [] => plain (ret consumed)
    | c :: rest =>
        work! consumed' :=
          (work! will := asks (byte_will_apply_c c patchable reverse) in
           if will then plain (byte_clump_apply_into dbg c patchable consumed reverse)
           else
             work! already := asks (byte_will_apply_c c patchable (negb reverse)) in
             if already then plain (byte_already_applied_into dbg c patchable consumed reverse)
             else plain (ret consumed)) in
        byte_apply_clumps_c patchable reverse rest consumed'
    end.

  (* apply_bytes.rs:34-56 *)
  Definition byte_apply_into_c (clumps : list byte_clump) (patchable : list byte) (reverse : bool) : cio unit :=
    work! consumed := byte_apply_clumps_c patchable reverse clumps 0 in
    plain (do! _ := write_remainder write_all dbg patchable consumed in ret tt).
End ByteWork.

(* apply_bytes.rs:58-71 *)
Fixpoint byte_already_applied_c (clumps : list byte_clump) (patchable : list byte) (reverse : bool) : nat * bool :=
  match clumps with
  | [] => (0%nat, true)
  | c :: rest =>
      let r := byte_will_apply_c c patchable (negb reverse) in
      if snd r then let q := byte_already_applied_c rest patchable reverse in ((fst r + fst q)%nat, snd q)
      else (fst r, false)
  end.

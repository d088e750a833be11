(* Model_Space.v - pw_diff_lib/src/changes.rs:117-324 with a record of how much it holds at once.
   Each function does what the function of Model_Changes.v without [_h] does (proved in
   Proof_Space.v) and records the largest number of entries held at one time in: the index of the
   old sequence (positions; sequence.rs:105-138), the two hash tables j_to_len and new_j_to_len
   (147, 150), the work list lifo and the list raw_lcses (213-214), the merged list lcses (236) and
   the list of changes (281).  Not counted: the two sequences themselves, which the caller holds,
   the keys of the index (copies of the lines), room set aside but not used by a vector or a hash
   table, and what par_sort (234) sets aside while sorting. *)
From Verif Require Import Base Model_Seq Model_Changes.

Definition held (A : Type) : Type := nat * res A.
Definition nothing {A} (m : res A) : held A := (0, m).
(* one after the other: the larger of the two *)
Definition hbind {A B} (m : held A) (k : A -> held B) : held B :=
  match m with
  | (n, Ok a) => let r := k a in (Nat.max n (fst r), snd r)
  | (n, Panic) => (n, Panic)
  | (n, OutOfFuel) => (n, OutOfFuel)
  end.
(* at some time [n] entries are held *)
Definition holding {A} (n : nat) (m : held A) : held A := (Nat.max n (fst m), snd m).
(* all the time [n] further entries are held *)
Definition besides {A} (n : nat) (m : held A) : held A := (n + fst m, snd m).
Notation "'hold!' x ':=' e 'in' k" := (hbind e (fun x => k))
  (at level 200, x pattern, e at level 200, k at level 200, right associativity).

(* sequence.rs:106, 128: the positions in an index *)
Definition string_positions (m : string_indices) : nat := list_sum (map (fun e => length (snd e)) m).
Definition byte_positions (a : byte_indices) : nat := list_sum (map (@length nat) a).

Section Held.
  Context {T : Type} (eqb : T -> T -> bool).
  Variable indices : T -> option (list nat).
  Variables before after : list T.

  (* changes.rs:152-168; an entry is added at 161 *)
  Fixpoint scan_indices_h (br : range) (j_to_len : jmap) (index : nat) (js : list nat)
           (new_j_to_len : jmap) (best : common) : held (jmap * common) :=
    match js with
    | [] => nothing (Ok (new_j_to_len, best))
    | j :: js' =>
        if j <? r_start br then scan_indices_h br j_to_len index js' new_j_to_len best
        else if r_end br <=? j then nothing (Ok (new_j_to_len, best))
        else
          let k := match jget j_to_len (Z.of_nat j - 1) with
                   | Some k => k + 1
                   | None => 1
                   end in
          let new' := (Z.of_nat j, k) :: new_j_to_len in
          holding (length j_to_len + length new') (
          if cs_n best <? k then
            hold! b := nothing (usub (j + 1) k) in
            hold! a := nothing (usub (index + 1) k) in
            scan_indices_h br j_to_len index js' new' (CS b a k)
          else scan_indices_h br j_to_len index js' new' best)
    end.

  (* changes.rs:148-171; the older table is dropped at 170 *)
  Fixpoint scan_after_h (br : range) (items : list T) (index : nat) (j_to_len : jmap) (best : common)
    : held common :=
    match items with
    | [] => nothing (Ok best)
    | item :: items' =>
        hold! (new_j, best') :=
          match indices item with
          | Some js => scan_indices_h br j_to_len index js [] best
          | None => nothing (Ok ([], best))
          end in
        scan_after_h br items' (S index) new_j best'
    end.

  (* changes.rs:140-210; 176-206 only count *)
  Definition longest_common_subsequence_h (br ar : range) : held (option common) :=
    hold! items := nothing (subsequence after ar) in
    hold! best := scan_after_h br items (r_start ar) [] (CS 0 0 0) in
    if cs_n best =? 0 then nothing (Ok None)
    else
      hold! bpre := nothing (subsequence before (Range (r_start br) (cs_b best))) in
      hold! apre := nothing (subsequence after (Range (r_start ar) (cs_a best))) in
      let count := zip_match_count eqb (rev bpre) (rev apre) in
      hold! best := nothing (incr_size_moving_starts best
                               (Nat.min (Nat.min count (cs_b best)) (cs_a best))) in
      if (cs_before_end best + 1 <? r_end br) && (cs_after_end best + 1 <? r_end ar) then
        hold! bpost := nothing (subsequence before (Range (cs_before_end best + 1) (r_end br))) in
        hold! apost := nothing (subsequence after (Range (cs_after_end best + 1) (r_end ar))) in
        let count := zip_match_count eqb bpost apost in
        nothing (Ok (Some (incr_size_moving_ends best count)))
      else nothing (Ok (Some best)).

  (* changes.rs:213-233 *)
  Fixpoint lcs_loop_h (fuel : nat) (lifo : list (range * range)) (raw : list common)
    : held (list common) :=
    match fuel with
    | 0 => nothing OutOfFuel
    | S fuel' =>
        holding (length lifo + length raw) (
        match lifo with
        | [] => nothing (Ok raw)
        | (br, ar) :: rest =>
            hold! found := besides (length rest + length raw) (longest_common_subsequence_h br ar) in
            match found with
            | None => lcs_loop_h fuel' rest raw
            | Some lcs =>
                let rest1 :=
                  if (r_start br <? cs_b lcs) && (r_start ar <? cs_a lcs)
                  then (Range (r_start br) (cs_b lcs), Range (r_start ar) (cs_a lcs)) :: rest
                  else rest in
                let rest2 :=
                  if (cs_before_end lcs <? r_end br) && (cs_after_end lcs <? r_end ar)
                  then (Range (cs_before_end lcs) (r_end br), Range (cs_after_end lcs) (r_end ar)) :: rest1
                  else rest1 in
                lcs_loop_h fuel' rest2 (raw ++ [lcs])
            end
        end)
    end.

  (* changes.rs:212-255, 280-324: raw_lcses is held until lcses is complete, lcses until the
     changes are *)
  Definition generate_h : held (list change) :=
    hold! raw := lcs_loop_h (lcs_fuel before) [(range_from before 0, range_from after 0)] [] in
    let lcses := merge_adjacent (cs_sort raw) in
    let changes := generate_loop before after lcses 0 0 in
    holding (length raw + length lcses) (holding (length lcses + length changes) (nothing (Ok changes))).
End Held.

(* changes.rs:117-124, 334-355: the index is held until the changes are complete *)
Definition text_changes_h (before after : list line) : held (list change) :=
  let index := string_generate_from before in
  besides (string_positions index) (generate_h line_eqb (string_indices_of index) before after).
Definition byte_changes_h (before after : list byte) : held (list change) :=
  let index := byte_generate_from before in
  besides (byte_positions index) (generate_h Byte.eqb (byte_indices_of index) before after).

(* Model_Cost.v - pw_diff_lib/src/changes.rs:140-233 with a count of the rounds of its loops.
   Each function does what the function of Model_Changes.v without [_c] does (proved in
   Proof_Cost.v) and counts: one for each round of `for (i, item)` (148), of `for j in indices`
   (152), for each pair compared by `take_while` (185, 203), and for each round of
   `while let Some(..) = lifo.pop()` (215).  What one round takes (a look-up in a hash table, a
   comparison of two items) is not looked into; building the index (sequence.rs:109-138), sorting
   and merging the blocks (234-252) are not counted. *)
From Verif Require Import Base Model_Seq Model_Changes.

Definition counted (A : Type) : Type := nat * res A.
Definition uncounted {A} (m : res A) : counted A := (0, m).
Definition cbind {A B} (m : counted A) (k : A -> counted B) : counted B :=
  match m with
  | (n, Ok a) => let r := k a in (n + fst r, snd r)
  | (n, Panic) => (n, Panic)
  | (n, OutOfFuel) => (n, OutOfFuel)
  end.
Definition tick {A} (m : counted A) : counted A := (S (fst m), snd m).
Notation "'count!' x ':=' e 'in' k" := (cbind e (fun x => k))
  (at level 200, x pattern, e at level 200, k at level 200, right associativity).

Section Counted.
  Context {T : Type} (eqb : T -> T -> bool).
  Variable indices : T -> option (list nat).
  Variables before after : list T.

  (* changes.rs:152-168 *)
  Fixpoint scan_indices_c (br : range) (j_to_len : jmap) (index : nat) (js : list nat)
           (new_j_to_len : jmap) (best : common) : counted (jmap * common) :=
    match js with
    | [] => uncounted (Ok (new_j_to_len, best))
    | j :: js' =>
        tick (
        if j <? r_start br then scan_indices_c br j_to_len index js' new_j_to_len best
        else if r_end br <=? j then uncounted (Ok (new_j_to_len, best))
        else
          let k := match jget j_to_len (Z.of_nat j - 1) with
                   | Some k => k + 1
                   | None => 1
                   end in
          let new' := (Z.of_nat j, k) :: new_j_to_len in
          if cs_n best <? k then
            count! b := uncounted (usub (j + 1) k) in
            count! a := uncounted (usub (index + 1) k) in
            scan_indices_c br j_to_len index js' new' (CS b a k)
          else scan_indices_c br j_to_len index js' new' best)
    end.

  (* changes.rs:148-171 *)
  Fixpoint scan_after_c (br : range) (items : list T) (index : nat) (j_to_len : jmap) (best : common)
    : counted common :=
    match items with
    | [] => uncounted (Ok best)
    | item :: items' =>
        tick (
        count! (new_j, best') :=
          match indices item with
          | Some js => scan_indices_c br j_to_len index js [] best
          | None => uncounted (Ok ([], best))
          end in
        scan_after_c br items' (S index) new_j best')
    end.

  (* .zip(..).take_while(|(a, b)| a == b).count(); the pair that ends it is compared too *)
  Fixpoint zip_match_count_c (l r : list T) : counted nat :=
    match l, r with
    | x :: l', y :: r' =>
        tick (if eqb x y then count! n := zip_match_count_c l' r' in uncounted (Ok (S n)) else uncounted (Ok 0))
    | _, _ => uncounted (Ok 0)
    end.

  (* changes.rs:140-210 *)
  Definition longest_common_subsequence_c (br ar : range) : counted (option common) :=
    count! items := uncounted (subsequence after ar) in
    count! best := scan_after_c br items (r_start ar) [] (CS 0 0 0) in
    if cs_n best =? 0 then uncounted (Ok None)
    else
      count! bpre := uncounted (subsequence before (Range (r_start br) (cs_b best))) in
      count! apre := uncounted (subsequence after (Range (r_start ar) (cs_a best))) in
      count! count := zip_match_count_c (rev bpre) (rev apre) in
      count! best := uncounted (incr_size_moving_starts best
                                  (Nat.min (Nat.min count (cs_b best)) (cs_a best))) in
      if (cs_before_end best + 1 <? r_end br) && (cs_after_end best + 1 <? r_end ar) then
        count! bpost := uncounted (subsequence before (Range (cs_before_end best + 1) (r_end br))) in
        count! apost := uncounted (subsequence after (Range (cs_after_end best + 1) (r_end ar))) in
        count! count := zip_match_count_c bpost apost in
        uncounted (Ok (Some (incr_size_moving_ends best count)))
      else uncounted (Ok (Some best)).

  (* changes.rs:213-233 *)
  Fixpoint lcs_loop_c (fuel : nat) (lifo : list (range * range)) (raw : list common)
    : counted (list common) :=
    match fuel with
    | 0 => uncounted OutOfFuel
    | S fuel' =>
        match lifo with
        | [] => uncounted (Ok raw)
        | (br, ar) :: rest =>
            tick (
            count! found := longest_common_subsequence_c br ar in
            match found with
            | None => lcs_loop_c fuel' rest raw
            | Some lcs =>
                let rest1 :=
                  if (r_start br <? cs_b lcs) && (r_start ar <? cs_a lcs)
                  then (Range (r_start br) (cs_b lcs), Range (r_start ar) (cs_a lcs)) :: rest
                  else rest in
                let rest2 :=
                  if (cs_before_end lcs <? r_end br) && (cs_after_end lcs <? r_end ar)
                  then (Range (cs_before_end lcs) (r_end br), Range (cs_after_end lcs) (r_end ar)) :: rest1
                  else rest1 in
                lcs_loop_c fuel' rest2 (raw ++ [lcs])
            end)
        end
    end.

  (* changes.rs:212-255, 280-324 *)
  Definition generate_c : counted (list change) :=
    count! raw := lcs_loop_c (lcs_fuel before) [(range_from before 0, range_from after 0)] [] in
    uncounted (Ok (generate_loop before after (merge_adjacent (cs_sort raw)) 0 0)).
End Counted.

(* changes.rs:334-355 *)
Definition text_changes_c (before after : list line) : counted (list change) :=
  generate_c line_eqb (string_indices_of (string_generate_from before)) before after.
Definition byte_changes_c (before after : list byte) : counted (list change) :=
  generate_c Byte.eqb (byte_indices_of (byte_generate_from before)) before after.

(* Model_Changes.v - pw_diff_lib/src/common_subsequence.rs and
   pw_diff_lib/src/changes.rs (change generation and clumps). *)
From Verif Require Import Base Model_Seq.

(* common_subsequence.rs:6-7  CommonSubsequence(before start, after start, length) *)
Record common := CS { cs_b : nat; cs_a : nat; cs_n : nat }.

(* common_subsequence.rs:16-22 *)
Definition cs_before_range (c : common) : range := Range (cs_b c) (cs_b c + cs_n c).
Definition cs_after_range (c : common) : range := Range (cs_a c) (cs_a c + cs_n c).
(* common_subsequence.rs:32-38 *)
Definition cs_before_end (c : common) : nat := cs_b c + cs_n c.
Definition cs_after_end (c : common) : nat := cs_a c + cs_n c.

(* common_subsequence.rs:40-44 *)
Definition incr_size_moving_starts (c : common) (arg : nat) : res common :=
  let! b := usub (cs_b c) arg in
  let! a := usub (cs_a c) arg in
  Ok (CS b a (cs_n c + arg)).

(* common_subsequence.rs:46-48 *)
Definition incr_size_moving_ends (c : common) (increment : nat) : common :=
  CS (cs_b c) (cs_a c) (cs_n c + increment).

(* common_subsequence.rs:50-57.  No underflow: new_size <= self.2. *)
Definition starts_trimmed (c : common) (requested_size : nat) : common :=
  let new_size := Nat.min (cs_n c) requested_size in
  CS (cs_b c + cs_n c - new_size) (cs_a c + cs_n c - new_size) new_size.

(* common_subsequence.rs:59-61 *)
Definition ends_trimmed (c : common) (requested_size : nat) : common :=
  CS (cs_b c) (cs_a c) (Nat.min (cs_n c) requested_size).

(* common_subsequence.rs:63-72 *)
Definition split (c : common) (requested_size : nat) : option (common * common) :=
  if requested_size * 2 <=? cs_n c
  then Some (ends_trimmed c requested_size, starts_trimmed c requested_size)
  else None.

(* derived Ord on the triple (common_subsequence.rs:6): lexicographic <= *)
Definition cs_leb (x y : common) : bool :=
  if cs_b x =? cs_b y then
    if cs_a x =? cs_a y then cs_n x <=? cs_n y else cs_a x <? cs_a y
  else cs_b x <? cs_b y.

(* rayon par_sort (stable merge sort by Ord), modelled as insertion sort; see C12
   for independence from the algorithm. *)
Fixpoint cs_insert (x : common) (l : list common) : list common :=
  match l with
  | [] => [x]
  | y :: l' => if cs_leb x y then x :: l else y :: cs_insert x l'
  end.
Definition cs_sort (l : list common) : list common := fold_right cs_insert [] l.

(* changes.rs:14-20 *)
Inductive change :=
| NoChange (c : common)
| Delete (r : range) (after_start : nat)
| Insert (before_start : nat) (r : range)
| Replace (rb ra : range).

(* changes.rs:71-87 *)
Definition change_before_start (c : change) (reverse : bool) : nat :=
  if reverse then
    match c with
    | NoChange cs => cs_a cs
    | Delete _ start => start
    | Insert _ ra => r_start ra
    | Replace _ ra => r_start ra
    end
  else
    match c with
    | NoChange cs => cs_b cs
    | Delete rb _ => r_start rb
    | Insert start _ => start
    | Replace rb _ => r_start rb
    end.

(* changes.rs:89-105 *)
Definition change_before_end (c : change) (reverse : bool) : nat :=
  if reverse then
    match c with
    | NoChange cs => cs_after_end cs
    | Delete _ end_ => end_
    | Insert _ ra => r_end ra
    | Replace _ ra => r_end ra
    end
  else
    match c with
    | NoChange cs => cs_before_end cs
    | Delete rb _ => r_end rb
    | Insert end_ _ => end_
    | Replace rb _ => r_end rb
    end.

(* changes.rs:147  HashMap<isize, usize> *)
Definition jmap := list (Z * nat).
Fixpoint jget (m : jmap) (k : Z) : option nat :=
  match m with
  | [] => None
  | (k', v) :: m' => if (k' =? k)%Z then Some v else jget m' k
  end.

Section Generator.
  Context {T : Type} (eqb : T -> T -> bool).
  (* changes.rs:109-124  ChangesGenerator { before, after, before_content_indices } *)
  Variable indices : T -> option (list nat).
  Variables before after : list T.

  (* changes.rs:152-168  for j in indices { ... } *)
  Fixpoint scan_indices (br : range) (j_to_len : jmap) (index : nat) (js : list nat)
           (new_j_to_len : jmap) (best : common) : res (jmap * common) :=
    match js with
    | [] => Ok (new_j_to_len, best)
    | j :: js' =>
        if j <? r_start br then scan_indices br j_to_len index js' new_j_to_len best
        else if r_end br <=? j then Ok (new_j_to_len, best)
        else
          let k := match jget j_to_len (Z.of_nat j - 1) with
                   | Some k => k + 1
                   | None => 1
                   end in
          let new' := (Z.of_nat j, k) :: new_j_to_len in
          if cs_n best <? k then
            let! b := usub (j + 1) k in
            let! a := usub (index + 1) k in
            scan_indices br j_to_len index js' new' (CS b a k)
          else scan_indices br j_to_len index js' new' best
    end.

  (* changes.rs:148-171  for (i, item) in self.after.subsequence(after_range).enumerate() *)
  Fixpoint scan_after (br : range) (items : list T) (index : nat) (j_to_len : jmap) (best : common)
    : res common :=
    match items with
    | [] => Ok best
    | item :: items' =>
        let! (new_j, best') :=
          match indices item with
          | Some js => scan_indices br j_to_len index js [] best
          | None => Ok ([], best)
          end in
        scan_after br items' (S index) new_j best'
    end.

  (* .zip(..).take_while(|(a, b)| a == b).count() *)
  Fixpoint zip_match_count (l r : list T) : nat :=
    match l, r with
    | x :: l', y :: r' => if eqb x y then S (zip_match_count l' r') else 0
    | _, _ => 0
    end.

  (* changes.rs:140-210 *)
  Definition longest_common_subsequence (br ar : range) : res (option common) :=
    let! items := subsequence after ar in
    let! best := scan_after br items (r_start ar) [] (CS 0 0 0) in
    if cs_n best =? 0 then Ok None
    else
      (* 176-191: extend backwards *)
      let! bpre := subsequence before (Range (r_start br) (cs_b best)) in
      let! apre := subsequence after (Range (r_start ar) (cs_a best)) in
      let count := zip_match_count (rev bpre) (rev apre) in
      let! best := incr_size_moving_starts best
                     (Nat.min (Nat.min count (cs_b best)) (cs_a best)) in
      (* 193-206: extend forwards, comparing from one past the end *)
      if (cs_before_end best + 1 <? r_end br) && (cs_after_end best + 1 <? r_end ar) then
        let! bpost := subsequence before (Range (cs_before_end best + 1) (r_end br)) in
        let! apost := subsequence after (Range (cs_after_end best + 1) (r_end ar)) in
        let count := zip_match_count bpost apost in
        Ok (Some (incr_size_moving_ends best count))
      else Ok (Some best).

  (* changes.rs:213-233: the work list; [lifo]'s head is the top of the stack. *)
  Fixpoint lcs_loop (fuel : nat) (lifo : list (range * range)) (raw : list common)
    : res (list common) :=
    match fuel with
    | 0 => OutOfFuel
    | S fuel' =>
        match lifo with
        | [] => Ok raw
        | (br, ar) :: rest =>
            let! found := longest_common_subsequence br ar in
            match found with
            | None => lcs_loop fuel' rest raw
            | Some lcs =>
                let rest1 :=
                  if (r_start br <? cs_b lcs) && (r_start ar <? cs_a lcs)
                  then (Range (r_start br) (cs_b lcs), Range (r_start ar) (cs_a lcs)) :: rest
                  else rest in
                let rest2 :=
                  if (cs_before_end lcs <? r_end br) && (cs_after_end lcs <? r_end ar)
                  then (Range (cs_before_end lcs) (r_end br), Range (cs_after_end lcs) (r_end ar)) :: rest1
                  else rest1 in
                lcs_loop fuel' rest2 (raw ++ [lcs])
            end
        end
    end.

  (* changes.rs:236-252: merge adjacent blocks *)
  Fixpoint merge_from (new_lcs : common) (l : list common) : list common :=
    match l with
    | [] => [new_lcs]
    | lcs :: l' =>
        if (cs_before_end new_lcs =? cs_b lcs) && (cs_after_end new_lcs =? cs_a lcs)
        then merge_from (incr_size_moving_ends new_lcs (cs_n lcs)) l'
        else new_lcs :: merge_from lcs l'
    end.
  Definition merge_adjacent (l : list common) : list common :=
    match l with
    | [] => []
    | lcs :: l' => merge_from lcs l'
    end.

  (* changes.rs:212-255.  Fuel: every iteration that finds a block splits a pair of
     ranges into strictly smaller ones (Proof_Changes.v shows it always suffices). *)
  Definition lcs_fuel : nat := 2 * length before + 2.
  Definition longest_common_subsequences : res (list common) :=
    let! raw := lcs_loop lcs_fuel [(range_from before 0, range_from after 0)] [] in
    Ok (merge_adjacent (cs_sort raw)).

  (* changes.rs:286-301 / 306-321: the change, if any, filling the gap from (i,j) to (bs,as_) *)
  Definition gap_change (i j bs as_ : nat) : list change :=
    if (i <? bs) && (j <? as_) then [Replace (Range i bs) (Range j as_)]
    else if i <? bs then [Delete (Range i bs) as_]
    else if j <? as_ then [Insert bs (Range j as_)]
    else [].

  (* changes.rs:285-305 *)
  Fixpoint generate_loop (lcses : list common) (i j : nat) : list change :=
    match lcses with
    | [] => gap_change i j (length before) (length after)
    | lcs :: lcses' =>
        gap_change i j (cs_b lcs) (cs_a lcs) ++ NoChange lcs
          :: generate_loop lcses' (cs_before_end lcs) (cs_after_end lcs)
    end.

  (* changes.rs:280-324 *)
  Definition generate : res (list change) :=
    let! lcses := longest_common_subsequences in
    Ok (generate_loop lcses 0 0).
End Generator.

(* changes.rs:334-344  Changes::<String>::new(before, after).changes *)
Definition text_changes (before after : list line) : res (list change) :=
  generate line_eqb (string_indices_of (string_generate_from before)) before after.

(* changes.rs:346-355  Changes::<u8>::new(before, after).changes *)
Definition byte_changes (before after : list byte) : res (list change) :=
  generate Byte.eqb (byte_indices_of (byte_generate_from before)) before after.

(* ------------------------------------------------------------------ *)
(* Clumps                                                              *)
(* ------------------------------------------------------------------ *)

(* changes.rs:357-362  ChangeClump { before, after, changes }: the two sequences are
   passed separately where needed. *)
Definition clump := list change.

Definition last_change (c : clump) : option change := last (map Some c) None.

(* changes.rs:378-394  impl ChangeBasics for ChangeClump (both use first()) *)
Definition clump_before_start (c : clump) (reverse : bool) : nat :=
  match c with ch :: _ => change_before_start ch reverse | [] => 0 end.
Definition clump_before_end (c : clump) (reverse : bool) : nat :=
  match c with ch :: _ => change_before_end ch reverse | [] => 0 end.

(* changes.rs:397-409 *)
Definition clump_starts (c : clump) : nat * nat :=
  match c with
  | [] => (0, 0)
  | Delete r after_start :: _ => (r_start r, after_start)
  | NoChange m :: _ => (cs_b m, cs_a m)
  | Insert before_start ra :: _ => (before_start, r_start ra)
  | Replace rb ra :: _ => (r_start rb, r_start ra)
  end.

(* changes.rs:411-423 *)
Definition clump_ends (c : clump) : nat * nat :=
  match last_change c with
  | None => (0, 0)
  | Some (Delete r after_start) => (r_end r, after_start)
  | Some (NoChange m) => (cs_before_end m, cs_after_end m)
  | Some (Insert before_start ra) => (before_start, r_end ra)
  | Some (Replace rb ra) => (r_end rb, r_end ra)
  end.

(* changes.rs:425-433 *)
Definition clump_ranges (c : clump) : range * range :=
  let (before_start, after_start) := clump_starts c in
  let (before_end, after_end) := clump_ends c in
  (Range before_start before_end, Range after_start after_end).

(* changes.rs:435-454; `as u8` truncates *)
Definition clump_context_lengths (c : clump) : nat * nat :=
  let start := match c with NoChange m :: _ => cs_n m | _ => 0 end in
  let end_ := match last_change c with Some (NoChange m) => cs_n m | _ => 0 end in
  (start mod 256, end_ mod 256).

(* changes.rs:475-497: the while loop of ChangeClumpIter::next.
   Returns the changes collected, the remaining input and the stash. *)
Fixpoint clump_loop (context : nat) (iter : list change) (changes : clump)
  : clump * list change * option common :=
  match iter with
  | [] => (changes, [], None)
  | NoChange cs :: iter' =>
      match changes with
      | [] =>
          match iter' with
          | _ :: _ => clump_loop context iter' [NoChange (starts_trimmed cs context)]
          | [] => clump_loop context iter' []
          end
      | _ :: _ =>
          match iter' with
          | [] => (changes ++ [NoChange (ends_trimmed cs context)], iter', None)
          | _ :: _ =>
              match split cs context with
              | Some (head, tail) => (changes ++ [NoChange head], iter', Some tail)
              | None => clump_loop context iter' (changes ++ [NoChange cs])
              end
          end
      end
  | ch :: iter' => clump_loop context iter' (changes ++ [ch])
  end.

(* changes.rs:468-507  ChangeClumpIter::next; state: (iter, stash) *)
Definition clump_next (context : nat) (iter : list change) (stash : option common)
  : option clump * list change * option common :=
  let changes := match stash with Some s => [NoChange s] | None => [] end in
  match clump_loop context iter changes with
  | ([], iter', stash') => (None, iter', stash')
  | (changes', iter', stash') => (Some changes', iter', stash')
  end.

(* collecting the iterator; fuel: one call per change plus two *)
Fixpoint clumps_collect (fuel context : nat) (iter : list change) (stash : option common)
  : res (list clump) :=
  match fuel with
  | 0 => OutOfFuel
  | S fuel' =>
      match clump_next context iter stash with
      | (None, _, _) => Ok []
      | (Some c, iter', stash') =>
          let! rest := clumps_collect fuel' context iter' stash' in
          Ok (c :: rest)
      end
  end.

(* changes.rs:554-562  changes.change_clumps(context).collect() *)
Definition change_clumps (context : nat) (changes : list change) : res (list clump) :=
  clumps_collect (length changes + 2) context changes None.

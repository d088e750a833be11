(* Properties_Basics.v - the property theorems and a concrete case beside each; proofs are in
   Proof_Props_Basics.v.  Generated by tools/mkthms.py. *)
From Coq Require Import String.
From Verif Require Import Proof_Props_Basics Base Model_Seq Model_Changes Model_IO Model_Text Model_Json Model_Regex Model_Unified Model_Basics Spec Spec_Unified Cases Proof_UClump Proof_Props_Unified.
Local Open Scope Z_scope.

(* ------------------------------------------------------------------ C81 *)
(* C81: the positional methods of a change give the extents of the change in the old sequence,
   or in the new one under [reverse] (and the other way round for the methods called after_...);
   reductions move both ends inwards, and if the end would become negative a debug build panics
   and a release build wraps around. *)
Theorem C81_change_positions : forall dbg n m cs c (reverse : bool) r0 r1 s e,
  proper n m cs -> In c cs -> Z.of_nat n < two63 -> Z.of_nat m < two63 -> is_u8 r0 -> is_u8 r1 ->
  s = Z.of_nat (if reverse then a_from c else b_from c) ->
  e = Z.of_nat (if reverse then a_to c else b_to c) ->
  let len := basic_length dbg (change_start c) (change_end c) in
  let range := basic_range dbg (change_start c) (change_end c) in
  let my_range := basic_my_range dbg len in
  (change_start c reverse = Ok s /\ after_of (change_start c) (negb reverse) = Ok s) /\
  (change_end c reverse = Ok e /\ after_of (change_end c) (negb reverse) = Ok e) /\
  (s <= e /\ len reverse = Ok (e - s) /\ after_of len (negb reverse) = Ok (e - s)) /\
  (range None reverse = Ok (s, e) /\ after_of (range None) (negb reverse) = Ok (s, e)) /\
  (my_range None reverse = Ok (0, e - s) /\ after_of (my_range None) (negb reverse) = Ok (0, e - s)) /\
  range (Some (r0, r1)) reverse =
    (if r1 <=? e then Ok (s + r0, e - r1) else if dbg then Panic else Ok (s + r0, two64 + e - r1)) /\
  my_range (Some (r0, r1)) reverse =
    (if r1 <=? e - s then Ok (r0, e - s - r1) else if dbg then Panic else Ok (r0, two64 + (e - s) - r1)).
Proof. exact p_C81_change_positions. Qed.
Print Assumptions C81_change_positions.

Example C81_example :
  let cs := [NoChange (CS 0 0 7); Replace (Range 7 10) (Range 7 8); NoChange (CS 10 8 2)] in
  let c := Replace (Range 7 10) (Range 7 8) in
  proper 12 10 cs /\ In c cs /\
  basic_range true (change_start c) (change_end c) (Some (1, 1)) false = Ok (8, 9) /\
  basic_my_range true (basic_length true (change_start c) (change_end c)) (Some (1, 1)) false = Ok (1, 2) /\
  basic_my_range true (basic_length true (change_start c) (change_end c)) (Some (1, 2)) true = Panic.
Proof. exact e_C81_example. Qed.

(* C17 (see Properties_Gen.v): the methods of a clump are those of its first change. *)
Theorem C17_first_change_partial : forall dbg c rest (reverse : bool) reductions,
  let clump := c :: rest in
  (clump_start clump reverse = Ok (Z.of_nat (if reverse then a_from c else b_from c)) /\
   after_of (clump_start clump) (negb reverse) = clump_start clump reverse) /\
  (clump_end clump reverse = Ok (Z.of_nat (if reverse then a_to c else b_to c)) /\
   after_of (clump_end clump) (negb reverse) = clump_end clump reverse) /\
  basic_length dbg (clump_start clump) (clump_end clump) reverse = basic_length dbg (change_start c) (change_end c) reverse /\
  basic_range dbg (clump_start clump) (clump_end clump) reductions reverse =
    basic_range dbg (change_start c) (change_end c) reductions reverse /\
  (clump_start [] reverse = Ok 0 /\ clump_end [] reverse = Ok 0).
Proof. exact p_C17_first_change_partial. Qed.
Print Assumptions C17_first_change_partial.

(* with reductions, in the old sequence and in the new one *)
Example C17_methods_example :
  let clump := [NoChange (CS 5 4 2); Delete (Range 7 9) 6; NoChange (CS 9 6 1)] in
  basic_range true (clump_start clump) (clump_end clump) (Some (1, 0)) false = Ok (6, 7) /\
  basic_range true (clump_start clump) (clump_end clump) None true = Ok (4, 6) /\
  clump_end clump false = Ok 7.
Proof. exact e_C17_methods_example. Qed.

(* ------------------------------------------------------------------ C82 *)
(* C82: the positions of a parsed unified clump are the numbers written in its header, those
   behind the minus sign, or behind the plus sign under [reverse]; its end is their sum, and if
   that leaves the machine word a debug build panics and a release build wraps around. *)
Theorem C82_positions : forall nd dbg lines i clump cs d1 o2 d3 o4 b bl a al (reverse : bool),
  digit_table nd -> Forall character cs -> nth_error lines i = Some (concat cs) ->
  header_form nd cs d1 o2 d3 o4 -> numeral d1 b -> length_field o2 bl -> numeral d3 a -> length_field o4 al ->
  get_from_at nd dbg lines i = Ok (DOk (Some clump)) ->
  let s := if reverse then a else b in
  let l := if reverse then al else bl in
  let end_ := if s + l <? two64 then Ok (s + l) else if dbg then Panic else Ok (s + l - two64) in
  (unified_start clump reverse = Ok s /\ after_of (unified_start clump) (negb reverse) = Ok s) /\
  (unified_length clump reverse = Ok l /\ after_of (unified_length clump) (negb reverse) = Ok l) /\
  (unified_end dbg clump reverse = end_ /\ after_of (unified_end dbg clump) (negb reverse) = end_) /\
  basic_range dbg (unified_start clump) (unified_end dbg clump) None reverse = (let! e := end_ in Ok (s, e)) /\
  basic_my_range dbg (unified_length clump) None reverse = Ok (0, l).
Proof. exact p_C82_positions. Qed.
Print Assumptions C82_positions.

(* its lines are the old lines behind the header (the new ones under [reverse], and the other
   way round for after_lines); a range of them is given exactly if there are that many lines, and
   otherwise there is a panic; as many lines as the header says are always there *)
Theorem C82_lines : forall nd dbg lines i clump (reverse : bool), get_from_at nd dbg lines i = Ok (DOk (Some clump)) ->
  exists ls rest, clump_at nd lines i (uc_header clump) ls rest /\ clump_read (uc_header clump) ls rest clump /\
  forall mine, mine = (if reverse then uc_after clump else uc_before clump) ->
    length mine = length (if reverse then new_lines ls else old_lines ls) /\
    uc_before_lines clump None reverse = Ok mine /\ unified_after_lines clump None (negb reverse) = Ok mine /\
    (forall from to, (from <= to <= length mine)%nat -> exists pre post part, mine = pre ++ part ++ post /\
       length pre = from /\ length part = (to - from)%nat /\
       uc_before_lines clump (Some (Range from to)) reverse = Ok part /\
       unified_after_lines clump (Some (Range from to)) (negb reverse) = Ok part) /\
    (forall from to, ~ (from <= to <= length mine)%nat -> uc_before_lines clump (Some (Range from to)) reverse = Panic) /\
    (forall l, unified_length clump reverse = Ok l -> 0 <= l <= Z.of_nat (length mine)).
Proof. exact p_C82_lines. Qed.
Print Assumptions C82_lines.

Example C82_example : exists c, get_from_at no_more_digits true two_clumps 1 = Ok (DOk (Some c)) /\
  basic_range true (unified_start c) (unified_end true c) None false = Ok (1, 4) /\
  uc_before_lines c (Some (Range 1 2)) true = Ok (split_lines (str "+z
")) /\ uc_before_lines c (Some (Range 1 4)) true = Panic /\
  unified_end true (UClump (SLs (SL 18446744073709551615 1) (SL 0 1)) [] [] (0, 0) 0) false = Panic.
Proof. exact e_C82_example. Qed.

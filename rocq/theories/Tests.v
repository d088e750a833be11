(* Tests.v - the repository's own unit and doc tests, replayed on the model (and, at the end, the Rust primitives).
   These validate the model against the expected values recorded in /repo; they are
   tests, not proofs of properties. *)
From Coq Require Import String.
From Verif Require Import Base Model_Seq Model_Changes Model_IO Model_Text Model_Bytes Model_Json Model_Regex Model_Unified Cases.
Local Open Scope string_scope.

Definition clumps_of (b a : string) (ctx : nat) : list text_clump :=
  match text_diff_clumps (L b) (L a) ctx with Ok c => c | _ => [] end.
Definition patch (dbg : bool) (b a : string) (ctx : nat) (target : string) (reverse : bool) :=
  match text_apply_into dbg (clumps_of b a ctx) (L target) reverse sink with
  | (Done st, w) => Some (st, w_out w)
  | _ => None
  end.

(* range.rs:49-62 *)
Example t_crange : range_len (Range 3 5) = 2. Proof. reflexivity. Qed.
Example t_valid :
  range_is_valid (Range 2 3) = true /\ range_is_valid_for_max_end (Range 3 10) 9 = false /\
  range_is_valid_for_max_end (Range 3 10) 10 = true /\ range_is_valid_for_max_end (Range 3 10) 11 = true.
Proof. repeat split. Qed.

(* data.rs:74-79, 101-106 (doc tests of the dead twin of the index code) *)
Example t_indices :
  let m := string_generate_from (L "A B C D A B C D ") in
  string_indices_of m (bs "A ") = Some [0; 4] /\ string_indices_of m (bs "C ") = Some [2; 6] /\
  string_indices_of m (bs "E ") = None.
Proof. vm_compute. repeat split. Qed.
Example t_byte_indices :
  let m := byte_generate_from [x00;x01;x02;x00] in
  byte_indices_of m x00 = Some [0;3] /\ byte_indices_of m x03 = None.
Proof. vm_compute. repeat split. Qed.

(* changes.rs:130-139 *)
Example t_lcs :
  let b := L "A B C D E F G H I J " in let a := L "X Y Z C D E H I X " in
  longest_common_subsequence line_eqb (string_indices_of (string_generate_from b)) b a
    (range_from b 0) (range_from a 0) = Ok (Some (CS 2 3 3)).
Proof. vm_compute. reflexivity. Qed.

(* changes.rs:260-279 *)
Definition B1 := "A B C D E F G H I J K L M ".
Definition A1 := "A C D Ef Fg G H I J K H L M ".
Example t_generate :
  text_changes (L B1) (L A1) =
  Ok [ NoChange (CS 0 0 1); Delete (Range 1 2) 1; NoChange (CS 2 1 2); Replace (Range 4 6) (Range 3 5);
       NoChange (CS 6 5 5); Insert 11 (Range 10 11); NoChange (CS 11 11 2) ].
Proof. vm_compute. reflexivity. Qed.

(* changes.rs:513-553 *)
Example t_clumps :
  (let! ch := text_changes (L B1) (L A1) in change_clumps 2 ch) =
  Ok [ [NoChange (CS 0 0 1); Delete (Range 1 2) 1; NoChange (CS 2 1 2); Replace (Range 4 6) (Range 3 5);
        NoChange (CS 6 5 2)];
       [NoChange (CS 9 8 2); Insert 11 (Range 10 11); NoChange (CS 11 11 2)] ].
Proof. vm_compute. reflexivity. Qed.

(* apply_tests.rs *)
Definition B2 := "a b c d A B C D E F G H I J K L M x y z ".
Definition A2 := "a b c d A C D Ef Fg G H I J K H L M x y z ".
Definition B3 := "A B C D E F G H I J K L M x y z ".
Definition B2' := "a b c d A B C D E F G H I J K L M x y z".
Definition A2' := "a b c d A C D Ef Fg G H I J K H L M x y z".
Definition A2a := "a b c d A C D Ef Fg G H I J K H L M x y z a".

Example t_clean_patch : forall dbg, patch dbg B1 A1 2 B1 false = Some (Stats 2 0 0 0 0, bs A1).
Proof. intros []; vm_compute; reflexivity. Qed.
Example t_clean_patch_in_middle : forall dbg, patch dbg B2 A2 2 B2 false = Some (Stats 2 0 0 0 0, bs A2).
Proof. intros []; vm_compute; reflexivity. Qed.
Example t_already_fully_applied : forall dbg, patch dbg B3 A2 2 A2 false = Some (Stats 0 0 2 0 0, bs A2).
Proof. intros []; vm_compute; reflexivity. Qed.
Example t_clean_patch_reverse : forall dbg, patch dbg B3 A2 2 A2 true = Some (Stats 2 0 0 0 0, bs B3).
Proof. intros []; vm_compute; reflexivity. Qed.
Example t_displaced : forall dbg,
  patch dbg B2 A2 2 ("x y z " ++ B2) false = Some (Stats 1 1 0 0 0, bs ("x y z " ++ A2)).
Proof. intros []; vm_compute; reflexivity. Qed.
Example t_displaced_no_final_eol_1 : forall dbg,
  patch dbg B2' A2 2 ("x y z " ++ B2') false = Some (Stats 2 1 0 0 0, bs ("x y z " ++ A2)).
Proof. intros []; vm_compute; reflexivity. Qed.
Example t_displaced_no_final_eol_2 : forall dbg,
  patch dbg B2 A2a 2 ("x y z " ++ B2) false = Some (Stats 2 1 0 0 0, bs ("x y z " ++ A2a)).
Proof. intros []; vm_compute; reflexivity. Qed.
Example t_displaced_no_final_eol_3 : forall dbg,
  patch dbg B2 A2' 2 ("x y z " ++ B2) false = Some (Stats 2 1 0 0 0, bs ("x y z " ++ A2')).
Proof. intros []; vm_compute; reflexivity. Qed.
Example t_already_applied : forall dbg,
  text_is_already_applied dbg (clumps_of B2 A2' 2) (L A2') false = Ok true /\
  text_is_already_applied dbg (clumps_of B2 A2' 2) (L B2) false = Ok false /\
  text_is_already_applied dbg (clumps_of B2 A2' 2) (L ("x y z " ++ A2')) false = Ok true.
Proof. intros []; vm_compute; repeat split. Qed.

(* diff_tests.rs:8-80 *)
Example t_diff_clump_applies : forall dbg,
  map (fun c => (will_apply dbg c (L B1) 0 false, will_apply dbg c (L B1) 0 true,
                 will_apply dbg c (L A1) 0 false, will_apply dbg c (L A1) 0 true)) (clumps_of B1 A1 2)
  = [ (Ok (Some Cleanly), Ok None, Ok None, Ok (Some Cleanly));
      (Ok (Some Cleanly), Ok None, Ok None, Ok (Some Cleanly)) ].
Proof. intros []; vm_compute; reflexivity. Qed.
Example t_diff_clump_applies_2 : forall dbg,
  map (fun c => (will_apply dbg c (L "a a a A B C D E F G H I J K L M ") 3 false,
                 will_apply dbg c (L "B C D E F G H I J K L M ") (-1) false)) (clumps_of B1 A1 2)
  = [ (Ok (Some Cleanly), Ok (Some (WithReductions (1, 1)%Z)));
      (Ok (Some Cleanly), Ok (Some Cleanly)) ].
Proof. intros []; vm_compute; reflexivity. Qed.
Example t_diff_clump_applies_3 : forall dbg,
  match clumps_of B1 A1 2 with
  | c :: _ => (will_apply dbg c (L "B B C D E F G H I J K L M ") 0 false,
               will_apply dbg c (L "B C D Ef Fg G H I J K H L M ") 0 true)
  | [] => (Panic, Panic)
  end = (Ok (Some (WithReductions (1, 1)%Z)), Ok (Some (WithReductions (1, 1)%Z))).
Proof. intros []; vm_compute; reflexivity. Qed.

(* diff_tests.rs:82-113: the empty line in A4 is written directly *)
Definition B4 := "A B C D E F G H I J K L M O P Q R S T ".
Definition A4 := "A B C D E F G H I X Y Z  J K L M O P Q R S T ".
Example t_find_compromise : forall dbg,
  match clumps_of B4 A4 2 with
  | c :: _ => (will_apply_nearby dbg c (L B4) 2 None 3 false, will_apply_nearby dbg c (L B4) 2 None (-3) false)
  | [] => (Panic, Panic)
  end = (Ok (Some (-3, Cleanly)%Z), Ok (Some (3, Cleanly)%Z)).
Proof. intros []; vm_compute; reflexivity. Qed.

(* diff_tests.rs:115-151 *)
Definition A5 := "A X B C D E F G H I X Y Z  J K L M O P Q R S X Y Z T ".
Example t_find_compromise_edges : forall dbg,
  match clumps_of B4 A5 2 with
  | [c0; c1; c2] =>
      (will_apply_nearby dbg c0 (L B4) 0 (Some c1) 3 false,
       will_apply_nearby dbg c2 (L "B C D E F G H I J K L M O P Q R S ") 8 None (-3) false)
  | _ => (Panic, Panic)
  end = (Ok (Some (-3, Cleanly)%Z), Ok (Some (2, WithReductions (1, 1))%Z)).
Proof. intros []; vm_compute; reflexivity. Qed.

(* unified_diff.rs:336-368 *)
Definition UNIFIED_DIFF_CLUMP : list line := split_lines (str "--- lao	2002-02-21 23:30:39.942229878 -0800
+++ tzu	2002-02-21 23:30:50.442260588 -0800
@@ -1,7 +1,6 @@
-The Way that can be told of is not the eternal Way;
-The name that can be named is not the eternal name.
 The Nameless is the origin of Heaven and Earth;
-The Named is the mother of all things.
+The named is the mother of all things.
+
 Therefore let there always be non-being,
   so we may see their subtlety,
 And let there always be being,
@@ -9,3 +8,6 @@
 The two are the same,
 But after they are produced,
   they have different names.
+They both may be called deep and profound.
+Deeper and more profound,
+The door of all subtleties!
").
Example t_unified_diff_clump_parse_string : forall dbg,
  (exists c, get_from_at (fun _ => false) dbg UNIFIED_DIFF_CLUMP 2 = Ok (DOk (Some c))) /\
  get_from_at (fun _ => false) dbg UNIFIED_DIFF_CLUMP 1 = Ok (DOk None).
Proof. intros []; (split; [eexists|]; vm_compute; reflexivity). Qed.

(* the Rust primitives of Base.v: casts, overflow in both builds, slices, debug assertions *)
Example t_casts :
  as_usize (-1) = 18446744073709551615%Z /\ as_usize 5 = 5%Z /\ as_usize (-9223372036854775808) = 9223372036854775808%Z /\
  as_isize 18446744073709551615 = (-1)%Z /\ as_isize 9223372036854775807 = 9223372036854775807%Z /\
  as_isize 9223372036854775808 = (-9223372036854775808)%Z.
Proof. repeat split; vm_compute; reflexivity. Qed.
Example t_overflow :
  uadd true 18446744073709551615 1 = Panic /\ uadd false 18446744073709551615 1 = Ok 0%Z /\
  usubz true 0 1 = Panic /\ usubz false 0 1 = Ok 18446744073709551615%Z /\
  iadd true 9223372036854775807 1 = Panic /\ iadd false 9223372036854775807 1 = Ok (-9223372036854775808)%Z /\
  isubz true (-9223372036854775808) 1 = Panic /\ isubz false (-9223372036854775808) 1 = Ok 9223372036854775807%Z /\
  (forall dbg, uadd dbg 18446744073709551614 1 = Ok 18446744073709551615%Z /\ isubz dbg 3 5 = Ok (-2)%Z) /\
  usub 3 3 = Ok 0 /\ usub 3 4 = Panic.
Proof. repeat split; try intros []; vm_compute; reflexivity. Qed.
Example t_slices :
  slice [1; 2; 3] 1 3 = Ok [2; 3] /\ slice [1; 2; 3] 3 3 = Ok [] /\ slice [1; 2; 3] 2 1 = Panic /\ slice [1; 2; 3] 1 4 = Panic /\
  zslice [1; 2; 3] 1 3 = Ok [2; 3] /\ zslice [1; 2; 3] 3 3 = Ok [] /\ zslice [1; 2; 3] 2 1 = Panic /\ zslice [1; 2; 3] 1 4 = Panic.
Proof. repeat split; vm_compute; reflexivity. Qed.
Example t_debug_assert : debug_assert true false = Panic /\ debug_assert false false = Ok tt /\ debug_assert true true = Ok tt.
Proof. repeat split. Qed.

(* Properties_ByteWork.v - the property theorems and a concrete case beside each; proofs are in
   Proof_Props_ByteWork.v.  Generated by tools/mkthms.py. *)
From Coq Require Import String.
From Verif Require Import Proof_Props_ByteWork Base Model_Seq Model_Changes Model_IO Model_Text Model_Bytes Model_Cost Model_Work Model_ByteWork Model_Json Cases Proof_Work Proof_ByteWork.
Local Open Scope Z_scope.

(* ------------------------------------------------------------------ C115 *)
(* The counting changes no result. *)
Theorem C115_same : forall dbg clumps data reverse w,
  snd (byte_apply_into_c dbg clumps data reverse w) = byte_apply_into dbg clumps data reverse w /\
  snd (byte_already_applied_c clumps data reverse) = byte_already_applied clumps data reverse.
Proof. exact p_C115_same. Qed.
Print Assumptions C115_same.

(* Applying a byte patch compares at most as many bytes as the patch has, old and new together -
   whatever the data are and whatever positions and context lengths the clumps state.  Asking
   whether it has been applied compares at most the new bytes. *)
Theorem C115_work : forall dbg clumps data reverse w,
  (fst (byte_apply_into_c dbg clumps data reverse w) <=
     list_sum (map (fun c => List.length (sn_items (bc_before c)) + List.length (sn_items (bc_after c))) clumps))%nat /\
  (fst (byte_already_applied_c clumps data false) <= list_sum (map (fun c => List.length (sn_items (bc_after c))) clumps))%nat /\
  (fst (byte_already_applied_c clumps data true) <= list_sum (map (fun c => List.length (sn_items (bc_before c))) clumps))%nat.
Proof. exact p_C115_work. Qed.
Print Assumptions C115_work.

(* No clump compares more than twice the bytes of the data, however large the clump is. *)
Theorem C115_data : forall dbg clumps data reverse w,
  Forall (fun c => 0 <= sn_start (bc_before c) /\ 0 <= sn_start (bc_after c)) clumps ->
  (fst (byte_apply_into_c dbg clumps data reverse w) <= List.length clumps * (2 * List.length data))%nat.
Proof. exact p_C115_data. Qed.
Print Assumptions C115_data.

(* If every clump fits and the patch is applied, exactly the old bytes are compared. *)
Theorem C115_exact : forall dbg clumps data reverse w w',
  Forall (fun c => 0 <= sn_start (bc_side c reverse) /\ byte_will_apply c data reverse = true) clumps ->
  byte_apply_into dbg clumps data reverse w = (Done tt, w') ->
  fst (byte_apply_into_c dbg clumps data reverse w) = list_sum (map (fun c => List.length (sn_items (bc_side c reverse))) clumps).
Proof. exact p_C115_exact. Qed.
Print Assumptions C115_exact.

(* What one clump takes: nothing if it does not lie within the data; else the bytes up to and
   including the first one that differs, or all of them if none differs. *)
Theorem C115_stops : forall c data reverse, let sn := bc_side c reverse in let n := fst (byte_will_apply_c c data reverse) in 0 <= sn_start sn ->
  (zlen data <= sn_start sn \/ zlen data < sn_start sn + zlen (sn_items sn) -> n = 0%nat) /\
  (sn_start sn < zlen data -> sn_start sn + zlen (sn_items sn) <= zlen data ->
   exists m, firstn m (sn_items sn) = firstn m (skipn (Z.to_nat (sn_start sn)) data) /\
     ((m = List.length (sn_items sn) /\ n = m) \/
      ((m < List.length (sn_items sn))%nat /\ nth_error (sn_items sn) m <> nth_error (skipn (Z.to_nat (sn_start sn)) data) m /\ n = S m))).
Proof. exact p_C115_stops. Qed.
Print Assumptions C115_stops.

(* What a whole patch takes: the old side of every clump is looked at once, the new side only if
   the old one does not fit.  The query ends with the first clump that has not been applied. *)
Theorem C115_total : forall dbg clumps data reverse w w', byte_apply_into dbg clumps data reverse w = (Done tt, w') ->
  fst (byte_apply_into_c dbg clumps data reverse w) =
  list_sum (map (fun c => fst (byte_will_apply_c c data reverse) +
                          if byte_will_apply c data reverse then 0 else fst (byte_will_apply_c c data (negb reverse)))%nat clumps).
Proof. exact p_C115_total. Qed.
Print Assumptions C115_total.

Theorem C115_query : forall data reverse pre c post,
  Forall (fun c => byte_is_already_applied c data reverse = true) pre -> byte_is_already_applied c data reverse = false ->
  fst (byte_already_applied_c (pre ++ c :: post) data reverse) =
  (list_sum (map (fun c => fst (byte_will_apply_c c data (negb reverse))) pre) + fst (byte_will_apply_c c data (negb reverse)))%nat.
Proof. exact p_C115_query. Qed.
Print Assumptions C115_query.

(* two clumps: on the data they fit 5 bytes are compared, the old ones; on other data 4 of the 10 *)
Example C115_example :
  let clumps := [ByteClump (1, 0) (Snippet 0 (str "abc")) (Snippet 0 (str "aXY")); ByteClump (0, 0) (Snippet 5 (str "fg")) (Snippet 5 (str "FG"))] in
  fst (byte_apply_into_c true clumps (str "abcdefg") false (Writer [] None)) = 5%nat /\
  byte_apply_into true clumps (str "abcdefg") false (Writer [] None) = (Done tt, Writer (str "aXYdeFG") None) /\
  forallb (fun c => byte_will_apply c (str "abcdefg") false) clumps = true /\
  fst (byte_apply_into_c true clumps (str "azcde") false (Writer [] None)) = 4%nat /\
  fst (byte_already_applied_c clumps (str "aXYdeFG") false) = 5%nat /\
  fst (byte_already_applied_c clumps (str "azcdeFG") false) = 2%nat.
Proof. exact e_C115_example. Qed.

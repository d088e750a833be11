(* Proof_Props_ByteWork.v - how long it takes to apply a byte patch. *)
From Coq Require Import String.
From Verif Require Import Base Model_Seq Model_Changes Model_IO Model_Text Model_Bytes Model_Cost Model_Work Model_ByteWork Model_Json Cases Proof_Work Proof_ByteWork.
Local Open Scope Z_scope.

(* ------------------------------------------------------------------ C115 *)
(* The counting changes no result. *)
Lemma p_C115_same : forall dbg clumps data reverse w,
  snd (byte_apply_into_c dbg clumps data reverse w) = byte_apply_into dbg clumps data reverse w /\
  snd (byte_already_applied_c clumps data reverse) = byte_already_applied clumps data reverse.
Proof. intros. split; [apply byte_apply_same|apply byte_query_same]. Qed.

(* Applying a byte patch compares at most as many bytes as the patch has, old and new together -
   whatever the data are and whatever positions and context lengths the clumps state.  Asking
   whether it has been applied compares at most the new bytes. *)
Lemma p_C115_work : forall dbg clumps data reverse w,
  (fst (byte_apply_into_c dbg clumps data reverse w) <=
     list_sum (map (fun c => List.length (sn_items (bc_before c)) + List.length (sn_items (bc_after c))) clumps))%nat /\
  (fst (byte_already_applied_c clumps data false) <= list_sum (map (fun c => List.length (sn_items (bc_after c))) clumps))%nat /\
  (fst (byte_already_applied_c clumps data true) <= list_sum (map (fun c => List.length (sn_items (bc_before c))) clumps))%nat.
Proof.
  intros. split; [|split; apply byte_query_le]. apply byte_apply_le. apply Forall_forall. intros c _. unfold byte_will_apply_c.
  pose proof (has_c_le data (sn_items (bc_before c)) (sn_start (bc_before c))). pose proof (has_c_le data (sn_items (bc_after c)) (sn_start (bc_after c))).
  destruct reverse; cbn [bc_side negb]; lia.
Qed.

(* No clump compares more than twice the bytes of the data, however large the clump is. *)
Lemma p_C115_data : forall dbg clumps data reverse w,
  Forall (fun c => 0 <= sn_start (bc_before c) /\ 0 <= sn_start (bc_after c)) clumps ->
  (fst (byte_apply_into_c dbg clumps data reverse w) <= List.length clumps * (2 * List.length data))%nat.
Proof.
  intros dbg clumps data reverse w H.
  assert (E : forall l : list byte_clump, (list_sum (map (fun _ => 2 * List.length data) l) = List.length l * (2 * List.length data))%nat).
  { induction l as [|c l IH]; [reflexivity|]. cbn [map List.length]. change (list_sum (?a :: ?l)) with (a + list_sum l)%nat. unfold list_sum in *. cbn [fold_right]. rewrite IH. lia. }
  rewrite <- E. apply byte_apply_le. eapply Forall_impl; [|exact H]. intros c [H1 H2]. unfold byte_will_apply_c.
  pose proof (has_c_data data (sn_items (bc_before c)) _ H1). pose proof (has_c_data data (sn_items (bc_after c)) _ H2). destruct reverse; cbn [bc_side negb]; lia.
Qed.

(* If every clump fits and the patch is applied, exactly the old bytes are compared. *)
Lemma p_C115_exact : forall dbg clumps data reverse w w',
  Forall (fun c => 0 <= sn_start (bc_side c reverse) /\ byte_will_apply c data reverse = true) clumps ->
  byte_apply_into dbg clumps data reverse w = (Done tt, w') ->
  fst (byte_apply_into_c dbg clumps data reverse w) = list_sum (map (fun c => List.length (sn_items (bc_side c reverse))) clumps).
Proof. intros. eapply byte_apply_exact; eauto. Qed.

(* What one clump takes: nothing if it does not lie within the data; else the bytes up to and
   including the first one that differs, or all of them if none differs. *)
Lemma p_C115_stops : forall c data reverse, let sn := bc_side c reverse in let n := fst (byte_will_apply_c c data reverse) in 0 <= sn_start sn ->
  (zlen data <= sn_start sn \/ zlen data < sn_start sn + zlen (sn_items sn) -> n = 0%nat) /\
  (sn_start sn < zlen data -> sn_start sn + zlen (sn_items sn) <= zlen data ->
   exists m, firstn m (sn_items sn) = firstn m (skipn (Z.to_nat (sn_start sn)) data) /\
     ((m = List.length (sn_items sn) /\ n = m) \/
      ((m < List.length (sn_items sn))%nat /\ nth_error (sn_items sn) m <> nth_error (skipn (Z.to_nat (sn_start sn)) data) m /\ n = S m))).
Proof.
  intros c data reverse sn n H0. unfold n, byte_will_apply_c. fold sn. unfold has_subsequence_at_c. split.
  - intros H. replace ((sn_start sn <? zlen data) && (zlen (sn_items sn) <=? zlen data - sn_start sn)) with false; [reflexivity|]. symmetry. apply andb_false_iff. rewrite Z.ltb_ge, Z.leb_gt. lia.
  - intros H1 H2. replace ((sn_start sn <? zlen data) && (zlen (sn_items sn) <=? zlen data - sn_start sn)) with true by (symmetry; apply andb_true_intro; rewrite Z.ltb_lt, Z.leb_le; lia).
    destruct (zip_c_stops (sn_items sn) (skipn (Z.to_nat (sn_start sn)) data)) as (m & F & D); [rewrite skipn_length; unfold zlen in *; lia|].
    exists m. split; [exact F|]. destruct D as [[-> D]|(D1 & D2 & D)]; rewrite D; [left|right]; auto.
Qed.

(* What a whole patch takes: the old side of every clump is looked at once, the new side only if
   the old one does not fit.  The query ends with the first clump that has not been applied. *)
Lemma p_C115_total : forall dbg clumps data reverse w w', byte_apply_into dbg clumps data reverse w = (Done tt, w') ->
  fst (byte_apply_into_c dbg clumps data reverse w) =
  list_sum (map (fun c => fst (byte_will_apply_c c data reverse) +
                          if byte_will_apply c data reverse then 0 else fst (byte_will_apply_c c data (negb reverse)))%nat clumps).
Proof. intros. eapply byte_apply_total; eauto. Qed.
Lemma p_C115_query : forall data reverse pre c post,
  Forall (fun c => byte_is_already_applied c data reverse = true) pre -> byte_is_already_applied c data reverse = false ->
  fst (byte_already_applied_c (pre ++ c :: post) data reverse) =
  (list_sum (map (fun c => fst (byte_will_apply_c c data (negb reverse))) pre) + fst (byte_will_apply_c c data (negb reverse)))%nat.
Proof. intros. now apply byte_query_prefix. Qed.

(* two clumps: on the data they fit 5 bytes are compared, the old ones; on other data 4 of the 10 *)
Lemma e_C115_example :
  let clumps := [ByteClump (1, 0) (Snippet 0 (str "abc")) (Snippet 0 (str "aXY")); ByteClump (0, 0) (Snippet 5 (str "fg")) (Snippet 5 (str "FG"))] in
  fst (byte_apply_into_c true clumps (str "abcdefg") false (Writer [] None)) = 5%nat /\
  byte_apply_into true clumps (str "abcdefg") false (Writer [] None) = (Done tt, Writer (str "aXYdeFG") None) /\
  forallb (fun c => byte_will_apply c (str "abcdefg") false) clumps = true /\
  fst (byte_apply_into_c true clumps (str "azcde") false (Writer [] None)) = 4%nat /\
  fst (byte_already_applied_c clumps (str "aXYdeFG") false) = 5%nat /\
  fst (byte_already_applied_c clumps (str "azcdeFG") false) = 2%nat.
Proof. vm_compute. repeat split. Qed.

(* Proof_Props_Space.v - how much is held while the changes are found. *)
From Coq Require Import String.
From Verif Require Import Base Model_Seq Model_Changes Model_Space Spec Spec_Cost Cases Proof_Seq Proof_Cost Proof_Space.

(* ------------------------------------------------------------------ C120 *)
(* C120: what the generator holds at once (positions in the index, entries of its two hash tables,
   pairs of ranges still to be searched, blocks found and changes) is at most 4 times the length of
   the old sequence and 4, however long the new sequence is, though the time can be cubic (C107).
   If no item occurs more than r times in the old sequence, it is at most the length of the old
   sequence and the larger of 2 r + M and 3 M + 1, where M is the shorter length, or 1.
   The record changes no result. *)
Lemma p_C120 :
  (forall before after, snd (text_changes_h before after) = text_changes before after) /\
  (forall before after, snd (byte_changes_h before after) = byte_changes before after) /\
  (forall before after, fst (text_changes_h before after) <= 4 * length before + 4) /\
  (forall before after, fst (byte_changes_h before after) <= 4 * length before + 4) /\
  (forall before after r, at_most line_eqb r before ->
     let M := Nat.max 1 (Nat.min (length before) (length after)) in
     fst (text_changes_h before after) <= length before + Nat.max (2 * r + M) (3 * M + 1)) /\
  (forall before after r, at_most Byte.eqb r before ->
     let M := Nat.max 1 (Nat.min (length before) (length after)) in
     fst (byte_changes_h before after) <= length before + Nat.max (2 * r + M) (3 * M + 1)).
Proof.
  assert (HF : forall T (eqb : T -> T -> bool) s, at_most eqb (length s) s).
  { intros T eqb s x. unfold occurrences. induction s as [|y s IH]; cbn [filter length]; [lia|].
    destruct (eqb x y); cbn [length]; lia. }
  assert (HT : forall before after r, at_most line_eqb r before ->
     let M := Nat.max 1 (Nat.min (length before) (length after)) in
     fst (text_changes_h before after) <= length before + Nat.max (2 * r + M) (3 * M + 1)).
  { intros b a r Hr M. unfold text_changes_h. cbv zeta. cbn [besides fst]. rewrite string_index_positions.
    apply Nat.add_le_mono_l. apply (generate_hold line_eqb); [apply line_eqb_lawful|apply string_indices_spec|assumption]. }
  assert (HB : forall before after r, at_most Byte.eqb r before ->
     let M := Nat.max 1 (Nat.min (length before) (length after)) in
     fst (byte_changes_h before after) <= length before + Nat.max (2 * r + M) (3 * M + 1)).
  { intros b a r Hr M. unfold byte_changes_h. cbv zeta. cbn [besides fst]. rewrite byte_index_positions.
    apply Nat.add_le_mono_l. apply (generate_hold Byte.eqb); [apply byte_eqb_lawful|apply byte_indices_spec|assumption]. }
  split; [intros; apply generate_same_h|]. split; [intros; apply generate_same_h|].
  split; [|split; [|split; [exact HT|exact HB]]].
  - intros b a. specialize (HT b a (length b) (HF _ _ b)). cbv zeta in HT. lia.
  - intros b a. specialize (HB b a (length b) (HF _ _ b)). cbv zeta in HB. lia.
Qed.

(* It does grow with the old sequence: for every n there are an old sequence of n items and a new
   one of 2 for which at least 3 n is held at once. *)
Lemma p_C120_needed :
  (forall n, exists before after, length before = n /\ length after = 2 /\ 3 * n <= fst (text_changes_h before after)) /\
  (forall n, exists before after, length before = n /\ length after = 2 /\ 3 * n <= fst (byte_changes_h before after)).
Proof.
  split; intros [|n].
  - exists [], [[x61]; [x61]]. repeat split. apply Nat.le_0_l.
  - exists (repeat [x61] (S n)), [[x61]; [x61]]. rewrite repeat_length. split; [reflexivity|]. split; [reflexivity|].
    unfold text_changes_h. cbv zeta. cbn [besides fst]. rewrite string_index_positions, repeat_length.
    replace (3 * S n) with (S n + 2 * S n) by lia. apply Nat.add_le_mono_l.
    apply (full_hold line_eqb line_eqb_lawful [x61] (string_indices_of (string_generate_from (repeat [x61] (S n)))) (S n)
      ltac:(lia) (string_indices_spec _)).
  - exists [], [x61; x61]. repeat split. apply Nat.le_0_l.
  - exists (repeat x61 (S n)), [x61; x61]. rewrite repeat_length. split; [reflexivity|]. split; [reflexivity|].
    unfold byte_changes_h. cbv zeta. cbn [besides fst]. rewrite byte_index_positions, repeat_length.
    replace (3 * S n) with (S n + 2 * S n) by lia. apply Nat.add_le_mono_l.
    apply (full_hold Byte.eqb byte_eqb_lawful x61 (byte_indices_of (byte_generate_from (repeat x61 (S n)))) (S n)
      ltac:(lia) (byte_indices_spec _)).
Qed.

(* Three different lines in another order: 7 at once, where at most 3 + (3 * 3 + 1) are claimed; 4
   equal lines against 12 lines with them: 16 of at most 4 + (3 * 4 + 1); 5 against two of them: 15 of at most 5 + (2 * 5 + 2). *)
Lemma e_C120_example :
  fst (text_changes_h (L "a b c ") (L "c a b ")) = 7 /\
  fst (text_changes_h (repeat (bs "a ") 4) (L "a b b a b b a b b a b b ")) = 16 /\
  fst (text_changes_h (repeat (bs "a ") 5) (L "a a ")) = 15.
Proof. repeat split; vm_compute; reflexivity. Qed.

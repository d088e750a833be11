(* Proof_Props_Cost.v - how long it takes to find the changes. *)
From Coq Require Import String.
From Verif Require Import Base Model_Seq Model_Changes Model_Cost Spec Spec_Cost Cases Proof_Seq Proof_Cost.

(* ------------------------------------------------------------------ C107 *)
(* C107 (in full): there is a K with rounds <= K * (length before + 1) * (length after + 1) for all
   before and after, where rounds is the number of rounds of the loops of the generator.  False
   for every K: on m equal lines against m times that line and two others it takes at least
   m * m * (m + 1) / 2 rounds. *)
Lemma p_C107_refuted :
  (forall K, exists before after,
     K * ((length before + 1) * (length after + 1)) < fst (text_changes_c before after)) /\
  (forall K, exists before after,
     K * ((length before + 1) * (length after + 1)) < fst (byte_changes_c before after)) /\
  (forall m, exists before after, length before = m /\ length after = 3 * m /\
     m * m * (m + 1) <= 2 * fst (text_changes_c before after)) /\
  (forall m, exists before after, length before = m /\ length after = 3 * m /\
     m * m * (m + 1) <= 2 * fst (byte_changes_c before after)).
Proof.
  assert (HT : forall m, m * m * (m + 1) <= 2 * fst (text_changes_c (repeat [x61; x0a] m) (triples [x61; x0a] [x62; x0a] m))).
  { intros m. apply (family_rounds line_eqb line_eqb_lawful); [discriminate|]. apply string_indices_spec. }
  assert (HB : forall m, m * m * (m + 1) <= 2 * fst (byte_changes_c (repeat x61 m) (triples x61 x62 m))).
  { intros m. apply (family_rounds Byte.eqb byte_eqb_lawful); [discriminate|]. apply byte_indices_spec. }
  assert (HK : forall K R, (8 * K + 2) * (8 * K + 2) * (8 * K + 2 + 1) <= 2 * R ->
            K * ((8 * K + 2 + 1) * (3 * (8 * K + 2) + 1)) < R).
  { intros K R. assert (2 * (K * (3 * (8 * K + 2) + 1)) < (8 * K + 2) * (8 * K + 2)) by lia.
    assert (2 * (K * (3 * (8 * K + 2) + 1)) * (8 * K + 2 + 1) < (8 * K + 2) * (8 * K + 2) * (8 * K + 2 + 1))
      by (apply Nat.mul_lt_mono_pos_r; lia). lia. }
  split; [|split; [|split]].
  - intros K. exists (repeat [x61; x0a] (8 * K + 2)), (triples [x61; x0a] [x62; x0a] (8 * K + 2)).
    rewrite repeat_length, triples_length. apply HK, HT.
  - intros K. exists (repeat x61 (8 * K + 2)), (triples x61 x62 (8 * K + 2)).
    rewrite repeat_length, triples_length. apply HK, HB.
  - intros m. exists (repeat [x61; x0a] m), (triples [x61; x0a] [x62; x0a] m).
    rewrite repeat_length, triples_length. auto.
  - intros m. exists (repeat x61 m), (triples x61 x62 m). rewrite repeat_length, triples_length. auto.
Qed.

(* Proved of C107: if no item occurs more than r times in the old sequence, the number of rounds
   is at most the shorter length times (1 + the length of the new sequence times (r + 3)), that is,
   for each r at most proportional to the product of the two lengths; r can always be the length
   of the old sequence.  The counting changes no result.
   Missing: the bound with a factor that does not depend on r, which is false. *)
Lemma p_C107_partial :
  (forall before after, snd (text_changes_c before after) = text_changes before after) /\
  (forall before after, snd (byte_changes_c before after) = byte_changes before after) /\
  (forall before after r, at_most line_eqb r before ->
     fst (text_changes_c before after) <=
       Nat.max 1 (Nat.min (length before) (length after)) * (1 + length after * (r + 3))) /\
  (forall before after r, at_most Byte.eqb r before ->
     fst (byte_changes_c before after) <=
       Nat.max 1 (Nat.min (length before) (length after)) * (1 + length after * (r + 3))) /\
  (forall before, at_most line_eqb (length before) before) /\
  (forall before, at_most Byte.eqb (length before) before).
Proof.
  assert (HF : forall T (eqb : T -> T -> bool) s, at_most eqb (length s) s).
  { intros T eqb s x. unfold occurrences. induction s as [|y s IH]; cbn [filter length]; [lia|].
    destruct (eqb x y); cbn [length]; lia. }
  split; [intros; apply generate_same_c|]. split; [intros; apply generate_same_c|].
  split; [|split; [|split; intros; apply HF]].
  - intros b a r Hr. apply (generate_le line_eqb); [apply line_eqb_lawful|apply string_indices_spec|assumption].
  - intros b a r Hr. apply (generate_le Byte.eqb); [apply byte_eqb_lawful|apply byte_indices_spec|assumption].
Qed.

(* Two sequences without common items take one round, and one for each new item. *)
Lemma p_C107_apart :
  (forall before after, (forall x, In x before -> ~ In x after) -> fst (text_changes_c before after) = 1 + length after) /\
  (forall before after, (forall x, In x before -> ~ In x after) -> fst (byte_changes_c before after) = 1 + length after).
Proof.
  split; intros b a H; apply apart_rounds; auto; [apply string_indices_spec|apply byte_indices_spec].
Qed.

(* One search in two ranges takes at most the length of the new sequence times (r + 3). *)
Lemma p_C107_search : forall before after br ar r, at_most line_eqb r before ->
  let find := longest_common_subsequence_c line_eqb (string_indices_of (string_generate_from before)) before after br ar in
  snd find = longest_common_subsequence line_eqb (string_indices_of (string_generate_from before)) before after br ar /\
  fst find <= length after * (r + 3).
Proof.
  intros b a br ar r Hr. cbv zeta. split; [apply lcs_same|].
  apply (lcs_le line_eqb); [apply line_eqb_lawful|apply string_indices_spec|assumption].
Qed.

(* 4 equal lines against 12: 82 rounds, where at least 40 are claimed and at most 4 * (1 + 12 * 7);
   three different lines against themselves in another order: 7, where at most 3 * (1 + 3 * 4) are *)
Lemma e_C107_example :
  fst (text_changes_c (L "a b ") (L "c d e ")) = 4 /\
  fst (text_changes_c (repeat (bs "a ") 4) (L "a b b a b b a b b a b b ")) = 82 /\
  fst (text_changes_c (L "a b c ") (L "c a b ")) = 7 /\
  at_most line_eqb 1 (L "a b c ").
Proof.
  split; [vm_compute; reflexivity|]. split; [vm_compute; reflexivity|]. split; [vm_compute; reflexivity|]. intros x. unfold occurrences.
  replace (L "a b c ") with [[x61; x0a]; [x62; x0a]; [x63; x0a]] by reflexivity. cbn [filter].
  destruct (line_eqb x [x61; x0a]) eqn:E1; [apply line_eqb_lawful in E1 as ->; vm_compute; lia|].
  destruct (line_eqb x [x62; x0a]) eqn:E2; [apply line_eqb_lawful in E2 as ->; vm_compute; lia|].
  destruct (line_eqb x [x63; x0a]); cbn [length]; lia.
Qed.

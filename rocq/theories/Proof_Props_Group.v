(* Proof_Props_Group.v - the property lemmas on diffs made with different numbers of context lines. *)
From Coq Require Import String.
From Verif Require Import Base Model_Seq Model_Changes Model_IO Model_Text Model_Bytes Spec Spec_Group Cases Proof_Seq Proof_Clumps Proof_Diff Proof_Group.

(* ------------------------------------------------------------------ C125 *)
(* C125: more context lines gather clumps and never divide them: the clumps made with fewer lines,
   divided into consecutive groups, have the changes of those made with more, and lie within them *)
Lemma p_C125_grouped : forall n m cs context context', proper n m cs -> context <= context' ->
  exists clumps clumps', change_clumps context cs = Ok clumps /\ change_clumps context' cs = Ok clumps' /\
    grouped clumps clumps' /\ length clumps' <= length clumps.
Proof.
  intros n m cs k k' Hp Hk. pose proof Hp as (_ & Halt & _). destruct (change_clumps_spec k cs Halt) as (cl & C1 & C2). destruct (change_clumps_spec k' cs Halt) as (cl' & C1' & C2').
  exists cl, cl'. split; [exact C1|]. split; [exact C1'|]. assert (G := grouped_clumps k k' n m cs cl cl' Hk Hp C2 C2'). split; [exact G|now apply grouped_length].
Qed.
(* the same for the patches; one with more context lines has no more clumps and no fewer lines *)
Lemma p_C125_text : forall before after context context' hs hs', context <= context' -> context <= 255 ->
  text_diff_clumps before after context = Ok (map text_of_hunk hs) -> text_diff_clumps before after context' = Ok (map text_of_hunk hs') ->
  merged hs hs' /\ length hs' <= length hs /\
  length (List.concat (map h_old hs)) <= length (List.concat (map h_old hs')) /\ length (List.concat (map h_new hs)) <= length (List.concat (map h_new hs')).
Proof.
  intros b a k k' hs hs' Hk Hk2 E E'. assert (M := text_merged b a k k' hs hs' Hk E E'). split; [exact M|]. split; [now apply merged_length|]. apply (merged_size hs hs' 0 0); [now apply (text_spaced b a k)|exact M].
Qed.
Lemma p_C125_bytes : forall before after context context' hs hs', context <= context' -> context <= 255 ->
  byte_diff_clumps before after context = Ok (map byte_of_hunk hs) -> byte_diff_clumps before after context' = Ok (map byte_of_hunk hs') ->
  merged hs hs' /\ length hs' <= length hs /\
  length (List.concat (map h_old hs)) <= length (List.concat (map h_old hs')) /\ length (List.concat (map h_new hs)) <= length (List.concat (map h_new hs')).
Proof.
  intros b a k k' hs hs' Hk Hk2 E E'. assert (M := byte_merged b a k k' hs hs' Hk E E'). split; [exact M|]. split; [now apply merged_length|]. apply (merged_size hs hs' 0 0); [now apply (byte_spaced b a k)|exact M].
Qed.
(* three clumps with one context line, two with two, one with four *)
Lemma e_C125_example :
  let b := L "A B C D E F G H I J K L M " in let a := L "A X W C D E Y V G H I J K L Z U " in
  let h1 := Hunk 1 1 0 (L "A B C ") 0 (L "A X W C ") in let h2 := Hunk 1 1 4 (L "E F G ") 5 (L "E Y V G ") in let h3 := Hunk 1 0 11 (L "L M ") 13 (L "L Z U ") in
  let g1 := Hunk 1 2 0 (L "A B C D E F G H ") 0 (L "A X W C D E Y V G H ") in let g2 := Hunk 2 0 10 (L "K L M ") 12 (L "K L Z U ") in
  text_diff_clumps b a 1 = Ok (map text_of_hunk [h1; h2; h3]) /\ text_diff_clumps b a 2 = Ok (map text_of_hunk [g1; g2]) /\
  text_diff_clumps b a 4 = Ok (map text_of_hunk [Hunk 1 0 0 b 0 a]) /\
  within h1 g1 /\ within h2 g1 /\ within h3 g2 /\ ~ within h3 g1 /\ ~ within g1 h1.
Proof.
  cbn zeta. split; [vm_compute; reflexivity|]. split; [vm_compute; reflexivity|]. split; [vm_compute; reflexivity|]. unfold within. cbn. lia.
Qed.

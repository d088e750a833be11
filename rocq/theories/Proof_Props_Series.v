(* Proof_Props_Series.v - patches applied one after another. *)
From Coq Require Import String.
From Verif Require Import Base Model_Seq Model_Changes Model_IO Model_Text Model_Bytes Spec Spec_Nearly Spec_Series Cases Proof_Seq Proof_Diff Proof_Props_Gen Proof_Props_Text Proof_Props_Bytes Proof_Props_Undo.

Lemma steps_app {P X} (R : P -> X -> X -> Prop) ps : forall qs x y z, steps R ps x y -> steps R qs y z -> steps R (ps ++ qs) x z.
Proof. induction ps as [|p ps IH]; intros qs x y z H1 H2; inversion H1; subst; [assumption|]. econstructor; eauto. Qed.
Lemma steps_back {P X} (R S : P -> X -> X -> Prop) : (forall p x y, R p x y -> S p y x) ->
  forall ps x y, steps R ps x y -> steps S (rev ps) y x.
Proof.
  intros H ps x y HS. induction HS as [|p ps x y z HR _ IH]; [constructor|]. cbn [rev].
  eapply steps_app; [exact IH|]. econstructor; [apply H, HR|constructor].
Qed.
Lemma steps_map {P X} (R S : P -> X -> X -> Prop) : (forall p x y, R p x y -> S p x y) ->
  forall ps x y, steps R ps x y -> steps S ps x y.
Proof. intros H ps x y HS. induction HS; econstructor; eauto. Qed.

Lemma made_small s t c : length (L s) < 100 -> length (L t) < 100 ->
  text_diff_clumps (L s) (L t) 1 = Ok c -> made c (bs s) (bs t).
Proof.
  intros H1 H2 H3. exists (L s), (L t), 1. split; [apply split_lines_lines_of|]. split; [apply split_lines_lines_of|].
  split; [apply fits_lines_small; lia|]. split; [apply fits_lines_small; lia|]. split; [lia|assumption].
Qed.

(* ------------------------------------------------------------------ C108 *)
(* C108, full statement: the diffs between successive versions of a text, applied one after another
   to the first version, give the last one.
   It is false: what one diff overlooks is missing when the next is applied ... *)
Lemma p_C108_series_refuted : exists patches first last, steps made patches first last /\
  forall dbg, (exists result, steps (turns dbg false) patches first result) /\
    forall result, steps (turns dbg false) patches first result -> result <> last.
Proof.
  eexists [_; _], (bs "A B C X D "), (bs "A B C Z Z D E "). split.
  - econstructor; [apply (made_small "A B C X D "%string "A B C Y D E "%string); [vm_compute; lia..|vm_compute; reflexivity]|].
    econstructor; [apply (made_small "A B C Y D E "%string "A B C Z Z D E "%string); [vm_compute; lia..|vm_compute; reflexivity]|]. constructor.
  - intros dbg. split.
    + destruct dbg; eexists; (apply (steps_more _ _ _ _ (bs "A B C X D E "));
        [exists (L "A B C X D "); eexists; split; [apply split_lines_lines_of|vm_compute; reflexivity]|]);
        (eapply steps_more; [|apply steps_none]); exists (L "A B C X D E "); eexists;
        (split; [apply split_lines_lines_of|vm_compute; reflexivity]).
    + intros r H. inversion H as [|? ? ? y ? H1 H2]; subst. inversion H2 as [|? ? ? z ? H3 H4]; subst. inversion H4; subst. clear H H2 H4.
      destruct H1 as (l1 & s1 & L1 & E1). apply lines_of_unique in L1. subst l1.
      assert (y = bs "A B C X D E ") as -> by (destruct dbg; vm_compute in E1; injection E1; intros; subst; reflexivity).
      destruct H3 as (l2 & s2 & L2 & E2). apply lines_of_unique in L2. subst l2.
      intros ->. apply (f_equal (fun o => length (w_out (snd o)))) in E2. revert E2. destruct dbg; vm_compute; discriminate.
Qed.

(* What does hold: if no step changes a single line between unchanged ones, the diffs applied one
   after another to the first version give the last, and applied in reverse to the last version,
   the last diff first, give the first; every clump of every diff applies cleanly.
   Missing: series with a step that does. *)
Lemma p_C108_series_partial : forall dbg patches first last,
  steps (fun p t t' => made p t t' /\ plain t t') patches first last ->
  steps (turns_cleanly dbg false) patches first last /\
  steps (turns_cleanly dbg true) (rev patches) last first.
Proof.
  intros dbg ps x y H. split.
  - eapply steps_map; [|exact H]. cbn beta. intros p t t' [(b & a & c & Lb & La & Fb & Fa & Hc & E) Hp].
    exists b. split; [assumption|]. eapply p_C18_patch_file_partial; eauto.
  - eapply steps_back; [|exact H]. cbn beta. intros p t t' [(b & a & c & Lb & La & Fb & Fa & Hc & E) Hp].
    exists a. split; [assumption|]. rewrite <- (proj1 Lb). destruct (text_changes_spec b a) as (cs & Hcs & _).
    eapply p_C19_reverse_gives_old_partial; eauto.
Qed.

(* For all texts, whatever is overlooked: when each diff is made from the text as it is (after the
   patches before), it can be applied, and undoing the patches in reverse, the last one first,
   restores the first text byte for byte, every clump applying cleanly. *)
Lemma p_C108_undo :
  (forall dbg clumps text goal, made clumps text goal -> exists result, turns_cleanly dbg false clumps text result) /\
  (forall dbg patches first last,
     steps (fun p t t' => (exists goal, made p t goal) /\ turns dbg false p t t') patches first last ->
     steps (turns_cleanly dbg true) (rev patches) last first).
Proof.
  split.
  - intros dbg cl t g (b & a & c & Lb & La & Fb & Fa & Hc & E).
    destruct (p_C90_undo_text dbg t g b a c cl Hc Lb La Fb Fa E) as (out & _ & H & _). exists (List.concat out), b. auto.
  - intros dbg ps x y H. eapply steps_back; [|exact H]. cbn beta.
    intros p t t' [(g & b & a & c & Lb & La & Fb & Fa & Hc & E) (l & s & Ll & E')].
    pose proof (lines_of_eq _ _ _ Ll Lb) as ->.
    destruct (p_C90_undo_text dbg t g b a c p Hc Lb La Fb Fa E) as (out & Lo & H1 & H2).
    rewrite H1 in E'. injection E' as _ <-. exists out. auto.
Qed.
(* The order matters: undoing the patches in the order in which they were made may fail. *)
Lemma p_C108_undo_order_refuted : exists patches first last,
  steps (fun p t t' => made p t t' /\ plain t t') patches first last /\
  forall dbg, (exists result, steps (turns dbg true) patches last result) /\
    forall result, steps (turns dbg true) patches last result -> result <> first.
Proof.
  eexists [_; _], (bs "A B "), (bs "A Y Y Y B "). split.
  - apply (steps_more _ _ _ _ (bs "A X X B ")); [|apply (steps_more _ _ _ _ (bs "A Y Y Y B ")); [|apply steps_none]].
    + split; [apply (made_small "A B "%string "A X X B "%string); [vm_compute; lia..|vm_compute; reflexivity]|].
      intros b a Lb La. apply lines_of_unique in Lb, La. subst. apply (no_isolated_check line_eqb); [exact line_eqb_lawful|vm_compute; reflexivity].
    + split; [apply (made_small "A X X B "%string "A Y Y Y B "%string); [vm_compute; lia..|vm_compute; reflexivity]|].
      intros b a Lb La. apply lines_of_unique in Lb, La. subst. apply (no_isolated_check line_eqb); [exact line_eqb_lawful|vm_compute; reflexivity].
  - intros dbg. split.
    + destruct dbg; eexists; (eapply steps_more;
        [do 2 eexists; split; [apply split_lines_lines_of|vm_compute; reflexivity]|]);
        (eapply steps_more; [do 2 eexists; split; [apply split_lines_lines_of|vm_compute; reflexivity]|apply steps_none]).
    + intros r H. inversion H as [|? ? ? y ? H1 H2]; subst. inversion H2 as [|? ? ? z ? H3 H4]; subst. inversion H4; subst. clear H H2 H4.
      destruct H1 as (l1 & s1 & L1 & E1). apply lines_of_unique in L1. subst l1.
      destruct H3 as (l2 & s2 & L2 & E2). apply lines_of_unique in L2. subst l2. intros ->.
      destruct dbg; vm_compute in E1; injection E1; intros <- _;
        apply (f_equal (fun o => length (w_out (snd o)))) in E2; revert E2; vm_compute; discriminate.
Qed.
(* For bytes, with at least one byte of context and no empty versions, the same as for texts. *)
Lemma p_C108_bytes_partial :
  (forall dbg patches first last,
     steps (fun p t t' => made_bytes p t t' /\ no_isolated_mismatch t t') patches first last ->
     steps (turns_bytes dbg false) patches first last /\
     steps (turns_bytes dbg true) (rev patches) last first) /\
  (forall dbg clumps data goal, made_bytes clumps data goal -> exists result, turns_bytes dbg false clumps data result) /\
  (forall dbg patches first last,
     steps (fun p t t' => (exists goal, made_bytes p t goal) /\ turns_bytes dbg false p t t') patches first last ->
     steps (turns_bytes dbg true) (rev patches) last first).
Proof.
  split; [|split].
  - intros dbg ps x y H. split.
    + eapply steps_map; [|exact H]. cbn beta. intros p t t' [(c & Hc & Nb & Na & Fb & Fa & E) Hp].
      destruct (byte_changes_spec t t') as (cs & Hcs & _). eapply p_C31_patch_gives_new_bytes_partial; eauto.
    + eapply steps_back; [|exact H]. cbn beta. intros p t t' [(c & Hc & Nb & Na & Fb & Fa & E) Hp].
      destruct (byte_changes_spec t t') as (cs & Hcs & _). eapply p_C32_reverse_gives_old_bytes_partial; eauto.
  - intros dbg cl t g (c & Hc & Nb & Na & Fb & Fa & E).
    destruct (p_C91_undo_bytes_partial dbg t g c cl Hc Na Fb Fa E) as (out & H & _). exists out. exact H.
  - intros dbg ps x y H. eapply steps_back; [|exact H]. cbn beta. intros p t t' [(g & c & Hc & Nb & Na & Fb & Fa & E) HT].
    destruct (p_C91_undo_bytes_partial dbg t g c p Hc Na Fb Fa E) as (out & H1 & H2). unfold turns_bytes in *.
    rewrite H1 in HT. injection HT as <-. exact H2.
Qed.

(* three versions, there and back *)
Lemma e_C108_example : exists p q,
  steps (fun p t t' => made p t t' /\ plain t t') [p; q] (bs "A B ") (bs "A Y Y Y B ") /\
  length p = 1 /\ length q = 1 /\
  turns_cleanly true true q (bs "A Y Y Y B ") (bs "A X X B ") /\ turns_cleanly true true p (bs "A X X B ") (bs "A B ").
Proof.
  do 2 eexists. split.
  - apply (steps_more _ _ _ _ (bs "A X X B ")); [|apply (steps_more _ _ _ _ (bs "A Y Y Y B ")); [|apply steps_none]].
    + split; [apply (made_small "A B "%string "A X X B "%string); [vm_compute; lia..|vm_compute; reflexivity]|].
      intros b a Lb La. apply lines_of_unique in Lb, La. subst. apply (no_isolated_check line_eqb); [exact line_eqb_lawful|vm_compute; reflexivity].
    + split; [apply (made_small "A X X B "%string "A Y Y Y B "%string); [vm_compute; lia..|vm_compute; reflexivity]|].
      intros b a Lb La. apply lines_of_unique in Lb, La. subst. apply (no_isolated_check line_eqb); [exact line_eqb_lawful|vm_compute; reflexivity].
  - split; [reflexivity|]. split; [reflexivity|]. split.
    + exists (L "A Y Y Y B "). split; [apply split_lines_lines_of|vm_compute; reflexivity].
    + exists (L "A X X B "). split; [apply split_lines_lines_of|vm_compute; reflexivity].
Qed.
(* ... and bytes *)
Lemma e_C108_bytes_example : exists p,
  made_bytes p (bs "AB") (bs "AXXB") /\ no_isolated_mismatch (bs "AB") (bs "AXXB") /\
  turns_bytes true false p (bs "AB") (bs "AXXB") /\ turns_bytes true true p (bs "AXXB") (bs "AB").
Proof.
  eexists. split.
  - exists 1. split; [lia|]. split; [discriminate|]. split; [discriminate|].
    split; [unfold fits_bytes, zlen, two63; vm_compute; reflexivity|]. split; [unfold fits_bytes, zlen, two63; vm_compute; reflexivity|vm_compute; reflexivity].
  - split; [apply (no_isolated_check Byte.eqb); [exact byte_eqb_lawful|vm_compute; reflexivity]|]. split; vm_compute; reflexivity.
Qed.

(* Proof_Props_Edit.v - the property lemmas on sequences edited in one place. *)
From Coq Require Import String.
From Verif Require Import Base Model_Seq Model_Changes Model_IO Model_Text Model_Bytes Model_Json Spec Spec_Shape Spec_Edit Cases Proof_Seq Proof_Lcs Proof_Changes Proof_Blocks Proof_Clumps Proof_Diff Proof_Shape Proof_Edit Proof_Props_Gen Proof_Props_Shape.

Local Ltac vr := vm_compute; reflexivity.

(* ------------------------------------------------------------------ C123 *)
(* C123: if a text or byte string is edited in one place - [p ++ y ++ s] becomes [p ++ x ++ s] - one
   change is reported:
     forall p y x s cs, p ++ y ++ s <> p ++ x ++ s -> text_changes (p ++ y ++ s) (p ++ x ++ s) = Ok cs -> length (real_changes cs) = 1. *)
(* a line is replaced by another one: no change; two new lines are inserted: two changes, one of
   them a removal; likewise for bytes *)
Lemma p_C123_one_change_refuted :
  (exists p y x s : list line, fresh_edit p y x s /\ List.length y = 1 /\ List.length x = 1 /\
     exists cs, text_changes (p ++ y ++ s) (p ++ x ++ s) = Ok cs /\ real_changes cs = []) /\
  (exists p x s : list line, fresh_edit p [] x s /\ no_isolated_mismatch (p ++ s) (p ++ x ++ s) /\
     exists cs, text_changes (p ++ [] ++ s) (p ++ x ++ s) = Ok cs /\ real_changes cs = [Insert 0 (Range 0 3); Delete (Range 2 3) 5]) /\
  (exists p y x s : list byte, fresh_edit p y x s /\ List.length y = 1 /\ List.length x = 1 /\
     exists cs, byte_changes (p ++ y ++ s) (p ++ x ++ s) = Ok cs /\ real_changes cs = []) /\
  (exists p x s : list byte, fresh_edit p [] x s /\ no_isolated_mismatch (p ++ s) (p ++ x ++ s) /\
     exists cs, byte_changes (p ++ [] ++ s) (p ++ x ++ s) = Ok cs /\ real_changes cs = [Insert 0 (Range 0 3); Delete (Range 2 3) 5]).
Proof.
  split; [|split; [|split]].
  - exists (L "a "), (L "b "), (L "c "), (L "d "). split; [|split; [vr|split; [vr|eexists; split; vr]]].
    split; [|split]; [intros v [<-|[]] K; cbn in K; firstorder discriminate..|left; discriminate].
  - exists (L "a "), (L "X Z "), (L "a a "). split; [|split; [apply (no_isolated_check line_eqb); [exact line_eqb_lawful|vr]|eexists; split; vr]].
    split; [|split]; [intros v []|intros v [<-|[<-|[]]] K; cbn in K; firstorder discriminate|right; discriminate].
  - exists (bs "a"), (bs "b"), (bs "c"), (bs "d"). split; [|split; [vr|split; [vr|eexists; split; vr]]].
    split; [|split]; [intros v [<-|[]] K; cbn in K; firstorder discriminate..|left; discriminate].
  - exists (bs "a"), (bs "XZ"), (bs "aa"). split; [|split; [apply (no_isolated_check Byte.eqb); [exact byte_eqb_lawful|vr]|eexists; split; vr]].
    split; [|split]; [intros v []|intros v [<-|[<-|[]]] K; cbn in K; firstorder discriminate|right; discriminate].
Qed.

(* proved: one change, exactly at the edited place, if the lines of each of [y] and [x] are not in the
   other text, no single differing pair is between equal ones, and - unless lines are
   replaced - the rest [s] is not longer than [p] or is nowhere else in [p ++ s] *)
Lemma p_C123_one_change_partial :
  (forall p y x s : list line, fresh_edit p y x s -> no_isolated_mismatch (p ++ y ++ s) (p ++ x ++ s) ->
     (y <> [] /\ x <> []) \/ List.length s <= List.length p \/ only_at_end p s ->
     text_changes (p ++ y ++ s) (p ++ x ++ s) = Ok (one_change (List.length p) (List.length y) (List.length x) (List.length s))) /\
  (forall p y x s : list byte, fresh_edit p y x s -> no_isolated_mismatch (p ++ y ++ s) (p ++ x ++ s) ->
     (y <> [] /\ x <> []) \/ List.length s <= List.length p \/ only_at_end p s ->
     byte_changes (p ++ y ++ s) (p ++ x ++ s) = Ok (one_change (List.length p) (List.length y) (List.length x) (List.length s))).
Proof.
  destruct p_C72_changes_exact as [HT HB]. split; intros p y x s H1 H2 H3.
  - destruct (text_changes_spec (p ++ y ++ s) (p ++ x ++ s)) as (cs & E & _). rewrite E. f_equal. apply HT in E as [E1 E2]. now apply (one_changes p y x s H1 H2 H3).
  - destruct (byte_changes_spec (p ++ y ++ s) (p ++ x ++ s)) as (cs & E & _). rewrite E. f_equal. apply HB in E as [E1 E2]. now apply (one_changes p y x s H1 H2 H3).
Qed.

(* the patch is then one clump: the edited lines between up to [context] lines of [p] and of [s] *)
Lemma p_C123_one_clump_partial :
  (forall (p y x s : list line) context, context <= 255 -> fresh_edit p y x s -> no_isolated_mismatch (p ++ y ++ s) (p ++ x ++ s) ->
     (y <> [] /\ x <> []) \/ List.length s <= List.length p \/ only_at_end p s ->
     let lead := skipn (List.length p - context) p in let trail := firstn context s in let start := Z.of_nat (List.length p - context) in
     text_diff_clumps (p ++ y ++ s) (p ++ x ++ s) context =
       Ok [TextClump (Z.of_nat (List.length lead), Z.of_nat (List.length trail)) (Snippet start (lead ++ y ++ trail)) (Snippet start (lead ++ x ++ trail))]) /\
  (forall (p y x s : list byte) context, context <= 255 -> fresh_edit p y x s -> no_isolated_mismatch (p ++ y ++ s) (p ++ x ++ s) ->
     (y <> [] /\ x <> []) \/ List.length s <= List.length p \/ only_at_end p s ->
     let lead := skipn (List.length p - context) p in let trail := firstn context s in let start := Z.of_nat (List.length p - context) in
     byte_diff_clumps (p ++ y ++ s) (p ++ x ++ s) context =
       Ok [ByteClump (Z.of_nat (List.length lead), Z.of_nat (List.length trail)) (Snippet start (lead ++ y ++ trail)) (Snippet start (lead ++ x ++ trail))]).
Proof.
  destruct p_C123_one_change_partial as [HT HB].
  assert (Q : forall T (p y x s : list T), fresh_edit p y x s -> 0 < List.length y \/ 0 < List.length x).
  { intros T p y x s (_ & _ & [H|H]); [left; destruct y|right; destruct x]; try contradiction; cbn [List.length]; lia. }
  split; intros p y x s context Hc H1 H2 H3 lead trail start.
  - unfold text_diff_clumps. rewrite (HT p y x s H1 H2 H3). cbn [bind]. rewrite one_clump. cbn [bind map_res]. unfold text_clump_from.
    destruct (one_ranges context (List.length p) (List.length y) (List.length x) (List.length s) Hc (Q _ _ _ _ _ H1)) as [-> ->].
    rewrite !extract_snippet_ok by (rewrite ?app_length; lia). cbn [bind]. rewrite !sub_edit. unfold lead, trail, start.
    rewrite skipn_length, firstn_length. do 3 f_equal. f_equal; f_equal; lia.
  - unfold byte_diff_clumps. rewrite (HB p y x s H1 H2 H3). cbn [bind]. rewrite one_clump. cbn [bind map_res]. unfold byte_clump_from.
    destruct (one_ranges context (List.length p) (List.length y) (List.length x) (List.length s) Hc (Q _ _ _ _ _ H1)) as [-> ->].
    rewrite !extract_snippet_ok by (rewrite ?app_length; lia). cbn [bind]. rewrite !sub_edit. unfold lead, trail, start.
    rewrite skipn_length, firstn_length. do 3 f_equal. f_equal; f_equal; lia.
Qed.

(* edits in any number of places: if what is common to both is in the same order in both, and no
   single differing pair is between equal ones, exactly the equal items are reported as unchanged *)
Lemma p_C123_in_order :
  (forall b a cs, text_changes b a = Ok cs -> in_order b a -> no_isolated_mismatch b a -> forall i j, reported_same cs i j <-> same_at b a i j) /\
  (forall b a cs, byte_changes b a = Ok cs -> in_order b a -> no_isolated_mismatch b a -> forall i j, reported_same cs i j <-> same_at b a i j).
Proof.
  destruct p_C102_maximal_partial as [HT HB].
  assert (F : forall T (b a : list T) cs, faithful b a cs -> forall i j, reported_same cs i j -> same_at b a i j).
  { intros T b a cs H i j (m & t & Hm & Ht & -> & ->). exact (H m Hm t Ht). }
  assert (G : forall T (b a : list T) cs, in_order b a -> faithful b a cs -> (forall i j, same_at b a i j -> exists i' j', reported_same cs i' j' /\ crossing i j i' j') ->
    forall i j, same_at b a i j -> reported_same cs i j).
  { intros T b a cs O Hf H i j Hs. destruct (H i j Hs) as (i' & j' & R & C). destruct (O i j i' j' Hs (F _ _ _ _ Hf _ _ R)) as [?|[?|[-> ->]]]; [destruct C; lia..|assumption]. }
  split; intros b a cs E O N i j.
  - destruct (text_changes_spec b a) as (cs' & E' & _ & _ & _ & Hf). rewrite E in E'. injection E' as <-. specialize (Hf N). split; [now apply F|]. apply (G _ _ _ _ O Hf). now apply HT.
  - destruct (byte_changes_spec b a) as (cs' & E' & _ & _ & _ & Hf). rewrite E in E'. injection E' as <-. specialize (Hf N). split; [now apply F|]. apply (G _ _ _ _ O Hf). now apply HB.
Qed.

(* two lines replaced by one between two and three others; the patch with one line of context *)
Lemma e_C123_example :
  let p := L "a b " in let y := L "M N " in let x := L "X " in let s := L "a c b " in
  fresh_edit p y x s /\ no_isolated_mismatch (p ++ y ++ s) (p ++ x ++ s) /\ y <> [] /\ x <> [] /\
  text_changes (p ++ y ++ s) (p ++ x ++ s) = Ok [NoChange (CS 0 0 2); Replace (Range 2 4) (Range 2 3); NoChange (CS 4 3 3)] /\
  text_diff_clumps (p ++ y ++ s) (p ++ x ++ s) 1 = Ok [TextClump (1%Z, 1%Z) (Snippet 1 (L "b M N a ")) (Snippet 1 (L "b X a "))] /\
  only_at_end (L "a ") (L "a c ") /\ text_changes (L "a " ++ [] ++ L "a c ") (L "a " ++ L "X Y " ++ L "a c ") = Ok [NoChange (CS 0 0 1); Insert 1 (Range 1 3); NoChange (CS 1 3 2)].
Proof.
  split; [|split; [apply (no_isolated_check line_eqb); [exact line_eqb_lawful|vr]|]].
  - split; [|split]; [intros v [<-|[<-|[]]] K; cbn in K; firstorder discriminate|intros v [<-|[]] K; cbn in K; firstorder discriminate|left; discriminate].
  - split; [discriminate|]. split; [discriminate|]. split; [vr|]. split; [vr|]. split; [|vr].
    intros pre post H. destruct pre as [|v pre]; [vm_compute in H; discriminate|]. destruct pre as [|w pre]; [injection H as <- _; vr|].
    apply (f_equal (@List.length line)) in H. rewrite !app_length in H. cbn in H. lia.
Qed.
Definition same_in {T} (eqb : T -> T -> bool) (b a : list T) (i j : nat) : bool :=
  match nth_error b i, nth_error a j with Some v, Some w => eqb v w | _, _ => false end.
Lemma in_order_check {T} (eqb : T -> T -> bool) (b a : list T) : lawful eqb ->
  (let pairs := filter (fun ij => same_in eqb b a (fst ij) (snd ij)) (list_prod (seq 0 (List.length b)) (seq 0 (List.length a))) in
   forallb (fun ij => forallb (fun ij' => ((fst ij <? fst ij') && (snd ij <? snd ij')) || ((fst ij' <? fst ij) && (snd ij' <? snd ij)) || ((fst ij =? fst ij') && (snd ij =? snd ij'))) pairs) pairs) = true ->
  in_order b a.
Proof.
  intros He H i j i' j' H1 H2. cbv zeta in H. rewrite forallb_forall in H.
  assert (K : forall u v, same_at b a u v -> In (u, v) (filter (fun ij => same_in eqb b a (fst ij) (snd ij)) (list_prod (seq 0 (List.length b)) (seq 0 (List.length a))))).
  { intros u v (w & E1 & E2). apply filter_In. split.
    - apply in_prod; apply in_seq; (split; [lia|]); apply nth_error_Some; congruence.
    - cbn [fst snd]. unfold same_in. rewrite E1, E2. now apply He. }
  specialize (H (i, j) (K _ _ H1)). rewrite forallb_forall in H. specialize (H (i', j') (K _ _ H2)). cbn [fst snd] in H.
  apply orb_prop in H as [H|H]; [apply orb_prop in H as [H|H]|]; apply andb_prop in H as [A B];
    rewrite ?Nat.ltb_lt, ?Nat.eqb_eq in A, B; auto.
Qed.
(* lines removed, inserted and replaced in several places *)
Lemma e_C123_in_order_example : let b := L "A B C D E F " in let a := L "A C X Y D G H F " in
  in_order b a /\ no_isolated_mismatch b a /\ exists cs, text_changes b a = Ok cs /\
  List.length (real_changes cs) = 3 /\ reported_same cs 2 1 /\ reported_same cs 5 7.
Proof.
  split; [apply (in_order_check line_eqb); [exact line_eqb_lawful|vr]|]. split; [apply (no_isolated_check line_eqb); [exact line_eqb_lawful|vr]|].
  eexists. split; [vr|]. split; [vr|]. split.
  - exists (CS 2 1 1), 0. vm_compute. repeat split; auto 10.
  - exists (CS 5 7 1), 0. vm_compute. repeat split; auto 10.
Qed.

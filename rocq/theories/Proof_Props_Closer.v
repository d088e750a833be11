(* Proof_Props_Closer.v - the property lemmas on texts that differ in more lines than before. *)
From Coq Require Import String.
From Verif Require Import Base Model_Seq Model_Changes Model_IO Model_Text Model_Bytes Spec Spec_Shape Spec_Overlook Spec_Closer Cases Proof_Seq Proof_Changes Proof_Diff Proof_Text Proof_Bytes Proof_Shape Proof_Overlook Proof_Props_Gen Proof_Props_Context.

Local Ltac vr := vm_compute; reflexivity.

(* the places at which two lists of the same length differ, counted *)
Definition places {T} (eqb : T -> T -> bool) (x y : list T) : list nat :=
  filter (fun k => match nth_error x k, nth_error y k with Some v, Some w => negb (eqb v w) | _, _ => false end) (seq 0 (List.length y)).
Lemma places_all {T} (eqb : T -> T -> bool) x y ds : lawful eqb -> wrong_items x y ds -> incl ds (places eqb x y).
Proof.
  intros He (_ & H) k Hk. destruct (H k Hk) as (v & w & E1 & E2 & Hne). apply filter_In. split.
  - apply in_seq. split; [lia|]. cbn. apply nth_error_Some. congruence.
  - rewrite E1, E2. destruct (eqb v w) eqn:E; [apply He in E; contradiction|reflexivity].
Qed.
Lemma places_bound {T} (eqb : T -> T -> bool) x y ds n : lawful eqb -> List.length (places eqb x y) = n -> wrong_items x y ds -> List.length ds <= n.
Proof. intros He <- H. apply NoDup_incl_length; [exact (proj1 H)|now apply places_all]. Qed.
Lemma places_wrong {T} (eqb : T -> T -> bool) x y : lawful eqb -> wrong_items x y (places eqb x y).
Proof.
  intros He. split; [apply NoDup_filter, seq_NoDup|]. intros k Hk. apply filter_In in Hk as [_ H].
  destruct (nth_error x k) as [v|] eqn:E1; [|discriminate]. destruct (nth_error y k) as [w|] eqn:E2; [|discriminate].
  exists v, w. repeat split; [assumption..|]. intros <-. rewrite (proj2 (He v v) eq_refl) in H. discriminate.
Qed.
(* a line of a single character that is no newline *)
Lemma short_lines s : forallb (fun c => negb (Byte.eqb c newline)) s = true -> Forall is_line (map (fun c => [c; newline]) s).
Proof.
  intros H. apply Forall_forall. intros l Hl. apply in_map_iff in Hl as (c & <- & Hc). apply forallb_forall with (x := c) in H; [|exact Hc].
  exists [c]. split; [|now left]. intros [->|[]]. discriminate.
Qed.

(* the texts of the refutation, a character for each line: the old, the new and the patched one *)
Definition worn : list byte := bs "()*+,-./0123456789:;<=>?@ABCDEFGHJKLMOPQRSUVWXZ[\]^`abcefghiklm()*+,-./0123456789:;<=>?@ABCDEFGIJKLNOPQRTUVWYZ[\]_`abdefghjklmn()*+,-./0123456789:;<=>?@ABCDEFGIJKLNOPQRTUVWYZ[\]_`abdefghjklmn!)*+,-./0123456789:;<=>?@ABCDEFGIJKLNOPQRTUVWYZ[\]_`abdefghjklmn".
Definition fresh : list byte := bs "()*+,-./0123456789:;<=>?@ABCDEF$HJKLMOPQRSUVWXZ[\]^`abcefghiklm()*+,-./0123456789:;<=>?@ABCDEFGIJKLNOPQRTUVWYZ[\]_`abdefghjklm#()*+,-./0123456789:;<=>?@ABCDEFGIJKLNOPQRTUVWYZ[\]_`abdefghjklmn()*+,-./0123456789:;<=>?@ABCDEFGIJKLNOPQRTUVWYZ[\]_`abdefghjklmn".
Definition mended : list byte := bs "()*+,-./0123456789:;<=>?@ABCDEF$HJKLMOPQRSUVWXZ[\]^`abcefghiklm()*+,-./0123456789:;<=>?@ABCDEFGHJKLNOPQRSUVWYZ[\]^`abdefghiklm#()*+,-./0123456789:;<=>?@ABCDEFGIJKLNOPQRTUVWYZ[\]_`abdefghjklmn()*+,-./0123456789:;<=>?@ABCDEFGIJKLNOPQRTUVWYZ[\]_`abdefghjklmn".
Definition short (s : list byte) : list line := map (fun c => [c; newline]) s.

(* ------------------------------------------------------------------ C136 *)
(* C136: patching a text brings it no further from the text it is meant to become.  If [before]
   and [after] have the same number of lines, the patched text differs from [after] in no more
   lines than [before] does; a diff of the patched text and [after] has no clumps.  Both parts are
   false.  A text of 255 lines that differs from another in three differs from it in four after
   patching; likewise for bytes.  The number of context lines is that of the programs (3). *)
Lemma p_C136_closer_refuted :
  (exists before after clumps, List.length before = List.length after /\ (forall ds, wrong_items before after ds -> List.length ds <= 3) /\
     text_diff_clumps before after 3 = Ok clumps /\ forall dbg, exists out ds,
     text_apply_into dbg clumps before false (Writer [] None) = (Done (Stats (List.length clumps) 0 0 0 0), Writer (List.concat out) None) /\
     Forall is_line out /\ List.length out = List.length after /\ wrong_items out after ds /\ List.length ds = 4) /\
  (exists before after clumps, List.length before = List.length after /\ (forall ds, wrong_items before after ds -> List.length ds <= 3) /\
     byte_diff_clumps before after 3 = Ok clumps /\ forall dbg, exists out ds,
     byte_apply_into dbg clumps before false (Writer [] None) = (Done tt, Writer out None) /\
     List.length out = List.length after /\ wrong_items out after ds /\ List.length ds = 4).
Proof.
  split.
  - exists (short worn), (short fresh). eexists. split; [vr|]. split; [intros ds; apply (places_bound line_eqb); [exact line_eqb_lawful|vr]|].
    split; [vr|]. intros dbg. exists (short mended), (places line_eqb (short mended) (short fresh)).
    split; [destruct dbg; vr|]. split; [apply short_lines; vr|]. split; [vr|]. split; [apply places_wrong, line_eqb_lawful|vr].
  - exists worn, fresh. eexists. split; [vr|]. split; [intros ds; apply (places_bound Byte.eqb); [exact byte_eqb_lawful|vr]|].
    split; [vr|]. intros dbg. exists mended, (places Byte.eqb mended fresh).
    split; [destruct dbg; vr|]. split; [vr|]. split; [apply places_wrong, byte_eqb_lawful|vr].
Qed.
(* and the second part: after patching, a new diff has a clump, and the text has to be patched
   again to become [after] *)
Lemma p_C136_again_refuted : exists before after out clumps clumps',
  text_diff_clumps before after 3 = Ok clumps /\ text_diff_clumps out after 3 = Ok clumps' /\ clumps' <> [] /\ out <> after /\
  forall dbg,
    text_apply_into dbg clumps before false (Writer [] None) = (Done (Stats (List.length clumps) 0 0 0 0), Writer (List.concat out) None) /\
    text_apply_into dbg clumps' out false (Writer [] None) = (Done (Stats (List.length clumps') 0 0 0 0), Writer (List.concat after) None).
Proof.
  exists (L "d a c a b b b a "), (L "d d c c b "), (L "d a c c b "). do 2 eexists. split; [vr|]. split; [vr|].
  split; [discriminate|]. split; [discriminate|]. intros dbg. split; destruct dbg; vr.
Qed.

Lemma same_first {T} (b a : list T) x y n : 0 < n -> nearly_common b a x y n -> same_at b a x y.
Proof. intros Hn H. destruct (H 0 Hn) as [S|(_ & K & _)]; [now rewrite !Nat.add_0_r in S|lia]. Qed.
Lemma put_result {T} context cs (b a out : list T) :
  (forall m, In (NoChange m) cs -> 0 < cs_n m) -> (forall m, In (NoChange m) cs -> nearly_common b a (cs_b m) (cs_a m) (cs_n m)) -> stays_put b a ->
  result_of context cs b a out -> forall k, nth_error out k = nth_error a k \/ nth_error out k = nth_error b k.
Proof.
  intros Hp Hn Hs (_ & R1 & R2) k. destruct (beyond_dec context cs k) as [(i & Hi)|Hi]; [|left; now apply R2].
  right. rewrite (R1 _ _ Hi). destruct Hi as (pre & m & post & p & -> & _ & -> & -> & _).
  assert (Hin : In (NoChange m) (pre ++ NoChange m :: post)) by (apply in_or_app; right; now left).
  rewrite (Hs _ _ (same_first _ _ _ _ _ (Hp _ Hin) (Hn _ Hin))). reflexivity.
Qed.
Lemma put_wrong {T} (b a out : list T) : (forall k, nth_error out k = nth_error a k \/ nth_error out k = nth_error b k) ->
  forall ds, wrong_items out a ds -> wrong_items b a ds.
Proof.
  intros H ds (D1 & D2). split; [exact D1|]. intros k Hk. destruct (D2 k Hk) as (v & w & E1 & E2 & Hne). destruct (H k) as [E|E]; [congruence|].
  exists v, w. repeat split; congruence.
Qed.
Lemma stays_swap {T} (b a : list T) : stays_put b a -> stays_put a b.
Proof. intros H i j (v & E1 & E2). symmetry. apply H. now exists v. Qed.
Lemma kept_positive cs : Forall non_empty cs -> forall m, In (NoChange m) cs -> 0 < cs_n m.
Proof. intros H m Hm. exact (proj1 (Forall_forall _ _) H _ Hm). Qed.

(* What does hold: if no line of the old text stands at another place of the new one, every line of
   the patched text that is wrong was wrong before (in both directions); likewise for bytes, with
   context and data that are not empty (see C31).  Missing: texts with lines that have moved. *)
Lemma p_C136_closer_partial : forall dbg before after context clumps,
  context <= 255 -> fits_lines before -> fits_lines after -> stays_put before after -> text_diff_clumps before after context = Ok clumps ->
  (exists out, text_apply_into dbg clumps before false (Writer [] None) = (Done (Stats (List.length clumps) 0 0 0 0), Writer (List.concat out) None) /\
     List.length out = List.length after /\
     (forall k, nth_error out k = nth_error after k \/ nth_error out k = nth_error before k) /\
     forall ds, wrong_items out after ds -> wrong_items before after ds) /\
  (exists out, text_apply_into dbg clumps after true (Writer [] None) = (Done (Stats (List.length clumps) 0 0 0 0), Writer (List.concat out) None) /\
     List.length out = List.length before /\
     (forall k, nth_error out k = nth_error before k \/ nth_error out k = nth_error after k) /\
     forall ds, wrong_items out before ds -> wrong_items after before ds).
Proof.
  intros dbg b a context clumps Hc Fb Fa Hs E2. destruct (text_changes_spec b a) as (cs & E & Ht & Hne & Halt & _).
  pose proof (proj1 (proj1 p_C10_unchanged_is_unchanged_partial b a cs E)) as Hn.
  destruct (swap_proper _ _ _ (conj Ht (conj Halt Hne))) as (St & _ & Sne).
  destruct (p_C103_result dbg b a context clumps cs Hc Fb Fa E E2) as [(out & R & A) (out' & R' & A')]. split.
  - pose proof (put_result context cs b a out (kept_positive _ Hne) Hn Hs R) as P.
    exists out. split; [exact A|]. split; [exact (proj1 R)|]. split; [exact P|]. now apply put_wrong.
  - pose proof (put_result context _ a b out' (kept_positive _ Sne) (swap_nearly _ _ _ Hn) (stays_swap _ _ Hs) R') as P.
    exists out'. split; [exact A'|]. split; [exact (proj1 R')|]. split; [exact P|]. now apply put_wrong.
Qed.
Lemma p_C136_closer_bytes_partial : forall dbg before after context clumps,
  1 <= context <= 255 -> fits_bytes before -> fits_bytes after -> stays_put before after -> byte_diff_clumps before after context = Ok clumps ->
  (before <> [] -> exists out, byte_apply_into dbg clumps before false (Writer [] None) = (Done tt, Writer out None) /\
     List.length out = List.length after /\
     (forall k, nth_error out k = nth_error after k \/ nth_error out k = nth_error before k) /\
     forall ds, wrong_items out after ds -> wrong_items before after ds) /\
  (after <> [] -> exists out, byte_apply_into dbg clumps after true (Writer [] None) = (Done tt, Writer out None) /\
     List.length out = List.length before /\
     (forall k, nth_error out k = nth_error before k \/ nth_error out k = nth_error after k) /\
     forall ds, wrong_items out before ds -> wrong_items after before ds).
Proof.
  intros dbg b a context clumps Hc Fb Fa Hs E2. destruct (byte_changes_spec b a) as (cs & E & Ht & Hne & Halt & _).
  pose proof (proj1 (proj2 p_C10_unchanged_is_unchanged_partial b a cs E)) as Hn.
  destruct (swap_proper _ _ _ (conj Ht (conj Halt Hne))) as (St & _ & Sne).
  destruct (p_C103_result_bytes_partial dbg b a context clumps cs Hc Fb Fa E E2) as [H H']. split; intros K.
  - destruct (H K) as (out & R & A). pose proof (put_result context cs b a out (kept_positive _ Hne) Hn Hs R) as P.
    exists out. split; [exact A|]. split; [exact (proj1 R)|]. split; [exact P|]. now apply put_wrong.
  - destruct (H' K) as (out & R & A). pose proof (put_result context _ a b out (kept_positive _ Sne) (swap_nearly _ _ _ Hn) (stays_swap _ _ Hs) R) as P.
    exists out. split; [exact A|]. split; [exact (proj1 R)|]. split; [exact P|]. now apply put_wrong.
Qed.
(* two lines changed together and one in isolation: the former are put right, the latter is not *)
Lemma e_C136_example : let b := L "A B C D E F G x H I J K one two " in let a := L "A B C D E F G y H I J K three four " in
  stays_put b a /\ wrong_items b a [7; 12; 13] /\
  exists clumps, text_diff_clumps b a 3 = Ok clumps /\ List.length clumps = 1 /\
    text_apply_into true clumps b false (Writer [] None) = (Done (Stats 1 0 0 0 0), Writer (bs "A B C D E F G x H I J K three four ") None).
Proof.
  cbv zeta. split; [|split].
  - assert (C : forallb (fun i => forallb (fun j => match nth_error (L "A B C D E F G x H I J K one two ") i, nth_error (L "A B C D E F G y H I J K three four ") j with
        Some v, Some w => orb (negb (line_eqb v w)) (Nat.eqb i j) | _, _ => true end) (seq 0 14)) (seq 0 14) = true) by vr.
    intros i j (v & E1 & E2). assert (Hi : i < 14) by (change 14 with (List.length (L "A B C D E F G x H I J K one two ")); apply nth_error_Some; congruence).
    assert (Hj : j < 14) by (change 14 with (List.length (L "A B C D E F G y H I J K three four ")); apply nth_error_Some; congruence).
    rewrite forallb_forall in C. specialize (C i ltac:(apply in_seq; lia)). rewrite forallb_forall in C. specialize (C j ltac:(apply in_seq; lia)).
    rewrite E1, E2, (proj2 (line_eqb_lawful v v) eq_refl) in C. now apply Nat.eqb_eq.
  - replace [7; 12; 13] with (places line_eqb (L "A B C D E F G x H I J K one two ") (L "A B C D E F G y H I J K three four ")) by vr. apply places_wrong, line_eqb_lawful.
  - eexists. split; [vr|]. split; vr.
Qed.

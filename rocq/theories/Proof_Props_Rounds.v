(* Proof_Props_Rounds.v - the property lemmas on making diffs and patching over and over. *)
From Coq Require Import String.
From Verif Require Import Base Model_Seq Model_Changes Model_IO Model_Text Spec Spec_Shape Spec_Nearly Spec_Overlook Spec_Closer Spec_Rounds Cases Proof_Seq Proof_Changes Proof_Nearly Proof_Diff Proof_Text Proof_Shape Proof_Overlook Proof_Props_Gen Proof_Props_Context Proof_Props_Closer.

Local Ltac vr := vm_compute; reflexivity.

Lemma result_nearly {T} context cs (b a out : list T) :
  (forall m, In (NoChange m) cs -> nearly_common b a (cs_b m) (cs_a m) (cs_n m)) -> result_of context cs b a out -> nearly b a out.
Proof.
  intros Hn (R0 & R1 & R2). split; [exact R0|]. intros k Hk. destruct (beyond_dec context cs k) as [(i & Hi)|Hi]; [|left; now apply R2].
  rewrite (R1 _ _ Hi). destruct Hi as (pre & m & post & p & -> & Hp & -> & -> & _).
  destruct (Hn m ltac:(apply in_or_app; right; now left) p Hp) as [(v & V1 & V2)|(D & P0 & S1 & S2)]; [left; congruence|].
  right. destruct p as [|p]; [lia|]. exists (cs_b m + p), (cs_a m + p). replace (S p - 1) with p in S1 by lia. rewrite !Nat.add_succ_r in *. repeat split; assumption.
Qed.
Lemma stays_next {T} (t t' a : list T) : NoDup a -> stays_put t a -> (forall k, nth_error t' k = nth_error a k \/ nth_error t' k = nth_error t k) -> stays_put t' a.
Proof.
  intros Hd Hs H i j (v & E1 & E2). destruct (H i) as [E|E].
  - apply (proj1 (NoDup_nth_error a) Hd); [apply nth_error_Some; congruence|congruence].
  - apply Hs. exists v. split; congruence.
Qed.
Lemma forallb_not {T} (f : T -> bool) l : forallb f l = false -> exists x, In x l /\ f x = false.
Proof.
  induction l as [|x l IH]; [discriminate|]. cbn. destruct (f x) eqn:E; [|intros _; exists x; auto]. intros H. destruct (IH H) as (y & H1 & H2). exists y. auto.
Qed.
Lemma places_fewer {T} (eqb : T -> T -> bool) (t t' a : list T) : lawful eqb -> List.length t = List.length a -> List.length t' = List.length a ->
  (forall k, nth_error t' k = nth_error a k \/ nth_error t' k = nth_error t k) -> t' <> t -> List.length (places eqb t' a) < List.length (places eqb t a).
Proof.
  intros He L1 L2 H Hne.
  assert (X : exists k, k < List.length a /\ nth_error t' k <> nth_error t k).
  { destruct (forallb (fun k => match nth_error t' k, nth_error t k with Some v, Some w => eqb v w | _, _ => false end) (seq 0 (List.length a))) eqn:E.
    - exfalso. apply Hne. apply list_ext; [congruence|]. intros k Hk. rewrite forallb_forall in E. specialize (E k ltac:(apply in_seq; lia)).
      destruct (nth_error t' k), (nth_error t k); try discriminate. apply He in E. now subst.
    - apply forallb_not in E as (k & Hk & E). apply in_seq in Hk. exists k. split; [lia|]. intros K. rewrite K in E.
      destruct (nth_error t k) as [v|] eqn:V; [|apply nth_error_None in V; lia]. rewrite (proj2 (He v v) eq_refl) in E. discriminate. }
  destruct X as (k & Hk & X). destruct (H k) as [E|E]; [|contradiction].
  change (List.length (k :: places eqb t' a) <= List.length (places eqb t a)). apply NoDup_incl_length.
  - constructor; [|apply NoDup_filter, seq_NoDup]. intros K. apply filter_In in K as [_ K]. rewrite E in K.
    destruct (nth_error a k) as [v|]; [|discriminate]. rewrite (proj2 (He v v) eq_refl) in K. discriminate.
  - intros q [<-|Hq].
    + apply (places_all eqb t a [k] He); [|now left]. split; [constructor; [easy|constructor]|]. intros q [<-|[]].
      destruct (nth_error t k) as [v|] eqn:V; [|apply nth_error_None in V; lia]. destruct (nth_error a k) as [w|] eqn:W; [|apply nth_error_None in W; lia].
      exists v, w. repeat split; [assumption..|]. intros <-. congruence.
    + apply (places_all eqb t a (places eqb t' a) He); [|exact Hq]. apply (put_wrong t a t' H), places_wrong, He.
Qed.

(* one round from a text no line of which has moved *)
Lemma round_step dbg context after t t' ct ca : context <= 255 -> fits_lines t -> fits_lines after -> lines_of ct t -> lines_of ca after ->
  stays_put t after -> round dbg context after t t' ->
  List.length t' = List.length after /\ (forall k, nth_error t' k = nth_error after k \/ nth_error t' k = nth_error t k) /\
  (forall ds, wrong_items t' after ds -> 2 * List.length ds <= List.length after).
Proof.
  intros Hc Ft Fa Lt La Hs (clumps & st & E2 & A & Lo). destruct (text_changes_spec t after) as (cs & E & Ht & Hne & Halt & _).
  pose proof (proj1 (proj1 p_C10_unchanged_is_unchanged_partial t after cs E)) as Hn.
  destruct (p_C103_result dbg t after context clumps cs Hc Ft Fa E E2) as [(out & R & A') _]. rewrite A in A'. injection A' as _ A'.
  pose proof (nearly_lines _ _ _ _ _ Lt La (result_nearly _ _ _ _ _ Hn R)) as Lo'. rewrite <- A' in Lo'.
  assert (t' = out) as -> by (apply lines_of_unique in Lo, Lo'; congruence). split; [exact (proj1 R)|]. split.
  - exact (put_result context cs t after out (kept_positive _ Hne) Hn Hs R).
  - eapply result_wrong; [exact Ht|exact Hne|exact Hn|exact R].
Qed.
Lemma rounds_bound dbg context after ca n t u : context <= 255 -> fits_lines after -> lines_of ca after -> NoDup after ->
  rounds dbg context after n t u -> forall ct, lines_of ct t -> List.length t = List.length after -> stays_put t after ->
  n + List.length (places line_eqb u after) <= List.length (places line_eqb t after) /\ List.length u = List.length after /\
  forall ds, wrong_items u after ds -> wrong_items t after ds.
Proof.
  intros Hc Fa La Hd H. induction H as [t|n t t' u Hr Hne H IH]; intros ct Lt Ll Hs; [split; [lia|]; split; [exact Ll|auto]|].
  destruct (round_step dbg context after t t' ct ca) as (S1 & S2 & _); try assumption; [unfold fits_lines, zlen in *; now rewrite Ll|].
  destruct Hr as (_ & _ & _ & _ & Lo). destruct (IH _ Lo S1 (stays_next _ _ _ Hd Hs S2)) as (I1 & I2 & I3).
  pose proof (places_fewer line_eqb t t' after line_eqb_lawful Ll S1 S2 Hne). split; [lia|]. split; [exact I2|].
  intros ds Hw. apply (put_wrong t after t' S2). now apply I3.
Qed.

(* ------------------------------------------------------------------ C137 *)
(* C137: making a diff and patching with it over and over comes to an end, with the new text.  It
   need not end with the new text: if what is different is overlooked, nothing happens. *)
Lemma p_C137_arrives_refuted : exists before after, before <> after /\
  (exists cb, lines_of cb before) /\ (exists ca, lines_of ca after) /\
  (forall dbg, round dbg 3 after before before) /\ forall dbg n u, rounds dbg 3 after n before u -> u = before.
Proof.
  exists (L "A B C X D "), (L "A B C Y D "). split; [discriminate|].
  assert (Lb : lines_of (bs "A B C X D ") (L "A B C X D ")) by apply split_lines_lines_of.
  split; [eexists; exact Lb|]. split; [exists (bs "A B C Y D "); apply split_lines_lines_of|]. split.
  - intros dbg. exists [], (Stats 0 0 0 0 0). split; [vr|]. split; [destruct dbg; vr|]. exact Lb.
  - intros dbg n u H. inversion H as [|n' t t' u' (clumps & st & E & A & Lo) Hne _]; [reflexivity|]. subst. exfalso.
    assert (E0 : text_diff_clumps (L "A B C X D ") (L "A B C Y D ") 3 = Ok []) by vr. rewrite E0 in E. injection E as <-.
    assert (A0 : text_apply_into dbg [] (L "A B C X D ") false (Writer [] None) = (Done (Stats 0 0 0 0 0), Writer (bs "A B C X D ") None)) by (destruct dbg; vr).
    rewrite A0 in A. injection A as _ A. apply Hne. rewrite <- A in Lo. apply lines_of_unique in Lo. rewrite Lo. reflexivity.
Qed.
(* What does hold: if no line of the old text stands at another place of the new one and the lines
   of the new text are all different, it does come to an end, after no more rounds that change
   something than half the number of lines and one, and no round makes a right line wrong.
   Missing: texts with lines that have moved or are repeated, where patching can make more lines
   wrong (C136); no sequence of rounds without end is known. *)
Lemma p_C137_ends_partial : forall dbg context before after cb ca n u,
  context <= 255 -> fits_lines before -> fits_lines after -> lines_of cb before -> lines_of ca after ->
  stays_put before after -> NoDup after -> rounds dbg context after n before u ->
  2 * n <= List.length after + 2 /\ (forall ds, wrong_items u after ds -> wrong_items before after ds) /\
  (0 < n -> List.length u = List.length after /\ forall ds, wrong_items u after ds -> 2 * (List.length ds + n) <= List.length after + 2).
Proof.
  intros dbg context b a cb ca n u Hc Fb Fa Lb La Hs Hd H. inversion H as [t|n' t t' u' Hr Hne H']; subst; [split; [lia|]; split; [auto|lia]|].
  destruct (round_step dbg context a b t' cb ca) as (S1 & S2 & S3); try assumption.
  pose proof Hr as (_ & _ & _ & _ & Lo). destruct (rounds_bound dbg context a ca n' t' u Hc Fa La Hd H' _ Lo S1 (stays_next _ _ _ Hd Hs S2)) as (I1 & I2 & I3).
  pose proof (S3 _ (places_wrong line_eqb t' a line_eqb_lawful)) as I4. split; [lia|]. split.
  - intros ds Hw. apply (put_wrong b a t' S2). now apply I3.
  - intros _. split; [exact I2|]. intros ds Hw. pose proof (places_bound line_eqb u a ds _ line_eqb_lawful eq_refl Hw). lia.
Qed.
(* two rounds: the first overlooks a line, the second does not *)
Lemma e_C137_example : let b := L "A B C D x E F G one two " in let a := L "A B C D y E F G three four five six " in
  let t := L "A B C D x E F G three four five six " in
  stays_put b a /\ NoDup a /\ t <> a /\ rounds true 3 a 2 b a.
Proof.
  cbv zeta. split; [|split; [|split; [discriminate|]]].
  - assert (C : forallb (fun i => forallb (fun j => match nth_error (L "A B C D x E F G one two ") i, nth_error (L "A B C D y E F G three four five six ") j with
        Some v, Some w => orb (negb (line_eqb v w)) (Nat.eqb i j) | _, _ => true end) (seq 0 12)) (seq 0 10) = true) by vr.
    intros i j (v & E1 & E2). assert (Hi : i < 10) by (change 10 with (List.length (L "A B C D x E F G one two ")); apply nth_error_Some; congruence).
    assert (Hj : j < 12) by (change 12 with (List.length (L "A B C D y E F G three four five six ")); apply nth_error_Some; congruence).
    rewrite forallb_forall in C. specialize (C i ltac:(apply in_seq; lia)). rewrite forallb_forall in C. specialize (C j ltac:(apply in_seq; lia)).
    rewrite E1, E2, (proj2 (line_eqb_lawful v v) eq_refl) in C. now apply Nat.eqb_eq.
  - vm_compute. repeat (constructor; [intros K; repeat (destruct K as [K|K]; [discriminate|]); destruct K|]). constructor.
  - apply (rounds_more true 3 _ 1 _ (L "A B C D x E F G three four five six ")); [|discriminate|].
    + do 2 eexists. split; [vr|]. split; [vr|]. change (lines_of (bs "A B C D x E F G three four five six ") (L "A B C D x E F G three four five six ")). apply split_lines_lines_of.
    + apply (rounds_more true 3 _ 0 _ (L "A B C D y E F G three four five six ")); [|discriminate|constructor].
      do 2 eexists. split; [vr|]. split; [vr|]. change (lines_of (bs "A B C D y E F G three four five six ") (L "A B C D y E F G three four five six ")). apply split_lines_lines_of.
Qed.

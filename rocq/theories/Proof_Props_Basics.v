(* Proof_Props_Basics.v - lemmas behind Properties_Basics.v. *)
From Coq Require Import ZifyBool.
From Coq Require Import String.
From Verif Require Import Base Model_Seq Model_Changes Model_IO Model_Text Model_Json Model_Regex Model_Unified Model_Basics Spec Spec_Unified Cases Proof_UClump Proof_Props_Unified.
Local Open Scope Z_scope.

Lemma tiles_within : forall i j cs n m, tiles i j cs n m -> Forall non_empty cs -> forall c, In c cs ->
  (i <= b_from c /\ b_from c <= b_to c /\ b_to c <= n /\ j <= a_from c /\ a_from c <= a_to c /\ a_to c <= m)%nat.
Proof.
  assert (M : forall c, non_empty c -> (b_from c <= b_to c /\ a_from c <= a_to c)%nat).
  { intros [x|x p|p x|x y]; cbn; lia. }
  assert (W : forall i j cs n m, tiles i j cs n m -> Forall non_empty cs -> (i <= n /\ j <= m)%nat).
  { intros i j cs n m T. induction T as [|i j c cs n m Hi Hj T IH]; intro F; [lia|].
    inversion F as [|? ? Hc Hf]; subst. specialize (IH Hf). apply M in Hc. lia. }
  intros i j cs n m T. induction T as [|i j c cs n m Hi Hj T IH]; intros F d I; [contradiction|].
  inversion F as [|? ? Hc Hf]; subst. pose proof (W _ _ _ _ _ T Hf) as P. apply M in Hc.
  destruct I as [->|I]; [lia|]. specialize (IH Hf d I). lia.
Qed.

(* ------------------------------------------------------------------ C81 *)
(* C81: the positional methods of a change give the extents of the change in the old sequence,
   or in the new one under [reverse] (and the other way round for the methods called after_...);
   reductions move both ends inwards, and if the end would become negative a debug build panics
   and a release build wraps around. *)
Lemma p_C81_change_positions : forall dbg n m cs c (reverse : bool) r0 r1 s e,
  proper n m cs -> In c cs -> Z.of_nat n < two63 -> Z.of_nat m < two63 -> is_u8 r0 -> is_u8 r1 ->
  s = Z.of_nat (if reverse then a_from c else b_from c) ->
  e = Z.of_nat (if reverse then a_to c else b_to c) ->
  let len := basic_length dbg (change_start c) (change_end c) in
  let range := basic_range dbg (change_start c) (change_end c) in
  let my_range := basic_my_range dbg len in
  (change_start c reverse = Ok s /\ after_of (change_start c) (negb reverse) = Ok s) /\
  (change_end c reverse = Ok e /\ after_of (change_end c) (negb reverse) = Ok e) /\
  (s <= e /\ len reverse = Ok (e - s) /\ after_of len (negb reverse) = Ok (e - s)) /\
  (range None reverse = Ok (s, e) /\ after_of (range None) (negb reverse) = Ok (s, e)) /\
  (my_range None reverse = Ok (0, e - s) /\ after_of (my_range None) (negb reverse) = Ok (0, e - s)) /\
  range (Some (r0, r1)) reverse =
    (if r1 <=? e then Ok (s + r0, e - r1) else if dbg then Panic else Ok (s + r0, two64 + e - r1)) /\
  my_range (Some (r0, r1)) reverse =
    (if r1 <=? e - s then Ok (r0, e - s - r1) else if dbg then Panic else Ok (r0, two64 + (e - s) - r1)).
Proof.
  intros dbg n m cs c reverse r0 r1 s e (T & _ & F) I Bn Bm U0 U1 Es Ee len range my_range.
  destruct (tiles_within _ _ _ _ _ T F c I) as (Q1 & Q2 & Q3 & Q4 & Q5 & Q6).
  assert (Hs : change_start c reverse = Ok s) by (subst s; unfold change_start; destruct reverse, c; reflexivity).
  assert (He : change_end c reverse = Ok e) by (subst e; unfold change_end; destruct reverse, c; reflexivity).
  assert (B : 0 <= s <= e /\ e < two63) by (subst s e; destruct reverse; unfold two63 in *; lia).
  assert (Hl : len reverse = Ok (e - s)).
  { unfold len, basic_length. rewrite He, Hs. cbn [bind]. unfold usubz, arith_usize, in_usize. replace ((0 <=? e - s) && (e - s <? two64)) with true by (unfold two63, two64 in *; lia). reflexivity. }
  unfold after_of. rewrite negb_involutive.
  assert (Hr : range None reverse = Ok (s, e)) by (unfold range, basic_range; rewrite Hs, He; reflexivity).
  assert (Hm : my_range None reverse = Ok (0, e - s)) by (unfold my_range, basic_my_range; rewrite Hl; reflexivity).
  split; [tauto|]. split; [tauto|]. split; [split; [lia|tauto]|]. split; [tauto|]. split; [tauto|].
  unfold is_u8 in *. split.
  - unfold range, basic_range. rewrite Hs, He. cbn [bind]. unfold uadd, usubz, arith_usize, in_usize.
    replace ((0 <=? s + r0) && (s + r0 <? two64)) with true by (unfold two63, two64 in *; lia). cbn [bind].
    destruct (r1 <=? e) eqn:C.
    + replace ((0 <=? e - r1) && (e - r1 <? two64)) with true by (unfold two63, two64 in *; lia). reflexivity.
    + replace ((0 <=? e - r1) && (e - r1 <? two64)) with false by (unfold two63, two64 in *; lia).
      destruct dbg; [reflexivity|]. cbn [bind]. f_equal. f_equal. unfold wrap_usize.
      rewrite <- (Z.mod_add _ 1) by (unfold two64; lia). rewrite Z.mod_small by (unfold two63, two64 in *; lia). lia.
  - unfold my_range, basic_my_range. rewrite Hl. cbn [bind]. unfold usubz, arith_usize, in_usize.
    destruct (r1 <=? e - s) eqn:C.
    + replace ((0 <=? e - s - r1) && (e - s - r1 <? two64)) with true by (unfold two63, two64 in *; lia). reflexivity.
    + replace ((0 <=? e - s - r1) && (e - s - r1 <? two64)) with false by (unfold two63, two64 in *; lia).
      destruct dbg; [reflexivity|]. cbn [bind]. f_equal. f_equal. unfold wrap_usize.
      rewrite <- (Z.mod_add _ 1) by (unfold two64; lia). rewrite Z.mod_small by (unfold two63, two64 in *; lia). lia.
Qed.

Lemma e_C81_example :
  let cs := [NoChange (CS 0 0 7); Replace (Range 7 10) (Range 7 8); NoChange (CS 10 8 2)] in
  let c := Replace (Range 7 10) (Range 7 8) in
  proper 12 10 cs /\ In c cs /\
  basic_range true (change_start c) (change_end c) (Some (1, 1)) false = Ok (8, 9) /\
  basic_my_range true (basic_length true (change_start c) (change_end c)) (Some (1, 1)) false = Ok (1, 2) /\
  basic_my_range true (basic_length true (change_start c) (change_end c)) (Some (1, 2)) true = Panic.
Proof.
  intros cs c. split; [split; [|split]|].
  - unfold cs. repeat (apply tiles_cons; [reflexivity|reflexivity|]; cbn). apply tiles_nil.
  - intros pre x y post H. unfold cs in H.
    destruct pre as [|? [|? [|? pre]]]; cbn in H; inversion H; subst; try (cbn; discriminate). destruct pre; discriminate.
  - unfold cs. repeat constructor; cbn; lia.
  - split; [right; left; reflexivity|]. split; [reflexivity|]. split; reflexivity.
Qed.

(* C17 (see Properties_Gen.v): the methods of a clump are those of its first change. *)
Lemma p_C17_first_change_partial : forall dbg c rest (reverse : bool) reductions,
  let clump := c :: rest in
  (clump_start clump reverse = Ok (Z.of_nat (if reverse then a_from c else b_from c)) /\
   after_of (clump_start clump) (negb reverse) = clump_start clump reverse) /\
  (clump_end clump reverse = Ok (Z.of_nat (if reverse then a_to c else b_to c)) /\
   after_of (clump_end clump) (negb reverse) = clump_end clump reverse) /\
  basic_length dbg (clump_start clump) (clump_end clump) reverse = basic_length dbg (change_start c) (change_end c) reverse /\
  basic_range dbg (clump_start clump) (clump_end clump) reductions reverse =
    basic_range dbg (change_start c) (change_end c) reductions reverse /\
  (clump_start [] reverse = Ok 0 /\ clump_end [] reverse = Ok 0).
Proof.
  intros dbg c rest reverse reductions clump. split; [|split; [|split; [|split]]].
  - split; [destruct reverse, c; reflexivity|]. unfold after_of. now rewrite negb_involutive.
  - split; [destruct reverse, c; reflexivity|]. unfold after_of. now rewrite negb_involutive.
  - reflexivity.
  - destruct reductions as [[r0 r1]|]; reflexivity.
  - split; reflexivity.
Qed.
(* with reductions, in the old sequence and in the new one *)
Lemma e_C17_methods_example :
  let clump := [NoChange (CS 5 4 2); Delete (Range 7 9) 6; NoChange (CS 9 6 1)] in
  basic_range true (clump_start clump) (clump_end clump) (Some (1, 0)) false = Ok (6, 7) /\
  basic_range true (clump_start clump) (clump_end clump) None true = Ok (4, 6) /\
  clump_end clump false = Ok 7.
Proof. repeat split. Qed.

(* ------------------------------------------------------------------ C82 *)
(* C82: the positions of a parsed unified clump are the numbers written in its header, those
   behind the minus sign, or behind the plus sign under [reverse]; its end is their sum, and if
   that leaves the machine word a debug build panics and a release build wraps around. *)
Lemma p_C82_positions : forall nd dbg lines i clump cs d1 o2 d3 o4 b bl a al (reverse : bool),
  digit_table nd -> Forall character cs -> nth_error lines i = Some (concat cs) ->
  header_form nd cs d1 o2 d3 o4 -> numeral d1 b -> length_field o2 bl -> numeral d3 a -> length_field o4 al ->
  get_from_at nd dbg lines i = Ok (DOk (Some clump)) ->
  let s := if reverse then a else b in
  let l := if reverse then al else bl in
  let end_ := if s + l <? two64 then Ok (s + l) else if dbg then Panic else Ok (s + l - two64) in
  (unified_start clump reverse = Ok s /\ after_of (unified_start clump) (negb reverse) = Ok s) /\
  (unified_length clump reverse = Ok l /\ after_of (unified_length clump) (negb reverse) = Ok l) /\
  (unified_end dbg clump reverse = end_ /\ after_of (unified_end dbg clump) (negb reverse) = end_) /\
  basic_range dbg (unified_start clump) (unified_end dbg clump) None reverse = (let! e := end_ in Ok (s, e)) /\
  basic_my_range dbg (unified_length clump) None reverse = Ok (0, l).
Proof.
  intros nd dbg lines i clump cs d1 o2 d3 o4 b bl a al reverse Nd Ch N Hf Nb Nbl Na Nal G s l end_.
  destruct (p_C66_header_exact nd cs i Nd Ch) as [_ P]. destruct (P _ _ _ _ Hf) as [P' _]. specialize (P' _ _ _ _ Nb Nbl Na Nal). clear P.
  assert (H : uc_header clump = SLs (SL b bl) (SL a al)).
  { destruct (p_C47_lengths_partial _ _ _ _ _ G) as (ls & rest & (pre & hl & E & Lp & Q & _) & _).
    assert (hl = concat cs).
    { rewrite E, nth_error_app2, Lp, Nat.sub_diag in N by lia. cbn in N. congruence. }
    subst hl. congruence. }
  assert (Mh : machine_header (uc_header clump)).
  { destruct (p_C47_lengths_partial _ _ _ _ _ G) as (ls & rest & (pre & hl & _ & _ & Q & _) & _). eapply header_machine; eauto. }
  unfold machine_header in Mh. rewrite H in Mh. cbn [sls_before sls_after sl_start sl_length] in Mh. unfold is_usize in Mh.
  assert (Hs : unified_start clump reverse = Ok s).
  { unfold unified_start, uc_before_start. rewrite H. unfold s. destruct reverse; reflexivity. }
  assert (Hl : unified_length clump reverse = Ok l).
  { unfold unified_length, uc_before_length. rewrite H. unfold l. destruct reverse; reflexivity. }
  assert (He : unified_end dbg clump reverse = end_).
  { unfold unified_end, uc_before_end, uc_before_start, uc_before_length. rewrite H. cbn [sls_before sls_after sl_start sl_length].
    replace (if reverse then a else b) with s by reflexivity. replace (if reverse then al else bl) with l by reflexivity.
    assert (B : 0 <= s < two64 /\ 0 <= l < two64) by (unfold s, l; destruct reverse; lia).
    unfold end_, uadd, arith_usize, in_usize. destruct (s + l <? two64) eqn:C.
    - replace (0 <=? s + l) with true by lia. reflexivity.
    - rewrite andb_false_r. destruct dbg; [reflexivity|]. f_equal. unfold wrap_usize.
      rewrite <- (Z.mod_add _ (-1)) by (unfold two64; lia). rewrite Z.mod_small; lia. }
  unfold after_of. rewrite negb_involutive. split; [tauto|]. split; [tauto|]. split; [tauto|].
  unfold basic_range, basic_my_range. rewrite Hs, He, Hl. split; reflexivity.
Qed.

(* its lines are the old lines behind the header (the new ones under [reverse], and the other
   way round for after_lines); a range of them is given exactly if there are that many lines, and
   otherwise there is a panic; as many lines as the header says are always there *)
Lemma p_C82_lines : forall nd dbg lines i clump (reverse : bool), get_from_at nd dbg lines i = Ok (DOk (Some clump)) ->
  exists ls rest, clump_at nd lines i (uc_header clump) ls rest /\ clump_read (uc_header clump) ls rest clump /\
  forall mine, mine = (if reverse then uc_after clump else uc_before clump) ->
    length mine = length (if reverse then new_lines ls else old_lines ls) /\
    uc_before_lines clump None reverse = Ok mine /\ unified_after_lines clump None (negb reverse) = Ok mine /\
    (forall from to, (from <= to <= length mine)%nat -> exists pre post part, mine = pre ++ part ++ post /\
       length pre = from /\ length part = (to - from)%nat /\
       uc_before_lines clump (Some (Range from to)) reverse = Ok part /\
       unified_after_lines clump (Some (Range from to)) (negb reverse) = Ok part) /\
    (forall from to, ~ (from <= to <= length mine)%nat -> uc_before_lines clump (Some (Range from to)) reverse = Panic) /\
    (forall l, unified_length clump reverse = Ok l -> 0 <= l <= Z.of_nat (length mine)).
Proof.
  intros nd dbg lines i clump reverse G.
  destruct (p_C47_lengths_partial _ _ _ _ _ G) as (ls & rest & C & _ & R & L1 & L2 & B1 & B2 & _).
  exists ls, rest. split; [assumption|]. split; [assumption|]. intros mine Em.
  assert (Lm : length mine = length (if reverse then new_lines ls else old_lines ls)) by (subst mine; destruct reverse; assumption).
  split; [assumption|]. unfold unified_after_lines. rewrite negb_involutive. unfold uc_before_lines. rewrite <- Em.
  split; [reflexivity|]. split; [reflexivity|]. split; [|split].
  - intros from to H. exists (firstn from mine), (skipn (to - from) (skipn from mine)), (firstn (to - from) (skipn from mine)).
    split; [rewrite (firstn_skipn (to - from)), firstn_skipn; reflexivity|].
    split; [rewrite firstn_length; lia|]. split; [rewrite firstn_length, skipn_length; lia|].
    cbn [r_start r_end]. unfold slice. replace ((from <=? to)%nat && (to <=? length mine)%nat) with true by lia. tauto.
  - intros from to H. cbn [r_start r_end]. unfold slice. replace ((from <=? to)%nat && (to <=? length mine)%nat) with false by lia. reflexivity.
  - intros l H. unfold unified_length, uc_before_length in H.
    assert (Mh : machine_header (uc_header clump)).
    { destruct C as (pre & hl & _ & _ & Q & _). eapply header_machine; eauto. }
    unfold machine_header, is_usize in Mh. subst mine. destruct reverse; inversion H; subst; lia.
Qed.

Lemma e_C82_example : exists c, get_from_at no_more_digits true two_clumps 1 = Ok (DOk (Some c)) /\
  basic_range true (unified_start c) (unified_end true c) None false = Ok (1, 4) /\
  uc_before_lines c (Some (Range 1 2)) true = Ok (split_lines (str "+z
")) /\ uc_before_lines c (Some (Range 1 4)) true = Panic /\
  unified_end true (UClump (SLs (SL 18446744073709551615 1) (SL 0 1)) [] [] (0, 0) 0) false = Panic.
Proof. eexists. split; [vm_compute; reflexivity|]. vm_compute. repeat split; reflexivity. Qed.

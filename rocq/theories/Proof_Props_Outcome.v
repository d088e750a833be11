(* Proof_Props_Outcome.v - the property lemmas on the complete outcome of applying a patch. *)
From Coq Require Import ZifyBool.
From Coq Require Import String.
From Verif Require Import Base Model_Seq Model_Changes Model_IO Model_Text Model_Bytes Model_Snippet Spec Spec_Outcome Cases Proof_Seq Proof_Changes Proof_Clumps Proof_IO Proof_Diff Proof_Arith Proof_Text Proof_Nearby Proof_Apply Proof_Fuzzy Proof_Bytes Proof_Outcome.

(* ------------------------------------------------------------------ C73 *)
(* C73: for every patch (not only generated ones) and every text, [outcome] names exactly one
   result, and applying the patch has that result: the bytes written, the statistics, or the
   panic and what was written before it; a writer that runs full gets a prefix of it. *)
Lemma p_C73_outcome : forall dbg hs target, Forall hunk_ok hs -> lines_fit hs -> fits_lines target ->
  exists r out, outcome dbg target 0 0 hs r out /\
    (forall r' out', outcome dbg target 0 0 hs r' out' -> r' = r /\ out' = out) /\
    (forall w, text_apply_into dbg (map text_of_hunk hs) target false w =
               delivered (match r with Some l => Done (tally l) | None => Panicked end) out w).
Proof.
  intros dbg hs target H1 H2 H3. destruct (text_outcome dbg hs target H1 H2 H3) as (r & out & HO & _ & HE).
  exists r, out. split; [assumption|]. split; [|exact HE].
  intros r' out' H'. destruct (outcome_unique _ _ _ _ _ _ _ HO _ _ H') as [-> ->]. auto.
Qed.
Lemma p_C73_outcome_reverse : forall dbg hs target, Forall hunk_ok hs -> lines_fit hs -> fits_lines target ->
  exists r out, outcome dbg target 0 0 (map swap_hunk hs) r out /\
    (forall r' out', outcome dbg target 0 0 (map swap_hunk hs) r' out' -> r' = r /\ out' = out) /\
    (forall w, text_apply_into dbg (map text_of_hunk hs) target true w =
               delivered (match r with Some l => Done (tally l) | None => Panicked end) out w).
Proof.
  intros dbg hs target H1 H2 H3.
  destruct (p_C73_outcome dbg _ target (hunks_ok_swap _ H1) (lines_fit_swap _ H2) H3) as (r & out & A & B & C).
  exists r, out. split; [assumption|]. split; [assumption|]. intros w. rewrite <- C, <- map_swap_hunk.
  now rewrite text_apply_into_swap.
Qed.
(* a displaced hunk, one that is already there, and one that fits nowhere *)
Lemma e_C73_example :
  let hs := [Hunk 1 1 0 (L "A B C ") 0 (L "A X C "); Hunk 1 1 4 (L "E F G ") 4 (L "E Y G "); Hunk 0 0 9 (L "P ") 9 (L "Q ")] in
  let target := L "Z A B C D E Y G H " in
  Forall hunk_ok hs /\ lines_fit hs /\ fits_lines target /\
  exists l, outcome true target 0 0 hs (Some l) (bs "Z A X C D E Y G <<<<<<< P ======= Q >>>>>>> H ") /\ tally l = Stats 0 1 1 0 1.
Proof.
  intros hs target. assert (H1 : Forall hunk_ok hs) by (repeat constructor; vm_compute; lia).
  assert (H2 : lines_fit hs) by (vm_compute; reflexivity). assert (H3 : fits_lines target) by (vm_compute; reflexivity).
  split; [assumption|]. split; [assumption|]. split; [assumption|].
  destruct (p_C73_outcome true hs target H1 H2 H3) as (r & out & A & _ & C). specialize (C sink).
  remember (text_apply_into true (map text_of_hunk hs) target false sink) as x eqn:E. vm_compute in E.
  destruct r as [l|]; cbn [delivered sink w_room] in C; rewrite E in C; [|discriminate C].
  exists l. assert (C1 : Done (Stats 0 1 1 0 1) = Done (tally l)) by exact (f_equal fst C).
  assert (C2 : out = bs "Z A X C D E Y G <<<<<<< P ======= Q >>>>>>> H ") by (symmetry; exact (f_equal (fun x => w_out (snd x)) C)).
  rewrite <- C2. split; [exact A|congruence].
Qed.

(* ------------------------------------------------------------------ C74 *)
(* C74: the already-applied query answers exactly what [all_seen] says, for every patch and
   text, panics included. *)
Lemma p_C74_query : forall dbg hs target, Forall hunk_ok hs -> fits_lines target ->
  exists r, all_seen dbg target 0 hs r /\ (forall r', all_seen dbg target 0 hs r' -> r' = r) /\
    text_is_already_applied dbg (map text_of_hunk hs) target false = match r with Some b => Ok b | None => Panic end.
Proof.
  intros dbg hs target H1 H2. destruct (all_seen_run dbg target hs H2 0 H1) as (r & A & B).
  - unfold zlen. consts. lia.
  - exists r. split; [assumption|]. split; [|exact B]. intros r' H'. symmetry. eapply all_seen_unique; eassumption.
Qed.
Lemma p_C74_query_reverse : forall dbg hs target, Forall hunk_ok hs -> fits_lines target ->
  exists r, all_seen dbg target 0 (map swap_hunk hs) r /\ (forall r', all_seen dbg target 0 (map swap_hunk hs) r' -> r' = r) /\
    text_is_already_applied dbg (map text_of_hunk hs) target true = match r with Some b => Ok b | None => Panic end.
Proof.
  intros dbg hs target H1 H2. destruct (p_C74_query dbg _ target (hunks_ok_swap _ H1) H2) as (r & A & B & C).
  exists r. split; [assumption|]. split; [assumption|]. rewrite <- C, <- map_swap_hunk.
  unfold text_is_already_applied. now rewrite text_already_applied_swap.
Qed.
Lemma e_C74_example :
  let hs := [Hunk 1 1 0 (L "A B C ") 0 (L "A X C "); Hunk 1 1 4 (L "E F G ") 4 (L "E Y G ")] in
  let target := L "Z A X C D E Y G H " in
  Forall hunk_ok hs /\ fits_lines target /\ all_seen true target 0 hs (Some true) /\
  all_seen true target 0 (map swap_hunk hs) (Some false).
Proof.
  intros hs target. assert (H1 : Forall hunk_ok hs) by (repeat constructor; vm_compute; lia).
  assert (H3 : fits_lines target) by (vm_compute; reflexivity).
  split; [assumption|]. split; [assumption|]. split.
  - destruct (p_C74_query true hs target H1 H3) as (r & A & _ & C). vm_compute in C.
    destruct r as [b|]; [|discriminate]. injection C as <-. exact A.
  - destruct (p_C74_query_reverse true hs target H1 H3) as (r & A & _ & C). vm_compute in C.
    destruct r as [b|]; [|discriminate]. injection C as <-. exact A.
Qed.

(* ------------------------------------------------------------------ C75 *)
(* C75: applying any byte patch to any bytes does what [byte_outcome] says, and nothing else. *)
Lemma p_C75_byte_outcome : forall dbg hs target, bytes_fit target hs ->
  (forall w, byte_apply_into dbg (map byte_of_hunk hs) target false w =
     let (ok, out) := byte_outcome target 0 hs in delivered (if ok then Done tt else Panicked) out w) /\
  (forall w, byte_apply_into dbg (map byte_of_hunk hs) target true w =
     let (ok, out) := byte_outcome target 0 (map swap_hunk hs) in delivered (if ok then Done tt else Panicked) out w).
Proof.
  assert (F : forall dbg hs target, bytes_fit target hs -> forall w, byte_apply_into dbg (map byte_of_hunk hs) target false w =
     let (ok, out) := byte_outcome target 0 hs in delivered (if ok then Done tt else Panicked) out w).
  { intros dbg hs target H w. destruct (byte_outcome_run dbg target hs 0) as [_ E].
    - pose proof (total_bytes_le hs). unfold bytes_fit in H. lia.
    - specialize (E w). destruct (byte_outcome target 0 hs) as [ok out]. exact E. }
  intros dbg hs target H. split; [now apply F|]. intros w. rewrite <- (F dbg (map swap_hunk hs) target (bytes_fit_swap _ _ H) w), <- map_swap_bhunk.
  now rewrite byte_apply_into_swap.
Qed.
(* The second hunk overlaps the first and both are found: more bytes are passed over than there are. *)
Lemma p_C75_overlap_panics : exists hs target, bytes_fit target hs /\ forall dbg,
  byte_apply_into dbg (map byte_of_hunk hs) target false sink = (Panicked, Writer (bs "xyxy") None).
Proof.
  exists [Hunk 0 0 0 (bs "abc") 0 (bs "xy"); Hunk 0 0 0 (bs "abc") 0 (bs "xy")], (bs "abcd").
  split; [vm_compute; reflexivity|]. intros []; vm_compute; reflexivity.
Qed.
Lemma e_C75_example :
  let hs := [Hunk 0 0 1 (bs "bc") 1 (bs "xyz"); Hunk 0 0 5 (bs "f") 6 (bs "g"); Hunk 0 0 3 (bs "q") 3 (bs "r")] in
  bytes_fit (bs "abcdefg") hs /\ byte_outcome (bs "abcdefg") 0 hs = (true, bs "axyzdegg") /\
  byte_outcome (bs "axyzdeg") 0 hs = (true, bs "axyzdeg").
Proof. vm_compute. repeat split. Qed.

(* ------------------------------------------------------------------ C76 *)
Section Writers.
  Context {T : Type} (write_items : list T -> io unit) (flat : list T -> list byte).
  Hypothesis We : forall l, emits (write_items l) (flat l) (Done tt).
  Lemma snippet_write_ok dbg (s : snippet T) r0 r1 : (r0 + r1 <= length (sn_items s))%nat -> (zlen (sn_items s) < two64)%Z ->
    emits (snippet_write_into write_items dbg s (Some (Z.of_nat r0, Z.of_nat r1))) (flat (sub (sn_items s) r0 (length (sn_items s) - r1))) (Done tt).
  Proof.
    intros H Hz. unfold snippet_write_into, zlen in *. eapply emits_lift_bind; [apply usubz_ok; lia|].
    replace (Z.of_nat (length (sn_items s)) - Z.of_nat r1)%Z with (Z.of_nat (length (sn_items s) - r1)) by lia.
    eapply emits_lift_bind; [apply zslice_ok; lia|]. apply We.
  Qed.
  Lemma snippet_write_panics dbg (s : snippet T) r0 r1 : (length (sn_items s) < r0 + r1)%nat -> (zlen (sn_items s) < two63)%Z -> (r1 <= 255)%nat ->
    emits (snippet_write_into write_items dbg s (Some (Z.of_nat r0, Z.of_nat r1))) [] Panicked.
  Proof.
    intros H Hz H1. unfold snippet_write_into, zlen in *.
    assert (Hu : usubz dbg (Z.of_nat (length (sn_items s))) (Z.of_nat r1) = Panic \/
      exists e, usubz dbg (Z.of_nat (length (sn_items s))) (Z.of_nat r1) = Ok e /\ zslice (sn_items s) (Z.of_nat r0) e = Panic).
    { unfold usubz, arith_usize. destruct (in_usize _) eqn:E.
      - right. eexists. split; [reflexivity|]. apply andb_true_iff in E as [E1 E2]. unfold zslice.
        now replace ((0 <=? Z.of_nat r0) && (Z.of_nat r0 <=? Z.of_nat (length (sn_items s)) - Z.of_nat r1) && _)%Z with false by lia.
      - destruct dbg; [now left|right]. eexists. split; [reflexivity|]. unfold wrap_usize.
        assert (Hlt : (Z.of_nat (length (sn_items s)) < Z.of_nat r1)%Z).
        { apply andb_false_iff in E. revert E Hz. consts. lia. }
        rewrite <- (Z_mod_plus_full _ 1). rewrite Z.mod_small by (consts; lia). unfold zslice, zlen.
        replace ((0 <=? Z.of_nat r0) && _ && (Z.of_nat (length (sn_items s)) - Z.of_nat r1 + 1 * two64 <=? Z.of_nat (length (sn_items s))))%Z with false; [reflexivity|].
        symmetry. apply andb_false_iff. right. consts. lia. }
    destruct Hu as [Hu|(e & Z1 & Z2)].
    - rewrite Hu. change (@Panicked unit) with (@recast Z unit Panicked). eapply emits_bind_stop; [apply (emits_lift Panic)|discriminate].
    - eapply emits_lift_bind; [exact Z1|]. rewrite Z2. change (@Panicked unit) with (@recast (list T) unit Panicked).
      eapply emits_bind_stop; [apply (emits_lift Panic)|discriminate].
  Qed.
  Lemma all_from dbg (s : list T) from :
    emits (seq_write_into_all_from write_items dbg s (Z.of_nat from)) (if from <=? length s then flat (skipn from s) else [])
      (if from <=? length s then Done tt else Panicked).
  Proof.
    unfold seq_write_into_all_from. destruct (Nat.leb_spec from (length s)) as [H|H].
    - eapply emits_lift_bind; [apply debug_assert_ok; unfold zlen; lia|]. eapply emits_lift_bind; [unfold zlen; apply zslice_ok; lia|].
      rewrite firstn_all2 by (rewrite skipn_length; lia). apply We.
    - unfold debug_assert. destruct dbg; cbn [andb].
      + replace (negb _) with true by (unfold zlen; lia).
        change (@Panicked unit) with (@recast unit unit Panicked). eapply emits_bind_stop; [apply (emits_lift Panic)|discriminate].
      + eapply emits_lift_bind; [reflexivity|]. unfold zslice. replace ((0 <=? Z.of_nat from) && (Z.of_nat from <=? zlen s) && (zlen s <=? zlen s))%Z with false by (unfold zlen; lia).
        change (@Panicked unit) with (@recast (list T) unit Panicked). eapply emits_bind_stop; [apply (emits_lift Panic)|discriminate].
  Qed.
End Writers.
(* C76: writing a snippet without its first [r0] and last [r1] items writes exactly the
   remaining ones, and panics having written nothing if there are fewer than r0 + r1. *)
Lemma p_C76_snippet_write_text : forall dbg (s : snippet line) r0 r1, (zlen (sn_items s) < two63)%Z -> r0 <= 255 -> r1 <= 255 ->
  (forall w, snippet_write_into write_lines dbg s None w = delivered (Done tt) (concat (sn_items s)) w) /\
  (r0 + r1 <= length (sn_items s) -> forall front back rest, sn_items s = front ++ rest ++ back -> length front = r0 -> length back = r1 ->
    forall w, snippet_write_into write_lines dbg s (Some (Z.of_nat r0, Z.of_nat r1)) w = delivered (Done tt) (concat rest) w) /\
  (length (sn_items s) < r0 + r1 -> forall w, snippet_write_into write_lines dbg s (Some (Z.of_nat r0, Z.of_nat r1)) w = delivered Panicked [] w).
Proof.
  intros dbg s r0 r1 Hz H0 H1. split; [|split].
  - apply (emits_write_lines (sn_items s)).
  - intros Hl front back rest E <- <-. assert (E2 : rest = sub (sn_items s) (length front) (length (sn_items s) - length back)).
    { rewrite E, !app_length. unfold sub. replace (length front + (length rest + length back) - length back - length front) with (length rest) by lia.
      rewrite skipn_app, skipn_all, Nat.sub_diag. cbn [skipn app]. now rewrite firstn_app, firstn_all, Nat.sub_diag, firstn_O, app_nil_r. }
    rewrite E2. apply (snippet_write_ok write_lines (@concat byte) emits_write_lines); [assumption|]. revert Hz. consts. lia.
  - intros Hl. apply (snippet_write_panics write_lines); [assumption|assumption|lia].
Qed.
Lemma p_C76_snippet_write_bytes : forall dbg (s : snippet byte) r0 r1, (zlen (sn_items s) < two63)%Z -> r0 <= 255 -> r1 <= 255 ->
  (forall w, snippet_write_into write_all dbg s None w = delivered (Done tt) (sn_items s) w) /\
  (r0 + r1 <= length (sn_items s) -> forall front back rest, sn_items s = front ++ rest ++ back -> length front = r0 -> length back = r1 ->
    forall w, snippet_write_into write_all dbg s (Some (Z.of_nat r0, Z.of_nat r1)) w = delivered (Done tt) rest w) /\
  (length (sn_items s) < r0 + r1 -> forall w, snippet_write_into write_all dbg s (Some (Z.of_nat r0, Z.of_nat r1)) w = delivered Panicked [] w).
Proof.
  intros dbg s r0 r1 Hz H0 H1. split; [|split].
  - apply (emits_write_bytes (sn_items s)).
  - intros Hl front back rest E <- <-. assert (E2 : rest = sub (sn_items s) (length front) (length (sn_items s) - length back)).
    { rewrite E, !app_length. unfold sub. replace (length front + (length rest + length back) - length back - length front) with (length rest) by lia.
      rewrite skipn_app, skipn_all, Nat.sub_diag. cbn [skipn app]. now rewrite firstn_app, firstn_all, Nat.sub_diag, firstn_O, app_nil_r. }
    rewrite E2. apply (snippet_write_ok write_all id emits_write_bytes); [assumption|]. revert Hz. consts. lia.
  - intros Hl. apply (snippet_write_panics write_all); [assumption|assumption|lia].
Qed.
Lemma e_C76_example :
  snippet_write_into write_lines true (Snippet 3 (L "A B C D ")) (Some (1, 2)%Z) sink = (Done tt, Writer (bs "B ") None) /\
  snippet_write_into write_lines false (Snippet 3 (L "A ")) (Some (0, 2)%Z) sink = (Panicked, Writer [] None).
Proof. vm_compute. split; reflexivity. Qed.

(* ------------------------------------------------------------------ C77 *)
(* C77, full statement: the adjusted length is the number of items left after the reductions and
   the adjusted start the displaced position of the first of them, or there is a panic.  The
   length is wrong in a release build if there are too few items ... *)
Lemma p_C77_adjusted_refuted : exists (s : snippet line) l, snippet_adj_length false s (Some (1, 2)%Z) = Ok l /\ (l <> zlen (sn_items s) - 3)%Z /\ l = (two64 - 1)%Z.
Proof. exists (Snippet 0 (L "A B ")). eexists. split; [vm_compute; reflexivity|]. vm_compute. split; [discriminate|reflexivity]. Qed.
(* ... and the start if it leaves the machine word.  Otherwise both are right, and a debug build panics exactly when
   they cannot be. *)
Lemma p_C77_adjusted_partial : forall dbg {T} (s : snippet T) offset r0 r1,
  (zlen (sn_items s) < two63)%Z -> (0 <= sn_start s < two64)%Z -> (- two63 <= offset < two63)%Z -> (0 <= r0 <= 255)%Z -> (0 <= r1 <= 255)%Z ->
  let left := (zlen (sn_items s) - r0 - r1)%Z in
  let place := (sn_start s + offset)%Z in
  snippet_adj_length dbg s None = Ok (zlen (sn_items s)) /\
  snippet_adj_length dbg s (Some (r0, r1)) = (if (0 <=? left)%Z then Ok left else if dbg then Panic else Ok (two64 + left)%Z) /\
  snippet_adj_start dbg s offset None = (if (0 <=? place)%Z && (place <? two64)%Z then Ok place else Panic) /\
  snippet_adj_start dbg s offset (Some (r0, r1)) =
    (if (0 <=? place)%Z && (place <? two64)%Z then
       if (place + r0 <? two64)%Z then Ok (place + r0)%Z else if dbg then Panic else Ok (place + r0 - two64)%Z
     else Panic).
Proof.
  intros dbg T s offset r0 r1 Hz Hs Ho H0 H1 left place. unfold zlen in *. split; [reflexivity|]. split; [|split; [reflexivity|]].
  - subst left. cbn [snippet_adj_length]. unfold zlen, usubz, arith_usize, in_usize, wrap_usize.
    set (n := Z.of_nat (length (sn_items s))) in *. assert (0 <= n)%Z by lia.
    destruct (Z.leb_spec 0 (n - r0)) as [A|A].
    + replace (n - r0 <? two64)%Z with true by (revert Hz; consts; lia). cbn [andb bind].
      destruct (Z.leb_spec 0 (n - r0 - r1)) as [B|B].
      * now replace (n - r0 - r1 <? two64)%Z with true by (revert Hz; consts; lia).
      * cbn [andb]. destruct dbg; [reflexivity|]. f_equal. rewrite <- (Z_mod_plus_full _ 1). rewrite Z.mod_small; (consts; lia).
    + cbn [andb]. destruct (Z.leb_spec 0 (n - r0 - r1)) as [B|B]; [lia|]. destruct dbg; [reflexivity|]. cbn [bind].
      assert (E : ((n - r0) mod two64 = two64 + n - r0)%Z) by (rewrite <- (Z_mod_plus_full _ 1); rewrite Z.mod_small; (consts; lia)).
      rewrite E. replace ((0 <=? two64 + n - r0 - r1) && (two64 + n - r0 - r1 <? two64))%Z with true by (symmetry; consts; lia).
      f_equal. lia.
  - cbn [snippet_adj_start]. unfold add_signed_expect, in_usize. fold place. destruct ((0 <=? place)%Z && (place <? two64)%Z) eqn:E; [|reflexivity].
    apply andb_true_iff in E as [E1 E2]. cbn [bind]. unfold uadd, arith_usize, in_usize, wrap_usize. rewrite (Z.add_comm r0).
    replace (0 <=? place + r0)%Z with true by lia. cbn [andb]. destruct (Z.ltb_spec (place + r0) two64) as [B|B]; [reflexivity|].
    destruct dbg; [reflexivity|]. f_equal. rewrite <- (Z_mod_plus_full _ (-1)). rewrite Z.mod_small; (revert B; consts; lia).
Qed.
(* The range of the items left, counted from the first item of the snippet. *)
Lemma p_C77_range : forall dbg {T} (s : snippet T) r0 r1, (zlen (sn_items s) < two63)%Z -> (0 <= r0 <= 255)%Z -> (0 <= r1 <= 255)%Z ->
  snippet_range dbg s None = Ok (0, zlen (sn_items s))%Z /\
  snippet_range dbg s (Some (r0, r1)) =
    (if (r1 <=? zlen (sn_items s))%Z then Ok (r0, zlen (sn_items s) - r1)%Z
     else if dbg then Panic else Ok (r0, two64 + zlen (sn_items s) - r1)%Z).
Proof.
  intros dbg T s r0 r1 Hz H0 H1. split; [reflexivity|]. cbn [snippet_range]. unfold usubz, arith_usize, in_usize, wrap_usize.
  assert (0 <= zlen (sn_items s))%Z by (unfold zlen; lia). set (n := zlen (sn_items s)) in *.
  destruct (Z.leb_spec r1 n) as [A|A].
  - replace ((0 <=? n - r1) && (n - r1 <? two64))%Z with true by (symmetry; consts; lia). reflexivity.
  - replace ((0 <=? n - r1) && (n - r1 <? two64))%Z with false by (symmetry; consts; lia). destruct dbg; [reflexivity|]. cbn [bind].
    do 2 f_equal. rewrite <- (Z_mod_plus_full _ 1). rewrite Z.mod_small; (consts; lia).
Qed.
Lemma e_C77_example :
  snippet_range true (Snippet 3 (L "A B C D ")) (Some (1, 2)%Z) = Ok (1, 2)%Z /\
  snippet_adj_length true (Snippet 3 (L "A B C D ")) (Some (1, 2)%Z) = Ok 1%Z /\
  snippet_adj_start true (Snippet 3 (L "A B C D ")) (-2) (Some (1, 2)%Z) = Ok 2%Z /\
  snippet_adj_start false (Snippet 3 (L "A B C D ")) (-4) (Some (1, 2)%Z) = Panic.
Proof. vm_compute. repeat split. Qed.

(* ------------------------------------------------------------------ C78 *)
(* C78: writing everything from a position on writes exactly that, and a position beyond the
   end is a panic with nothing written, in both builds. *)
Lemma p_C78_all_from : forall dbg from,
  (forall (s : list line) w, seq_write_into_all_from write_lines dbg s (Z.of_nat from) w =
     if from <=? length s then delivered (Done tt) (concat (skipn from s)) w else delivered Panicked [] w) /\
  (forall (s : list byte) w, seq_write_into_all_from write_all dbg s (Z.of_nat from) w =
     if from <=? length s then delivered (Done tt) (skipn from s) w else delivered Panicked [] w).
Proof.
  intros dbg from. split; intros s w.
  - destruct (all_from write_lines (@concat byte) emits_write_lines dbg s from) as [_ E]. rewrite E. now destruct (from <=? length s).
  - destruct (all_from write_all id emits_write_bytes dbg s from) as [_ E]. rewrite E. now destruct (from <=? length s).
Qed.
Lemma e_C78_example :
  seq_write_into_all_from write_lines true (L "A B C ") 1 sink = (Done tt, Writer (bs "B C ") None) /\
  seq_write_into_all_from write_lines true (L "A B C ") 4 sink = (Panicked, Writer [] None).
Proof. vm_compute. split; reflexivity. Qed.

(* Proof_Props_Commute.v - the property lemmas on two patches of one text. *)
From Coq Require Import String.
From Verif Require Import Base Model_Seq Model_Changes Model_IO Model_Text Model_Bytes Model_Json Model_Files Spec Spec_Files Spec_Nearly Spec_Outcome Spec_Merge Spec_Commute Cases Proof_Arith Proof_Seq Proof_Utf8 Proof_IO Proof_Text Proof_Apply Proof_Diff Proof_Files Proof_Outcome Proof_Nearly Proof_Merge Proof_Commute Proof_Props_Gen Proof_Props_Text Proof_Props_Files Proof_Props_Undo Proof_Props_Merge.

(* ------------------------------------------------------------------ C95 *)
(* C95, full statement: two patches made from one text that change different places of it (their
   clumps do not overlap, context included) can be applied in either order, with the same
   result, if each clump fits only one place of the texts involved.  It is false: six lines
   inserted by one of them in front of two clumps of the other (C93). *)
Lemma p_C95_commute_refuted : exists base one two both (first second : list line),
  text_diff_clumps base one 2 = Ok (map text_of_hunk (part true both)) /\
  text_diff_clumps base two 2 = Ok (map text_of_hunk (part false both)) /\ apart 0 both /\
  Forall (fun x : bool * hunk line => fits_once (snd x) base /\ fits_once (snd x) (if fst x then second else first)) both /\
  forall dbg, exists bytes,
    text_apply_into dbg (map text_of_hunk (part true both)) base false (Writer [] None) = (Done (Stats 1 0 0 0 0), Writer (concat first) None) /\
    text_apply_into dbg (map text_of_hunk (part false both)) base false (Writer [] None) = (Done (Stats 2 0 0 0 0), Writer (concat second) None) /\
    text_apply_into dbg (map text_of_hunk (part true both)) second false (Writer [] None) =
      (Done (Stats 1 0 0 0 0), Writer (concat (patched base 0 (map snd both))) None) /\
    text_apply_into dbg (map text_of_hunk (part false both)) first false (Writer [] None) = (Done (Stats 0 1 0 0 1), Writer bytes None) /\
    bytes <> concat (patched base 0 (map snd both)).
Proof.
  exists (L "K M A B C D E F G H I J "), (L "P Q R S T U K M A B C D E F G H I J "), (L "K M A B X V D E F G Y W I J "),
    [(true, Hunk 0 2 0 (L "K M ") 0 (L "P Q R S T U K M ")); (false, Hunk 2 2 2 (L "A B C D E ") 2 (L "A B X V D E "));
     (false, Hunk 2 2 7 (L "F G H I J ") 8 (L "F G Y W I J "))],
    (L "P Q R S T U K M A B C D E F G H I J "), (L "K M A B X V D E F G Y W I J ").
  split; [vm_compute; reflexivity|]. split; [vm_compute; reflexivity|]. split; [vm_compute; lia|]. split.
  - repeat constructor; cbn [fst snd].
    + apply (once_check _ _ 0%Z). vm_compute. reflexivity.
    + apply (once_check _ _ 0%Z). vm_compute. reflexivity.
    + apply (once_check _ _ 2%Z). vm_compute. reflexivity.
    + apply (once_check _ _ 8%Z). vm_compute. reflexivity.
    + apply (once_check _ _ 7%Z). vm_compute. reflexivity.
    + apply (once_check _ _ 13%Z). vm_compute. reflexivity.
  - intros dbg. eexists. destruct dbg.
    + split; [vm_compute; reflexivity|]. split; [vm_compute; reflexivity|]. split; [vm_compute; reflexivity|]. split; [vm_compute; reflexivity|]. vm_compute. discriminate.
    + split; [vm_compute; reflexivity|]. split; [vm_compute; reflexivity|]. split; [vm_compute; reflexivity|]. split; [vm_compute; reflexivity|]. vm_compute. discriminate.
Qed.

Lemma in_both t h both : In (t, h) both -> In h (part t both).
Proof. intros H. unfold part. apply in_map_iff. exists (t, h). split; [reflexivity|]. apply filter_In. split; [assumption|]. cbn [fst]. now destruct t. Qed.
Lemma both_Forall (Q : hunk line -> Prop) both : Forall Q (part true both) -> Forall Q (part false both) -> Forall (fun x => Q (snd x)) both.
Proof.
  intros H1 H2. apply Forall_forall. intros [t h] Hin. apply in_both in Hin. cbn [snd]. rewrite Forall_forall in H1, H2. destruct t; auto.
Qed.
(* what is known of two patches of one text *)
Lemma two_diffs base one two c1 c2 both : c1 <= 255 -> c2 <= 255 -> fits_lines (base ++ one) -> fits_lines (base ++ two) ->
  text_diff_clumps base one c1 = Ok (map text_of_hunk (part true both)) ->
  text_diff_clumps base two c2 = Ok (map text_of_hunk (part false both)) ->
  (forall t, Forall hunk_ok (part t both) /\ ordered (part t both) /\ lines_fit (part t both) /\ Forall (sits base) (part t both) /\
    fits_lines (patched base 0 (part t both)) /\ nearly base (if t then one else two) (patched base 0 (part t both))) /\
  fits_lines base.
Proof.
  assert (G : forall a c hs, c <= 255 -> fits_lines (base ++ a) -> text_diff_clumps base a c = Ok (map text_of_hunk hs) ->
    (Forall hunk_ok hs /\ ordered hs /\ lines_fit hs /\ Forall (sits base) hs /\ fits_lines (patched base 0 hs) /\ nearly base a (patched base 0 hs)) /\ fits_lines base).
  { intros a c hs Hc F E. assert (F' : fits_lines base /\ fits_lines a) by (unfold fits_lines, zlen in *; rewrite app_length in F; lia).
    destruct (diff_facts_hs base a c hs Hc (proj1 F') (proj2 F') E) as (cs & E3 & Hcov & Hok & Hord). split; [|apply F'].
    split; [assumption|]. split; [assumption|]. split; [exact (cover_lines_fit _ _ _ _ _ F Hcov)|]. split; [exact (cover_sits _ _ _ _ _ _ _ Hcov)|].
    split; [unfold fits_lines, zlen in *; rewrite (skipn_cover _ _ _ _ _ _ _ Hcov), Nat.sub_0_r; apply F'|].
    eapply patched_is_nearly; [|exact Hcov]. exact (proj1 (proj1 p_C10_unchanged_is_unchanged_partial base a cs E3)). }
  intros C1 C2 F1 F2 E1 E2. destruct (G one c1 _ C1 F1 E1) as [G1 Gb]. destruct (G two c2 _ C2 F2 E2) as [G2 _]. split; [|assumption]. intros []; assumption.
Qed.
Lemma two_merged base both t : Forall (fun x => sits base (snd x)) both -> Forall (fun x => hunk_ok (snd x)) both -> apart 0 both -> little t 0 both ->
  Forall (fun h => fits_once h (patched base 0 (part (negb t) both))) (part t both) ->
  exists moved, merged within_reach (patched base 0 (part (negb t) both)) 0 0 (part t both) moved (patched base 0 (map snd both)).
Proof. intros Hs Hok Ha Hl Hu. apply (merged_both t base _ both 0 [] [] 0 0 Hs Hok Ha Hl); [lia|assumption|reflexivity|reflexivity]. Qed.
Lemma self_merged base both t : Forall (sits base) (part t both) -> ordered (part t both) ->
  merged within_reach base 0 0 (part t both) 0 (patched base 0 (part t both)).
Proof. intros Hs Ho. apply merged_self; [assumption|lia|destruct (part t both); [exact I|lia]|assumption]. Qed.

(* What does hold: if neither adds too many lines in front of a clump of the other, each patch
   applies cleanly to the text, the other one then applies without rejects, and the result is
   in both orders the text with the old lines of all clumps of both replaced by their new ones
   (for any two texts [one] and [two] the patches were made for, and any contexts).
   Missing: more lines, overlapping contexts. *)
Lemma p_C95_commute_partial : forall dbg base one two c1 c2 both,
  c1 <= 255 -> c2 <= 255 -> fits_lines (base ++ one) -> fits_lines (base ++ two) ->
  text_diff_clumps base one c1 = Ok (map text_of_hunk (part true both)) ->
  text_diff_clumps base two c2 = Ok (map text_of_hunk (part false both)) ->
  apart 0 both -> little true 0 both -> little false 0 both ->
  let first := patched base 0 (part true both) in let second := patched base 0 (part false both) in
  Forall (fun h => fits_once h second) (part true both) -> Forall (fun h => fits_once h first) (part false both) ->
  nearly base one first /\ nearly base two second /\
  text_apply_into dbg (map text_of_hunk (part true both)) base false (Writer [] None) =
    (Done (Stats (length (part true both)) 0 0 0 0), Writer (concat first) None) /\
  text_apply_into dbg (map text_of_hunk (part false both)) base false (Writer [] None) =
    (Done (Stats (length (part false both)) 0 0 0 0), Writer (concat second) None) /\
  exists m1 m2,
    text_apply_into dbg (map text_of_hunk (part true both)) second false (Writer [] None) =
      (Done (Stats (length (part true both) - m1) m1 0 0 0), Writer (concat (patched base 0 (map snd both))) None) /\
    text_apply_into dbg (map text_of_hunk (part false both)) first false (Writer [] None) =
      (Done (Stats (length (part false both) - m2) m2 0 0 0), Writer (concat (patched base 0 (map snd both))) None).
Proof.
  intros dbg base one two c1 c2 both C1 C2 F1 F2 E1 E2 Ha L1 L2 first second U1 U2.
  destruct (two_diffs base one two c1 c2 both C1 C2 F1 F2 E1 E2) as [G Fb].
  destruct (G true) as (O1 & R1 & I1 & S1 & P1 & N1). destruct (G false) as (O2 & R2 & I2 & S2 & P2 & N2). clear G.
  split; [exact N1|]. split; [exact N2|].
  split; [rewrite <- (Nat.sub_0_r (length (part true both))); apply p_C93_merge_any_partial; auto; now apply self_merged|].
  split; [rewrite <- (Nat.sub_0_r (length (part false both))); apply p_C93_merge_any_partial; auto; now apply self_merged|].
  pose proof (both_Forall _ both S1 S2) as Hs. pose proof (both_Forall _ both O1 O2) as Hok.
  destruct (two_merged base both true Hs Hok Ha L1 U1) as (m1 & M1). destruct (two_merged base both false Hs Hok Ha L2 U2) as (m2 & M2).
  exists m1, m2. split; apply p_C93_merge_any_partial; assumption.
Qed.

(* The patch tool, run with the two saved patches in either order on a file holding the text,
   leaves the same content; nothing else is changed. *)
Lemma p_C95_commute_files_partial : forall E f P1 P2 d1 d2 base one two t1 t2 c1 c2 both,
  fault_free E -> N.testbit (e_mode E) 8 = true -> f (e_tmp E) = None -> td_before d2 = td_before d1 -> P1 <> td_before d1 -> P2 <> td_before d1 ->
  holds_diff f P1 (TextChange d1) -> holds_diff f P2 (TextChange d2) -> text_of f (td_before d1) base ->
  is_utf8 t1 -> lines_of t1 one -> is_utf8 t2 -> lines_of t2 two ->
  c1 <= 255 -> c2 <= 255 -> fits_lines (base ++ one) -> fits_lines (base ++ two) ->
  text_diff_clumps base one c1 = Ok (td_clumps d1) -> text_diff_clumps base two c2 = Ok (td_clumps d2) ->
  td_clumps d1 = map text_of_hunk (part true both) -> td_clumps d2 = map text_of_hunk (part false both) ->
  apart 0 both -> little true 0 both -> little false 0 both ->
  Forall (fun h => fits_once h (patched base 0 (part false both))) (part true both) ->
  Forall (fun h => fits_once h (patched base 0 (part true both))) (part false both) ->
  exists w1 w2 v1 v2,
    patch_main E P1 false (start f) = (Val tt, w1) /\ patch_main E P2 false (start (w_fs w1)) = (Val tt, w2) /\
    patch_main E P2 false (start f) = (Val tt, v1) /\ patch_main E P1 false (start (w_fs v1)) = (Val tt, v2) /\
    content (w_fs w2) (td_before d1) = Some (concat (patched base 0 (map snd both))) /\
    content (w_fs v2) (td_before d1) = Some (concat (patched base 0 (map snd both))) /\
    forall p, p <> td_before d1 -> w_fs w2 p = f p /\ w_fs v2 p = f p.
Proof.
  intros E f P1 P2 d1 d2 base one two t1 t2 c1 c2 both FF He Ht Hp HP1 HP2 H1 H2 Hb Y1 Z1 Y2 Z2 C1 C2 F1 F2 E1 E2 D1 D2 Ha L1 L2 U1 U2.
  rewrite D1 in E1. rewrite D2 in E2.
  destruct (two_diffs base one two c1 c2 both C1 C2 F1 F2 E1 E2) as [G Fb].
  destruct (G true) as (O1 & R1 & I1 & S1 & Q1 & N1). destruct (G false) as (O2 & R2 & I2 & S2 & Q2 & N2). clear G.
  pose proof (both_Forall _ both S1 S2) as Hs. pose proof (both_Forall _ both O1 O2) as Hok.
  destruct (two_merged base both true Hs Hok Ha L1 U1) as (m1 & M1). destruct (two_merged base both false Hs Hok Ha L2 U2) as (m2 & M2).
  destruct Hb as (cb & B1 & B2 & B3).
  assert (Hne : td_before d1 <> e_tmp E).
  { intros Hx. rewrite Hx in B1. unfold content in B1. rewrite Ht in B1. discriminate. }
  assert (T1 : forall g, content g (td_before d1) = Some (concat (patched base 0 (part true both))) -> text_of g (td_before d1) (patched base 0 (part true both))).
  { intros g Hg. exists (concat (patched base 0 (part true both))). split; [assumption|]. split; [|exact (nearly_lines _ _ _ _ _ B3 Z1 N1)].
    apply concat_utf8. eapply nearly_all; [| |exact N1]; [exact (utf8_lines _ _ B2 B3)|exact (utf8_lines _ _ Y1 Z1)]. }
  assert (T2 : forall g, content g (td_before d1) = Some (concat (patched base 0 (part false both))) -> text_of g (td_before d1) (patched base 0 (part false both))).
  { intros g Hg. exists (concat (patched base 0 (part false both))). split; [assumption|]. split; [|exact (nearly_lines _ _ _ _ _ B3 Z2 N2)].
    apply concat_utf8. eapply nearly_all; [| |exact N2]; [exact (utf8_lines _ _ B2 B3)|exact (utf8_lines _ _ Y2 Z2)]. }
  assert (Tb : text_of f (td_before d1) base) by (exists cb; auto).
  destruct (p_C93_merge_file_partial E f P1 d1 _ base _ _ FF He H1 Ht D1 O1 R1 I1 Fb Tb (self_merged base both true S1 R1)) as (w1 & W1 & W2 & W3).
  destruct (p_C93_merge_file_partial E f P2 d2 _ base 0 (patched base 0 (part false both)) FF He H2 Ht D2 O2 R2 I2 Fb) as (v1 & V1 & V2 & V3);
    [rewrite Hp; exact Tb|now apply self_merged|]. rewrite Hp in V2, V3.
  destruct (p_C93_merge_file_partial E (w_fs w1) P2 d2 (part false both) (patched base 0 (part true both)) m2 (patched base 0 (map snd both)) FF He) as (w2 & W4 & W5 & W6); auto;
    [apply (holds_diff_ext f); [apply W3; assumption|assumption]|rewrite W3 by auto; assumption|rewrite Hp; now apply T1|]. rewrite Hp in W5, W6.
  destruct (p_C93_merge_file_partial E (w_fs v1) P1 d1 (part true both) (patched base 0 (part false both)) m1 (patched base 0 (map snd both)) FF He) as (v2 & V4 & V5 & V6); auto;
    [apply (holds_diff_ext f); [apply V3; assumption|assumption]|rewrite V3 by auto; assumption|].
  exists w1, w2, v1, v2. split; [exact W1|]. split; [exact W4|]. split; [exact V1|]. split; [exact V4|]. split; [exact W5|]. split; [exact V5|].
  intros p Hx. split; [now rewrite W6, W3|now rewrite V6, V3].
Qed.
(* the clumps of the two patches alternate *)
Lemma e_C95_example :
  let base := L "A B C D E F G H I J K M N Z O P Q " in let one := L "A B X V D E F G H I J Y W N Z O P Q " in
  let two := L "A B C D E F S T H I J K M N Z R U Q " in
  let both := [(true, Hunk 1 1 1 (L "B C D ") 1 (L "B X V D ")); (false, Hunk 1 1 5 (L "F G H ") 5 (L "F S T H "));
               (true, Hunk 1 1 9 (L "J K M N ") 10 (L "J Y W N ")); (false, Hunk 1 1 13 (L "Z O P Q ") 14 (L "Z R U Q "))] in
  let first := patched base 0 (part true both) in let second := patched base 0 (part false both) in
  text_diff_clumps base one 1 = Ok (map text_of_hunk (part true both)) /\
  text_diff_clumps base two 1 = Ok (map text_of_hunk (part false both)) /\
  apart 0 both /\ little true 0 both /\ little false 0 both /\
  Forall (fun h => fits_once h second) (part true both) /\ Forall (fun h => fits_once h first) (part false both) /\
  first = one /\ second = two /\ patched base 0 (map snd both) = L "A B X V D E F S T H I J Y W N Z R U Q ".
Proof.
  cbv zeta. split; [vm_compute; reflexivity|]. split; [vm_compute; reflexivity|]. split; [vm_compute; lia|].
  split; [|split; [|split; [|split; [|vm_compute; auto]]]].
  - cbn [little Bool.eqb]. split; [left; lia|]. split; [right; vm_compute; lia|exact I].
  - cbn [little Bool.eqb]. split; [right; vm_compute; reflexivity|]. split; [left; vm_compute; discriminate|exact I].
  - repeat constructor; [apply (once_check _ _ 1%Z)|apply (once_check _ _ 10%Z)]; vm_compute; reflexivity.
  - repeat constructor; [apply (once_check _ _ 6%Z)|apply (once_check _ _ 14%Z)]; vm_compute; reflexivity.
Qed.
(* the same with files: two saved diffs applied to F in both orders *)
Lemma e_C95_files_example :
  let f := files [(bs "F", bs "A B C D E F G H I J "); (bs "O", bs "A B X V D E F G H I J "); (bs "W", bs "A B C D E F S U H I J ")] in
  exists d1 d2 w1 w2 v1 v2, diff_main (calm_env true) (bs "F") (bs "O") 1 (start f) = (Val tt, d1) /\
    diff_main (calm_env true) (bs "F") (bs "W") 1 (start f) = (Val tt, d2) /\
    let g := upd (upd f (bs "P") (Some (File rw (w_stdout d1)))) (bs "Q") (Some (File rw (w_stdout d2))) in
    patch_main (calm_env true) (bs "P") false (start g) = (Val tt, w1) /\ patch_main (calm_env true) (bs "Q") false (start (w_fs w1)) = (Val tt, w2) /\
    patch_main (calm_env true) (bs "Q") false (start g) = (Val tt, v1) /\ patch_main (calm_env true) (bs "P") false (start (w_fs v1)) = (Val tt, v2) /\
    content (w_fs w2) (bs "F") = Some (bs "A B X V D E F S U H I J ") /\ content (w_fs v2) (bs "F") = Some (bs "A B X V D E F S U H I J ").
Proof.
  cbv zeta. do 6 eexists. split; [run|]. split; [run|]. split; [run|]. split; [run|]. split; [run|]. split; [run|]. vm_compute. split; reflexivity.
Qed.

(* Proof_Props_Result.v - the property lemmas on the content of patched files. *)
From Coq Require Import ZifyBool.
From Coq Require Import String.
From Verif Require Import Base Model_Seq Model_Changes Model_IO Model_Text Model_Bytes Model_Json Model_Files Spec Spec_Outcome Spec_Files Spec_Json Spec_Result Cases Proof_Seq Proof_Utf8 Proof_Arith Proof_IO Proof_Text Proof_Files Proof_Outcome Proof_Result Proof_Weight Proof_Conflicts Proof_Accepts Proof_Props_Gen Proof_Props_Json Proof_Props_Text Proof_Props_Files Proof_Props_Outcome.

(* ---------------- auxiliary ---------------- *)
Lemma loaded_valid s d : diff_from_json s = Ok (Some d) -> valid_diff d.
Proof. intros H. destruct (p_C57_load s) as [E|(d' & E & Hv)]; [congruence|]. rewrite H in E. now injection E as <-. Qed.
Lemma utf8_marks : Forall is_utf8 marks.
Proof. unfold marks. constructor; [|constructor; [|constructor; [|constructor]]]; apply utf8_valid_spec; vr. Qed.
Lemma text_size_lines s ls : lines_of s ls -> text_size ls = List.length s.
Proof. intros [H _]. unfold text_size. now rewrite H. Qed.
Lemma in_sum {A} (f : A -> nat) l x : In x l -> f x <= sum_of f l.
Proof. induction l as [|a l IH]; [intros []|]. intros [->|H]; cbn; [lia|]. apply IH in H. unfold sum_of in *. lia. Qed.
Lemma sum_of_scale {A} (f g : A -> nat) a b l : (forall x, a * f x <= b * g x) -> a * sum_of f l <= b * sum_of g l.
Proof. intros H. induction l as [|x l IH]; [cbn; lia|]. cbn [sum_of fold_right]. rewrite !Nat.mul_add_distr_l. specialize (H x). unfold sum_of in *. lia. Qed.
Lemma count_sum ls : List.length ls <= sum_of (fun l : line => 2 + List.length l) ls.
Proof. unfold sum_of. induction ls as [|l ls IH]; cbn [fold_right List.length]; lia. Qed.
Lemma content_node f p m c : f p = Some (File m c) -> forall x, content f p = Some x -> x = c.
Proof. unfold content. intros ->. destruct (N.testbit m 8); congruence. Qed.

Definition looks_full (l : line) : bool :=
  match rev l with [] => false | b :: r => Byte.eqb b x0a && forallb (fun x => negb (Byte.eqb x x0a)) r end.
Lemma full_literal ls : forallb looks_full ls = true -> Forall full_line ls.
Proof.
  rewrite forallb_forall, Forall_forall. intros H l Hl. specialize (H l Hl). unfold looks_full in H. destruct (rev l) as [|b r] eqn:E; [discriminate|].
  apply andb_true_iff in H as [H1 H2]. apply byte_eqb_lawful in H1. subst b. assert (E2 : l = rev r ++ [x0a]) by (rewrite <- (rev_involutive l), E; reflexivity).
  split; exists (rev r); [|assumption]. split; [|now left]. intros Hi. apply in_rev in Hi. rewrite forallb_forall in H2. specialize (H2 _ Hi).
  discriminate H2.
Qed.

(* ------------------------------------------------------------------ C112 *)
(* C112: whatever the clumps, the target and the outcome (also a panic), what is written is one
   line after the other, each of them a line of the target, an old or new line of a clump or one
   of the three conflict marks; and if no clump was rejected, only lines of the target and new
   lines of clumps. *)
Lemma p_C112_pieces : forall dbg clumps target reverse r out,
  text_apply_into dbg clumps target reverse (Writer [] None) = (r, Writer out None) ->
  made_of (fun l => In l target \/ (exists c, In c clumps /\ (In l (old_lines reverse c) \/ In l (new_lines reverse c))) \/ In l marks) out /\
  (forall st, r = Done st -> st_failed st = 0 -> made_of (fun l => In l target \/ exists c, In c clumps /\ In l (new_lines reverse c)) out).
Proof.
  intros dbg clumps target reverse r out H. destruct (ends_run _ _ _ _ _ (sorted_text dbg target reverse clumps) H) as [H1 H2].
  split; [exact H1|]. intros st Hr Hs. destruct (H2 st Hr) as [_ H3]. exact (H3 Hs).
Qed.
(* Every byte written by a byte patch comes from the data or from the new bytes of a clump. *)
Lemma p_C112_bytes : forall dbg clumps data reverse r out,
  byte_apply_into dbg clumps data reverse (Writer [] None) = (r, Writer out None) ->
  made_of (fun p => (exists i j, p = sub data i j) \/ exists c, In c clumps /\ p = new_bytes reverse c) out.
Proof.
  intros dbg clumps data reverse r out H. destruct (ends_run _ _ _ _ _ (writes_bytes dbg data reverse clumps) H) as [H1 _]. exact H1.
Qed.
(* So a text remains a text: UTF-8 before, UTF-8 after. *)
Lemma p_C112_utf8 : forall dbg clumps target reverse r out, Forall is_utf8 target -> Forall valid_text_clump clumps ->
  text_apply_into dbg clumps target reverse (Writer [] None) = (r, Writer out None) -> is_utf8 out.
Proof.
  intros dbg clumps target reverse r out Ht Hc H. destruct (p_C112_pieces _ _ _ _ _ _ H) as [(ps & -> & Hp) _].
  apply utf8_pieces. exists ps. split; [reflexivity|]. rewrite Forall_forall in Ht, Hc, Hp |- *. intros l Hl.
  destruct (Hp l Hl) as [A|[(c & A & B)|A]]; [auto| |pose proof utf8_marks as U; rewrite Forall_forall in U; auto].
  destruct (Hc c A) as (_ & _ & _ & U1 & U2). rewrite Forall_forall in U1, U2. unfold old_lines, new_lines in B. destruct reverse, B; auto.
Qed.
(* The file itself: a text patch leaves it alone or makes it valid UTF-8, at every moment. *)
Lemma p_C112_file : forall E f patch reverse o w d, patch_main E patch reverse (start f) = (o, w) -> holds_diff f patch (TextChange d) ->
  forall g, In g (w_seen w) -> g (td_before d) = f (td_before d) \/ exists m new, g (td_before d) = Some (File m new) /\ is_utf8 new.
Proof.
  intros E f patch reverse o w d H Hd g Hg. destruct (p_C39_all_or_nothing _ _ _ _ _ _ _ H Hd I g Hg) as [A|(old & new & _ & Hp & A)]; [now left|].
  right. exists (e_mode E), new. split; [exact A|]. destruct Hd as (s & _ & Hs). apply loaded_valid in Hs as [_ Hv]. inversion Hp as [? ? ls st ? Hu Hl Ha|]; subst.
  eapply p_C112_utf8; [|exact Hv|exact Ha]. now apply (utf8_lines old).
Qed.
Lemma e_C112_example :
  let c := TextClump (0, 0)%Z (Snippet 1 [[xc3; xa9; x0a]]) (Snippet 1 [[xe2; x82; xac; x0a]]) in
  (* placed *)
  text_apply_into true [c] [bs "A "; [xc3; xa9; x0a]] false (Writer [] None) =
    (Done (Stats 1 0 0 0 0), Writer (bs "A " ++ [xe2; x82; xac; x0a]) None) /\
  (* rejected *)
  text_apply_into true [c] (L "A B ") false (Writer [] None) =
    (Done (Stats 0 0 0 0 1), Writer (bs "<<<<<<< " ++ [xc3; xa9; x0a] ++ bs "======= " ++ [xe2; x82; xac; x0a] ++ bs ">>>>>>> A B ") None) /\
  valid_text_clump c /\ Forall is_utf8 [bs "A "; [xc3; xa9; x0a]] /\
  (* the patch tool *)
  let f := files [(bs "A", bs "A " ++ [xc3; xa9; x0a]); (bs "P", saved (TextChange (TextDiff (bs "A") (bs "B") [c])))] in
  exists w, patch_main (calm_env true) (bs "P") false (start f) = (Val tt, w) /\ w_fs w (bs "A") = Some (File rw (bs "A " ++ [xe2; x82; xac; x0a])).
Proof.
  cbv zeta. split; [vr|]. split; [vr|]. split.
  { split; [split; split; vm_compute; discriminate|]. split; [split; vm_compute; congruence|]. split; [split; vm_compute; congruence|].
    split; constructor; try constructor; apply utf8_valid_spec; vr. }
  split; [constructor; [|constructor; [|constructor]]; apply utf8_valid_spec; vr|]. eexists. split; [run|vr].
Qed.

(* ------------------------------------------------------------------ C113 *)
(* C113: what is written is no longer than the target, the old and the new lines of all clumps
   and 24 bytes for each; and if no clump was rejected, than the target and the new lines. *)
Lemma p_C113_text : forall dbg clumps target reverse r out, patch_fits clumps -> fits_lines target ->
  text_apply_into dbg clumps target reverse (Writer [] None) = (r, Writer out None) ->
  List.length out <= text_size target + sum_of (conflict_size reverse) clumps /\
  (forall st, r = Done st -> st_failed st = 0 -> List.length out <= text_size target + sum_of (fun c => text_size (new_lines reverse c)) clumps).
Proof.
  intros dbg clumps target reverse r out [Hf1 Hf2] Ht H.
  assert (B : forall c, In c clumps -> (0 <= clump_lines c <= fold_right (fun c n => clump_lines c + n) 0 clumps)%Z).
  { clear. assert (N : forall c, (0 <= clump_lines c)%Z) by (intros c; unfold clump_lines; pose proof (zlen_nonneg (sn_items (tc_before c))); pose proof (zlen_nonneg (sn_items (tc_after c))); lia).
    induction clumps as [|x l IH]; [intros ? []|]. cbn [fold_right]. assert (S : (0 <= fold_right (fun c n => clump_lines c + n) 0 l)%Z) by (clear IH; induction l as [|y l IH]; cbn [fold_right]; [lia|specialize (N y); lia]).
    intros c Hc. pose proof (N c). pose proof (N x). destruct Hc as [<-|Hc]; [lia|apply IH in Hc; lia]. }
  assert (T : (Z.of_nat (sum_of (fun c => List.length (old_lines reverse c)) clumps) <= fold_right (fun c n => clump_lines c + n) 0 clumps)%Z).
  { clear. induction clumps as [|x l IH]; [cbn; lia|]. cbn [sum_of fold_right]. unfold sum_of in IH. unfold clump_lines at 1, old_lines at 1, zlen. destruct reverse; lia. }
  apply (ends_run _ _ _ _ _ (amount_text dbg target reverse clumps
    ltac:(rewrite Forall_forall in *; intros c Hc; specialize (Hf1 c Hc); specialize (B c Hc); unfold side_fits, clump_lines in *;
          pose proof (zlen_nonneg (sn_items (tc_before c))); pose proof (zlen_nonneg (sn_items (tc_after c))); lia)
    ltac:(unfold old_total, fits_lines in *; consts; lia)) H).
Qed.
Lemma p_C113_bytes : forall dbg clumps data reverse r out, byte_patch_fits clumps data ->
  byte_apply_into dbg clumps data reverse (Writer [] None) = (r, Writer out None) ->
  List.length out <= List.length data + sum_of (fun c => List.length (new_bytes reverse c)) clumps.
Proof.
  intros dbg clumps data reverse r out Hf H.
  assert (T : sum_of (fun c => List.length (old_bytes reverse c)) clumps <= sum_of (fun c => List.length (old_bytes false c) + List.length (new_bytes false c)) clumps).
  { apply sum_of_le. intros c. unfold old_bytes, new_bytes. destruct reverse; lia. }
  apply (ends_run _ _ _ _ _ (amount_bytes dbg data reverse clumps ltac:(unfold byte_patch_fits, old_bytes_total, zlen in *; lia)) H).
Qed.
(* The files: a file patched with a text patch is longer than it was by at most twelve elevenths
   of the patch file, one patched with a byte patch by at most the size of the patch file, at
   every moment. *)
Lemma p_C113_file : forall E f patch reverse o w d s old, patch_main E patch reverse (start f) = (o, w) -> holds_diff f patch d -> is_change d ->
  fits_file f patch -> fits_file f (target d) -> content f patch = Some s -> content f (target d) = Some old ->
  forall g new, In g (w_seen w) -> content g (target d) = Some new ->
  match d with
  | TextChange _ => 11 * List.length new <= 11 * List.length old + 12 * List.length s
  | _ => List.length new <= List.length old + List.length s
  end.
Proof.
  intros E f patch reverse o w d s old H Hd Hc Hfp Hft Hs Ho g new Hg Hn.
  assert (T : List.length new <= List.length old \/ patches_to (e_dbg E) reverse d old new).
  { destruct (p_C39_all_or_nothing _ _ _ _ _ _ _ H Hd Hc g Hg) as [A|(old' & new' & Ho' & Hp & A)].
    - left. unfold content in *. rewrite A in Hn. rewrite Ho in Hn. injection Hn as ->. lia.
    - right. rewrite Ho in Ho'. injection Ho' as <-. pose proof (content_node _ _ _ _ A _ Hn) as ->. exact Hp. }
  destruct T as [T|T]; [destruct d; lia|].
  destruct Hd as (s' & Hs' & Hj). rewrite Hs in Hs'. injection Hs' as <-. pose proof (loaded_valid _ _ Hj) as [_ Hv].
  apply accepts in Hj as (j & Hj & Hd). apply shortest_text in Hj. destruct (Hfp s Hs) as [Fs _]. destruct (Hft old Ho) as [Fo Fl].
  unfold fits_bytes, zlen in Fs, Fo. inversion T as [td ? ls st ? Hu Hl Ha|bd ? u ? Ha]; subst.
  - apply text_diff_weight in Hd. cbn [valid_content] in Hv. set (g0 := fun c : text_clump => 22 + _ + _) in Hd.
    assert (W : sum_of g0 (td_clumps td) <= List.length s) by lia.
    assert (S1 : 11 * sum_of (conflict_size reverse) (td_clumps td) <= 12 * sum_of g0 (td_clumps td)).
    { apply sum_of_scale. intros c. unfold g0, conflict_size.
      assert (A : forall ls, text_size ls <= sum_of (fun l : line => 2 + List.length l) ls) by (intros; rewrite text_size_sum; apply sum_of_le; intros; lia).
      pose proof (A (sn_items (tc_before c))). pose proof (A (sn_items (tc_after c))). unfold old_lines, new_lines. destruct reverse; lia. }
    assert (S2 : forall c, In c (td_clumps td) -> List.length (sn_items (tc_before c)) + List.length (sn_items (tc_after c)) <= List.length s).
    { intros c Hin. apply (in_sum g0) in Hin.
      assert (Q : g0 c = 22 + sum_of (fun l : line => 2 + List.length l) (sn_items (tc_before c)) + sum_of (fun l : line => 2 + List.length l) (sn_items (tc_after c))) by reflexivity. pose proof (count_sum (sn_items (tc_before c))). pose proof (count_sum (sn_items (tc_after c))). lia. }
    assert (S3 : sum_of (fun c => List.length (old_lines reverse c)) (td_clumps td) <= List.length s).
    { etransitivity; [|exact W]. apply sum_of_le. intros c. unfold g0, old_lines. pose proof (count_sum (sn_items (tc_before c))). pose proof (count_sum (sn_items (tc_after c))). destruct reverse; lia. }
    specialize (Fl ls Hl). unfold fits_lines in Fl. pose proof (zlen_nonneg ls).
    destruct (ends_run _ _ _ _ _ (amount_text (e_dbg E) ls reverse (td_clumps td)
      ltac:(rewrite Forall_forall in *; intros c Hin; specialize (Hv c Hin); specialize (S2 c Hin); destruct Hv as ([V1 V2] & _); unfold is_u8 in *; unfold side_fits, zlen; lia)
      ltac:(unfold old_total; consts; lia)) Ha) as [R _].
    rewrite (text_size_lines _ _ Hl) in R. lia.
  - apply byte_diff_weight in Hd.
    destruct (ends_run _ _ _ _ _ (amount_bytes (e_dbg E) old reverse (bd_clumps bd)
      ltac:(unfold old_bytes_total, zlen; assert (sum_of (fun c => List.length (old_bytes reverse c)) (bd_clumps bd) <= List.length s)
              by (etransitivity; [|etransitivity; [exact Hd|exact Hj]]; apply sum_of_le; intros c; unfold old_bytes; destruct reverse; lia); consts; lia)) Ha) as [R _].
    assert (sum_of (fun c => List.length (new_bytes reverse c)) (bd_clumps bd) <= List.length s); [|lia].
    etransitivity; [|etransitivity; [exact Hd|exact Hj]]. apply sum_of_le. intros c. unfold new_bytes. destruct reverse; lia.
Qed.
(* The bounds are reached.  The size of the patch file is not a bound: of the clumps of this
   patch, written as short as possible, all but the first and the last are rejected (in a release
   build), 24 bytes of conflict for 22 bytes of patch. *)
Definition short_patch (n : nat) : list byte :=
  str "{""TextChange"":[""A"","""",[[[0,0],[3,[""a\n""]],[0,[]]]" ++ concat (repeat (str ",[[0,0],[0,[]],[0,[]]]") n) ++ str "]]}".
Lemma e_C113_example :
  (* nothing of the target is replaced, and one clump is rejected *)
  (let c := TextClump (0, 0)%Z (Snippet 0 (L "B C ")) (Snippet 0 (L "D ")) in let target := L "A E " in
   patch_fits [c] /\ fits_lines target /\
   exists out, text_apply_into true [c] target false (Writer [] None) = (Done (Stats 0 0 0 0 1), Writer out None) /\
     List.length out = text_size target + sum_of (conflict_size false) [c]) /\
  (* an insertion *)
  (let c := TextClump (0, 0)%Z (Snippet 1 []) (Snippet 1 (L "B C ")) in let target := L "A D " in
   exists out, text_apply_into true [c] target false (Writer [] None) = (Done (Stats 1 0 0 0 0), Writer out None) /\
     List.length out = text_size target + sum_of (fun c => text_size (new_lines false c)) [c]) /\
  (let c := ByteClump (0, 0)%Z (Snippet 1 []) (Snippet 1 (bs "BC")) in
   byte_patch_fits [c] (bs "AD") /\ byte_apply_into true [c] (bs "AD") false (Writer [] None) = (Done tt, Writer (bs "ABCD") None)) /\
  (let f := files [(bs "A", bs "a "); (bs "P", short_patch 40)] in
   exists w new, patch_main (calm_env false) (bs "P") false (start f) = (Val tt, w) /\ content (w_fs w) (bs "A") = Some new /\
     List.length new = 936 /\ List.length (short_patch 40) = 932).
Proof.
  split; [|split; [|split]].
  - cbv zeta. split; [split; [repeat constructor; vm_compute; congruence|vr]|]. split; [vr|]. eexists. split; vr.
  - cbv zeta. eexists. split; vr.
  - cbv zeta. split; vr.
  - cbv zeta. eexists. eexists. split; [run|]. split; [vm_compute; reflexivity|]. split; vr.
Qed.

(* ------------------------------------------------------------------ C114 *)
(* C114, full statement: a rejected clump is shown as a conflict - the marks, its old and its
   new lines, each a line of the output - at the place where the clump belongs.
   False in both respects.  A line without a newline (the last of a file) swallows the mark
   that follows it: neither ======= nor >>>>>>> is a line of the result. *)
Lemma p_C114_lines_refuted : exists before after target clumps st out ls,
  text_diff_clumps before after 0 = Ok clumps /\ lines_of (concat before) before /\ lines_of (concat after) after /\
  text_apply_into true clumps target false (Writer [] None) = (Done st, Writer out None) /\ st_failed st = 1 /\
  lines_of out ls /\ ~ In (mark x3d) ls /\ ~ In (mark x3e) ls.
Proof.
  exists [bs "x"], [bs "y"], (L "A "). eexists. eexists. eexists. eexists. split; [vr|].
  split; [apply p_C01_split_lines; vr|]. split; [apply p_C01_split_lines; vr|]. split; [vr|]. split; [vr|].
  split; [apply p_C01_split_lines; vm_compute; reflexivity|].
  split; intros H; cbn in H; repeat destruct H as [H|H]; (discriminate H || exact H).
Qed.
(* And the conflict is not put where the clump belongs but right after what the previous clumps
   made of the target: here in front of everything, although the clump is about the lines from
   the third on. *)
Lemma p_C114_place_refuted : exists before after target c st out,
  text_diff_clumps before after 1 = Ok [c] /\ sn_start (tc_before c) = 2%Z /\
  text_apply_into true [c] target false (Writer [] None) = (Done st, Writer out None) /\ st_failed st = 1 /\ List.length target = 5 /\
  let conflict := concat (conflict_lines (Hunk 1 1 2 (sn_items (tc_before c)) 2 (sn_items (tc_after c)))) in
  out <> concat (firstn 2 target) ++ conflict ++ concat (skipn 2 target) /\ out = conflict ++ concat target.
Proof.
  exists (L "A B C D E F "), (L "A B C X Y F "), (L "A B Q R S "). eexists. eexists. eexists. split; [vr|]. split; [vr|].
  split; [vr|]. split; [vr|]. split; [vr|]. split; [vm_compute; discriminate|vr].
Qed.
(* What holds, without the place: if all lines end in a newline, the lines written are one piece
   for every hunk, in order, and then the rest of the target; the piece of a rejected hunk is
   exactly its conflict. *)
Lemma p_C114_lines_partial : forall dbg hs target st out, Forall hunk_ok hs -> lines_fit hs -> fits_lines target ->
  Forall full_line target -> Forall (fun h => Forall full_line (h_old h) /\ Forall full_line (h_new h)) hs ->
  text_apply_into dbg (map text_of_hunk hs) target false (Writer [] None) = (Done st, Writer out None) ->
  exists fates pieces n, outcome dbg target 0 0 hs (Some fates) out /\ st = tally fates /\
    lines_of out (concat pieces ++ skipn n target) /\ shown target hs fates pieces.
Proof.
  intros dbg hs target st out H1 H2 H3 H4 H5 H. destruct (p_C73_outcome dbg hs target H1 H2 H3) as (r & out' & HO & _ & HE).
  rewrite HE in H. destruct r as [fates|]; [|discriminate]. injection H as <- ->.
  destruct (shown_pieces _ _ _ _ _ _ _ HO fates eq_refl) as (ps & n & -> & Hs). exists fates, ps, n.
  split; [assumption|]. split; [reflexivity|]. split; [|assumption]. apply full_lines. apply Forall_app. split.
  - eapply full_pieces; eassumption.
  - rewrite <- (firstn_skipn n target) in H4. now apply Forall_app in H4 as [_ H4].
Qed.
(* Whether or not lines end in newlines, a patch all of whose hunks are rejected puts all
   conflicts in front of the target. *)
Lemma p_C114_top_partial : forall dbg hs target st out, Forall hunk_ok hs -> lines_fit hs -> fits_lines target ->
  text_apply_into dbg (map text_of_hunk hs) target false (Writer [] None) = (Done st, Writer out None) ->
  st_failed st = List.length hs -> out = concat (map (fun h => concat (conflict_lines h)) hs) ++ concat target.
Proof.
  intros dbg hs target st out H1 H2 H3 H Hn. destruct (p_C73_outcome dbg hs target H1 H2 H3) as (r & out' & HO & _ & HE).
  rewrite HE in H. destruct r as [fates|]; [|discriminate]. injection H as <- ->. now apply (all_rejected dbg target hs fates out 0 0%Z).
Qed.
(* The same under [reverse], where a hunk is taken the other way round. *)
Lemma p_C114_reverse_partial : forall dbg hs target st out, Forall hunk_ok hs -> lines_fit hs -> fits_lines target ->
  text_apply_into dbg (map text_of_hunk hs) target true (Writer [] None) = (Done st, Writer out None) ->
  (Forall full_line target -> Forall (fun h => Forall full_line (h_old h) /\ Forall full_line (h_new h)) hs ->
   exists fates pieces n, outcome dbg target 0 0 (map swap_hunk hs) (Some fates) out /\ st = tally fates /\
     lines_of out (concat pieces ++ skipn n target) /\ shown target (map swap_hunk hs) fates pieces) /\
  (st_failed st = List.length hs -> out = concat (map (fun h => concat (conflict_lines (swap_hunk h))) hs) ++ concat target).
Proof.
  intros dbg hs target st out H1 H2 H3 H.
  assert (H' : text_apply_into dbg (map text_of_hunk (map swap_hunk hs)) target false (Writer [] None) = (Done st, Writer out None)).
  { rewrite <- map_swap_hunk. now rewrite <- (proj1 (p_C30_reverse_is_swap dbg _ target)). }
  split.
  - intros H4 H5. apply (p_C114_lines_partial dbg (map swap_hunk hs) target); auto using hunks_ok_swap, lines_fit_swap.
    apply Forall_map. eapply Forall_impl; [|exact H5]. intros h [A B]. now split.
  - intros Hn. rewrite (p_C114_top_partial dbg (map swap_hunk hs) target st out (hunks_ok_swap _ H1) (lines_fit_swap _ H2) H3 H') by now rewrite map_length.
    rewrite map_map. reflexivity.
Qed.
Lemma e_C114_example :
  let hs := [Hunk 0 0 1 (L "B ") 1 (L "C "); Hunk 1 0 2 (L "P Q ") 2 (L "P R "); Hunk 0 0 9 (L "X ") 9 (L "Y ")] in
  let target := L "A B D E " in
  Forall hunk_ok hs /\ lines_fit hs /\ fits_lines target /\ Forall full_line target /\
  Forall (fun h => Forall full_line (h_old h) /\ Forall full_line (h_new h)) hs /\
  exists out, text_apply_into true (map text_of_hunk hs) target false (Writer [] None) = (Done (Stats 1 0 0 0 2), Writer out None) /\
    lines_of out (L "A C <<<<<<< P Q ======= P R >>>>>>> <<<<<<< X ======= Y >>>>>>> D E ").
Proof.
  cbv zeta. split; [repeat constructor; vm_compute; congruence|]. split; [vr|]. split; [vr|].
  split; [now apply full_literal|]. split; [repeat (apply Forall_cons; [split; now apply full_literal|]); apply Forall_nil|]. eexists. split; [vr|]. apply p_C01_split_lines. vr.
Qed.

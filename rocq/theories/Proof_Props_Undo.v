(* Proof_Props_Undo.v - the property lemmas on undoing a patch. *)
From Coq Require Import String.
From Verif Require Import Base Model_Seq Model_Changes Model_IO Model_Text Model_Bytes Model_Json Model_Files Spec Spec_Files Spec_Nearly Cases Proof_Arith Proof_Seq Proof_Utf8 Proof_Json Proof_IO Proof_Text Proof_Apply Proof_Bytes Proof_Diff Proof_Saved Proof_Files Proof_Nearly Proof_Props_Gen Proof_Props_Text Proof_Props_Bytes Proof_Props_Files.

(* ------------------------------------------------------------------ C90 *)
(* C90: for all texts, whatever the generator overlooks: patching the first text and then the
   result in reverse, with the same clumps, restores the first text byte for byte, every clump
   applying cleanly both times. *)
Lemma p_C90_undo_text : forall dbg before_text after_text before after context clumps,
  context <= 255 -> lines_of before_text before -> lines_of after_text after -> fits_lines before -> fits_lines after ->
  text_diff_clumps before after context = Ok clumps ->
  exists out, lines_of (concat out) out /\
    text_apply_into dbg clumps before false (Writer [] None) = (Done (Stats (length clumps) 0 0 0 0), Writer (concat out) None) /\
    text_apply_into dbg clumps out true (Writer [] None) = (Done (Stats (length clumps) 0 0 0 0), Writer before_text None).
Proof.
  intros dbg tb ta b a context clumps Hc Lb La Fb Fa E. destruct (diff_facts b a context clumps Hc Fb Fa E) as (cs & hs & -> & E3 & Hcov & Hok & Hord).
  assert (Hn : nearly b a (patched b 0 hs)) by (eapply patched_is_nearly; [|exact Hcov]; exact (proj1 (proj1 p_C10_unchanged_is_unchanged_partial b a cs E3))).
  exists (patched b 0 hs). split; [exact (nearly_lines b a _ tb ta Lb La Hn)|].
  rewrite map_length. split; [apply emits_run; eapply text_apply_own; eauto|].
  destruct (undo_cover _ _ _ _ _ Hcov) as [Hu Ep]. rewrite reverse_apply, <- (map_length swap_hunk hs), <- (proj1 Lb). rewrite <- Ep at 2.
  apply emits_run. eapply text_apply_own; [|now apply hunks_ok_swap|exact Hu].
  unfold fits_lines, zlen in *. now rewrite (proj1 Hn).
Qed.
(* a line overlooked by the generator keeps its old state there and back *)
Lemma e_C90_example :
  let b := L "A B C X D " in let a := L "A B C Y D E " in
  lines_of (bs "A B C X D ") b /\ lines_of (bs "A B C Y D E ") a /\ fits_lines b /\ fits_lines a /\
  exists clumps, text_diff_clumps b a 1 = Ok clumps /\
    text_apply_into true clumps b false (Writer [] None) = (Done (Stats 1 0 0 0 0), Writer (bs "A B C X D E ") None) /\
    text_apply_into true clumps (L "A B C X D E ") true (Writer [] None) = (Done (Stats 1 0 0 0 0), Writer (bs "A B C X D ") None).
Proof.
  split; [apply split_lines_lines_of|]. split; [apply split_lines_lines_of|]. split; [apply fits_lines_small; cbn; lia|]. split; [apply fits_lines_small; cbn; lia|].
  eexists. split; [vm_compute; reflexivity|]. vm_compute. split; reflexivity.
Qed.

(* ------------------------------------------------------------------ C91 *)
(* C91, full statement: patching a file of bytes and then the result in reverse restores it.
   It is false: a file emptied by the patch stays empty ... *)
Lemma p_C91_undo_bytes_refuted : exists before after context clumps,
  byte_diff_clumps before after context = Ok clumps /\ 1 <= context /\ before <> [] /\
  forall dbg, byte_apply_into dbg clumps before false (Writer [] None) = (Done tt, Writer [] None) /\
    byte_apply_into dbg clumps [] true (Writer [] None) = (Done tt, Writer [] None).
Proof. exists (bs "AB"), [], 3. eexists. split; [vm_compute; reflexivity|]. split; [lia|]. split; [discriminate|]. intros []; vm_compute; split; reflexivity. Qed.
(* ... and without context what was removed from the end is not put back *)
Lemma p_C91_undo_no_context_refuted : exists before after clumps,
  byte_diff_clumps before after 0 = Ok clumps /\ before <> after /\ after <> [] /\
  forall dbg, byte_apply_into dbg clumps before false (Writer [] None) = (Done tt, Writer after None) /\
    byte_apply_into dbg clumps after true (Writer [] None) = (Done tt, Writer after None).
Proof.
  exists (bs "ABC"), (bs "AB"). eexists. split; [vm_compute; reflexivity|]. split; [discriminate|]. split; [discriminate|]. intros []; vm_compute; split; reflexivity.
Qed.
(* What does hold: with at least one byte of context and a new file that is not empty the
   original is restored, whatever the generator overlooks.
   Missing: context 0 and patches that empty the file. *)
Lemma empty_before context g (a : list byte) hs : 1 <= context -> a <> [] -> cover context g [] a 0 0 hs ->
  hs = [Hunk 0 0 0 [] 0 a].
Proof.
  intros Hc Ha H. inversion H as [i j d Hg H1 H2|i j d i' j' l t rest Hg H1 H2 H3 H4 H5 H6 H7 H8 H9 Hr]; subst.
  - cbn in H1. assert (d = 0) by lia. subst d. destruct a; [contradiction|cbn in H2; discriminate].
  - cbn [length] in *. assert (d = 0) by lia. assert (l = 0) by lia. assert (t = 0) by lia. assert (i' = 0) by lia. subst.
    assert (j' = length a) by (destruct (H9 eq_refl) as [?|?]; lia). subst j'. cbn [Nat.add].
    rewrite (sub_all a 0). inversion Hr; subst; [reflexivity|]. cbn [length] in *. lia.
Qed.
Lemma p_C91_undo_bytes_partial : forall dbg before after context clumps,
  1 <= context <= 255 -> after <> [] -> fits_bytes before -> fits_bytes after ->
  byte_diff_clumps before after context = Ok clumps ->
  exists out, byte_apply_into dbg clumps before false (Writer [] None) = (Done tt, Writer out None) /\
    byte_apply_into dbg clumps out true (Writer [] None) = (Done tt, Writer before None).
Proof.
  intros dbg b a context clumps Hc Ha Fb Fa E. destruct (bdiff_facts b a context clumps (proj2 Hc) E) as (cs & hs & -> & E3 & Hcov & Hord).
  destruct b as [|v b].
  - pose proof (empty_before context _ a hs (proj1 Hc) Ha Hcov) as ->. exists []. destruct a as [|v a]; [contradiction|].
    split; destruct dbg; reflexivity.
  - assert (Hl : length (patched (v :: b) 0 hs) = length a) by (rewrite (skipn_cover _ _ _ _ _ _ _ Hcov); lia).
    exists (patched (v :: b) 0 hs). split.
    + apply emits_run. eapply byte_apply_own; eauto. eapply cover_starts_inside; [exact (proj1 Hc)|discriminate|exact Hcov].
    + destruct (undo_cover _ _ _ _ _ Hcov) as [Hu Ep]. rewrite breverse_apply. rewrite <- Ep at 2. apply emits_run.
      eapply byte_apply_own; [unfold fits_bytes, zlen in *; now rewrite Hl|exact Hu|].
      eapply cover_starts_inside; [exact (proj1 Hc)|intros Ex; rewrite Ex in Hl; destruct a; [contradiction|discriminate]|exact Hu].
Qed.
(* for any context: if no clump starts at the end of either file *)
Lemma p_C91_undo_any_context_partial : forall dbg before after context hs,
  context <= 255 -> fits_bytes before -> fits_bytes after -> byte_diff_clumps before after context = Ok (map byte_of_hunk hs) ->
  Forall (fun h => h_b h < length before /\ h_a h < length after) hs ->
  exists out, byte_apply_into dbg (map byte_of_hunk hs) before false (Writer [] None) = (Done tt, Writer out None) /\
    byte_apply_into dbg (map byte_of_hunk hs) out true (Writer [] None) = (Done tt, Writer before None).
Proof.
  intros dbg b a context hs Hc Fb Fa E HF. destruct (bdiff_facts_hs b a context hs Hc E) as (cs & E3 & Hcov & Hord).
  assert (Hl : length (patched b 0 hs) = length a) by (rewrite (skipn_cover _ _ _ _ _ _ _ Hcov); lia).
  exists (patched b 0 hs). split.
  - apply emits_run. eapply byte_apply_own; eauto. eapply Forall_impl; [|exact HF]. cbn. tauto.
  - destruct (undo_cover _ _ _ _ _ Hcov) as [Hu Ep]. rewrite breverse_apply. rewrite <- Ep at 2. apply emits_run.
    eapply byte_apply_own; [unfold fits_bytes, zlen in *; now rewrite Hl|exact Hu|].
    rewrite Hl. apply Forall_forall. intros h Hh. apply in_map_iff in Hh as (h' & <- & Hh). cbn. rewrite Forall_forall in HF. apply (HF h' Hh).
Qed.
Lemma e_C91_example :
  let b := bs "ABCXD" in let a := bs "ABCYDE" in
  exists clumps, byte_diff_clumps b a 1 = Ok clumps /\
    byte_apply_into true clumps b false (Writer [] None) = (Done tt, Writer (bs "ABCXDE") None) /\
    byte_apply_into true clumps (bs "ABCXDE") true (Writer [] None) = (Done tt, Writer b None).
Proof. eexists. split; [vm_compute; reflexivity|]. vm_compute. split; reflexivity. Qed.

(* ------------------------------------------------------------------ C92 *)
(* C92, full statement: patching a file with the saved diff of two files and then patching it in
   reverse with the same diff restores it.  It is false for a binary file the patch empties. *)
Lemma p_C92_undo_files_refuted : exists E f before after context P w1 w2 w3, fault_free E /\ e_stdout E = None /\ 1 <= context <= 255 /\
  diff_main E before after context (start f) = (Val tt, w1) /\
  patch_main E P false (start (upd f P (Some (File rw (w_stdout w1))))) = (Val tt, w2) /\
  patch_main E P true (start (w_fs w2)) = (Val tt, w3) /\
  content f before = Some [xff; x41] /\ content f after = Some [] /\ content (w_fs w3) before = Some [].
Proof.
  exists (calm_env false), (files [(bs "old", [xff; x41]); (bs "new", [])]), (bs "old"), (bs "new"), 1, (bs "P"). do 3 eexists.
  split; [intros n; reflexivity|]. split; [reflexivity|]. split; [lia|]. split; [run|]. split; [run|]. split; [run|]. vm_compute. repeat split.
Qed.
(* the result of the patch in between *)
Definition goes (E : env) (f : fs) (b a : path) (d : diff) : Prop :=
  target d = b /\
  ((exists cb ca out, content f b = Some cb /\ content f a = Some ca /\ patches_to (e_dbg E) false d cb out /\ patches_to (e_dbg E) true d out cb /\
      forall lb la, is_utf8 cb -> lines_of cb lb -> is_utf8 ca -> lines_of ca la -> exists lo, is_utf8 out /\ lines_of out lo /\ nearly lb la lo) \/
   (exists ca, f b = None /\ content f a = Some ca /\ creates d false ca /\ removes d true) \/
   (exists cb, content f b = Some cb /\ f a = None /\ removes d false /\ creates d true cb)).
Lemma concat_utf8 ls : Forall is_utf8 ls -> is_utf8 (concat ls).
Proof. induction 1; cbn [concat]; [exists []; split; [constructor|reflexivity]|now apply is_utf8_app]. Qed.
Lemma lines_of_eq s ls ls' : lines_of s ls -> lines_of s ls' -> ls = ls'.
Proof. intros H H'. apply lines_of_unique in H, H'. congruence. Qed.
Lemma result_goes E f b a context d : context <= 255 -> fits_file f b -> fits_file f a ->
  (forall cb ca, content f b = Some cb -> content f a = Some ca -> ~ (is_utf8 cb /\ is_utf8 ca) -> 1 <= context /\ ca <> []) ->
  diff_result f b a context (Some d) -> goes E f b a d.
Proof.
  intros Hc Fb Fa Tb H. unfold diff_result in H.
  assert (T : forall p ls, text_result f p = Some ls -> exists c, content f p = Some c /\ is_utf8 c /\ lines_of c ls).
  { intros p ls Hp. apply text_content in Hp as (c & H1 & H2 & ->). exists c. split; [assumption|]. split; [assumption|apply split_lines_lines_of]. }
  assert (B : forall cb ca, content f b = Some cb -> content f a = Some ca -> ~ (is_utf8 cb /\ is_utf8 ca) ->
     (exists cl, byte_diff_clumps cb ca context = Ok cl /\ Some d = Some (ByteChange (ByteDiff b a false cl))) -> goes E f b a d).
  { intros cb ca Hb Ha Hu (cl & Hcl & [= ->]). split; [reflexivity|]. left. destruct (Tb cb ca Hb Ha Hu) as [Hk Hne].
    destruct (p_C91_undo_bytes_partial (e_dbg E) cb ca context cl (conj Hk Hc) Hne (proj1 (Fb _ Hb)) (proj1 (Fa _ Ha)) Hcl) as (out & A1 & A2).
    exists cb, ca, out. split; [assumption|]. split; [assumption|]. split; [eapply patches_bytes; exact A1|]. split; [eapply patches_bytes; exact A2|].
    intros lb la Ub _ Ua _. destruct Hu. auto. }
  destruct (f b) as [nb|] eqn:Eb, (f a) as [na|] eqn:Ea.
  - destruct (text_result f b) as [lb|] eqn:Rb.
    + destruct (T _ _ Rb) as (cb & Hb & Ub & Lb). destruct (text_result f a) as [la|] eqn:Ra.
      * destruct (T _ _ Ra) as (ca & Ha & Ua & La). destruct H as (cl & Hcl & [= ->]). split; [reflexivity|]. left.
        pose proof (proj2 (Fb _ Hb) lb Lb) as Fb'. pose proof (proj2 (Fa _ Ha) la La) as Fa'.
        destruct (p_C18_patch_nearly_new_partial (e_dbg E) lb la context cl Hc Fb' Fa' Hcl) as (out & N1 & N2).
        destruct (p_C90_undo_text (e_dbg E) cb ca lb la context cl Hc Lb La Fb' Fa' Hcl) as (out' & U1 & U2 & U3).
        rewrite N2 in U2. injection U2 as Eo. pose proof (nearly_lines lb la out cb ca Lb La N1) as Lo. rewrite <- Eo in U1.
        pose proof (lines_of_eq _ _ _ Lo U1) as <-.
        assert (Uo : is_utf8 (concat out)).
        { apply concat_utf8. eapply nearly_all; [| |exact N1]; [exact (utf8_lines cb lb Ub Lb)|exact (utf8_lines ca la Ua La)]. }
        exists cb, ca, (concat out). split; [assumption|]. split; [assumption|].
        split; [eapply patches_text; [exact Ub|exact Lb|exact N2]|]. split; [eapply patches_text; [exact Uo|exact Lo|exact U3]|].
        intros lb' la' _ Lb' _ La'. pose proof (lines_of_eq _ _ _ Lb Lb') as <-. pose proof (lines_of_eq _ _ _ La La') as <-. exists out. auto.
      * rewrite Hb in H. destruct (content f a) as [ca|] eqn:Ha; [|discriminate]. apply (B cb ca); auto. intros [_ Ua]. unfold text_result in Ra. rewrite Ha in Ra.
        apply utf8_valid_spec in Ua. now rewrite Ua in Ra.
    + destruct (content f b) as [cb|] eqn:Hb; [|discriminate]. destruct (content f a) as [ca|] eqn:Ha; [|discriminate]. apply (B cb ca); auto.
      intros [Ub _]. unfold text_result in Rb. rewrite Hb in Rb. apply utf8_valid_spec in Ub. now rewrite Ub in Rb.
  - destruct (text_result f b) as [lb|] eqn:Rb.
    + destruct (T _ _ Rb) as (cb & Hb & Ub & Lb). injection H as ->. split; [reflexivity|]. right. right. exists cb. repeat split; auto. symmetry. apply Lb.
    + destruct (content f b) as [cb|] eqn:Hb; [|discriminate]. injection H as ->. split; [reflexivity|]. right. right. exists cb. repeat split; auto.
  - destruct (text_result f a) as [la|] eqn:Ra.
    + destruct (T _ _ Ra) as (ca & Ha & Ua & La). injection H as ->. split; [reflexivity|]. right. left. exists ca. repeat split; auto. symmetry. apply La.
    + destruct (content f a) as [ca|] eqn:Ha; [|discriminate]. injection H as ->. split; [reflexivity|]. right. left. exists ca. repeat split; auto.
  - discriminate.
Qed.
(* What does hold, when nothing fails, for all files readable if present, binary files if there
   is at least one byte of context and the new file is not empty: the diff is saved, the file is
   patched and patched back, and has its original content again, whatever the generator
   overlooks.  In between, a text file differs from the new one at most by lines the generator
   overlooks.  Missing: binary files without context or emptied. *)
Lemma p_C92_undo_files_partial : forall E f before after context P m,
  fault_free E -> e_stdout E = None -> context <= 255 -> is_utf8 before -> is_utf8 after ->
  fits_file f before -> fits_file f after ->
  (forall cb ca, content f before = Some cb -> content f after = Some ca -> ~ (is_utf8 cb /\ is_utf8 ca) -> 1 <= context /\ ca <> []) ->
  N.testbit (e_mode E) 8 = true -> N.testbit m 8 = true -> f (e_tmp E) = None -> P <> before -> P <> e_tmp E ->
  (present f before -> content f before <> None) -> (present f after -> content f after <> None) -> (present f before \/ present f after) ->
  exists w1, diff_main E before after context (start f) = (Val tt, w1) /\ w_fs w1 = f /\
  forall f1, replaced f P (Some (File m (w_stdout w1))) f1 ->
  exists w2, patch_main E P false (start f1) = (Val tt, w2) /\
    (forall lb la, text_of f before lb -> text_of f after la -> exists lo, text_of (w_fs w2) before lo /\ nearly lb la lo) /\
    (forall p, p <> before -> w_fs w2 p = f1 p) /\
  exists w3, patch_main E P true (start (w_fs w2)) = (Val tt, w3) /\
    content (w_fs w3) before = content f before /\ (~ present f before -> ~ present (w_fs w3) before) /\ (forall p, p <> before -> w_fs w3 p = f1 p).
Proof.
  intros E f b a context P m FF So Hc Ub Ua Fb Fa Ht He Hm Htmp Hpb Hpt Rb Ra Hex.
  destruct (ff_diff E FF b a context f Hc (start f) eq_refl) as (r & Er & Hr).
  destruct (answers_diff E b a context f Hc (start f) eq_refl) as (r' & Er' & Hdesc). rewrite Er in Er'. injection Er' as <-.
  pose proof (quiet_diff_new E b a context (start f)) as (Q1 & Q2 & Q3).
  assert (Hd : exists d, r = Some d).
  { unfold diff_result, text_result in Hr. unfold present in *. destruct (f b), (f a);
      repeat match goal with
      | H : Some _ <> None -> content f ?p <> None |- _ => specialize (H ltac:(discriminate)); destruct (content f p) eqn:?; [|congruence]
      end.
    - destruct (utf8_valid l), (utf8_valid l0); destruct Hr as (cl & _ & ->); eauto.
    - destruct (utf8_valid l); eauto.
    - destruct (utf8_valid l); eauto.
    - destruct Hex as [[]|[]]; reflexivity. }
  destruct Hd as (d & ->). pose proof (Hdesc d eq_refl) as Hde. clear Hdesc. pose proof (result_goes E f b a context d Hc Fb Fa Ht Hr) as [Htg Hl].
  pose proof (generated_valid _ _ _ _ _ Hc Ub Ua Fb Fa Hde) as Hv.
  pose proof (diff_round_trip d Hv) as Hrt. pose proof (diff_to_json_ok d Hv) as Hok.
  destruct (diff_new E b a context (start f)) as [o w0] eqn:En. cbn [fst snd start w_fs w_stdout] in *. subst o.
  destruct (diff_to_json d) as [out ok] eqn:Ej. cbn [fst snd] in *. subst ok. eexists. unfold diff_main, pbnd. rewrite En, Ej, So. cbn [andb negb].
  split; [reflexivity|]. cbn [w_fs w_stdout]. rewrite Q1, Q3. cbn [app last]. split; [reflexivity|]. intros f1 [F1 F2].
  assert (Hh : holds_diff f1 P d) by (exists out; split; [unfold content; now rewrite F1, Hm|assumption]).
  assert (Hb1 : f1 b = f b) by (apply F2; congruence). assert (Ht1 : f1 (e_tmp E) = None) by (rewrite F2 by congruence; assumption).
  assert (Hcb : content f1 b = content f b) by (unfold content; now rewrite Hb1).
  assert (Fin : forall c1 c0, (forall lb la, text_of f b lb -> text_of f a la -> exists c lo, c1 = Some c /\ is_utf8 c /\ lines_of c lo /\ nearly lb la lo) ->
    c0 = content f b -> (c0 = None -> f b = None) ->
    (exists g, way E P false b c1 f1 g) -> (forall g, (forall p, p <> b -> g p = f1 p) -> content g b = c1 -> (c1 = None -> g b = None) -> exists h, way E P true b c0 g h) ->
    exists w2, patch_main E P false (start f1) = (Val tt, w2) /\
    (forall lb la, text_of f b lb -> text_of f a la -> exists lo, text_of (w_fs w2) b lo /\ nearly lb la lo) /\ (forall p, p <> b -> w_fs w2 p = f1 p) /\
    exists w3, patch_main E P true (start (w_fs w2)) = (Val tt, w3) /\
    content (w_fs w3) b = content f b /\ (~ present f b -> ~ present (w_fs w3) b) /\ (forall p, p <> b -> w_fs w3 p = f1 p)).
  { intros c1 c0 E1 E0 N0 (g & w2 & G1 & G2 & G3 & G4 & G5) Hback. destruct (Hback g G5 G3 G4) as (h & w3 & H1 & H2 & H3 & H4 & H5).
    assert (Pn : forall p, ~ present f p -> content f p = None) by (intros p Hp; unfold content, present in *; destruct (f p); [exfalso; apply Hp; discriminate|reflexivity]).
    exists w2. subst g. split; [exact G1|]. split.
    { intros lb la L1 L2. destruct (E1 lb la L1 L2) as (c & lo & -> & C1 & C2 & C3). exists lo. split; [exists c; auto|assumption]. }
    split; [assumption|].
    exists w3. subst h. split; [exact H1|]. split; [congruence|]. split; [intros Hp; apply Pn in Hp; unfold present; rewrite H4 by congruence; auto|].
    intros p Hp. now rewrite H5, G5. }
  assert (Hh' : forall g, (forall p, p <> b -> g p = f1 p) -> holds_diff g P d) by (intros g Hg; apply (holds_diff_ext f1); [now apply Hg|assumption]).
  destruct Hl as [(cb & ca & co & C1 & C2 & C3 & C4 & C5)|[(ca & C1 & C2 & C3 & C4)|(cb & C1 & C2 & C3 & C4)]]; rewrite <- Htg in *.
  - apply (Fin (Some co) (Some cb)); auto; try discriminate; [|eapply way_change; eauto; congruence|].
    + intros lb la (x & X1 & X2 & X3) (y & Y1 & Y2 & Y3). rewrite C1 in X1. injection X1 as <-. rewrite C2 in Y1. injection Y1 as <-.
      destruct (C5 lb la X2 X3 Y2 Y3) as (lo & L1 & L2 & L3). exists co, lo. auto.
    + intros g G1 G2 _. eapply way_change; eauto. destruct (path_dec (e_tmp E) (target d)) as [Hx|Hn]; [|rewrite G1; assumption].
      exfalso. rewrite <- Hx in C1. unfold content in C1. rewrite Htmp in C1. discriminate.
  - assert (C0 : content f (target d) = None) by (unfold content; now rewrite C1).
    apply (Fin (Some ca) None); auto; try discriminate; [intros lb la (x & X1 & _); congruence|eapply way_create; eauto; congruence|]. intros g G1 G2 _. eapply way_remove; eauto.
  - assert (C0 : content f a = None) by (unfold content; now rewrite C2).
    apply (Fin None (Some cb)); auto; try discriminate; [intros lb la _ (x & X1 & _); congruence|apply (way_remove E P false d cb); auto; congruence|]. intros g G1 G2 G3. eapply way_create; eauto.
Qed.
Lemma e_C92_example :
  let f := files [(bs "A", bs "A B C X D "); (bs "B", bs "A B C Y D E "); (bs "C", [xff; x41; x42]); (bs "D", [xff; x41])] in
  text_of f (bs "A") (L "A B C X D ") /\ text_of f (bs "B") (L "A B C Y D E ") /\ fits_file f (bs "A") /\
  (exists w1 w2 w3, diff_main (calm_env false) (bs "A") (bs "B") 1 (start f) = (Val tt, w1) /\
     patch_main (calm_env false) (bs "P") false (start (upd f (bs "P") (Some (File rw (w_stdout w1))))) = (Val tt, w2) /\
     content (w_fs w2) (bs "A") = Some (bs "A B C X D E ") /\
     patch_main (calm_env false) (bs "P") true (start (w_fs w2)) = (Val tt, w3) /\ content (w_fs w3) (bs "A") = Some (bs "A B C X D ")) /\
  (exists w1 w2 w3, diff_main (calm_env false) (bs "C") (bs "D") 1 (start f) = (Val tt, w1) /\
     patch_main (calm_env false) (bs "P") false (start (upd f (bs "P") (Some (File rw (w_stdout w1))))) = (Val tt, w2) /\
     content (w_fs w2) (bs "C") = Some [xff; x41] /\
     patch_main (calm_env false) (bs "P") true (start (w_fs w2)) = (Val tt, w3) /\ content (w_fs w3) (bs "C") = Some [xff; x41; x42]).
Proof.
  split; [|split; [|split; [|split]]].
  - eexists. split; [reflexivity|]. split; [apply utf8_valid_spec; vr|apply split_lines_lines_of].
  - eexists. split; [reflexivity|]. split; [apply utf8_valid_spec; vr|apply split_lines_lines_of].
  - intros c [= <-]. split; [vm_compute; reflexivity|]. intros ls Hl. apply lines_of_split in Hl. subst. apply fits_lines_small. vm_compute. lia.
  - do 3 eexists. split; [run|]. split; [run|]. split; [vr|]. split; [run|vr].
  - do 3 eexists. split; [run|]. split; [run|]. split; [vr|]. split; [run|vr].
Qed.

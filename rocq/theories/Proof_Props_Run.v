(* Proof_Props_Run.v - proofs of the properties C86 and C87 (the two programs as a whole when
   nothing outside of them fails). *)
From Coq Require Import String.
From Verif Require Import Base Model_Seq Model_Changes Model_IO Model_Text Model_Bytes Model_Json Model_Files Model_Log Spec Spec_Files Spec_Json Spec_Log Spec_Run Cases Proof_Seq Proof_Utf8 Proof_Arith Proof_Text Proof_Bytes Proof_Term Proof_Json Proof_Saved Proof_Unique Proof_Log Proof_LogMain Proof_Files Proof_Run Proof_Props_Json Proof_Props_Files.

(* ------------------------------------------------------------------ C86 *)
(* C86: what the patch tool says, the status it ends with and the files it leaves, completely,
   when nothing outside of it fails. *)
Lemma p_C86_run : forall E f patch reverse, fault_free E -> f (e_tmp E) = None ->
  (forall t, holds_diff f patch (TextChange t) ->
     (24 * fold_right (fun c n => clump_lines c + n) 0 (td_clumps t) < two63)%Z /\ fits_file f (td_before t)) ->
  exists ev o w code, patch_main_logged E patch reverse (start f) = (ev, (o, w)) /\ status o = Some code /\
    patch_run E f patch reverse (filter by_program ev) code (w_fs w).
Proof.
  intros E f patch reverse FF Ht Hfit. destruct (main_calm E FF f patch reverse Ht) as (said & code & g & (H1 & H2 & H3) & H4).
  - intros t ls c Hd Hc Hl Hn. destruct (Hfit t Hd) as [Hs Hf]. assert (Hp : patch_fits (td_clumps t)).
    { split; [|exact Hs]. destruct Hd as (s & _ & Hx). destruct (load_total s) as [Hy|(d & Hy & Hv)]; rewrite Hx in Hy; [discriminate|]. injection Hy as <-.
      destruct Hv as [_ Hv]. cbn in Hv. revert Hv. apply Forall_impl. intros x (([? ?] & [? ?]) & ? & ? & _). unfold is_usize in *. lia. }
    destruct (text_apply_into (e_dbg E) (td_clumps t) ls reverse (Writer [] None)) as [r w'] eqn:Er. cbn [fst] in Hn. subst r.
    refine (text_apply_term _ _ _ _ _ Hp _ (f_equal fst Er)). now apply (Hf c Hc).
  - destruct (patch_main_logged E patch reverse (start f)) as [ev [o w]]. cbn [fst snd] in *. exists ev, o, w, code. subst. auto.
Qed.
(* Nothing is left open by this description. *)
Lemma changes_to_content dbg reverse d old r : changes_to dbg reverse d old r -> is_change d /\ (forall t, d = TextChange t -> is_utf8 old).
Proof. destruct 1; split; try exact I; intros ? [= <-]; assumption. Qed.
Lemma changes_to_unique dbg reverse d old r r' : changes_to dbg reverse d old r -> changes_to dbg reverse d old r' -> r = r'.
Proof.
  intros H1 H2. destruct H1; inversion H2; subst; try congruence.
  all: repeat match goal with H : lines_of _ _ |- _ => apply lines_of_unique in H; subst end; congruence.
Qed.
Lemma closed_content f p c : closed f p -> content f p = Some c -> False.
Proof. unfold closed, content. destruct (f p) as [[m x|]|]; try discriminate. intros ->. discriminate. Qed.
Lemma closed_dir f p : closed f p -> f p = Some Dir -> False.
Proof. unfold closed. intros H E. now rewrite E in H. Qed.
Lemma dir_content f p c : f p = Some Dir -> content f p = Some c -> False.
Proof. unfold content. intros ->. discriminate. Qed.
Lemma holds_content f p d : holds_diff f p d -> exists c, content f p = Some c.
Proof. intros (s & H & _). eauto. Qed.
Lemma same_same f g h : same_files f g -> same_files f h -> same_files g h.
Proof. intros H1 H2 p. now rewrite H1, H2. Qed.
Lemma replaced_same f p n g h : replaced f p n g -> replaced f p n h -> same_files g h.
Proof. intros [A1 A2] [B1 B2] q. destruct (path_dec q p) as [->|Hn]; [congruence|]. now rewrite A2, B2. Qed.
Lemma p_C86_determined : forall E f patch reverse said code g said' code' g',
  patch_run E f patch reverse said code g -> patch_run E f patch reverse said' code' g' ->
  said' = said /\ code' = code /\ same_files g g'.
Proof.
  intros E f patch reverse said code g said' code' g' H1 H2.
  assert (NP : forall d, closed f patch -> holds_diff f patch d -> False) by (intros d K (c & Hc)%holds_content; eapply closed_content; eauto).
  assert (DP : forall d, f patch = Some Dir -> holds_diff f patch d -> False) by (intros d K (c & Hc)%holds_content; eapply dir_content; eauto).
  destruct H1; inversion H2; subst.
  all: repeat match goal with
    | A : holds_diff _ _ ?d, B : holds_diff _ _ ?d' |- _ =>
        first [constr_eq d d'; fail 1 | pose proof (holds_diff_unique _ _ _ _ A B) as ?Q; first [discriminate Q | injection Q as <- | subst d'|subst d]; clear B]
    end.
  all: try (exfalso; first [ eapply NP; eassumption | eapply DP; eassumption | eapply closed_content; eassumption | eapply closed_dir; eassumption
    | eapply dir_content; eassumption | match goal with A : forall d, ~ holds_diff _ _ d, B : holds_diff _ _ ?d |- _ => exact (A d B) end ]).
  all: try (exfalso; cbn [is_change] in *; repeat match goal with A : changes_to _ _ _ _ _ |- _ => apply changes_to_content in A as [A ?] end;
    first [ eapply change_not_create; eassumption | eapply change_not_remove; eassumption | eapply create_not_remove; eassumption
      | eapply change_not_create; [exact I|eassumption] | eapply change_not_remove; [exact I|eassumption] ]).
  all: try (repeat split; solve [eapply same_same; eauto]).
  all: cbn [target] in *.
  all: try match goal with A : removes (TextChange _) _ |- _ => destruct A end.
  all: try match goal with A : content ?f ?p = Some ?x, B : content ?f ?p = Some ?y |- _ => rewrite A in B; injection B as <- end.
  all: try match goal with A : changes_to _ _ _ _ _, B : ~ is_utf8 _ |- _ => destruct (B (proj2 (changes_to_content _ _ _ _ _ A) _ eq_refl)) end.
  all: try match goal with A : changes_to _ _ _ _ ?r, B : changes_to _ _ _ _ ?r' |- _ =>
         pose proof (changes_to_unique _ _ _ _ _ _ A B) as Q; first [discriminate Q | injection Q as <- <-] end.
  all: try match goal with A : creates _ _ ?c, B : creates _ _ ?c' |- _ => pose proof (creates_unique _ _ _ _ A B) as Q; subst c' end.
  all: try (exfalso; match goal with A : ~ present _ _, B : present _ _ |- _ => exact (A B) end).
  all: try (exfalso; match goal with A : forall m c, _ <> Some (File m c), B : _ = Some (File ?m ?c) |- _ => exact (A m c B) end).
  all: repeat split; eapply replaced_same; eassumption.
Qed.
(* The library's messages are never shown, so what is shown follows from what the program says. *)
Lemma p_C86_shown : forall verbose ev, filter (shown verbose) ev = filter (shown verbose) (filter by_program ev).
Proof.
  intros v ev. induction ev as [|[src lv m] ev IH]; [reflexivity|]. destruct src; cbn [filter by_program ev_source].
  - exact IH.
  - cbn [filter]. now rewrite IH.
Qed.

Lemma replaced_upd f p n : replaced f p n (upd f p n).
Proof. split; [apply upd_same|]. intros q Hq. now rewrite upd_other by congruence. Qed.
Lemma e_C86_example :
  let f := fun a => files [(bs "A", a); (bs "P", saved diff_ab); (bs "Q", saved diff_panic); (bs "N", saved diff_add)] in
  fault_free (calm_env true) /\ f (bs "x y ") (e_tmp (calm_env true)) = None /\
  (exists g, patch_run (calm_env true) (f (bs "x y ")) (bs "P") false [Event Program Info (PatchDone (Some (Stats 1 0 0 0 0)))] 0 g /\
             g (bs "A") = Some (File rw (bs "x z w "))) /\
  (exists g, patch_run (calm_env true) (f (bs "BAA")) (bs "Q") false [] 101 g) /\
  (exists g, patch_run (calm_env true) (f [xff]) (bs "P") false [Event Program Error (ReadingFailed (bs "A"))] 1 g) /\
  (exists g, patch_run (calm_env true) (f []) (bs "N") false [Event Program Error (CreationFailed (bs "A"))] 0 g) /\
  (exists g, patch_run (calm_env true) (f []) (bs "N") true [Event Program Info (Deleted (bs "A"))] 0 g /\ g (bs "A") = None) /\
  (exists g, patch_run (calm_env true) (f []) (bs "A") false [Event Program Error BadPatch] 1 g).
Proof.
  cbn zeta. set (f := fun a => files _).
  assert (HP : forall a, holds_diff (f a) (bs "P") diff_ab) by (intros a; exists (saved diff_ab); split; vr).
  assert (HQ : forall a, holds_diff (f a) (bs "Q") diff_panic) by (intros a; exists (saved diff_panic); split; vr).
  assert (HN : forall a, holds_diff (f a) (bs "N") diff_add) by (intros a; exists (saved diff_add); split; vr).
  assert (SF : forall g, same_files g g) by (intros g p; reflexivity).
  split; [intros n; reflexivity|]. split; [vr|]. split; [|split; [|split; [|split; [|split]]]].
  - eexists. split.
    + eapply run_changed; [apply HP|vr| |apply replaced_upd]. eapply to_text; [now apply utf8_valid_spec|apply split_lines_lines_of|vr].
    + vr.
  - eexists. eapply run_panic; [apply HQ|vr| |apply SF]. eapply to_bytes_panic. run.
  - eexists. refine (run_not_text _ _ _ _ (TextDiff _ _ _) _ _ (HP _) _ _ (SF _)); [vr|]. intros H%utf8_valid_spec. discriminate H.
  - eexists. eapply (run_not_created _ _ _ _ diff_add); [apply HN|split; reflexivity|discriminate|apply SF].
  - eexists. split; [eapply (run_deleted _ _ _ _ diff_add); [apply HN|reflexivity|vr|apply replaced_upd]|vr].
  - eexists. eapply run_bad_patch; [vr| |apply SF]. intros d (s & H1 & H2). vm_compute in H1. injection H1 as <-. vm_compute in H2. discriminate H2.
Qed.

(* ------------------------------------------------------------------ C87 *)
Lemma text_cases f p : (exists ls, text_of f p ls) \/ ~ exists ls, text_of f p ls.
Proof.
  destruct (text_result f p) as [ls|] eqn:E.
  - left. exists ls. apply text_content in E as (c & H1 & H2 & ->). exists c. split; [assumption|]. split; [assumption|]. apply split_lines_lines_of.
  - right. intros (ls & c & H1 & H2 & H3). unfold text_result in E. rewrite H1 in E. apply utf8_valid_spec in H2. now rewrite H2 in E.
Qed.
Lemma text_unique f p ls ls' : text_of f p ls -> text_of f p ls' -> ls = ls'.
Proof. intros (c & H1 & _ & H2) (c' & H3 & _ & H4). apply lines_of_unique in H2, H4. congruence. Qed.
Lemma text_result_of f p ls : text_result f p = Some ls -> text_of f p ls.
Proof. intros E. apply text_content in E as (c & H1 & H2 & ->). exists c. split; [assumption|]. split; [assumption|]. apply split_lines_lines_of. Qed.
Lemma no_text_result f p : text_result f p = None -> ~ exists ls, text_of f p ls.
Proof. intros E (ls & c & H1 & H2 & H3). unfold text_result in E. rewrite H1 in E. apply utf8_valid_spec in H2. now rewrite H2 in E. Qed.
Lemma text_result_content f p ls : text_result f p = Some ls -> content f p <> None.
Proof. unfold text_result. destruct (content f p); discriminate. Qed.
Lemma diff_result_some f before after context d : diff_result f before after context (Some d) -> describes f before after context d /\ right_kind f before after d.
Proof.
  unfold diff_result. destruct (f before) as [nb|] eqn:Eb; destruct (f after) as [na|] eqn:Ea.
  - destruct (text_result f before) as [lb|] eqn:Tb; [destruct (text_result f after) as [la|] eqn:Ta|].
    + intros (cl & H & [= ->]). split; [|exact I]. split; [reflexivity|]. split; [reflexivity|]. exists lb, la. split; [now apply text_result_of|]. split; [now apply text_result_of|assumption].
    + destruct (content f before) as [cb|] eqn:Cb; [|now apply text_result_content in Tb]. destruct (content f after) as [ca|] eqn:Ca; [|discriminate].
      intros (cl & H & [= ->]). split.
      * split; [reflexivity|]. split; [reflexivity|]. split; [reflexivity|]. exists cb, ca. auto.
      * intros [_ K]. exact (no_text_result _ _ Ta K).
    + destruct (content f before) as [cb|] eqn:Cb; [|discriminate]. destruct (content f after) as [ca|] eqn:Ca; [|discriminate].
      intros (cl & H & [= ->]). split.
      * split; [reflexivity|]. split; [reflexivity|]. split; [reflexivity|]. exists cb, ca. auto.
      * intros [K _]. exact (no_text_result _ _ Tb K).
  - destruct (text_result f before) as [lb|] eqn:Tb; [|destruct (content f before) as [cb|] eqn:Cb]; intros [= ->].
    + split; [split; [reflexivity|now apply text_result_of]|]. intros K. now apply K.
    + split; [split; [reflexivity|split; [reflexivity|assumption]]|]. split; [intros K; now apply K|now apply no_text_result].
  - destruct (text_result f after) as [lb|] eqn:Tb; [|destruct (content f after) as [cb|] eqn:Cb]; intros [= ->].
    + split; [split; [reflexivity|now apply text_result_of]|]. intros K. now apply K.
    + split; [split; [reflexivity|split; [reflexivity|assumption]]|]. split; [intros K; now apply K|now apply no_text_result].
  - discriminate.
Qed.
Lemma diff_result_none f before after context : diff_result f before after context None ->
  (~ present f before /\ ~ present f after) \/ (present f before /\ content f before = None) \/ (present f after /\ content f after = None).
Proof.
  unfold diff_result, present. destruct (f before) as [nb|] eqn:Eb; destruct (f after) as [na|] eqn:Ea.
  - destruct (content f before) as [cb|] eqn:Cb; [|right; left; split; congruence]. destruct (content f after) as [ca|] eqn:Ca; [|right; right; split; congruence].
    destruct (text_result f before); [destruct (text_result f after)|]; intros (cl & _ & K); discriminate.
  - destruct (content f before) as [cb|] eqn:Cb; [|right; left; split; congruence]. destruct (text_result f before); discriminate.
  - destruct (content f after) as [cb|] eqn:Cb; [|right; right; split; congruence]. destruct (text_result f after); discriminate.
  - left. split; intros K; now apply K.
Qed.
Lemma flat_escape s : flat_map escape_byte s = spell s.
Proof. unfold spell. induction s as [|b s IH]; cbn; [reflexivity|]. now rewrite IH, spell_escape. Qed.
Lemma bad_output d : ~ Forall is_utf8 (diff_paths d) -> exists out, diff_to_json d = (out, false) /\ cut_short d out.
Proof.
  intros Hp. destruct d as [[b a cl]|[p l]|[p l]|[b a c cl]|[p c l]|[p c l]]; cbn [diff_paths td_before td_after bd_before bd_after pl_path pb_path] in Hp.
  all: try (assert (Hb : ~ is_utf8 p) by (intros H; apply Hp; auto); pose proof (not_utf8 _ Hb) as Hv; eexists; split;
    [unfold diff_to_json; cbn -[map]; rewrite Hv; cbn; reflexivity|exists [], (chars "path"), p, []; repeat split; [apply Forall_nil|assumption]]).
  all: destruct (path_cases b) as [Hb|Hb].
  1,3: assert (Ha : ~ is_utf8 a) by (intros H; apply Hp; auto); pose proof (not_utf8 _ Ha) as Hv; pose proof (proj2 (utf8_valid_spec b) Hb) as Hw; eexists; split;
    [unfold diff_to_json; cbn -[map print_str]; rewrite Hw; cbn -[map print_str]; rewrite Hv; cbn -[print_str]; reflexivity
    |exists [(chars "before_path", b)], (chars "after_path"), a, []; split; [reflexivity|]; split; [apply Forall_cons; [exact Hb|apply Forall_nil]|]; split; [assumption|]].
  3,4: pose proof (not_utf8 _ Hb) as Hv; eexists; split;
    [unfold diff_to_json; cbn -[map]; rewrite Hv; cbn; reflexivity|eexists [], (chars "before_path"), b, _; repeat split; [apply Forall_nil|assumption]].
  all: cbn -[spell]; rewrite flat_escape; unfold quoted; repeat (rewrite <- ?app_assoc; cbn [app]); reflexivity.
Qed.
(* C87: what the diff tool says, the status it ends with and what it writes, completely, when
   nothing outside of it fails; it changes no file. *)
Lemma p_C87_run : forall E f before after context, fault_free E -> e_stdout E = None -> context <= 255 -> fits_file f before -> fits_file f after ->
  exists ev o w code, diff_main_logged E before after context (start f) = (ev, (o, w)) /\ status o = Some code /\ w_fs w = f /\
    diff_run f before after context ev code (w_stdout w).
Proof.
  intros E f before after context FF So Hc Fb Fa. unfold diff_main_logged, lpbind, silent.
  destruct (ff_diff E FF before after context f Hc (start f) eq_refl) as (r & Hr & Hk).
  pose proof (quiet_diff_new E before after context (start f)) as Hq.
  destruct (diff_new E before after context (start f)) as [o1 w1]. cbn [fst snd] in *. subst o1. destruct Hq as (Q1 & Q2 & Q3). cbn in Q1, Q2, Q3.
  destruct r as [d|].
  - apply diff_result_some in Hk as [Hd Hk].
    destruct (Forall_dec is_utf8 path_cases (diff_paths d)) as [Hp|Hp].
    + assert (V : valid_diff d) by (split; [exact Hp|exact (generated_content f before after context d Hc Fb Fa Hd)]). destruct (saved_form d V) as (j & J1 & J2 & _).
      rewrite J2, So. cbn. do 4 eexists. split; [reflexivity|]. split; [reflexivity|]. cbn. split; [assumption|]. rewrite Q3. cbn. eapply run_diff; eauto.
    + destruct (bad_output d Hp) as (out & J1 & J2). rewrite J1, So. cbn. do 4 eexists. split; [reflexivity|]. split; [reflexivity|]. cbn. split; [assumption|]. rewrite Q3. cbn. eapply run_bad_path; eauto.
  - apply diff_result_none in Hk. cbn. do 4 eexists. split; [reflexivity|]. split; [reflexivity|]. split; [assumption|]. rewrite Q3. now apply run_no_diff.
Qed.
(* Nothing is left open by this description. *)
Lemma content_present f p c : content f p = Some c -> present f p.
Proof. unfold content, present. destruct (f p); discriminate. Qed.
Lemma text_present f p ls : text_of f p ls -> present f p.
Proof. intros (c & H & _). now apply content_present in H. Qed.
Lemma describes_unique f before after context d d' : describes f before after context d -> right_kind f before after d ->
  describes f before after context d' -> right_kind f before after d' -> d = d'.
Proof.
  assert (TP : forall p ls, text_of f p ls -> present f p) by apply text_present.
  assert (CP : forall p c, content f p = Some c -> present f p) by apply content_present.
  intros D K D' K'. destruct d as [[b a cl]|[p l]|[p l]|[b a c cl]|[p c l]|[p c l]]; destruct d' as [[b' a' cl']|[p' l']|[p' l']|[b' a' c' cl']|[p' c' l']|[p' c' l']]; cbn in *.
  all: repeat match goal with H : _ /\ _ |- _ => destruct H | H : exists _, _ |- _ => destruct H end; subst.
  all: repeat match goal with
    | A : text_of ?f ?p ?x, B : text_of ?f ?p ?y |- _ => first [constr_eq x y; fail 1 | pose proof (text_unique f p x y A B); subst y]; clear B
    | A : content ?f ?p = Some ?x, B : content ?f ?p = Some ?y |- _ => rewrite A in B; injection B as <-
    | A : ?x = Ok ?u, B : ?x = Ok ?v |- _ => rewrite A in B; injection B as <-
    end.
  all: try reflexivity.
  all: exfalso; intuition eauto.
Qed.
Lemma good_cut d out : Forall is_utf8 (diff_paths d) -> cut_short d out -> False.
Proof.
  intros H (good & name & bad & rest & E & _ & Hb & _). apply Hb. assert (Hf : diff_paths d = map snd (path_fields d)) by (now destruct d).
  rewrite Hf, E, map_app, Forall_app in H. destruct H as [_ H]. now inversion H.
Qed.
Lemma cut_unique d out out' : cut_short d out -> cut_short d out' -> out = out'.
Proof.
  intros (g & n & b & r & E & G & B & ->) (g' & n' & b' & r' & E' & G' & B' & ->). rewrite E in E'. clear E.
  assert (Q : g = g' /\ n = n').
  { revert g' G' E'. induction G as [|x g Hx _ IH]; intros g' G' E'; destruct G' as [|x' g' Hx' G']; cbn [app] in E'.
    - now injection E' as <- _ _.
    - injection E' as <- _. destruct (B Hx').
    - injection E' as -> _. destruct (B' Hx).
    - injection E' as <- E'. destruct (IH g' G' E') as [-> ->]. auto. }
  destruct Q as [-> ->]. reflexivity.
Qed.
Lemma no_diff_described f before after context d :
  (~ present f before /\ ~ present f after) \/ (present f before /\ content f before = None) \/ (present f after /\ content f after = None) ->
  describes f before after context d -> right_kind f before after d -> False.
Proof.
  assert (TP : forall p ls, text_of f p ls -> present f p /\ content f p <> None) by (intros p ls H; split; [now apply text_present in H|destruct H as (c & H & _); congruence]).
  assert (CP : forall p c, content f p = Some c -> present f p /\ content f p <> None) by (intros p c H; split; [now apply content_present in H|congruence]).
  intros H D K. destruct d; cbn in *; repeat match goal with H : _ /\ _ |- _ => destruct H | H : exists _, _ |- _ => destruct H end.
  all: repeat match goal with A : text_of _ _ _ |- _ => apply TP in A | A : content _ _ = Some _ |- _ => apply CP in A end; tauto.
Qed.
Lemma p_C87_determined : forall f before after context said code out said' code' out',
  diff_run f before after context said code out -> diff_run f before after context said' code' out' ->
  said' = said /\ code' = code /\ out' = out.
Proof.
  intros f before after context said code out said' code' out' H1 H2.
  destruct H1; inversion H2; subst; try (exfalso; eapply no_diff_described; eassumption); auto.
  all: match goal with A : describes _ _ _ _ ?d, B : right_kind _ _ _ ?d, C : describes _ _ _ _ ?d', D : right_kind _ _ _ ?d' |- _ =>
    first [constr_eq d d'; fail 1 | assert (Q : d = d') by (eapply describes_unique; eassumption); subst d'] end.
  - repeat split. f_equal. eapply saved_json_single; eassumption.
  - exfalso. eapply good_cut; eassumption.
  - exfalso. eapply good_cut; eassumption.
  - repeat split. eapply cut_unique; eassumption.
Qed.
Lemma e_C87_example :
  let f := files [(bs "A", bs "x y "); (bs "B", bs "x z w "); ([xff], [xff])] in
  e_stdout (calm_env true) = None /\ fits_file f (bs "A") /\
  diff_run f (bs "A") (bs "B") 1 [] 0 (saved diff_ab) /\
  diff_run f (bs "A") [xff] 1 [Event Program Error WritingDiffFailed] 5 (str "{
  ""ByteChange"": {
    ""before_path"": ""A"",
    ""after_path"": ") /\
  diff_run f (bs "C") (bs "D") 1 [Event Program Error DiffFailed] 1 [].
Proof.
  assert (P2 : forall A B C (z : A * (B * C)) a b c, z = (a, (b, c)) -> fst z = a /\ fst (snd z) = b /\ snd (snd z) = c) by (intros; subst; auto).
  cbn zeta. set (f := files _).
  assert (FA : fits_file f (bs "A")).
  { intros c H. vm_compute in H. injection H as <-. split; [vm_compute; reflexivity|]. intros ls H. apply lines_of_unique in H. subst ls. vm_compute. split; reflexivity. }
  assert (FB : fits_file f (bs "B")).
  { intros c H. vm_compute in H. injection H as <-. split; [vm_compute; reflexivity|]. intros ls H. apply lines_of_unique in H. subst ls. vm_compute. split; reflexivity. }
  assert (FX : fits_file f [xff]).
  { intros c H. vm_compute in H. injection H as <-. split; [vm_compute; reflexivity|]. intros ls H. apply lines_of_unique in H. subst ls. vm_compute. split; reflexivity. }
  split; [reflexivity|]. split; [exact FA|]. split; [|split].
  - destruct (p_C87_run (calm_env true) f (bs "A") (bs "B") 1 (fun _ => eq_refl) eq_refl ltac:(lia) FA FB) as (ev & o & w & code & H1 & H2 & _ & H3).
    apply P2 in H1 as (<- & <- & <-). apply (f_equal (fun x => match x with Some c => c | None => 0 end)) in H2. subst code. exact H3.
  - destruct (p_C87_run (calm_env true) f (bs "A") [xff] 1 (fun _ => eq_refl) eq_refl ltac:(lia) FA FX) as (ev & o & w & code & H1 & H2 & _ & H3).
    apply P2 in H1 as (<- & <- & <-). apply (f_equal (fun x => match x with Some c => c | None => 0 end)) in H2. subst code. exact H3.
  - apply run_no_diff. left. split; intros H; now apply H.
Qed.

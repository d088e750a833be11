(* Proof_Props_Files.v - the property lemmas on the two programs. *)
From Coq Require Import String.
From Verif Require Import Base Model_Seq Model_Changes Model_IO Model_Text Model_Bytes Model_Json Model_Files Spec Spec_Files Cases Proof_Arith Proof_Seq Proof_Utf8 Proof_Json Proof_IO Proof_Text Proof_Bytes Proof_Diff Proof_Term Proof_Files Proof_Props_Gen Proof_Props_Text Proof_Props_Bytes.

(* ---------------- concrete situations ---------------- *)
Definition rw : N := 420.  (* rw-r--r-- *)
Definition rwx : N := 493. (* rwxr-xr-x *)
Definition files (l : list (path * list byte)) : fs := fun p =>
  match find (fun x => path_eqb (fst x) p) l with Some (_, d) => Some (File rw d) | None => None end.
Definition calm_env (dbg : bool) : env := Env dbg (bs "T") rw (fun _ => NoFault) None.
(* operation number k gets the given fault *)
Definition faulty_env (k : nat) (x : fault) : env := Env true (bs "T") rw (fun n => if n =? k then x else NoFault) None.
(* a saved diff that turns A into B, one that adds B, and one with a clump that does not fit *)
Definition diff_ab : diff := TextChange (TextDiff (bs "A") (bs "B") [TextClump (1, 0)%Z (Snippet 0 (L "x y ")) (Snippet 0 (L "x z w "))]).
Definition diff_add : diff := TextAdd (PathAndLines (bs "A") (L "x y ")).
Definition diff_bad : diff := TextChange (TextDiff (bs "A") (bs "B") [TextClump (0, 0)%Z (Snippet 0 (L "no no ")) (Snippet 0 (L "q "))]).
(* applying it to data that has it already panics *)
Definition diff_panic : diff := ByteChange (ByteDiff (bs "A") (bs "B") false [ByteClump (0, 1)%Z (Snippet 0 (bs "A")) (Snippet 0 (bs "BA")); ByteClump (1, 0)%Z (Snippet 1 (bs "AA")) (Snippet 2 (bs "A"))]).
Definition saved (d : diff) : list byte := fst (diff_to_json d).

(* ---------------- auxiliary ---------------- *)
Lemma pair_of {A B} (x : A * B) a : fst x = a -> x = (a, snd x).
Proof. destruct x. now intros <-. Qed.
Ltac vr := vm_compute; reflexivity.
Ltac run := apply pair_of; vr.
Lemma bytes_dec (x y : list byte) : {x = y} + {x <> y}.
Proof. apply path_dec. Qed.
Lemma change_not_create d reverse c : is_change d -> creates d reverse c -> False.
Proof. destruct d; cbn; tauto. Qed.
Lemma change_not_remove d reverse : is_change d -> removes d reverse -> False.
Proof. destruct d; cbn; tauto. Qed.
Lemma create_not_remove d reverse c : creates d reverse c -> removes d reverse -> False.
Proof. destruct d; cbn; intros H1 H2; try tauto; destruct H1; congruence. Qed.
Lemma creates_unique d reverse c c' : creates d reverse c -> creates d reverse c' -> c = c'.
Proof. destruct d; cbn; try tauto; intros [_ ->] [_ ->]; reflexivity. Qed.
(* the run of the patch tool when the patch file holds d *)
Lemma run_of E patch reverse f o w d : patch_main E patch reverse (start f) = (o, w) -> holds_diff f patch d ->
  exists states, w_seen w = f :: states /\ w_fs w = last states f /\ ((o = Exit 1 /\ states = []) \/ courses E d reverse f o states).
Proof.
  intros H Hd. apply patch_main_inv in H as (states & H1 & H2 & _ & H). exists states. split; [assumption|]. split; [assumption|].
  destruct H as [H|(d' & Hd' & H)]; [auto|]. rewrite (holds_diff_unique _ _ _ _ Hd Hd'). auto.
Qed.
Lemma last_in {A} (l : list A) x : In (last l x) (x :: l).
Proof. destruct l as [|y l _] using rev_ind; [now left|]. rewrite last_last. right. apply in_or_app. right. now left. Qed.
Lemma in_prefixes p m d out f g : In g (prefixes p m d out f) -> exists k, g = upd f p (Some (File m (d ++ firstn k out))).
Proof. unfold prefixes. intros H. apply in_map_iff in H as (k & <- & _). eauto. Qed.
Lemma target_not_tmp E f p c : content f p = Some c -> f (e_tmp E) = None -> p <> e_tmp E.
Proof. intros Hc Ht ->. unfold content in Hc. rewrite Ht in Hc. discriminate. Qed.

(* ------------------------------------------------------------------ C37 *)
(* C37: without faults the kind of diff follows from the existence, readability and UTF-8
   validity of the two files. *)
Lemma p_C37_kind : forall E f before after context, fault_free E -> context <= 255 ->
  exists r w, diff_new E before after context (start f) = (Val r, w) /\ w_seen w = [f] /\
  (forall lb la, text_of f before lb -> text_of f after la ->
     exists cl, text_diff_clumps lb la context = Ok cl /\ r = Some (TextChange (TextDiff before after cl))) /\
  (forall cb ca, content f before = Some cb -> content f after = Some ca -> ~ (is_utf8 cb /\ is_utf8 ca) ->
     exists cl, byte_diff_clumps cb ca context = Ok cl /\ r = Some (ByteChange (ByteDiff before after false cl))) /\
  (forall lb, text_of f before lb -> ~ present f after -> r = Some (TextRemove (PathAndLines before lb))) /\
  (forall cb, content f before = Some cb -> ~ is_utf8 cb -> ~ present f after -> r = Some (ByteRemove (PathAndBytes before false cb))) /\
  (forall la, ~ present f before -> text_of f after la -> r = Some (TextAdd (PathAndLines before la))) /\
  (forall ca, ~ present f before -> content f after = Some ca -> ~ is_utf8 ca -> r = Some (ByteAdd (PathAndBytes before false ca))) /\
  (~ present f before -> ~ present f after -> r = None) /\
  (present f before -> content f before = None -> r = None) /\
  (present f after -> content f after = None -> r = None).
Proof.
  intros E f b a context FF Hc. destruct (ff_diff E FF b a context f Hc (start f) eq_refl) as (r & Er & Hr).
  pose proof (quiet_diff_new E b a context (start f)) as (_ & Q & _). destruct (diff_new E b a context (start f)) as [o w]. cbn in Er, Q. subst o.
  exists r, w. split; [reflexivity|]. split; [exact Q|]. unfold diff_result in Hr.
  assert (T : forall p ls, text_of f p ls -> text_result f p = Some ls /\ f p <> None).
  { intros p ls (c & Hcc & Hu & Hl). unfold text_result. rewrite Hcc. apply utf8_valid_spec in Hu. rewrite Hu, <- (lines_of_split _ _ Hl). split; [reflexivity|]. unfold content in Hcc. destruct (f p); discriminate. }
  assert (B : forall p c, content f p = Some c -> ~ is_utf8 c -> text_result f p = None).
  { intros p c Hcc Hu. unfold text_result. rewrite Hcc. destruct (utf8_valid c) eqn:Eu; [|reflexivity]. apply utf8_valid_spec in Eu. contradiction. }
  assert (U : forall p c, content f p = Some c -> f p <> None).
  { intros p c. unfold content. destruct (f p); [|discriminate]. discriminate. }
  assert (N : forall p, content f p = None -> text_result f p = None) by (intros p Hp; unfold text_result; now rewrite Hp).
  unfold present. repeat split.
  - intros lb la H1 H2. destruct (T _ _ H1) as [T1 P1], (T _ _ H2) as [T2 P2]. destruct (f b), (f a); try congruence. now rewrite T1, T2 in Hr.
  - intros cb ca H1 H2 Hu. pose proof (U _ _ H1). pose proof (U _ _ H2). destruct (f b), (f a); try congruence. rewrite H1, H2 in Hr.
    destruct (utf8_valid cb) eqn:Eb.
    + assert (T2 : text_result f a = None) by (apply (B _ ca); [assumption|]; intros Hx; apply Hu; split; [now apply utf8_valid_spec|assumption]).
      rewrite T2 in Hr. destruct (text_result f b); exact Hr.
    + assert (T1 : text_result f b = None) by (unfold text_result; now rewrite H1, Eb). now rewrite T1 in Hr.
  - intros lb H1 H2. destruct (T _ _ H1) as [T1 P1]. destruct (f b), (f a); try congruence; try (exfalso; apply H2; discriminate). now rewrite T1 in Hr.
  - intros cb H1 Hu H2. pose proof (U _ _ H1). destruct (f b), (f a); try congruence; try (exfalso; apply H2; discriminate). now rewrite (B _ _ H1 Hu), H1 in Hr.
  - intros la H1 H2. destruct (T _ _ H2) as [T1 P1]. destruct (f b), (f a); try congruence; try (exfalso; apply H1; discriminate). now rewrite T1 in Hr.
  - intros ca H1 H2 Hu. pose proof (U _ _ H2). destruct (f b), (f a); try congruence; try (exfalso; apply H1; discriminate). now rewrite (B _ _ H2 Hu), H2 in Hr.
  - intros H1 H2. destruct (f b), (f a); try (exfalso; apply H1; discriminate); try (exfalso; apply H2; discriminate). exact Hr.
  - intros H1 H2. rewrite (N _ H2), H2 in Hr. destruct (f b), (f a); try congruence; exact Hr.
  - intros H1 H2. rewrite (N _ H2), H2 in Hr. destruct (f b), (f a); try congruence; try exact Hr. destruct (text_result f b), (content f b); exact Hr.
Qed.
Lemma e_C37_example :
  let f := files [(bs "A", bs "x y "); (bs "B", [xff]); (bs "C", bs "x z ")] in
  (exists cl w, diff_new (calm_env true) (bs "A") (bs "C") 2 (start f) = (Val (Some (TextChange (TextDiff (bs "A") (bs "C") cl))), w) /\ length cl = 1) /\
  (exists cl w, diff_new (calm_env true) (bs "A") (bs "B") 2 (start f) = (Val (Some (ByteChange (ByteDiff (bs "A") (bs "B") false cl))), w) /\ length cl = 1) /\
  (exists w, diff_new (calm_env true) (bs "A") (bs "D") 2 (start f) = (Val (Some (TextRemove (PathAndLines (bs "A") (L "x y ")))), w)) /\
  (exists w, diff_new (calm_env true) (bs "D") (bs "B") 2 (start f) = (Val (Some (ByteAdd (PathAndBytes (bs "D") false [xff]))), w)) /\
  (exists w, diff_new (calm_env true) (bs "D") (bs "E") 2 (start f) = (Val None, w)).
Proof.
  repeat split; [do 2 eexists; split; [run|reflexivity]|do 2 eexists; split; [run|reflexivity]|..]; eexists; run.
Qed.

(* ------------------------------------------------------------------ C64 *)
(* C64, full statement: a diff is only reported as an addition or a removal if one of the
   files does not exist.  It is false: a failing existence check (Path::exists answers false,
   say for lack of permission) is taken for absence, and the diff removes the file. *)
Lemma p_C64_absence_refuted : exists E f before after context d w, diff_new E before after context (start f) = (Val (Some d), w) /\
  content f before <> None /\ content f after <> None /\ removes d false.
Proof.
  exists (faulty_env 1 Fail), (files [(bs "A", bs "x "); (bs "B", bs "y ")]), (bs "A"), (bs "B"), 2.
  do 2 eexists. split; [run|]. vm_compute. repeat split; discriminate.
Qed.
(* What does hold, whatever fails: if there is a diff, what it records is the actual content
   of the files; and no file is changed.  Missing: that the other file is absent. *)
Lemma p_C64_recorded_content_partial : forall E f before after context, context <= 255 ->
  exists r w, diff_new E before after context (start f) = (Val r, w) /\ w_seen w = [f] /\
    forall d, r = Some d -> describes f before after context d.
Proof.
  intros E f b a context Hc. destruct (answers_diff E b a context f Hc (start f) eq_refl) as (r & Er & Hr).
  pose proof (quiet_diff_new E b a context (start f)) as (_ & Q & _). destruct (diff_new E b a context (start f)) as [o w]. cbn in Er, Q. subst o. eauto.
Qed.
Lemma e_C64_example : let f := files [(bs "A", bs "x "); (bs "B", bs "y ")] in
  exists w, diff_new (faulty_env 3 Fail) (bs "A") (bs "B") 2 (start f) =
    (Val (Some (ByteChange (ByteDiff (bs "A") (bs "B") false [ByteClump (0, 1)%Z (Snippet 0 (bs "x ")) (Snippet 0 (bs "y "))]))), w).
Proof. eexists. run. Qed.

(* ------------------------------------------------------------------ C63 *)
(* C63: the diff tool changes no file, whatever happens. *)
Lemma p_C63_diff_reads_only : forall E f before after context o w, context <= 255 ->
  diff_main E before after context (start f) = (o, w) -> w_seen w = [f] /\ w_fs w = f.
Proof. intros E f b a context o w Hc H. apply diff_main_inv in H as (H1 & H2 & _); auto. Qed.
Lemma e_C63_example : let f := files [(bs "A", bs "x y "); (bs "B", bs "x z w ")] in
  exists w, diff_main (calm_env true) (bs "A") (bs "B") 1 (start f) = (Val tt, w) /\ w_stdout w = saved diff_ab /\ w_seen w = [f].
Proof. eexists. split; [run|]. split; vr. Qed.

(* ------------------------------------------------------------------ C62 *)
(* C62, full statement: if the diff tool ends with status 0, its whole output has been
   written.  It is false: what follows the last newline, the closing brace, is written when
   the process ends, where an error (a full disk) goes unnoticed. *)
Lemma p_C62_output_complete_refuted : exists E f before after context w, fault_free E /\
  diff_main E before after context (start f) = (Val tt, w) /\ diff_from_json (w_stdout w) = Ok None.
Proof.
  exists (Env true (bs "T") rw (fun _ => NoFault) (Some (length (saved diff_ab) - 1))), (files [(bs "A", bs "x y "); (bs "B", bs "x z w ")]), (bs "A"), (bs "B"), 1.
  eexists. split; [intros n; reflexivity|]. split; [run|vr].
Qed.
(* What does hold: with status 0 at most the last byte is missing, and then the patch tool
   rejects the output; with any other status there is no output at all, or a path that is not
   valid UTF-8, or an incomplete output.  Missing: noticing the missing byte. *)
Lemma p_C62_output_complete_partial : forall E f before after context o w, context <= 255 -> is_utf8 before -> is_utf8 after ->
  fits_file f before -> fits_file f after -> diff_main E before after context (start f) = (o, w) ->
  (o = Val tt /\ exists d, describes f before after context d /\
     (diff_from_json (w_stdout w) = Ok (Some d) \/
      (diff_from_json (w_stdout w) = Ok None /\ diff_from_json (w_stdout w ++ [x7d]) = Ok (Some d)))) \/
  (o = Exit 1 /\ w_stdout w = []) \/
  (o = Exit 5 /\ diff_from_json (w_stdout w) = Ok None).
Proof.
  intros E f b a context o w Hc Ub Ua Fb Fa H. apply diff_main_inv in H as (_ & _ & H); [|assumption].
  destruct H as [H|(d & Hd & Hw & H)]; [auto|]. pose proof (generated_valid _ _ _ _ _ Hc Ub Ua Fb Fa Hd) as Hv.
  pose proof (diff_round_trip d Hv) as Hr. destruct H as [(-> & H)|(-> & Hs & H)].
  - right. right. split; [reflexivity|]. rewrite (diff_to_json_ok d Hv) in H. destruct H as [H|H]; [discriminate|].
    unfold delivered in Hw. destruct (e_stdout E) as [n|]; [|contradiction]. rewrite Hw in H |- *.
    apply (diff_prefix_rejected d _ (skipn n (fst (diff_to_json d))) Hv); [symmetry; apply firstn_skipn|]. intros Hn.
    apply H. rewrite <- (firstn_skipn n (fst (diff_to_json d))) at 2. rewrite Hn. now rewrite app_nil_r.
  - left. split; [reflexivity|]. exists d. split; [assumption|]. destruct H as [H|H].
    + left. now rewrite H.
    + right. rewrite <- H. split; [|exact Hr]. apply (diff_prefix_rejected d _ [x7d] Hv H). discriminate.
Qed.
Lemma e_C62_example :
  let f := files [(bs "A", bs "x y "); (bs "B", bs "x z w ")] in
  (exists w, diff_main (Env true (bs "T") rw (fun _ => NoFault) (Some 20)) (bs "A") (bs "B") 1 (start f) = (Exit 5, w) /\ length (w_stdout w) = 20) /\
  (exists w, diff_main (calm_env false) (bs "A") (bs "B") 1 (start f) = (Val tt, w) /\ diff_from_json (w_stdout w) = Ok (Some diff_ab)).
Proof. split; eexists; (split; [run|vr]). Qed.

(* ------------------------------------------------------------------ C39 *)
(* C39: while a change diff is applied, whatever fails and whenever the process is killed, the
   target is as before or holds the complete patched content. *)
Lemma p_C39_all_or_nothing : forall E f patch reverse o w d,
  patch_main E patch reverse (start f) = (o, w) -> holds_diff f patch d -> is_change d ->
  forall g, In g (w_seen w) ->
    g (target d) = f (target d) \/
    exists old new, content f (target d) = Some old /\ patches_to (e_dbg E) reverse d old new /\ g (target d) = Some (File (e_mode E) new).
Proof.
  intros E f patch reverse o w d H Hd Hc g Hg. destruct (run_of _ _ _ _ _ _ _ H Hd) as (states & Hs & _ & Hk). rewrite Hs in Hg.
  destruct Hg as [<-|Hg]; [now left|]. destruct Hk as [(_ & ->)|Hk]; [destruct Hg|].
  assert (A : forall st old, content f (target d) = Some old -> f (e_tmp E) = None -> Forall (aside E f) st -> In g st -> g (target d) = f (target d)).
  { intros st old H1 H2 H3 H4. rewrite Forall_forall in H3. apply (H3 g H4). now apply (target_not_tmp E f _ old). }
  inversion Hk as [|st old|st old|st old|st old new g' H1 H2 H3 H4 H5 H6 Ho Hs'|c Hcr|c n Hcr|m x Hr]; subst; try (now destruct Hg); try (left; eapply A; eassumption).
  - apply in_app_or in Hg as [Hg|[<-|[]]]; [left; eapply A; eassumption|]. right. exists old, new. destruct H6 as (H6 & _). auto.
  - exfalso. eapply change_not_create; eauto.
  - exfalso. eapply change_not_remove; eauto.
Qed.
(* The switch happens in one step, the last one: all states before it are old ones. *)
Lemma p_C39_one_step : forall E f patch reverse o w d,
  patch_main E patch reverse (start f) = (o, w) -> holds_diff f patch d -> is_change d ->
  exists old_states rest, w_seen w = old_states ++ rest /\ (forall g, In g old_states -> g (target d) = f (target d)) /\
    (o = Val tt -> exists g, rest = [g]) /\ (o <> Val tt -> rest = []).
Proof.
  intros E f patch reverse o w d H Hd Hc. destruct (run_of _ _ _ _ _ _ _ H Hd) as (states & Hs & _ & Hk). rewrite Hs.
  destruct Hk as [(-> & ->)|Hk]; [exists [f], []; repeat split; try discriminate; intros g [<-|[]]; reflexivity|].
  assert (A : forall st old, content f (target d) = Some old -> f (e_tmp E) = None -> Forall (aside E f) st -> forall g, In g (f :: st) -> g (target d) = f (target d)).
  { intros st old H1 H2 H3 g [<-|H4]; [reflexivity|]. rewrite Forall_forall in H3. apply (H3 g H4). now apply (target_not_tmp E f _ old). }
  inversion Hk as [|st old|st old|st old|st old new g' H1 H2 H3 H4 H5 H6 Ho Hs'|c Hcr|c n Hcr|m x Hr]; subst;
    try (exists (f :: states), []; rewrite app_nil_r; repeat split; try discriminate; eapply A; eassumption).
  - exists [f], []. repeat split; try discriminate. intros g [<-|[]]; reflexivity.
  - exists (f :: st), [g']. repeat split; [eapply A; eassumption|eauto|intros Hx; now destruct Hx].
  - exfalso. eapply change_not_create; eauto.
  - exfalso. eapply change_not_create; eauto.
  - exfalso. eapply change_not_remove; eauto.
Qed.
(* the disk is full after 3 bytes; and a run to the end *)
Lemma e_C39_example :
  let f := files [(bs "A", bs "x y "); (bs "P", saved diff_ab)] in
  holds_diff f (bs "P") diff_ab /\ is_change diff_ab /\
  (exists w, patch_main (faulty_env 6 (FailAfter 3)) (bs "P") false (start f) = (Exit 1, w) /\
     w_fs w (bs "A") = Some (File rw (bs "x y ")) /\ w_fs w (bs "T") = Some (File rw (bs "x z"))) /\
  (exists w, patch_main (calm_env true) (bs "P") false (start f) = (Val tt, w) /\
     w_fs w (bs "A") = Some (File rw (bs "x z w ")) /\ w_fs w (bs "T") = None /\ 10 <= length (w_seen w)).
Proof.
  split; [exists (saved diff_ab); split; vm_compute; reflexivity|]. split; [exact I|]. split; eexists; (split; [run|]); [split; vr|]. split; [vr|]. split; [vr|]. vm_compute. repeat constructor.
Qed.

(* ------------------------------------------------------------------ C40 *)
(* C40, full statement: if the requested result could not be brought about, the patch tool
   ends with a status other than 0 and leaves the target unchanged.  It is false: clumps that
   do not fit are written into the file as conflicts with status 0, ... *)
Lemma p_C40_failed_clump_refuted : exists E f patch d w st out, fault_free E /\
  patch_main E patch false (start f) = (Val tt, w) /\ holds_diff f patch (TextChange d) /\
  text_apply_into (e_dbg E) (td_clumps d) (L "x y ") false sink = (Done st, Writer out None) /\ st_failed st = 1 /\
  content f (td_before d) = Some (bs "x y ") /\ content (w_fs w) (td_before d) = Some (bs "<<<<<<< no no ======= q >>>>>>> x y ").
Proof.
  exists (calm_env true), (files [(bs "A", bs "x y "); (bs "P", saved diff_bad)]), (bs "P"), (TextDiff (bs "A") (bs "B") [TextClump (0, 0)%Z (Snippet 0 (L "no no ")) (Snippet 0 (L "q "))]).
  do 3 eexists. split; [intros n; reflexivity|]. split; [run|]. split; [exists (saved diff_bad); split; vm_compute; reflexivity|].
  split; [vm_compute; reflexivity|]. vm_compute. repeat split.
Qed.
(* ... a file that exists already is not created, with status 0, ... *)
Lemma p_C40_not_created_refuted : exists E f patch d c w, fault_free E /\
  patch_main E patch false (start f) = (Val tt, w) /\ holds_diff f patch d /\ creates d false c /\ content (w_fs w) (target d) <> Some c.
Proof.
  exists (calm_env true), (files [(bs "A", bs "other "); (bs "P", saved diff_add)]), (bs "P"), diff_add, (bs "x y ").
  eexists. split; [intros n; reflexivity|]. split; [run|]. split; [exists (saved diff_add); split; vm_compute; reflexivity|].
  split; [split; reflexivity|]. vm_compute. discriminate.
Qed.
(* ... and a failing write leaves a truncated new file, with status 0. *)
Lemma p_C40_truncated_refuted : exists E f patch d c w,
  patch_main E patch false (start f) = (Val tt, w) /\ holds_diff f patch d /\ creates d false c /\ f (target d) = None /\
  content (w_fs w) (target d) = Some (bs "x") /\ c = bs "x y ".
Proof.
  exists (faulty_env 3 (FailAfter 1)), (files [(bs "P", saved diff_add)]), (bs "P"), diff_add, (bs "x y ").
  eexists. split; [run|]. split; [exists (saved diff_add); split; vm_compute; reflexivity|].
  split; [split; reflexivity|]. vm_compute. repeat split.
Qed.
(* What does hold: a status other than 0 means that nothing but (possibly) the temporary file
   has changed; *)
Lemma p_C40_failure_unchanged_partial : forall E f patch reverse o w, patch_main E patch reverse (start f) = (o, w) -> o <> Val tt ->
  (forall p, p <> e_tmp E -> w_fs w p = f p) /\ (present f (e_tmp E) -> forall p, w_fs w p = f p) /\
  (o = Exit 1 \/ o = Abort \/ o = Stuck).
Proof.
  intros E f patch reverse o w H Ho. apply patch_main_inv in H as (states & _ & Hf & _ & H). rewrite Hf.
  destruct H as [(-> & ->)|(d & Hd & Hk)]; [cbn; auto|].
  assert (A : forall st, f (e_tmp E) = None -> Forall (aside E f) st -> (forall p, p <> e_tmp E -> last st f p = f p) /\ (present f (e_tmp E) -> forall p, last st f p = f p)).
  { intros st H1 H2. split; [|intros Hp; now elim Hp]. intros p Hp. destruct (last_in st f) as [<-|Hl]; [reflexivity|]. rewrite Forall_forall in H2. now apply (H2 _ Hl). }
  inversion Hk; subst; try congruence;
    try (match goal with H1 : f (e_tmp E) = None, H2 : Forall _ states |- _ => destruct (A _ H1 H2); auto end); cbn; auto.
Qed.
(* status 0 after a change diff means that the complete patched content, with whatever clumps
   fitted, is in place, and the temporary file is gone; *)
Lemma p_C40_success_change_partial : forall E f patch reverse w d, patch_main E patch reverse (start f) = (Val tt, w) ->
  holds_diff f patch d -> is_change d ->
  exists old new, content f (target d) = Some old /\ patches_to (e_dbg E) reverse d old new /\ replaced f (target d) (Some (File (e_mode E) new)) (w_fs w).
Proof.
  intros E f patch reverse w d H Hd Hc. destruct (run_of _ _ _ _ _ _ _ H Hd) as (states & _ & Hf & [(Hx & _)|Hk]); [discriminate|].
  inversion Hk as [| | | |st old new g' H1 H2 H3 H4 H5 H6 Ho Hs'|c Hcr|c n Hcr|m x Hr]; subst; [|exfalso; eapply change_not_create; eauto..|exfalso; eapply change_not_remove; eauto].
  exists old, new. split; [assumption|]. split; [assumption|]. rewrite Hf, last_last. destruct H6 as (H6 & H7 & H8). split; [assumption|].
  intros q Hq. destruct (path_dec q (e_tmp E)) as [->|Hn]; [congruence|auto].
Qed.
(* status 0 after a removal means that the target was there and is gone; *)
Lemma p_C40_success_remove_partial : forall E f patch reverse w d, patch_main E patch reverse (start f) = (Val tt, w) ->
  holds_diff f patch d -> removes d reverse -> present f (target d) /\ replaced f (target d) None (w_fs w).
Proof.
  intros E f patch reverse w d H Hd Hr. destruct (run_of _ _ _ _ _ _ _ H Hd) as (states & _ & Hf & [(Hx & _)|Hk]); [discriminate|].
  inversion Hk as [| | | |st old new g' H1|c Hcr|c n Hcr|m x _ Hx]; subst; [exfalso; eapply change_not_remove; eauto|exfalso; eapply create_not_remove; eauto..|].
  split; [unfold present; congruence|]. rewrite Hf. cbn [last]. split; [apply upd_same|]. intros q Hq. apply upd_other. congruence.
Qed.
(* without faults, a creation succeeds exactly if the target did not exist.
   Missing: reporting clumps that do not fit and files that cannot be created or written. *)
Lemma p_C40_create_partial : forall E f patch reverse o w d c, fault_free E -> patch_main E patch reverse (start f) = (o, w) ->
  holds_diff f patch d -> creates d reverse c -> o = Val tt /\
  (~ present f (target d) -> replaced f (target d) (Some (File (e_mode E) c)) (w_fs w)) /\
  (present f (target d) -> w_fs w = f).
Proof.
  intros E f patch reverse o w d c FF H Hd Hc. split; [|split].
  - destruct Hd as (s & Hs1 & Hs2). destruct (content_inv _ _ _ Hs1) as (m & Hm & Hr).
    unfold patch_main, pbnd, open_read, read_all, op in H. cbn in H. rewrite FF, Hm, Hr in H. cbn in H. rewrite FF, Hm in H. cbn in H. unfold pure in H. rewrite Hs2 in H.
    destruct d; try contradiction; destruct Hc as [-> ->]; cbn in H; unfold patch_create, pbnd, create_new, write_file in H;
      destruct (op E _ _) as [[[]| | |] w1] eqn:E1; try (apply op_inv in E1 as (? & ? & E1 & _); discriminate); try (injection H as <- <-; reflexivity);
      destruct (op E _ w1) as [[?| | |] w2] eqn:E2; try (apply op_inv in E2 as (? & ? & E2 & _); discriminate); injection H as <- <-; reflexivity.
  - intros Hp. assert (Ht : f (target d) = None) by (unfold present in Hp; destruct (f (target d)); [exfalso; apply Hp; discriminate|reflexivity]).
    destruct (ff_create E FF d reverse c f Hc Ht) as (g & Hg & G1 & G2). destruct (ff_patch_main E FF patch reverse f d g Hd Hg) as (w' & E1 & E2).
    rewrite E1 in H. injection H as <- <-. rewrite E2. split; assumption.
  - intros Hp. destruct (run_of _ _ _ _ _ _ _ H Hd) as (states & _ & Hf & [(_ & ->)|Hk]); [exact Hf|].
    inversion Hk as [Hno|st old Hch|st old Hch|st old Hch|st old new g' Hch|c' Hcr|c' n Hcr Ht|m x Hr]; subst;
      [exact Hf|exfalso; eapply change_not_create; eauto..|exact Hf|contradiction|exfalso; eapply create_not_remove; eauto].
Qed.
Lemma e_C40_example :
  let f := files [(bs "A", bs "x y "); (bs "P", saved diff_ab); (bs "Q", saved (TextRemove (PathAndLines (bs "A") (L "x y "))))] in
  (forall k, k < 6 -> exists w, patch_main (faulty_env k Fail) (bs "P") false (start f) = (Exit 1, w) /\ w_fs w (bs "A") = Some (File rw (bs "x y "))) /\
  (exists w, patch_main (calm_env true) (bs "Q") false (start f) = (Val tt, w) /\ w_fs w (bs "A") = None) /\
  (exists w, patch_main (calm_env true) (bs "A") false (start f) = (Exit 1, w)).
Proof.
  split; [|split; eexists; [split; [run|vr]|run]].
  intros k Hk. do 6 (destruct k as [|k]; [eexists; split; [run|vr]|]). lia.
Qed.

(* ------------------------------------------------------------------ C41 *)
(* C41: applying an addition (or a removal in reverse) never modifies a path that exists, at no
   moment and whatever fails. *)
Lemma p_C41_no_overwrite : forall E f patch reverse o w d c, patch_main E patch reverse (start f) = (o, w) ->
  holds_diff f patch d -> creates d reverse c ->
  forall g p, In g (w_seen w) -> present f p -> g p = f p.
Proof.
  intros E f patch reverse o w d c H Hd Hc g p Hg Hp. destruct (run_of _ _ _ _ _ _ _ H Hd) as (states & Hs & _ & Hk). rewrite Hs in Hg.
  destruct Hg as [<-|Hg]; [reflexivity|]. destruct Hk as [(_ & ->)|Hk]; [destruct Hg|].
  inversion Hk as [Hno|st old Hch|st old Hch|st old Hch|st old new g' Hch|c' Hcr|c' n Hcr Ht|m x Hr]; subst; try destruct Hg;
    try (exfalso; eapply change_not_create; now eauto); try (exfalso; eapply create_not_remove; now eauto).
  - subst g. rewrite upd_other; [reflexivity|]. unfold present in Hp. congruence.
  - match goal with H0 : In g _ |- _ => apply in_prefixes in H0 as (k & ->) end.
    assert (target d <> p) by (unfold present in Hp; congruence). now rewrite !upd_other by assumption.
Qed.
Lemma e_C41_example :
  let f := files [(bs "A", bs "other "); (bs "P", saved diff_add)] in
  holds_diff f (bs "P") diff_add /\ creates diff_add false (bs "x y ") /\
  exists w, patch_main (calm_env true) (bs "P") false (start f) = (Val tt, w) /\ w_fs w (bs "A") = Some (File rw (bs "other ")).
Proof. split; [exists (saved diff_add); split; vm_compute; reflexivity|]. split; [split; reflexivity|]. eexists. split; [run|vr]. Qed.

(* ------------------------------------------------------------------ C58 *)
(* C58: at no moment, whatever fails, does the patch tool touch any other file than the target
   of the diff and its temporary file; if the patch file does not hold a diff, nothing at all is
   touched, and the status is 1. *)
Lemma p_C58_only_target : forall E f patch reverse o w, patch_main E patch reverse (start f) = (o, w) ->
  (forall d, holds_diff f patch d -> forall g p, In g (w_seen w) -> p <> target d -> p <> e_tmp E -> g p = f p) /\
  ((forall d, ~ holds_diff f patch d) -> o = Exit 1 /\ w_seen w = [f]).
Proof.
  intros E f patch reverse o w H. split.
  - intros d Hd g p Hg Ht Hp. destruct (run_of _ _ _ _ _ _ _ H Hd) as (states & Hs & _ & Hk). rewrite Hs in Hg.
    destruct Hg as [<-|Hg]; [reflexivity|]. destruct Hk as [(_ & ->)|Hk]; [destruct Hg|].
    assert (A : forall st, Forall (aside E f) st -> In g st -> g p = f p) by (intros st H1 H2; rewrite Forall_forall in H1; now apply (H1 g H2)).
    inversion Hk as [|st old|st old|st old|st old new g' H1 H2 H3 H4 H5 H6 Ho Hs'|c Hcr|c n Hcr|m x Hr]; subst; try (now destruct Hg); try (eapply A; eassumption).
    + apply in_app_or in Hg as [Hg|[<-|[]]]; [eapply A; eassumption|]. now apply H6.
    + destruct Hg as [<-|Hg]; [now rewrite upd_other by congruence|]. apply in_prefixes in Hg as (k & ->). now rewrite !upd_other by congruence.
    + destruct Hg as [<-|[]]. now rewrite upd_other by congruence.
  - intros Hno. apply patch_main_inv in H as (states & H1 & H2 & _ & [(-> & ->)|(d & Hd & _)]); [auto|]. now apply Hno in Hd.
Qed.
Lemma e_C58_example :
  let f := files [(bs "A", bs "x y "); (bs "B", bs "x z w "); (bs "P", saved diff_ab); (bs "Q", bs "no diff")] in
  (exists w, patch_main (calm_env false) (bs "P") false (start f) = (Val tt, w) /\
     forallb (fun g => match g (bs "B") with Some (File _ d) => list_eqb Byte.eqb d (bs "x z w ") | _ => false end) (w_seen w) = true) /\
  (exists w, patch_main (calm_env false) (bs "Q") false (start f) = (Exit 1, w)).
Proof. split; eexists; [split; [run|vr]|run]. Qed.

(* ------------------------------------------------------------------ C59 *)
(* C59, full statement: when the patch tool has ended, its temporary file is gone.  It is false:
   std::process::exit does not run the destructor that removes it. *)
Lemma p_C59_temp_removed_refuted : exists E f patch reverse w, patch_main E patch reverse (start f) = (Exit 1, w) /\
  f (e_tmp E) = None /\ content (w_fs w) (e_tmp E) = Some (bs "x z").
Proof.
  exists (faulty_env 6 (FailAfter 3)), (files [(bs "A", bs "x y "); (bs "P", saved diff_ab)]), (bs "P"), false. eexists. split; [run|]. split; vr.
Qed.
(* What does hold: it is gone after status 0, and when the first operation on it failed; and a
   file that already had its name is never touched by a change.
   Missing: removal when writing or renaming fails. *)
Lemma p_C59_temp_removed_partial : forall E f patch reverse o w d, patch_main E patch reverse (start f) = (o, w) ->
  holds_diff f patch d -> is_change d ->
  (o = Val tt -> f (e_tmp E) = None /\ w_fs w (e_tmp E) = None) /\
  (present f (e_tmp E) -> o = Exit 1 /\ w_seen w = [f]).
Proof.
  intros E f patch reverse o w d H Hd Hc. destruct (run_of _ _ _ _ _ _ _ H Hd) as (states & Hs & Hf & Hk). rewrite Hs, Hf.
  destruct Hk as [(-> & ->)|Hk]; [split; [discriminate|auto]|]. unfold present.
  inversion Hk as [|st old|st old|st old|st old new g' H1 H2 H3 H4 H5 H6 Ho Hs'|c Hcr|c n Hcr|m x Hr]; subst;
    try (split; [discriminate|intros Hp; congruence]).
  - split; [discriminate|auto].
  - rewrite last_last. split; [|intros; congruence]. intros _. split; [assumption|apply H6].
  - exfalso. eapply change_not_create; eauto.
  - exfalso. eapply change_not_create; eauto.
  - exfalso. eapply change_not_remove; eauto.
Qed.
(* a panic while applying does remove it, unless the removal itself fails *)
Lemma p_C59_temp_removed_after_panic_partial : forall E f patch reverse w d, fault_free E -> patch_main E patch reverse (start f) = (Abort, w) ->
  holds_diff f patch d -> w_fs w (e_tmp E) = None.
Proof.
  intros E f patch reverse w d FF H Hd. destruct Hd as (s & Hs1 & Hs2). destruct (content_inv _ _ _ Hs1) as (m & Hm & Hr).
  unfold patch_main in H. apply bnd_inv in H as [(b & w1 & H1 & H)|(o1 & H1 & Ho)].
  2: { apply open_read_inv in H1 as (_ & b & -> & _). contradiction. }
  apply open_read_inv in H1 as (X1 & b' & [= <-] & Hb). destruct b; [|discriminate].
  apply bnd_inv in H as [(r & w2 & H2 & H)|(o1 & H2 & Ho)].
  2: { apply read_all_inv in H2 as (_ & r & -> & _). contradiction. }
  destruct r as [s'|]; [|discriminate]. destruct (load_total s') as [Hx|(d' & Hx & _)]; rewrite Hx in H; cbn in H; [discriminate|].
  change (patch_diff E d' reverse w2 = (Abort, w)) in H.
  assert (K : forall A B t items (ap : A -> io B), (forall x, emitting (ap x)) -> (forall z, items z <> Panic) -> patch_change E t items ap w2 = (Abort, w) -> w_fs w (e_tmp E) = None).
  { intros A B t items ap Hem Hit HK. eapply patch_change_abort; eauto. }
  destruct d' as [d'|p|p|d'|p|p]; cbn [patch_diff] in H.
  - eapply K; [| |exact H]; [intros; apply emitting_text_apply|]. intros z. rewrite read_lines_spec. discriminate.
  - destruct reverse; [apply patch_remove_inv in H as [(H & _)|(? & ? & H & _)]|eapply patch_create_inv in H as [H _]; [|apply emits_write_lines]]; discriminate.
  - destruct reverse; [eapply patch_create_inv in H as [H _]; [|apply emits_write_lines]|apply patch_remove_inv in H as [(H & _)|(? & ? & H & _)]]; discriminate.
  - eapply K; [| |exact H]; [intros; apply emitting_byte_apply|]. discriminate.
  - destruct reverse; [apply patch_remove_inv in H as [(H & _)|(? & ? & H & _)]|eapply patch_create_inv in H as [H _]; [|apply emits_write_all]]; discriminate.
  - destruct reverse; [eapply patch_create_inv in H as [H _]; [|apply emits_write_all]|apply patch_remove_inv in H as [(H & _)|(? & ? & H & _)]]; discriminate.
Qed.
Lemma e_C59_example :
  let f := files [(bs "A", bs "x y "); (bs "P", saved diff_ab)] in
  (exists w, patch_main (calm_env true) (bs "P") false (start f) = (Val tt, w) /\ w_fs w (bs "T") = None) /\
  (let f' := upd f (bs "T") (Some (File rw (bs "mine"))) in
   exists w, patch_main (calm_env true) (bs "P") false (start f') = (Exit 1, w) /\ w_fs w (bs "T") = Some (File rw (bs "mine"))) /\
  (let f' := files [(bs "A", bs "BAA"); (bs "P", saved diff_panic)] in
   exists w, patch_main (calm_env true) (bs "P") false (start f') = (Abort, w) /\ w_fs w (bs "T") = None).
Proof. split; [|split]; eexists; (split; [run|vr]). Qed.

(* ------------------------------------------------------------------ C60 *)
(* C60, full statement: a file is created all or nothing, as it is changed: at every moment it
   is absent or has its whole content.  It is false, even without faults: the file is created
   under its own name and then filled. *)
Lemma p_C60_creation_atomic_refuted : exists E f patch d c w g, fault_free E /\ patch_main E patch false (start f) = (Val tt, w) /\
  holds_diff f patch d /\ creates d false c /\ In g (w_seen w) /\ g (target d) <> None /\ content g (target d) <> Some c.
Proof.
  exists (calm_env true), (files [(bs "P", saved diff_add)]), (bs "P"), diff_add, (bs "x y ").
  do 2 eexists. split; [intros n; reflexivity|]. split; [run|]. split; [exists (saved diff_add); split; vm_compute; reflexivity|].
  split; [split; reflexivity|]. split; [right; left; reflexivity|]. vm_compute. split; discriminate.
Qed.
(* What does hold: at every moment the target is as before or holds a beginning of the content.
   Missing: that it is the whole of it. *)
Lemma p_C60_creation_partial : forall E f patch reverse o w d c, patch_main E patch reverse (start f) = (o, w) ->
  holds_diff f patch d -> creates d reverse c ->
  forall g, In g (w_seen w) -> g (target d) = f (target d) \/
    (f (target d) = None /\ exists x rest, c = x ++ rest /\ g (target d) = Some (File (e_mode E) x)).
Proof.
  intros E f patch reverse o w d c H Hd Hc g Hg. destruct (run_of _ _ _ _ _ _ _ H Hd) as (states & Hs & _ & Hk). rewrite Hs in Hg.
  destruct Hg as [<-|Hg]; [now left|]. destruct Hk as [(_ & ->)|Hk]; [destruct Hg|].
  inversion Hk as [Hno|st old Hch|st old Hch|st old Hch|st old new g' Hch|c' Hcr|c' n Hcr Ht|m x Hr]; subst; try (now destruct Hg);
    try (exfalso; eapply change_not_create; now eauto); try (exfalso; eapply create_not_remove; now eauto).
  assert (c' = c) as -> by (eapply creates_unique; eassumption).
  right. split; [assumption|]. destruct Hg as [<-|Hg].
  - exists [], c. rewrite upd_same. auto.
  - apply in_prefixes in Hg as (k & ->). exists (firstn k (firstn n c)). rewrite upd_same, firstn_firstn. eexists. split; [symmetry; apply firstn_skipn|reflexivity].
Qed.
Lemma e_C60_example :
  let f := files [(bs "P", saved diff_add)] in
  exists w, patch_main (calm_env true) (bs "P") false (start f) = (Val tt, w) /\
    map (fun g => content g (bs "A")) (w_seen w) = [None; Some []; Some []; Some (bs "x"); Some (bs "x "); Some (bs "x y"); Some (bs "x y ")].
Proof. eexists. split; [run|vr]. Qed.

(* ------------------------------------------------------------------ C61 *)
(* C61, full statement: patching keeps the permissions of the target.  It is false: the target
   is replaced by a new file. *)
Lemma p_C61_mode_kept_refuted : exists E f patch d w old new, fault_free E /\ patch_main E patch false (start f) = (Val tt, w) /\
  holds_diff f patch d /\ is_change d /\ f (target d) = Some (File rwx old) /\ w_fs w (target d) = Some (File rw new).
Proof.
  exists (calm_env true), (upd (files [(bs "P", saved diff_ab)]) (bs "A") (Some (File rwx (bs "x y ")))), (bs "P"), diff_ab.
  do 3 eexists. split; [intros n; reflexivity|]. split; [run|]. split; [exists (saved diff_ab); split; vm_compute; reflexivity|].
  split; [exact I|]. split; vm_compute; reflexivity.
Qed.
(* What does hold: the mode of every other file is kept; that of the target too as long as it is
   not replaced; then it is the one new files get.  Missing: that the two are the same. *)
Lemma p_C61_mode_partial : forall E f patch reverse o w d, patch_main E patch reverse (start f) = (o, w) -> holds_diff f patch d ->
  forall g p m c, In g (w_seen w) -> p <> e_tmp E -> g p = Some (File m c) ->
    m = e_mode E \/ f p = Some (File m c).
Proof.
  intros E f patch reverse o w d H Hd g p m c Hg Hq Hp. destruct (run_of _ _ _ _ _ _ _ H Hd) as (states & Hs & _ & Hk). rewrite Hs in Hg.
  destruct Hg as [<-|Hg]; [now right|]. destruct Hk as [(_ & ->)|Hk]; [destruct Hg|].
  assert (A : forall st, Forall (aside E f) st -> In g st -> m = e_mode E \/ f p = Some (File m c)).
  { intros st H1 H2. rewrite Forall_forall in H1. right. rewrite <- Hp. symmetry. now apply (H1 g H2). }
  inversion Hk as [|st old|st old|st old|st old new g' H1 H2 H3 H4 H5 H6 Ho Hs'|c' Hcr|c' n Hcr|m' x Hr]; subst; try (now destruct Hg); try (eapply A; eassumption).
  - apply in_app_or in Hg as [Hg|[<-|[]]]; [eapply A; eassumption|]. destruct H6 as (H6 & H7 & H8).
    destruct (path_dec p (target d)) as [->|Hn]; [left; rewrite H6 in Hp; congruence|].
    right. rewrite <- Hp. symmetry. auto.
  - destruct Hg as [<-|Hg]; [|apply in_prefixes in Hg as (k & ->)].
    + destruct (path_dec (target d) p) as [<-|Hn]; [rewrite upd_same in Hp; left; congruence|right; now rewrite upd_other in Hp].
    + destruct (path_dec (target d) p) as [<-|Hn]; [rewrite upd_same in Hp; left; congruence|right; now rewrite !upd_other in Hp].
  - destruct Hg as [<-|[]]. destruct (path_dec (target d) p) as [<-|Hn]; [rewrite upd_same in Hp; discriminate|right; now rewrite upd_other in Hp].
Qed.
Lemma e_C61_example :
  let f := upd (files [(bs "P", saved diff_ab)]) (bs "A") (Some (File rwx (bs "x y "))) in
  exists w, patch_main (faulty_env 7 Fail) (bs "P") false (start f) = (Exit 1, w) /\ w_fs w (bs "A") = Some (File rwx (bs "x y ")).
Proof. eexists. split; [run|vr]. Qed.

(* ------------------------------------------------------------------ C65 *)
(* C65: the patch tool ends, whatever fails, unless the patch or the target exceeds the memory
   of the machine. *)
Lemma p_C65_ends : forall E f patch reverse,
  (forall t, holds_diff f patch (TextChange t) ->
     (24 * fold_right (fun c n => clump_lines c + n) 0 (td_clumps t) < two63)%Z /\ fits_file f (td_before t)) ->
  exists o w, patch_main E patch reverse (start f) = (o, w) /\ (o = Val tt \/ o = Exit 1 \/ o = Abort).
Proof.
  intros E f patch reverse Hfit. destruct (patch_main E patch reverse (start f)) as [o w] eqn:H. exists o, w. split; [reflexivity|].
  apply patch_main_inv in H as (states & _ & _ & _ & [(-> & _)|(d & Hd & Hk)]); [auto|].
  inversion Hk as [|st old H1 H2 H3 H4 H5|st old H1 H2 H3 H4 H5 H6|st old|st old new g' H1|c' Hcr|c' n Hcr|m' x Hr]; subst; auto.
  exfalso. destruct d as [t|?|?|t|?|?]; try contradiction.
  - destruct (Hfit t Hd) as [Hl Hf]. assert (Hp : patch_fits (td_clumps t)).
    { split; [|exact Hl]. destruct Hd as (s & _ & Hs). destruct (load_total s) as [Hx|(d & Hx & Hv)]; rewrite Hs in Hx; [discriminate|]. injection Hx as <-.
      destruct Hv as [_ Hv]. cbn in Hv. revert Hv. apply Forall_impl. intros c (([? ?] & [? ?]) & ? & ? & _). unfold is_usize in *. lia. }
    destruct H6 as (w' & H6). refine (text_apply_term _ _ _ _ w' Hp _ H6).
    apply (Hf old H2). apply split_lines_lines_of.
  - destruct H6 as (w' & H6). exact (byte_apply_nofuel _ _ _ _ w' H6).
Qed.
Lemma e_C65_example :
  let f := fun a => files [(bs "A", a); (bs "P", saved diff_ab); (bs "Q", saved diff_panic)] in
  patch_fits [TextClump (0, 0)%Z (Snippet 0 (L "x y ")) (Snippet 0 (L "x z w "))] /\
  (exists w, patch_main (calm_env true) (bs "P") false (start (f (bs "x y "))) = (Val tt, w)) /\
  (exists w, patch_main (calm_env true) (bs "Q") false (start (f (bs "BAA"))) = (Abort, w)).
Proof.
  split; [split; [repeat apply Forall_cons; try apply Forall_nil; cbn; consts; lia|vm_compute; reflexivity]|]. split; eexists; run.
Qed.

(* ------------------------------------------------------------------ C38 *)
(* C38, full statement: diffing two files and patching the first with the saved output gives it
   the content of the second, and patching in reverse restores it.  It is false because the
   generator overlooks changes. *)
Lemma p_C38_pipeline_refuted : exists E f before after context P w1 w2, fault_free E /\ e_stdout E = None /\
  diff_main E before after context (start f) = (Val tt, w1) /\
  patch_main E P false (start (upd f P (Some (File rw (w_stdout w1))))) = (Val tt, w2) /\
  content f before = Some (bs "A B C X D ") /\ content f after = Some (bs "A B C Y D E ") /\ content (w_fs w2) before = Some (bs "A B C X D E ").
Proof.
  exists (calm_env false), (files [(bs "old", bs "A B C X D "); (bs "new", bs "A B C Y D E ")]), (bs "old"), (bs "new"), 1, (bs "P"). do 2 eexists.
  split; [intros n; reflexivity|]. split; [reflexivity|]. split; [run|]. split; [run|]. vm_compute. repeat split.
Qed.
(* one way and back, for a change, a creation and a removal *)
Definition way (E : env) (P : path) (reverse : bool) (b : path) (c : option (list byte)) (f g : fs) : Prop :=
  exists w, patch_main E P reverse (start f) = (Val tt, w) /\ w_fs w = g /\ content g b = c /\ (c = None -> g b = None) /\ forall p, p <> b -> g p = f p.
Lemma holds_diff_ext f g P d : g P = f P -> holds_diff f P d -> holds_diff g P d.
Proof. intros Hp (s & Hs & Hd). exists s. split; [|assumption]. unfold content in *. now rewrite Hp. Qed.
Lemma way_change E P reverse d old new f : fault_free E -> N.testbit (e_mode E) 8 = true -> holds_diff f P d -> f (e_tmp E) = None ->
  content f (target d) = Some old -> patches_to (e_dbg E) reverse d old new -> exists g, way E P reverse (target d) (Some new) f g.
Proof.
  intros FF Hm Hd Ht Hc Hp. destruct (ff_patch_apply E FF d reverse old new f Hc Hp Ht) as (g & Hg & G1 & G2 & G3).
  destruct (ff_patch_main E FF P reverse f d g Hd Hg) as (w & E1 & E2). exists g, w. split; [exact E1|]. split; [exact E2|].
  split; [unfold content; now rewrite G1, Hm|]. split; [discriminate|]. intros p Hpt.
  destruct (path_dec p (e_tmp E)) as [->|Hn]; [congruence|auto].
Qed.
Lemma way_create E P reverse d c f : fault_free E -> N.testbit (e_mode E) 8 = true -> holds_diff f P d -> creates d reverse c ->
  f (target d) = None -> exists g, way E P reverse (target d) (Some c) f g.
Proof.
  intros FF Hm Hd Hc Ht. destruct (ff_create E FF d reverse c f Hc Ht) as (g & Hg & G1 & G2).
  destruct (ff_patch_main E FF P reverse f d g Hd Hg) as (w & E1 & E2). exists g, w. split; [exact E1|]. split; [exact E2|].
  split; [unfold content; now rewrite G1, Hm|]. split; [discriminate|exact G2].
Qed.
Lemma way_remove E P reverse d c f : fault_free E -> holds_diff f P d -> removes d reverse -> content f (target d) = Some c ->
  exists g, way E P reverse (target d) None f g.
Proof.
  intros FF Hd Hr Hc. destruct (content_inv _ _ _ Hc) as (m & Hm & _). destruct (ff_remove E FF d reverse m c f Hr Hm) as (g & Hg & G1 & G2).
  destruct (ff_patch_main E FF P reverse f d g Hd Hg) as (w & E1 & E2). exists g, w. split; [exact E1|]. split; [exact E2|].
  split; [unfold content; now rewrite G1|]. split; [auto|exact G2].
Qed.
(* the diff of the two files, and that it leads from one to the other and back *)
Definition leads (E : env) (f : fs) (b a : path) (d : diff) : Prop :=
  target d = b /\
  ((exists cb ca, content f b = Some cb /\ content f a = Some ca /\ patches_to (e_dbg E) false d cb ca /\ patches_to (e_dbg E) true d ca cb) \/
   (exists ca, f b = None /\ content f a = Some ca /\ creates d false ca /\ removes d true) \/
   (exists cb, content f b = Some cb /\ f a = None /\ removes d false /\ creates d true cb)).
Lemma result_leads E f b a context d : context <= 255 -> fits_file f b -> fits_file f a -> tame f b a context ->
  diff_result f b a context (Some d) -> leads E f b a d.
Proof.
  intros Hc Fb Fa [Tt Tb] H. unfold diff_result in H.
  assert (T : forall p ls, text_result f p = Some ls -> exists c, content f p = Some c /\ is_utf8 c /\ lines_of c ls).
  { intros p ls Hp. apply text_content in Hp as (c & H1 & H2 & ->). exists c. split; [assumption|]. split; [assumption|apply split_lines_lines_of]. }
  assert (B : forall cb ca, content f b = Some cb -> content f a = Some ca -> ~ (is_utf8 cb /\ is_utf8 ca) ->
     (exists cl, byte_diff_clumps cb ca context = Ok cl /\ Some d = Some (ByteChange (ByteDiff b a false cl))) -> leads E f b a d).
  { intros cb ca Hb Ha Hu (cl & Hcl & [= ->]). split; [reflexivity|]. left. exists cb, ca. split; [assumption|]. split; [assumption|].
    destruct (Tb cb ca Hb Ha Hu) as (Hn & N1 & N2 & Hk). destruct (byte_changes_spec cb ca) as (cs & Hcs & _).
    split; (eapply patches_bytes; cbn [bd_clumps]).
    - eapply p_C31_patch_gives_new_bytes_partial; [split; eassumption|assumption|apply (Fb _ Hb)|eassumption..|now right].
    - eapply p_C32_reverse_gives_old_bytes_partial; [split; eassumption|assumption|apply (Fa _ Ha)|eassumption..|now right]. }
  destruct (f b) as [nb|] eqn:Eb, (f a) as [na|] eqn:Ea.
  - destruct (text_result f b) as [lb|] eqn:Rb.
    + destruct (T _ _ Rb) as (cb & Hb & Ub & Lb). destruct (text_result f a) as [la|] eqn:Ra.
      * destruct (T _ _ Ra) as (ca & Ha & Ua & La). destruct H as (cl & Hcl & [= ->]). split; [reflexivity|]. left. exists cb, ca.
        split; [assumption|]. split; [assumption|]. assert (Hn : no_isolated_mismatch lb la) by (apply Tt; eexists; eauto).
        destruct (text_changes_spec lb la) as (cs & Hcs & _).
        split; (eapply patches_text; [eassumption|eassumption|cbn [td_clumps]]).
        -- eapply p_C18_patch_file_partial; try eassumption; [apply (Fb _ Hb); assumption|apply (Fa _ Ha); assumption].
        -- rewrite <- (proj1 Lb). eapply p_C19_reverse_gives_old_partial; try eassumption; [..|now right]; [apply (Fb _ Hb); assumption|apply (Fa _ Ha); assumption].
      * rewrite Hb in H. destruct (content f a) as [ca|] eqn:Ha; [|discriminate]. apply (B cb ca); auto. intros [_ Ua]. unfold text_result in Ra. rewrite Ha in Ra.
        apply utf8_valid_spec in Ua. now rewrite Ua in Ra.
    + destruct (content f b) as [cb|] eqn:Hb; [|discriminate]. destruct (content f a) as [ca|] eqn:Ha; [|discriminate]. apply (B cb ca); auto.
      intros [Ub _]. unfold text_result in Rb. rewrite Hb in Rb. apply utf8_valid_spec in Ub. now rewrite Ub in Rb.
  - destruct (text_result f b) as [lb|] eqn:Rb.
    + destruct (T _ _ Rb) as (cb & Hb & Ub & Lb). injection H as ->. split; [reflexivity|]. right. right. exists cb. repeat split; auto. symmetry. apply Lb.
    + destruct (content f b) as [cb|] eqn:Hb; [|discriminate]. injection H as ->. split; [reflexivity|]. right. right. exists cb. repeat split; auto.
  - destruct (text_result f a) as [la|] eqn:Ra.
    + destruct (T _ _ Ra) as (ca & Ha & Ua & La). injection H as ->. split; [reflexivity|]. right. left. exists ca. repeat split; auto. symmetry. apply La.
    + destruct (content f a) as [ca|] eqn:Ha; [|discriminate]. injection H as ->. split; [reflexivity|]. right. left. exists ca. repeat split; auto.
  - discriminate.
Qed.
(* What does hold: the round trip through a saved diff and back, for files readable if present,
   when nothing fails, for contents without isolated mismatches (and, for byte diffs, non-empty
   ones and at least one byte of context).  Missing: changes the generator overlooks, and what
   byte patches miss. *)
Lemma p_C38_pipeline_partial : forall E f before after context P m,
  fault_free E -> e_stdout E = None -> context <= 255 -> is_utf8 before -> is_utf8 after ->
  fits_file f before -> fits_file f after -> tame f before after context ->
  N.testbit (e_mode E) 8 = true -> N.testbit m 8 = true -> f (e_tmp E) = None -> P <> before -> P <> e_tmp E ->
  (present f before -> content f before <> None) -> (present f after -> content f after <> None) -> (present f before \/ present f after) ->
  exists w1, diff_main E before after context (start f) = (Val tt, w1) /\ w_fs w1 = f /\
  forall f1, replaced f P (Some (File m (w_stdout w1))) f1 ->
  exists w2, patch_main E P false (start f1) = (Val tt, w2) /\
    content (w_fs w2) before = content f after /\ (~ present f after -> ~ present (w_fs w2) before) /\ (forall p, p <> before -> w_fs w2 p = f1 p) /\
  exists w3, patch_main E P true (start (w_fs w2)) = (Val tt, w3) /\
    content (w_fs w3) before = content f before /\ (~ present f before -> ~ present (w_fs w3) before) /\ (forall p, p <> before -> w_fs w3 p = f1 p).
Proof.
  intros E f b a context P m FF So Hc Ub Ua Fb Fa Ht He Hm Htmp Hpb Hpt Rb Ra Hex.
  destruct (ff_diff E FF b a context f Hc (start f) eq_refl) as (r & Er & Hr).
  destruct (answers_diff E b a context f Hc (start f) eq_refl) as (r' & Er' & Hdesc). rewrite Er in Er'. injection Er' as <-.
  pose proof (quiet_diff_new E b a context (start f)) as (Q1 & Q2 & Q3).
  assert (Hd : exists d, r = Some d).
  { unfold diff_result, text_result in Hr. unfold present in *. destruct (f b), (f a);
      repeat match goal with
      | H : Some _ <> None -> content f ?p <> None |- _ => specialize (H ltac:(discriminate)); destruct (content f p) eqn:?; [|congruence]
      end.
    - destruct (utf8_valid l), (utf8_valid l0); destruct Hr as (cl & _ & ->); eauto.
    - destruct (utf8_valid l); eauto.
    - destruct (utf8_valid l); eauto.
    - destruct Hex as [[]|[]]; reflexivity. }
  destruct Hd as (d & ->). pose proof (Hdesc d eq_refl) as Hde. clear Hdesc. pose proof (result_leads E f b a context d Hc Fb Fa Ht Hr) as [Htg Hl].
  pose proof (generated_valid _ _ _ _ _ Hc Ub Ua Fb Fa Hde) as Hv.
  pose proof (diff_round_trip d Hv) as Hrt. pose proof (diff_to_json_ok d Hv) as Hok.
  destruct (diff_new E b a context (start f)) as [o w0] eqn:En. cbn [fst snd start w_fs w_stdout] in *. subst o.
  destruct (diff_to_json d) as [out ok] eqn:Ej. cbn [fst snd] in *. subst ok. eexists. unfold diff_main, pbnd. rewrite En, Ej, So. cbn [andb negb].
  split; [reflexivity|]. cbn [w_fs w_stdout]. rewrite Q1, Q3. cbn [app last]. split; [reflexivity|]. intros f1 [F1 F2].
  assert (Hh : holds_diff f1 P d) by (exists out; split; [unfold content; now rewrite F1, Hm|assumption]).
  assert (Hb1 : f1 b = f b) by (apply F2; congruence). assert (Ht1 : f1 (e_tmp E) = None) by (rewrite F2 by congruence; assumption).
  assert (Hcb : content f1 b = content f b) by (unfold content; now rewrite Hb1).
  assert (Fin : forall c1 c0, c1 = content f a -> (c1 = None -> f a = None) -> c0 = content f b -> (c0 = None -> f b = None) ->
    (exists g, way E P false b c1 f1 g) -> (forall g, (forall p, p <> b -> g p = f1 p) -> content g b = c1 -> (c1 = None -> g b = None) -> exists h, way E P true b c0 g h) ->
    exists w2, patch_main E P false (start f1) = (Val tt, w2) /\
    content (w_fs w2) b = content f a /\ (~ present f a -> ~ present (w_fs w2) b) /\ (forall p, p <> b -> w_fs w2 p = f1 p) /\
    exists w3, patch_main E P true (start (w_fs w2)) = (Val tt, w3) /\
    content (w_fs w3) b = content f b /\ (~ present f b -> ~ present (w_fs w3) b) /\ (forall p, p <> b -> w_fs w3 p = f1 p)).
  { intros c1 c0 E1 N1 E0 N0 (g & w2 & G1 & G2 & G3 & G4 & G5) Hback. destruct (Hback g G5 G3 G4) as (h & w3 & H1 & H2 & H3 & H4 & H5).
    assert (Pn : forall p, ~ present f p -> content f p = None) by (intros p Hp; unfold content, present in *; destruct (f p); [exfalso; apply Hp; discriminate|reflexivity]).
    exists w2. subst g. split; [exact G1|]. split; [congruence|]. split; [intros Hp; apply Pn in Hp; unfold present; rewrite G4 by congruence; auto|]. split; [assumption|].
    exists w3. subst h. split; [exact H1|]. split; [congruence|]. split; [intros Hp; apply Pn in Hp; unfold present; rewrite H4 by congruence; auto|].
    intros p Hp. now rewrite H5, G5. }
  assert (Hh' : forall g, (forall p, p <> b -> g p = f1 p) -> holds_diff g P d) by (intros g Hg; apply (holds_diff_ext f1); [now apply Hg|assumption]).
  destruct Hl as [(cb & ca & C1 & C2 & C3 & C4)|[(ca & C1 & C2 & C3 & C4)|(cb & C1 & C2 & C3 & C4)]]; rewrite <- Htg in *.
  - apply (Fin (Some ca) (Some cb)); auto; try discriminate; [eapply way_change; eauto; congruence|].
    intros g G1 G2 _. eapply way_change; eauto. destruct (path_dec (e_tmp E) (target d)) as [Hx|Hn]; [|rewrite G1; assumption].
    exfalso. rewrite <- Hx in C1. unfold content in C1. rewrite Htmp in C1. discriminate.
  - assert (C0 : content f (target d) = None) by (unfold content; now rewrite C1).
    apply (Fin (Some ca) None); auto; try discriminate; [eapply way_create; eauto; congruence|]. intros g G1 G2 _. eapply way_remove; eauto.
  - assert (C0 : content f a = None) by (unfold content; now rewrite C2).
    apply (Fin None (Some cb)); auto; try discriminate; [apply (way_remove E P false d cb); auto; congruence|]. intros g G1 G2 G3. eapply way_create; eauto.
Qed.
(* a text changed and a binary file removed *)
Lemma e_C38_example :
  let f := files [(bs "A", bs "x y "); (bs "B", bs "x z w "); (bs "C", [xff; x00; x41])] in
  tame f (bs "A") (bs "B") 1 /\ tame f (bs "C") (bs "D") 1 /\ is_utf8 (bs "A") /\
  (exists w1 w2 w3, diff_main (calm_env false) (bs "A") (bs "B") 1 (start f) = (Val tt, w1) /\
     patch_main (calm_env false) (bs "P") false (start (upd f (bs "P") (Some (File rw (w_stdout w1))))) = (Val tt, w2) /\
     content (w_fs w2) (bs "A") = Some (bs "x z w ") /\
     patch_main (calm_env false) (bs "P") true (start (w_fs w2)) = (Val tt, w3) /\ content (w_fs w3) (bs "A") = Some (bs "x y ")) /\
  (exists w1 w2 w3, diff_main (calm_env false) (bs "C") (bs "D") 1 (start f) = (Val tt, w1) /\
     patch_main (calm_env false) (bs "P") false (start (upd f (bs "P") (Some (File rw (w_stdout w1))))) = (Val tt, w2) /\
     w_fs w2 (bs "C") = None /\
     patch_main (calm_env false) (bs "P") true (start (w_fs w2)) = (Val tt, w3) /\ content (w_fs w3) (bs "C") = Some [xff; x00; x41]).
Proof.
  split; [|split; [|split; [apply utf8_valid_spec; vr|split]]].
  - split.
    + intros lb la (cb & [= <-] & _ & Lb) (ca & [= <-] & _ & La). apply lines_of_split in Lb, La. subst lb la.
      apply (no_isolated_check line_eqb); [exact line_eqb_lawful|vr].
    + intros cb ca [= <-] [= <-] H. exfalso. apply H. split; apply utf8_valid_spec; vr.
  - split.
    + intros lb la _ (ca & Hc & _). discriminate.
    + intros cb ca _ Hc. discriminate.
  - do 3 eexists. split; [run|]. split; [run|]. split; [vr|]. split; [run|vr].
  - do 3 eexists. split; [run|]. split; [run|]. split; [vr|]. split; [run|vr].
Qed.

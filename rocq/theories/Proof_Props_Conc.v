(* Proof_Props_Conc.v - the property lemmas on several runs of the patch tool at the same time. *)
From Coq Require Import String.
From Verif Require Import Base Model_Seq Model_Changes Model_IO Model_Text Model_Bytes Model_Json Model_Files Model_Conc Spec Spec_Files Spec_Conc Cases Proof_Seq Proof_Utf8 Proof_Json Proof_IO Proof_Text Proof_Bytes Proof_Term Proof_Files Proof_Conc Proof_Props_Files.

(* the same environment with another name for the temporary file *)
Definition env_with (tmp : path) : env := Env true tmp rw (fun _ => NoFault) None.
(* two changes of F, far from each other; one of H *)
Definition change_bc : diff := TextChange (TextDiff (bs "F") (bs "O") [TextClump (1, 1)%Z (Snippet 1 (L "B C D ")) (Snippet 1 (L "B X V D "))]).
Definition change_fg : diff := TextChange (TextDiff (bs "F") (bs "W") [TextClump (1, 1)%Z (Snippet 5 (L "F G H ")) (Snippet 5 (L "F S U H "))]).
Definition change_h : diff := ByteChange (ByteDiff (bs "H") (bs "K") false [ByteClump (1, 1)%Z (Snippet 1 (bs "bcd")) (Snippet 1 (bs "bXd"))]).
Definition some_files : fs :=
  files [(bs "F", bs "A B C D E F G H I J "); (bs "H", bs "abcdef"); (bs "P", saved change_bc); (bs "Q", saved change_fg); (bs "R", saved change_h)].
Definition job_bc : job := Job (env_with (bs "T1")) (bs "P") false change_bc.
Definition job_fg : job := Job (env_with (bs "T2")) (bs "Q") false change_fg.
Definition job_h : job := Job (env_with (bs "T3")) (bs "R") false change_h.

Lemma job_holds p d : some_files p = Some (File rw (saved d)) -> diff_from_json (saved d) = Ok (Some d) -> holds_diff some_files p d.
Proof. intros H1 H2. exists (saved d). split; [unfold content; now rewrite H1|assumption]. Qed.
Ltac one_job := split; [apply job_holds; vr|exact I].
Ltac names := cbn; intros p; intuition subst; discriminate.
Lemma orderly_two : orderly some_files [job_bc; job_fg].
Proof. split; [constructor; [one_job|constructor; [one_job|constructor]]|]. split; [repeat constructor; cbn; intuition discriminate|]. split; names. Qed.
Lemma orderly_apart : orderly some_files [job_bc; job_h].
Proof. split; [constructor; [one_job|constructor; [one_job|constructor]]|]. split; [repeat constructor; cbn; intuition discriminate|]. split; names. Qed.
Lemma orderly_three : orderly some_files [job_bc; job_fg; job_h].
Proof. split; [constructor; [one_job|constructor; [one_job|constructor; [one_job|constructor]]]|]. split; [repeat constructor; cbn; intuition discriminate|]. split; names. Qed.
Lemma text_step d old st new : is_utf8 old -> fst (text_apply_into true (td_clumps d) (split_lines old) false (Writer [] None)) = Done st ->
  snd (text_apply_into true (td_clumps d) (split_lines old) false (Writer [] None)) = Writer new None -> patches_to true false (TextChange d) old new.
Proof.
  intros Hu H1 H2. eapply patches_text; [exact Hu|apply split_lines_lines_of|]. destruct (text_apply_into _ _ _ _ _) as [r w]. cbn [fst snd] in *. now rewrite H1, H2.
Qed.
Ltac one_step := eapply text_step; [apply utf8_valid_spec; vr|vr|vr].
Lemma chain_10 : after_jobs some_files [job_bc; job_fg] (bs "F") [1; 0] (Some (File rw (bs "A B X V D E F S U H I J "))).
Proof.
  apply (aj_job _ _ _ [0] rw (bs "A B X V D E F G H I J ") 1 job_fg); [|cbn; intuition discriminate|reflexivity|reflexivity|one_step].
  apply (aj_job _ _ _ [] rw (bs "A B C D E F G H I J ") 0 job_bc); [exact (aj_none some_files _ (bs "F"))|easy|reflexivity|reflexivity|one_step].
Qed.
Lemma chain_01 : after_jobs some_files [job_bc; job_fg] (bs "F") [0; 1] (Some (File rw (bs "A B X V D E F S U H I J "))).
Proof.
  apply (aj_job _ _ _ [1] rw (bs "A B C D E F S U H I J ") 0 job_bc); [|cbn; intuition discriminate|reflexivity|reflexivity|one_step].
  apply (aj_job _ _ _ [] rw (bs "A B C D E F G H I J ") 1 job_fg); [exact (aj_none some_files _ (bs "F"))|easy|reflexivity|reflexivity|one_step].
Qed.

(* ------------------------------------------------------------------ C98 *)
(* A single run by itself is the run of Model_Files.v, operation by operation. *)
Lemma p_C98_alone : forall E patch reverse f o,
  (forall w, patch_main E patch reverse (start f) = (o, w) ->
     exists seen, together f [patch_process E patch reverse] seen (w_fs w) [Process E (w_ops w) (AEnd o)] /\ w_seen w = f :: seen) /\
  (forall seen g q, together f [patch_process E patch reverse] seen g [q] -> ended q = Some o ->
     exists w, patch_main E patch reverse (start f) = (o, w) /\ w_fs w = g /\ w_seen w = f :: seen).
Proof.
  intros E patch reverse f o. split.
  - intros w H. rewrite <- perform_main in H. apply perform_together in H as (seen & H1 & H2). exists seen. now split.
  - intros seen g q H He. destruct (together_perform _ _ _ _ _ H E 0 (a_main E patch reverse) q o [f] [] eq_refl eq_refl He) as [_ H'].
    rewrite perform_main in H'. eexists. split; [exact H'|]. split; reflexivity.
Qed.

(* C98, full statement: when several runs at the same time all report success, every file holds
   the result of carrying out all the patches to it, one after the other in some order.  It is
   false: each run reads the file, and later replaces it; of two runs that have read it before
   either has replaced it, the changes of the first are lost, although both end with status 0. *)
Lemma p_C98_all_kept_refuted : exists f js seen g qs p, orderly f js /\ Forall (fun j => fault_free (j_env j)) js /\
  together f (map begun js) seen g qs /\ Forall (fun q => ended q = Some (Val tt)) qs /\
  length js = 2 /\ Forall (fun j => target (j_diff j) = p) js /\
  (exists n, after_jobs f js p [0; 1] n) /\ (exists n, after_jobs f js p [1; 0] n) /\
  ~ exists is, In 0 is /\ In 1 is /\ after_jobs f js p is (g p).
Proof.
  set (order := [0; 0; 0; 0; 1; 1; 1; 1; 0; 0; 0; 0; 0; 1; 1; 1; 1; 1]).
  exists some_files, [job_bc; job_fg]. set (r := exec order some_files (map begun [job_bc; job_fg])).
  exists (fst (fst r)), (snd (fst r)), (snd r), (bs "F").
  split; [exact orderly_two|]. split; [repeat constructor|]. split; [exact (exec_together order _ _)|].
  split. { assert (E : map ended (snd r) = [Some (Val tt); Some (Val tt)]) by vr. destruct (snd r) as [|q [|q' [|]]]; try discriminate E. injection E as E1 E2. now repeat constructor. }
  split; [reflexivity|]. split; [repeat constructor|]. split; [eexists; exact chain_01|]. split; [eexists; exact chain_10|].
  intros (is & H0 & H1 & H). pose proof (after_nodup _ _ _ _ _ H) as [Hn Hb].
  assert (E : snd (fst r) (bs "F") = Some (File rw (bs "A B C D E F S U H I J "))) by vr. rewrite E in H.
  destruct (both_of_two is Hn Hb H0 H1) as [->| ->].
  - pose proof (after_unique _ _ _ _ _ H _ chain_01) as K. vm_compute in K. discriminate K.
  - pose proof (after_unique _ _ _ _ _ H _ chain_10) as K. vm_compute in K. discriminate K.
Qed.
(* What does hold, for any number of runs that change files (not: create or remove them), with
   their own temporary files, whatever fails and wherever runs are killed: every file outside the
   targets and the temporary files keeps its content.  Every target holds, at every moment, its
   content at the beginning after some of the patches to it, each of them applied at most once and
   completely to what the one before had left - never half a patch, and never a patch of a run
   that failed.  A run that reports success has put its result in place at some moment, and its
   temporary file is gone.  Missing: that later results are based on it. *)
Lemma p_C98_some_kept_partial : forall f js seen g qs, orderly f js -> together f (map begun js) seen g qs ->
  (forall h, In h (f :: seen) -> (forall p, ~ In p (targets js) -> ~ In p (temps js) -> h p = f p) /\
     (forall p, In p (targets js) -> exists is, after_jobs f js p is (h p))) /\
  (forall p, In p (targets js) -> exists is, after_jobs f js p is (g p) /\
     forall i q o, In i is -> nth_error qs i = Some q -> ended q = Some o -> o = Val tt) /\
  (forall i j q, nth_error js i = Some j -> nth_error qs i = Some q -> ended q = Some (Val tt) ->
     (exists h is, In h seen /\ after_jobs f js (target (j_diff j)) (i :: is) (h (target (j_diff j)))) /\ g (e_tmp (j_env j)) = None).
Proof.
  intros f js seen g qs Hg H. destruct (together_jobs f js Hg seen g qs H) as (H1 & _ & H2 & H3). split; [exact H1|]. split; [exact H2|].
  intros i j q Hj Hq He. destruct (H3 i j q Hj Hq He) as (K1 & K2 & _). now split.
Qed.
(* The last of the states is the one at the end. *)
Lemma p_C98_states : forall f ps seen g qs, together f ps seen g qs -> g = last seen f /\ length qs = length ps.
Proof.
  induction 1 as [f ps|f ps1 p ps2 states p' seen g qs Ha H [IH1 IH2]]; [now split|]. split.
  - rewrite IH1. destruct seen as [|s l] using rev_ind; [now rewrite app_nil_r|]. now rewrite app_assoc, !last_last.
  - rewrite IH2, !app_length. reflexivity.
Qed.
(* Runs on different files do not disturb each other: at the end the file of one that reports
   success holds the result of its patch, the file of one that fails what it did before. *)
Lemma p_C98_apart : forall f js seen g qs, orderly f js -> NoDup (targets js) -> together f (map begun js) seen g qs ->
  forall i j q o, nth_error js i = Some j -> nth_error qs i = Some q -> ended q = Some o ->
  (o = Val tt -> exists m old new, f (target (j_diff j)) = Some (File m old) /\
     patches_to (e_dbg (j_env j)) (j_reverse j) (j_diff j) old new /\ g (target (j_diff j)) = Some (File (e_mode (j_env j)) new)) /\
  (o <> Val tt -> g (target (j_diff j)) = f (target (j_diff j))).
Proof.
  intros f js seen g qs Hg Hn H i j q o Hj Hq He. destruct (together_jobs f js Hg seen g qs H) as (_ & _ & H2 & H3).
  assert (Hs : sole js i j).
  { intros k l Hl Hk. rewrite NoDup_nth_error in Hn. apply Hn; unfold targets.
    - rewrite map_length. apply nth_error_Some. congruence.
    - rewrite (map_nth_error _ _ _ Hj), (map_nth_error _ _ _ Hl). now rewrite Hk. }
  split.
  - intros ->. destruct (H3 i j q Hj Hq He) as (_ & _ & K). specialize (K Hs). remember (g (target (j_diff j))) as n eqn:En.
    inversion K as [|is m old i' j' new Ka Ki Kj Kt Kp]; subst. assert (j' = j) as -> by congruence. remember (Some (File m old)) as n' eqn:En'.
    inversion Ka as [En''|]; subst. eauto 7.
  - intros Ho. destruct (H2 (target (j_diff j))) as (is & Ha & Hi); [apply (target_in js i j Hj)|]. destruct is as [|k is].
    + remember (g (target (j_diff j))) as n. now inversion Ha.
    + exfalso. destruct (after_targets f js _ _ _ Ha k (or_introl eq_refl)) as (l & Hl & Hk). pose proof (Hs k l Hl Hk) as ->.
      apply Ho. now apply (Hi i q o (or_introl eq_refl)).
Qed.
(* two runs in turn on different files; two on one file, one after the other, while a third is
   killed before it replaces its file *)
Lemma e_C98_example :
  orderly some_files [job_bc; job_fg; job_h] /\ NoDup (targets [job_bc; job_h]) /\ orderly some_files [job_bc; job_h] /\
  (exists seen g qs, together some_files (map begun [job_bc; job_h]) seen g qs /\ map ended qs = [Some (Val tt); Some (Val tt)] /\
     g (bs "F") = Some (File rw (bs "A B X V D E F G H I J ")) /\ g (bs "H") = Some (File rw (bs "abXdef")) /\ 20 <= length seen) /\
  (exists seen g qs, together some_files (map begun [job_bc; job_fg; job_h]) seen g qs /\ map ended qs = [Some (Val tt); Some (Val tt); None] /\
     g (bs "F") = Some (File rw (bs "A B X V D E F S U H I J ")) /\ g (bs "H") = Some (File rw (bs "abcdef")) /\ g (bs "T3") = Some (File rw (bs "abXdef"))) /\
  after_jobs some_files [job_bc; job_fg] (bs "F") [1; 0] (Some (File rw (bs "A B X V D E F S U H I J "))).
Proof.
  split; [exact orderly_three|]. split; [repeat constructor; cbn; intuition discriminate|]. split; [exact orderly_apart|]. split; [|split; [|exact chain_10]].
  - set (order := concat (repeat [0; 1] 9)). set (r := exec order some_files (map begun [job_bc; job_h])).
    exists (fst (fst r)), (snd (fst r)), (snd r). split; [exact (exec_together order _ _)|]. split; [vr|]. split; [vr|]. split; [vr|]. vm_compute. repeat constructor.
  - set (order := repeat 0 9 ++ repeat 2 7 ++ repeat 1 9). set (r := exec order some_files (map begun [job_bc; job_fg; job_h])).
    exists (fst (fst r)), (snd (fst r)), (snd r). split; [exact (exec_together order _ _)|]. split; [vr|]. split; [vr|]. split; vr.
Qed.

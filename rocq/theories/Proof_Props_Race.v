(* Proof_Props_Race.v - the property lemmas on runs of the patch tool that create, remove and
   change a file at the same time. *)
From Coq Require Import String.
From Verif Require Import Base Model_Seq Model_Changes Model_IO Model_Text Model_Bytes Model_Json Model_Files Model_Conc Spec Spec_Files Spec_Conc Cases Proof_Seq Proof_Utf8 Proof_Json Proof_IO Proof_Text Proof_Bytes Proof_Term Proof_Files Proof_Conc Proof_Race Proof_Props_Files Proof_Props_Conc.

(* a change of F and its removal, given in two ways; two different contents for N *)
Definition remove_f : diff := TextRemove (PathAndLines (bs "F") (L "A B C D ")).
Definition unadd_f : diff := ByteAdd (PathAndBytes (bs "F") false (bs "xyz")).
Definition make_n : diff := TextAdd (PathAndLines (bs "N") (L "one two ")).
Definition remake_n : diff := ByteRemove (PathAndBytes (bs "N") false (bs "three")).
Definition race_files : fs :=
  files [(bs "F", bs "A B C D E F "); (bs "P", saved change_bc); (bs "Q", saved remove_f); (bs "R", saved unadd_f); (bs "U", saved make_n); (bs "V", saved remake_n)].
Definition job_change : job := Job (env_with (bs "T1")) (bs "P") false change_bc.
Definition job_remove : job := Job (env_with (bs "T2")) (bs "Q") false remove_f.
Definition job_unadd : job := Job (env_with (bs "T3")) (bs "R") true unadd_f.
Definition job_make : job := Job (env_with (bs "T4")) (bs "U") false make_n.
Definition job_remake : job := Job (env_with (bs "T5")) (bs "V") true remake_n.
Lemma race_holds p d : race_files p = Some (File rw (saved d)) -> diff_from_json (saved d) = Ok (Some d) -> holds_diff race_files p d.
Proof. intros H1 H2. exists (saved d). split; [unfold content; now rewrite H1|assumption]. Qed.
Lemma mixed_two : mixed race_files [job_change; job_remove].
Proof.
  split; [constructor; [split; [apply race_holds; vr|left; exact I]|constructor; [split; [apply race_holds; vr|right; reflexivity]|constructor]]|].
  split; [repeat constructor; cbn; intuition discriminate|]. split; names.
Qed.
Lemma rivals_two : rivals race_files [job_make; job_remake] (bs "N").
Proof.
  split; [|cbn; intuition discriminate].
  constructor; [split; [apply race_holds; vr|split; [reflexivity|eexists; split; reflexivity]]|].
  constructor; [split; [apply race_holds; vr|split; [reflexivity|eexists; split; reflexivity]]|constructor].
Qed.
Lemma removers_two : removers race_files [job_remove; job_unadd] (bs "F").
Proof.
  split; [|cbn; intuition discriminate].
  constructor; [split; [apply race_holds; vr|split; reflexivity]|]. constructor; [split; [apply race_holds; vr|split; reflexivity]|constructor].
Qed.

(* ------------------------------------------------------------------ C121 *)
(* C121, full statement: with several runs at the same time, a file that a run reports as removed
   is gone at the end unless a run creates it, and a run that is to create a file reports success
   only if the file has its content.  Both are false.  A change replaces the file after it has been
   removed, if it was read before, and both report success; in neither order could both succeed and
   the file be there. *)
Lemma p_C121_removed_refuted : exists f js seen g qs, mixed f js /\ Forall (fun j => fault_free (j_env j)) js /\ length js = 2 /\
  together f (map begun js) seen g qs /\ Forall (fun q => ended q = Some (Val tt)) qs /\
  exists i j, nth_error js i = Some j /\ removal j /\ (exists h, In h seen /\ h (target (j_diff j)) = None) /\
  exists m d, g (target (j_diff j)) = Some (File m d).
Proof.
  set (order := [0; 0; 0; 1; 1; 1; 0; 0; 0; 0; 0; 0]).
  exists race_files, [job_change; job_remove]. set (r := exec order race_files (map begun [job_change; job_remove])).
  exists (fst (fst r)), (snd (fst r)), (snd r).
  assert (Ht : together race_files (map begun [job_change; job_remove]) (fst (fst r)) (snd (fst r)) (snd r)) by exact (exec_together order _ _).
  split; [exact mixed_two|]. split; [repeat constructor|]. split; [reflexivity|]. split; [exact Ht|].
  assert (E : map ended (snd r) = [Some (Val tt); Some (Val tt)]) by vr. split.
  { destruct (snd r) as [|q [|q' [|]]]; try discriminate E. injection E as E1 E2. now repeat constructor. }
  exists 1, job_remove. split; [reflexivity|]. split; [reflexivity|]. split.
  - destruct (together_mixed _ _ mixed_two _ _ _ Ht) as (_ & _ & _ & K).
    destruct (nth_error (snd r) 1) as [q|] eqn:Eq; [|destruct (snd r) as [|? [|]]; discriminate].
    destruct (K 1 job_remove q eq_refl Eq) as [((h & is & _ & A) & _)|(_ & A & _)]; [| |exact A].
    + destruct (snd r) as [|q0 [|q1 [|]]]; try discriminate E. injection E as E1 E2. cbn in Eq. congruence.
    + exfalso. remember (h (target (j_diff job_remove))) as nd. inversion A as [|is' m old i' j' new _ _ Kj _ Kp]; subst. cbn in Kj. injection Kj as <-. inversion Kp.
  - exists rw, (bs "A B X V D E F "). vr.
Qed.
Lemma p_C121_created_refuted : exists f js seen g qs p, rivals f js p /\ Forall (fun j => fault_free (j_env j)) js /\ f p = None /\
  together f (map begun js) seen g qs /\ Forall (fun q => ended q = Some (Val tt)) qs /\
  exists i j c, nth_error js i = Some j /\ creation j c /\ forall h, In h seen -> forall m, h p <> Some (File m c).
Proof.
  set (order := [0; 1; 0; 1; 0; 1; 0]).
  exists race_files, [job_make; job_remake]. set (r := exec order race_files (map begun [job_make; job_remake])).
  exists (fst (fst r)), (snd (fst r)), (snd r), (bs "N").
  split; [exact rivals_two|]. split; [repeat constructor|]. split; [reflexivity|]. split; [exact (exec_together order _ _)|].
  assert (E : map ended (snd r) = [Some (Val tt); Some (Val tt)]) by vr. split.
  { destruct (snd r) as [|q [|q' [|]]]; try discriminate E. injection E as E1 E2. now repeat constructor. }
  exists 1, job_remake, (bs "three"). split; [reflexivity|]. split; [now split|].
  assert (A : forallb (fun h : fs => match h (bs "N") with Some (File _ d) => negb (line_eqb d (bs "three")) | _ => true end) (fst (fst r)) = true) by vr.
  rewrite forallb_forall in A. intros h Hh m K. specialize (A h Hh). rewrite K in A. vm_compute in A. discriminate A.
Qed.

(* What does hold, for any number of runs that change or remove files, with their own temporary
   files, whatever fails and wherever runs are killed: a file that is to be changed or removed is
   at every moment either gone, removed by one of the runs, or what some of the changes, each
   complete, have made of it; nothing else is touched.  At the end neither a removal nor a change
   that failed has left a trace.  A run that reports success has put its result in place, or
   removed the file, at some moment.  Missing: that the file stays away. *)
Lemma p_C121_removed_partial : forall f js seen g qs, mixed f js -> together f (map begun js) seen g qs ->
  (forall h, In h (f :: seen) -> (forall p, ~ In p (targets js) -> ~ In p (temps js) -> h p = f p) /\
     (forall p, In p (targets js) -> (exists is, after_jobs f js p is (h p)) \/
        h p = None /\ exists i j, nth_error js i = Some j /\ target (j_diff j) = p /\ removal j)) /\
  (forall p, In p (targets js) ->
     (exists is, after_jobs f js p is (g p) /\ forall i q o, In i is -> nth_error qs i = Some q -> ended q = Some o -> o = Val tt) \/
     g p = None /\ exists i j, nth_error js i = Some j /\ target (j_diff j) = p /\ removal j /\
        forall q o, nth_error qs i = Some q -> ended q = Some o -> o = Val tt) /\
  (forall i j q, nth_error js i = Some j -> nth_error qs i = Some q -> ended q = Some (Val tt) ->
     (is_change (j_diff j) -> (exists h is, In h seen /\ after_jobs f js (target (j_diff j)) (i :: is) (h (target (j_diff j)))) /\ g (e_tmp (j_env j)) = None) /\
     (removal j -> exists h, In h seen /\ h (target (j_diff j)) = None)).
Proof.
  intros f js seen g qs Hg H. destruct (together_mixed f js Hg seen g qs H) as (H1 & _ & H2 & H3). split; [exact H1|]. split; [exact H2|].
  intros i j q Hj Hq He. destruct (H3 i j q Hj Hq He) as [(K1 & K2 & _)|(K1 & K2 & _)].
  - split; [now split|]. intros Hr. exfalso. destruct K1 as (h & is & _ & A). remember (h (target (j_diff j))) as nd.
    inversion A as [|is' m old i' j' new _ _ Kj _ Kp]; subst. assert (j' = j) as -> by congruence. unfold removal, removes in Hr. destruct Kp; exact Hr.
  - split; [|intros _; exact K2]. intros Hc. exfalso. unfold removal, removes, is_change in *. destruct (j_diff j); contradiction.
Qed.
(* Runs on different files do not disturb each other, removals included. *)
Lemma p_C121_apart : forall f js seen g qs, mixed f js -> NoDup (targets js) -> together f (map begun js) seen g qs ->
  forall i j q o, nth_error js i = Some j -> nth_error qs i = Some q -> ended q = Some o ->
  (o = Val tt -> removal j -> g (target (j_diff j)) = None) /\
  (o = Val tt -> is_change (j_diff j) -> exists m old new, f (target (j_diff j)) = Some (File m old) /\
     patches_to (e_dbg (j_env j)) (j_reverse j) (j_diff j) old new /\ g (target (j_diff j)) = Some (File (e_mode (j_env j)) new)) /\
  (o <> Val tt -> g (target (j_diff j)) = f (target (j_diff j))).
Proof.
  intros f js seen g qs Hg Hn H i j q o Hj Hq He. destruct (together_mixed f js Hg seen g qs H) as (_ & _ & H2 & H3).
  assert (Hs : sole js i j).
  { intros k l Hl Hk. rewrite NoDup_nth_error in Hn. apply Hn; unfold targets.
    - rewrite map_length. apply nth_error_Some. congruence.
    - rewrite (map_nth_error _ _ _ Hj), (map_nth_error _ _ _ Hl). now rewrite Hk. }
  split; [|split].
  - intros -> Hr. destruct (H3 i j q Hj Hq He) as [((h & is & _ & A) & _)|(_ & _ & K)]; [|now apply K]. exfalso. remember (h (target (j_diff j))) as nd.
    inversion A as [|is' m old i' j' new _ _ Kj _ Kp]; subst. assert (j' = j) as -> by congruence. unfold removal, removes in Hr. destruct Kp; exact Hr.
  - intros -> Hc. destruct (H3 i j q Hj Hq He) as [(_ & _ & K)|(K & _)].
    2: { exfalso. unfold removal, removes, is_change in *. destruct (j_diff j); contradiction. }
    specialize (K Hs). remember (g (target (j_diff j))) as n eqn:En.
    inversion K as [|is m old i' j' new Ka Ki Kj Kt Kp]; subst. assert (j' = j) as -> by congruence. remember (Some (File m old)) as n' eqn:En'.
    inversion Ka as [En''|]; subst. eauto 7.
  - intros Ho. destruct (H2 (target (j_diff j))) as [(is & Ha & Hi)|(_ & k & l & Hl & Ht & _ & Hk)]; [apply (target_in js i j Hj)| |].
    + destruct is as [|k is]; [remember (g (target (j_diff j))) as n; now inversion Ha|].
      exfalso. destruct (after_targets f js _ _ _ Ha k (or_introl eq_refl)) as (l & Hl & Hk). pose proof (Hs k l Hl Hk) as ->.
      apply Ho. now apply (Hi i q o (or_introl eq_refl)).
    + exfalso. pose proof (Hs k l Hl Ht) as ->. apply Ho. now apply (Hk q o).
Qed.
(* Of several runs that remove the same file, one at most reports success, and exactly one if there
   is a file, nothing fails and they are not killed; the others end with status 1. *)
Lemma p_C121_removed_once : forall f js p seen g qs, removers f js p -> together f (map begun js) seen g qs ->
  (forall h, In h seen -> (forall q, q <> p -> h q = f q) /\ (h p = f p \/ h p = None)) /\
  (forall i q o, nth_error qs i = Some q -> ended q = Some o -> o = Val tt \/ o = Exit 1) /\
  (forall i k q r, nth_error qs i = Some q -> nth_error qs k = Some r -> ended q = Some (Val tt) -> ended r = Some (Val tt) -> i = k) /\
  ((exists i q, nth_error qs i = Some q /\ ended q = Some (Val tt)) -> (exists m d, f p = Some (File m d)) /\ g p = None) /\
  (forall m d, f p = Some (File m d) -> Forall (fun j => fault_free (j_env j)) js -> js <> [] -> Forall (fun q => ended q <> None) qs ->
     g p = None /\ exists i q, nth_error qs i = Some q /\ ended q = Some (Val tt)).
Proof.
  intros f js p seen g qs Hg H. destruct (together_removers f js p Hg seen g qs H) as (won & HI & Ho).
  split; [|split; [exact Ho|]].
  { pose proof (m_seen _ _ _ _ _ _ _ HI) as K. rewrite Forall_forall in K. exact K. }
  pose proof (m_one _ _ _ _ _ _ _ HI) as Hone. unfold by_one in Hone. destruct won as [w|].
  - destruct Hone as (K1 & K2 & K3 & K4). split; [|split].
    + intros i k q r Hq Hr Eq Er. rewrite (K4 i q Hq Eq). symmetry. now apply (K4 k r).
    + intros _. now split.
    + intros m d _ _ _ _. split; [assumption|]. destruct K3 as (q & K3). exists w, q. exact K3.
  - destruct Hone as (K1 & K2). split; [|split].
    + intros i k q r Hq _ Eq _. destruct (K2 i q Hq Eq).
    + intros (i & q & Hq & Eq). destruct (K2 i q Hq Eq).
    + intros m d Hf Hff Hne He. exfalso. destruct js as [|j js']; [easy|]. pose proof (m_length _ _ _ _ _ _ _ HI) as Hl.
      destruct qs as [|q qs']; [discriminate|]. inversion He as [|? ? Hq _]; subst. inversion Hff as [|? ? Hj _]; subst.
      destruct (ended q) as [o|] eqn:Eq; [|easy].
      destruct (m_fail _ _ _ _ _ _ _ HI 0 j q o eq_refl eq_refl Eq) as [K|K]; [| |congruence|now apply (K m d)].
      * intros ->. now apply (K2 0 q).
      * exact Hj.
Qed.
(* Of several runs that create the same file, one at most has written to it: at every moment there
   is nothing there or a beginning of its content; all of it at the end, if nothing fails and no run
   is killed.  A file that was there before stays as it is.  What is missing is a sign of this: all
   of them report success. *)
Lemma p_C121_created_partial : forall f js p seen g qs, rivals f js p -> together f (map begun js) seen g qs ->
  (forall h q, In h (g :: seen) -> q <> p -> h q = f q) /\
  (f p <> None -> forall h, In h (g :: seen) -> h p = f p) /\
  (f p = None -> js <> [] -> exists i j c, nth_error js i = Some j /\ creation j c /\
     (forall h, In h (g :: seen) -> h p = None \/ exists k, h p = Some (File (e_mode (j_env j)) (firstn k c))) /\
     (Forall (fun j => fault_free (j_env j)) js -> Forall (fun q => ended q <> None) qs -> g p = Some (File (e_mode (j_env j)) c))) /\
  (forall i j q o, nth_error js i = Some j -> nth_error qs i = Some q -> fault_free (j_env j) -> ended q = Some o -> o = Val tt).
Proof.
  intros f js p seen g qs Hg H. destruct (together_rivals f js p Hg seen g qs H) as (won & ts & HI & He).
  assert (S : forall h, In h (g :: seen) -> sound f js p won h).
  { intros h [<-|Hh]; [exact (race_sound _ _ _ _ _ _ _ _ HI)|]. pose proof (c_seen _ _ _ _ _ _ _ _ HI) as K. rewrite Forall_forall in K. auto. }
  split; [|split; [|split]].
  - intros h q Hh. apply (S h Hh).
  - intros Hf h Hh. destruct (S h Hh) as [_ [K|(K & _)]]; [assumption|contradiction].
  - intros Hf Hne. pose proof (c_stand _ _ _ _ _ _ _ _ HI) as St. unfold standing in St. destruct won as [w|].
    + destruct St as (_ & _ & j & c & Hj & Hc & Hw). exists w, j, c. split; [assumption|]. split; [assumption|]. split.
      * intros h Hh. destruct (S h Hh) as [_ [K|(_ & i & l & c' & k & [= <-] & Hl & Hc' & K)]]; [left; congruence|right].
        assert (l = j) as -> by congruence. rewrite (creation_unique _ _ _ Hc Hc'). eauto.
      * intros Hff Hend. assert (Ho : ts w = Over).
        { assert (Hlt : w < length qs) by (rewrite (c_length _ _ _ _ _ _ _ _ HI); apply nth_error_Some; congruence).
          destruct (nth_error qs w) as [q|] eqn:Eq; [|apply nth_error_None in Eq; lia].
          rewrite Forall_forall in Hend. specialize (Hend q (nth_error_In _ _ Eq)). destruct (ended q) as [o|] eqn:Ee; [|easy].
          exact (proj1 (He w j q o Hj Eq Ee)). }
        destruct Hw as [[K _]|[_ (k & K1 & K2)]]; [congruence|]. rewrite K1, K2; [reflexivity|]. rewrite Forall_forall in Hff. now apply Hff, (nth_error_In _ w).
    + destruct js as [|j js'] eqn:Ejs; [easy|]. rewrite <- Ejs in *. assert (Hj : nth_error js 0 = Some j) by now rewrite Ejs.
      destruct Hg as [Hjobs _]. rewrite Forall_forall in Hjobs. destruct (Hjobs j (nth_error_In _ _ Hj)) as (_ & _ & c & Hc).
      exists 0, j, c. split; [assumption|]. split; [assumption|]. split.
      * intros h Hh. left. destruct (S h Hh) as [_ [K|(_ & i & l & c' & k & K & _)]]; [congruence|discriminate].
      * intros Hff Hend. exfalso. assert (Hlt : 0 < length qs) by (rewrite (c_length _ _ _ _ _ _ _ _ HI); apply nth_error_Some; congruence).
        destruct (nth_error qs 0) as [q|] eqn:Eq; [|apply nth_error_None in Eq; lia].
        rewrite Forall_forall in Hend, Hff. specialize (Hend q (nth_error_In _ _ Eq)). destruct (ended q) as [o|] eqn:Ee; [|easy].
        apply (c_over _ _ _ _ _ _ _ _ HI 0 j Hj (proj1 (He 0 j q o Hj Eq Ee))); [apply Hff, (nth_error_In _ 0); assumption|]. destruct St as [St _]. congruence.
  - intros i j q o Hj Hq Hff Ee. exact (proj2 (He i j q o Hj Hq Ee) Hff).
Qed.
(* a change and a removal of F, one after the other in both orders; two runs that remove F in
   turns; two that create N in turns *)
Lemma e_C121_example :
  mixed race_files [job_change; job_remove] /\ removers race_files [job_remove; job_unadd] (bs "F") /\ rivals race_files [job_make; job_remake] (bs "N") /\
  (exists seen g qs, together race_files (map begun [job_change; job_remove]) seen g qs /\ map ended qs = [Some (Val tt); Some (Val tt)] /\ g (bs "F") = None) /\
  (exists seen g qs, together race_files (map begun [job_change; job_remove]) seen g qs /\ map ended qs = [Some (Exit 1); Some (Val tt)] /\ g (bs "F") = None) /\
  (exists seen g qs, together race_files (map begun [job_remove; job_unadd]) seen g qs /\ map ended qs = [Some (Exit 1); Some (Val tt)] /\ g (bs "F") = None) /\
  (exists seen g qs, together race_files (map begun [job_make; job_remake]) seen g qs /\ map ended qs = [Some (Val tt); Some (Val tt)] /\
     g (bs "N") = Some (File rw (bs "three"))).
Proof.
  split; [exact mixed_two|]. split; [exact removers_two|]. split; [exact rivals_two|]. split; [|split; [|split]].
  - set (order := repeat 0 9 ++ repeat 1 3). set (r := exec order race_files (map begun [job_change; job_remove])).
    exists (fst (fst r)), (snd (fst r)), (snd r). split; [exact (exec_together order _ _)|]. split; vr.
  - set (order := repeat 1 3 ++ repeat 0 9). set (r := exec order race_files (map begun [job_change; job_remove])).
    exists (fst (fst r)), (snd (fst r)), (snd r). split; [exact (exec_together order _ _)|]. split; vr.
  - set (order := [0; 1; 1; 0; 1; 0]). set (r := exec order race_files (map begun [job_remove; job_unadd])).
    exists (fst (fst r)), (snd (fst r)), (snd r). split; [exact (exec_together order _ _)|]. split; vr.
  - set (order := [1; 0; 1; 0; 1; 0; 1]). set (r := exec order race_files (map begun [job_make; job_remake])).
    exists (fst (fst r)), (snd (fst r)), (snd r). split; [exact (exec_together order _ _)|]. split; vr.
Qed.

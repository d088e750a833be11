(* Proof_Props_Open.v - the property lemmas on runs of the patch tool at the same time with open
   files. *)
From Coq Require Import String.
From Verif Require Import Base Model_Seq Model_Changes Model_IO Model_Text Model_Bytes Model_Json Model_Files Model_Conc Model_Links Model_Open Spec Spec_Files Spec_Conc Spec_Links Spec_Open Cases Proof_Seq Proof_Utf8 Proof_Json Proof_IO Proof_Text Proof_Bytes Proof_Term Proof_Files Proof_Conc Proof_Links Proof_Open Proof_Props_Files Proof_Props_Conc.

(* N is to be created (patch U), its first line changed (patch W), and it is to be removed (patch
   X); F and its other name G are there, and a line of F is to be changed (patch Y) *)
Definition create_n : diff := TextAdd (PathAndLines (bs "N") (L "A B ")).
Definition change_n : diff := TextChange (TextDiff (bs "N") (bs "M") [TextClump (0, 0)%Z (Snippet 0 (L "A ")) (Snippet 0 (L "Z "))]).
Definition remove_n : diff := ByteRemove (PathAndBytes (bs "N") false (bs "q")).
Definition change_f : diff := TextChange (TextDiff (bs "F") (bs "M") [TextClump (0, 0)%Z (Snippet 0 (L "A ")) (Snippet 0 (L "Z "))]).
Definition open_files : ifs :=
  Ifs (fun p => match find (fun x => path_eqb (fst x) p) [(bs "F", EFile 0); (bs "G", EFile 0); (bs "U", EFile 1); (bs "W", EFile 2); (bs "X", EFile 3); (bs "Y", EFile 4)] with
                | Some (_, e) => Some e | None => None end)
    (fun n => match n with 0 => (rwx, bs "A B C ") | 1 => (rw, saved create_n) | 2 => (rw, saved change_n) | 3 => (rw, saved remove_n) | _ => (rw, saved change_f) end) 5.
Lemma open_wellformed : wellformed open_files.
Proof.
  intros p n. unfold open_files. cbn [names used].
  repeat (cbn [find fst]; match goal with |- context [path_eqb ?a p] => destruct (path_eqb a p) end; [intros [= <-]; lia|]). discriminate.
Qed.
Definition job_create_n : job := Job (env_with (bs "T1")) (bs "U") false create_n.
Definition job_change_n : job := Job (env_with (bs "T2")) (bs "W") false change_n.
Definition job_remove_n : job := Job (env_with (bs "T3")) (bs "X") false remove_n.
Definition job_change_f : job := Job (env_with (bs "T4")) (bs "Y") false change_f.
Local Ltac held n := split; [eexists; split; [exists n; split; [vr|reflexivity]|vr]|intros q; vm_compute; discriminate].
Lemma assorted_jobs : assorted open_files [job_create_n; job_change_n; job_remove_n; job_change_f].
Proof.
  split; [exact open_wellformed|]. split.
  { constructor; [held 1|]. constructor; [held 2|]. constructor; [held 3|]. constructor; [held 4|constructor]. }
  split; [repeat constructor; cbn; intuition discriminate|]. split; names.
Qed.
Lemma assorted_serial : assorted open_files [job_create_n; job_change_n].
Proof.
  split; [exact open_wellformed|]. split; [constructor; [held 1|]; constructor; [held 2|constructor]|].
  split; [repeat constructor; cbn; intuition discriminate|]. split; names.
Qed.
Lemma assorted_two : assorted open_files [job_create_n; job_change_f].
Proof.
  split; [exact open_wellformed|]. split; [constructor; [held 1|]; constructor; [held 4|constructor]|].
  split; [repeat constructor; cbn; intuition discriminate|]. split; names.
Qed.
Definition data_at (I : ifs) (p : path) : option (list byte) := match names I p with Some (EFile n) => Some (snd (nodes I n)) | _ => None end.
Lemma data_at_file I p d : file_at I p d <-> data_at I p = Some d.
Proof.
  unfold file_at, data_at. split; [now intros (n & -> & ->)|]. destruct (names I p) as [[n| |]|] eqn:E; try discriminate. intros [= <-]. now exists n.
Qed.

(* ------------------------------------------------------------------ C129 *)
(* C129, full statement: what runs on one file at the same time leave there, if all of them report
   success, they could have left one after the other, in some order.  It is false: a file that is
   being created can be changed before all of it has been written.  The change replaces it; what is
   written later goes to the file without a name, and is lost.  Both report success. *)
Lemma p_C129_serial_refuted : exists I j k p seen J qs d, assorted I [j; k] /\ fault_free (j_env j) /\ fault_free (j_env k) /\
  target (j_diff j) = p /\ target (j_diff k) = p /\
  at_once I (map started [j; k]) seen J qs /\ map over qs = [Some (Val tt); Some (Val tt)] /\ file_at J p d /\
  (forall o seen1 J1 o' seen2 J2, patch_links (j_env j) (j_patch j) (j_reverse j) I = (o, seen1, J1) ->
     patch_links (j_env k) (j_patch k) (j_reverse k) J1 = (o', seen2, J2) -> ~ file_at J2 p d) /\
  (forall o seen1 J1 o' seen2 J2, patch_links (j_env k) (j_patch k) (j_reverse k) I = (o, seen1, J1) ->
     patch_links (j_env j) (j_patch j) (j_reverse j) J1 = (o', seen2, J2) -> ~ file_at J2 p d).
Proof.
  set (order := [0; 0; 0; 0; 0; 0; 1; 1; 1; 1; 1; 1; 1; 1; 1; 1; 1; 1; 0; 0; 0; 0]).
  exists open_files, job_create_n, job_change_n, (bs "N"). set (r := take_turns order open_files (map started [job_create_n; job_change_n])).
  exists (fst (fst r)), (snd (fst r)), (snd r), (bs "Z ").
  split; [exact assorted_serial|]. split; [intros n; reflexivity|]. split; [intros n; reflexivity|]. split; [reflexivity|]. split; [reflexivity|].
  split; [exact (turns_at_once order _ _)|]. split; [vr|]. split; [apply data_at_file; vr|].
  split; intros o seen1 J1 o' seen2 J2 H1 H2; rewrite data_at_file;
    [assert (E : J2 = snd (patch_links (j_env job_change_n) (j_patch job_change_n) (j_reverse job_change_n) (snd (patch_links (j_env job_create_n) (j_patch job_create_n) (j_reverse job_create_n) open_files))))
    |assert (E : J2 = snd (patch_links (j_env job_create_n) (j_patch job_create_n) (j_reverse job_create_n) (snd (patch_links (j_env job_change_n) (j_patch job_change_n) (j_reverse job_change_n) open_files))))];
    try (rewrite H1; cbn [snd]; rewrite H2; reflexivity); rewrite E; vm_compute; discriminate.
Qed.
(* What does hold, for any number of runs that change, create and remove files, with their own
   temporary files, whatever fails and wherever runs are killed, with the bytes written in any
   portions and other names of the same files: all files there were at the start keep their content,
   and all names stay what they are, except those of the targets and the temporary files.  At every
   moment a target is what it was, or gone, by one of the runs that remove it, or the name of a
   file with what some of the changes, one after the other and each completely, have made of what
   was there or of a beginning of what one of the runs creates.  At the end no run that failed has
   left a trace there.  A change that reports success has put its result in place at some moment,
   and a removal has removed the file.  Missing: that a change finds all of what
   is created, and that what has been changed or removed in between is not replaced. *)
Lemma p_C129_serial_partial : forall I js seen J qs, assorted I js -> at_once I (map started js) seen J qs ->
  (forall h, In h (I :: seen) ->
     (forall n, n < used I -> nodes h n = nodes I n) /\
     (forall p, ~ In p (targets js) -> ~ In p (temps js) -> names h p = names I p) /\
     (forall p, In p (targets js) -> names h p = names I p \/
        names h p = None /\ (exists i j, nth_error js i = Some j /\ target (j_diff j) = p /\ removal j) \/
        exists is d, file_at h p d /\ grown I js p is d)) /\
  (forall p, In p (targets js) -> names J p = names I p \/
     names J p = None /\ (exists i j, nth_error js i = Some j /\ target (j_diff j) = p /\ removal j /\
       forall q o, nth_error qs i = Some q -> over q = Some o -> o = Val tt) \/
     exists is d, file_at J p d /\ grown I js p is d /\ forall i q o, In i is -> nth_error qs i = Some q -> over q = Some o -> o = Val tt) /\
  (forall i j q, nth_error js i = Some j -> nth_error qs i = Some q -> over q = Some (Val tt) ->
     (is_change (j_diff j) -> (exists h is d, In h seen /\ file_at h (target (j_diff j)) d /\ grown I js (target (j_diff j)) (i :: is) d) /\ names J (e_tmp (j_env j)) = None) /\
     (removal j -> exists h, In h seen /\ names h (target (j_diff j)) = None)).
Proof. intros I js seen J qs Hg H. exact (at_once_jobs I js Hg seen J qs H). Qed.
(* Runs on different names do not disturb each other, even if two names are those of one file:
   each ends as it would alone. *)
Lemma p_C129_apart : forall I js seen J qs, assorted I js -> NoDup (targets js) -> at_once I (map started js) seen J qs ->
  forall i j q o, nth_error js i = Some j -> nth_error qs i = Some q -> over q = Some o ->
  (o = Val tt -> removal j -> names J (target (j_diff j)) = None) /\
  (o = Val tt -> is_change (j_diff j) -> exists old new, file_at I (target (j_diff j)) old /\
     patches_to (e_dbg (j_env j)) (j_reverse j) (j_diff j) old new /\ file_at J (target (j_diff j)) new) /\
  (forall c, o = Val tt -> creation j c -> names I (target (j_diff j)) <> None -> names J (target (j_diff j)) = names I (target (j_diff j))) /\
  (forall c, o = Val tt -> creation j c -> fault_free (j_env j) -> names I (target (j_diff j)) = None -> file_at J (target (j_diff j)) c) /\
  (o <> Val tt -> names J (target (j_diff j)) = names I (target (j_diff j))).
Proof. intros I js seen J qs Hg Hn H. exact (at_once_apart I js Hg seen J qs Hn H). Qed.
(* A run alone does what it does in the model of C99, whatever fails: it comes to an end, with the
   same outcome and the same names and files, and the states on the way are among those there. *)
Lemma p_C129_alone : forall E patch reverse I,
  (exists seen J q, at_once I [patch_run E patch reverse] seen J [q] /\ over q <> None) /\
  forall seen J q o, at_once I [patch_run E patch reverse] seen J [q] -> over q = Some o ->
  exists seen' J', patch_links E patch reverse I = (o, seen', J') /\ alike J J' /\
    forall h, In h seen -> exists h', In h' (I :: seen') /\ alike h h'.
Proof.
  intros E patch reverse I. split; [apply at_once_ends|]. intros seen J q o H Ho.
  destruct (at_once_whole _ _ _ _ _ H E 0 _ q o eq_refl (calm_main E patch reverse) eq_refl Ho) as (H1 & H2 & H3). rewrite whole_main in H1, H2, H3.
  destruct (patch_links E patch reverse I) as [[o' seen'] J']. cbn [fst snd] in *. subst o'. exists seen', J'. split; [reflexivity|]. split; [assumption|exact H3].
Qed.
(* a creation, a change and a removal of N one after the other, with a change of F in between; the
   creation of N and a change of F in turns *)
Lemma e_C129_example :
  assorted open_files [job_create_n; job_change_n; job_remove_n; job_change_f] /\
  (exists seen J qs, at_once open_files (map started [job_create_n; job_change_n; job_remove_n; job_change_f]) seen J qs /\
     map over qs = [Some (Val tt); Some (Val tt); Some (Val tt); Some (Val tt)] /\ names J (bs "N") = None /\
     file_at J (bs "F") (bs "Z B C ") /\ file_at J (bs "G") (bs "A B C ") /\ exists h, In h seen /\ file_at h (bs "N") (bs "Z B ")) /\
  (assorted open_files [job_create_n; job_change_f] /\ NoDup (targets [job_create_n; job_change_f]) /\
   exists seen J qs, at_once open_files (map started [job_create_n; job_change_f]) seen J qs /\
     map over qs = [Some (Val tt); Some (Val tt)] /\ file_at J (bs "N") (bs "A B ") /\ file_at J (bs "F") (bs "Z B C ")).
Proof.
  split; [exact assorted_jobs|]. split.
  - set (order := (repeat 0 10 ++ [3; 3; 3; 3] ++ repeat 1 16 ++ [3; 3; 3] ++ [2; 2; 2] ++ repeat 3 16)%list).
    set (r := take_turns order open_files (map started [job_create_n; job_change_n; job_remove_n; job_change_f])).
    exists (fst (fst r)), (snd (fst r)), (snd r). split; [exact (turns_at_once order _ _)|]. split; [vr|]. split; [vr|].
    split; [apply data_at_file; vr|]. split; [apply data_at_file; vr|].
    assert (A : existsb (fun h => match data_at h (bs "N") with Some d => line_eqb d (bs "Z B ") | None => false end) (fst (fst r)) = true) by vr.
    apply existsb_exists in A as (h & Hh & A). exists h. split; [assumption|]. apply data_at_file. destruct (data_at h (bs "N")) as [d|]; [|discriminate A].
    apply line_eqb_lawful in A. rewrite A. reflexivity.
  - split; [exact assorted_two|]. split; [repeat constructor; cbn; intuition discriminate|].
    set (order := List.concat (repeat [0; 1] 30)). set (r := take_turns order open_files (map started [job_create_n; job_change_f])).
    exists (fst (fst r)), (snd (fst r)), (snd r). split; [exact (turns_at_once order _ _)|]. split; [vr|]. split; apply data_at_file; vr.
Qed.

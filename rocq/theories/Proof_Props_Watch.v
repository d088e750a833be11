(* Proof_Props_Watch.v - the property lemmas on a diff made while its files are being patched. *)
From Coq Require Import String.
From Verif Require Import Base Model_Seq Model_Changes Model_IO Model_Text Model_Bytes Model_Json Model_Files Model_Conc Model_Watch Spec Spec_Files Spec_Conc Spec_Watch Cases Proof_Seq Proof_Utf8 Proof_Json Proof_IO Proof_Text Proof_Bytes Proof_Diff Proof_Term Proof_Files Proof_Conc Proof_Watch Proof_Props_Files Proof_Props_Conc.

Lemma in_order_in states at_ n : in_order states at_ -> In (at_ n) states.
Proof. intros (mo & _ & H). exact (nth_error_In _ _ (H n)). Qed.
Lemma states_whole f js seen g qs h p : orderly f js -> together f (map begun js) seen g qs -> In h (f :: seen) -> ~ In p (temps js) -> whole f js p (h p).
Proof.
  intros Ho Ht Hh Hp. destruct (p_C98_some_kept_partial f js seen g qs Ho Ht) as (H & _). destruct (H h Hh) as [H1 H2]. split; intros K; [now apply H2|now apply H1].
Qed.
Lemma text_of_same h h' p ls : h p = h' p -> text_of h p ls -> text_of h' p ls.
Proof. intros E (c & Hc & H). exists c. split; [|exact H]. unfold content in *. now rewrite <- E. Qed.
(* the states of a run of the processes, and moments among them *)
Definition early_late (states : list fs) (f : fs) (n k : nat) : nat -> fs := fun m => nth (if m <? n then 0 else k) states f.
Lemma early_late_order states f n k : k < length states -> in_order states (early_late states f n k).
Proof.
  intros Hk. exists (fun m => if m <? n then 0 else k). split.
  - intros a b Hab. destruct (Nat.ltb_spec a n), (Nat.ltb_spec b n); lia.
  - intros m. unfold early_late. apply nth_error_nth'. destruct (m <? n); lia.
Qed.
Lemma never_same E states before after context d :
  forallb (fun h => match fst (diff_new E before after context (start h)) with Val (Some d') => negb (list_eqb Byte.eqb (saved d') (saved d)) | _ => true end) states = true ->
  forall h, In h states -> fst (diff_new E before after context (start h)) <> Val (Some d).
Proof.
  intros H h Hh K. rewrite forallb_forall in H. specialize (H h Hh). rewrite K in H. apply Bool.negb_true_iff in H.
  assert (X : list_eqb Byte.eqb (saved d) (saved d) = true) by (apply (list_eqb_lawful _ byte_eqb_lawful); reflexivity). congruence.
Qed.

(* F and N are texts, M is not UTF-8 before it is patched *)
Definition change_n : diff := TextChange (TextDiff (bs "N") (bs "W") [TextClump (1, 1)%Z (Snippet 5 (L "F G H ")) (Snippet 5 (L "F S U H "))]).
Definition change_m : diff := ByteChange (ByteDiff (bs "M") (bs "K") false [ByteClump (0, 1)%Z (Snippet 0 [xff; x62]) (Snippet 0 (bs "ab"))]).
Definition seen_files : fs :=
  files [(bs "F", bs "A B C D E F G H I J "); (bs "N", bs "A B C D E F G H I J Y Z "); (bs "M", xff :: bs "bcd"); (bs "P", saved change_bc); (bs "Q", saved change_n); (bs "R", saved change_m)].
Definition job_n : job := Job (env_with (bs "T2")) (bs "Q") false change_n.
Definition job_m : job := Job (env_with (bs "T3")) (bs "R") false change_m.
Definition job_f : job := Job (env_with (bs "T1")) (bs "P") false change_bc.
Lemma seen_holds p d : seen_files p = Some (File rw (saved d)) -> diff_from_json (saved d) = Ok (Some d) -> holds_diff seen_files p d.
Proof. intros H1 H2. exists (saved d). split; [unfold content; now rewrite H1|assumption]. Qed.
Ltac seen_job := split; [apply seen_holds; vr|exact I].
Lemma orderly_fn : orderly seen_files [job_f; job_n].
Proof. split; [constructor; [seen_job|constructor; [seen_job|constructor]]|]. split; [repeat constructor; cbn; intuition discriminate|]. split; names. Qed.
Lemma orderly_m : orderly seen_files [job_m].
Proof. split; [constructor; [seen_job|constructor]|]. split; [repeat constructor; cbn; intuition discriminate|]. split; names. Qed.
Lemma orderly_n : orderly seen_files [job_n].
Proof. split; [constructor; [seen_job|constructor]|]. split; [repeat constructor; cbn; intuition discriminate|]. split; names. Qed.

(* ------------------------------------------------------------------ C109 *)
(* As long as nothing changes, this is the diff of Model_Files.v, operation by operation. *)
Lemma p_C109_alone : forall E f before after context, diff_new E before after context (start f) =
  (fst (diff_while E (fun _ => f) before after context), World f [f] (snd (diff_while E (fun _ => f) before after context)) []).
Proof. intros E f before after context. apply same_diff. Qed.

(* C109, full statement: a diff made while the patch tool is at work on the files is one that
   could have been made, without disturbance, at some moment.  It is false: the second file is read
   after the first.  Here both are patched in between, without any fault, and the diff is one of
   contents that the two files never had at the same time. *)
Lemma p_C109_one_moment_refuted : exists f js seen g qs E at_ before after context d n,
  orderly f js /\ Forall (fun j => fault_free (j_env j)) js /\ fault_free E /\ context <= 255 /\
  together f (map begun js) seen g qs /\ Forall (fun q => ended q = Some (Val tt)) qs /\ in_order (f :: seen) at_ /\
  (forall h, In h (f :: seen) -> (exists ls, text_of h before ls) /\ exists ls, text_of h after ls) /\
  diff_while E at_ before after context = (Val (Some d), n) /\
  forall h, In h (f :: seen) -> fst (diff_new E before after context (start h)) <> Val (Some d).
Proof.
  set (order := repeat 0 9 ++ repeat 1 9). set (r := exec order seen_files (map begun [job_f; job_n])).
  set (states := seen_files :: fst (fst r)). set (at_ := early_late states seen_files 4 (pred (List.length states))).
  exists seen_files, [job_f; job_n], (fst (fst r)), (snd (fst r)), (snd r), (env_with (bs "T9")), at_, (bs "F"), (bs "N"), 2.
  set (d := match fst (diff_while (env_with (bs "T9")) at_ (bs "F") (bs "N") 2) with Val (Some d) => d | _ => change_n end). exists d, 6.
  split; [exact orderly_fn|]. split; [repeat constructor|]. split; [split; reflexivity|]. split; [lia|]. split; [exact (exec_together order _ _)|].
  split. { assert (E : map ended (snd r) = [Some (Val tt); Some (Val tt)]) by vr. destruct (snd r) as [|q [|q' [|]]]; try discriminate E. injection E as E1 E2. now repeat constructor. }
  split; [apply early_late_order; vm_compute; repeat constructor|].
  split. { intros h Hh. assert (T : forallb (fun h => match h (bs "F"), h (bs "N") with Some (File m c), Some (File m' c') => N.testbit m 8 && N.testbit m' 8 && utf8_valid c && utf8_valid c' | _, _ => false end) states = true) by vr.
    rewrite forallb_forall in T. specialize (T h Hh). destruct (h (bs "F")) as [[m c|]|] eqn:EF; try discriminate T. destruct (h (bs "N")) as [[m' c'|]|] eqn:EN; try discriminate T.
    apply andb_prop in T as [T T4]. apply andb_prop in T as [T T3]. apply andb_prop in T as [T1 T2].
    split; [exists (split_lines c), c|exists (split_lines c'), c']; (split; [unfold content, readable; rewrite ?EF, ?EN, ?T1, ?T2; reflexivity|]); (split; [now apply utf8_valid_spec|apply split_lines_lines_of]). }
  split; [vr|]. apply never_same. vr.
Qed.
(* Nor does the kind of the diff fit what it says: the reading as bytes comes after the attempt to
   read a text.  Here a file that is not UTF-8 is patched in between, and both contents that the
   diff has been made from are texts; it is a diff of bytes all the same. *)
Lemma p_C109_kind_refuted : exists f js seen g qs E at_ before after context d n h lb la,
  orderly f js /\ Forall (fun j => fault_free (j_env j)) js /\ fault_free E /\ context <= 255 /\
  together f (map begun js) seen g qs /\ Forall (fun q => ended q = Some (Val tt)) qs /\ in_order (f :: seen) at_ /\
  diff_while E at_ before after context = (Val (Some (ByteChange d)), n) /\
  In h (f :: seen) /\ text_of h before lb /\ text_of h after la /\ describes_at h h before after context (ByteChange d) /\
  forall h, In h (f :: seen) -> fst (diff_new E before after context (start h)) <> Val (Some (ByteChange d)).
Proof.
  set (order := repeat 0 9). set (r := exec order seen_files (map begun [job_m])).
  set (states := seen_files :: fst (fst r)). set (at_ := early_late states seen_files 6 (pred (List.length states))).
  exists seen_files, [job_m], (fst (fst r)), (snd (fst r)), (snd r), (env_with (bs "T9")), at_, (bs "F"), (bs "M"), 2.
  set (d := match fst (diff_while (env_with (bs "T9")) at_ (bs "F") (bs "M") 2) with Val (Some (ByteChange d)) => d | _ => ByteDiff [] [] true [] end). exists d, 10, (last states seen_files).
  exists (L "A B C D E F G H I J "), (L "abcd").
  split; [exact orderly_m|]. split; [repeat constructor|]. split; [split; reflexivity|]. split; [lia|]. split; [exact (exec_together order _ _)|].
  split. { assert (E : map ended (snd r) = [Some (Val tt)]) by vr. destruct (snd r) as [|q [|]]; try discriminate E. injection E as E1. now repeat constructor. }
  split; [apply early_late_order; vm_compute; repeat constructor|]. split; [vr|].
  assert (CF : content (last states seen_files) (bs "F") = Some (bs "A B C D E F G H I J ")) by vr.
  assert (CM : content (last states seen_files) (bs "M") = Some (bs "abcd")) by vr.
  split. { assert (X : forall l : list fs, l <> [] -> In (last l seen_files) l) by (intros l Hl; destruct (exists_last Hl) as (l' & a & ->); rewrite last_last; apply in_elt). apply X. discriminate. }
  split. { exists (bs "A B C D E F G H I J "). split; [exact CF|]. split; [apply utf8_valid_spec; vr|]. exact (split_lines_lines_of (bs "A B C D E F G H I J ")). }
  split. { exists (bs "abcd"). split; [exact CM|]. split; [apply utf8_valid_spec; vr|]. exact (split_lines_lines_of (bs "abcd")). }
  split. { do 3 (split; [vr|]). exists (bs "A B C D E F G H I J "), (bs "abcd"). split; [exact CF|]. split; [exact CM|]. vr. }
  apply never_same. vr.
Qed.
(* What does hold, whatever happens to the files and whatever fails: the program comes to an end
   after at most ten operations, with a diff or the report that there is none.  A diff describes
   what the first file held at one moment and the second file at one moment not before that.
   Missing: that these are the same moment, and that the kind fits. *)
Lemma p_C109_contents_partial : forall E at_ before after context, context <= 255 ->
  exists r n, diff_while E at_ before after context = (Val r, n) /\ n <= 10 /\
  forall d, r = Some d -> exists i j, i <= j < n /\ describes_at (at_ i) (at_ j) before after context d.
Proof.
  intros E at_ before after context Hc. destruct (watch_diff (e_fault E) at_ before after context 0 Hc) as (r & n & H1 & H2 & H3). exists r, n. split; [exact H1|]. split; [lia|].
  intros d Hd. destruct (H3 d Hd) as (i & j & K1 & K2 & K3). exists i, j. split; [lia|exact K3].
Qed.
(* If what happens is that the patch tool changes files: each of the two contents is what the file
   held at the beginning, or what complete patches have made of it - never half a patch. *)
Lemma p_C109_patched_partial : forall f js seen g qs E at_ before after context d n,
  orderly f js -> together f (map begun js) seen g qs -> in_order (f :: seen) at_ -> context <= 255 ->
  ~ In before (temps js) -> ~ In after (temps js) ->
  diff_while E at_ before after context = (Val (Some d), n) ->
  exists i j hb ha, i <= j /\ nth_error (f :: seen) i = Some hb /\ nth_error (f :: seen) j = Some ha /\
    describes_at hb ha before after context d /\ whole f js before (hb before) /\ whole f js after (ha after).
Proof.
  intros f js seen g qs E at_ before after context d n Ho Ht Hi Hc Hb Ha H.
  destruct (p_C109_contents_partial E at_ before after context Hc) as (r & n' & H1 & _ & H2). rewrite H in H1. injection H1 as <- <-.
  destruct (H2 d eq_refl) as (i & j & Hij & Hd). pose proof (in_order_in _ _ i Hi) as Ii. pose proof (in_order_in _ _ j Hi) as Ij.
  destruct Hi as (mo & Hmo & Hi). exists (mo i), (mo j), (at_ i), (at_ j). split; [apply Hmo; lia|]. split; [apply Hi|]. split; [apply Hi|]. split; [exact Hd|].
  split; eapply states_whole; eassumption.
Qed.
(* And if at most one of two text files is being patched, the diff is one that could have been made
   without disturbance. *)
Lemma p_C109_one_moment_partial : forall f js seen g qs E at_ before after context d n,
  orderly f js -> together f (map begun js) seen g qs -> in_order (f :: seen) at_ -> context <= 255 -> fault_free E ->
  ~ In before (temps js) -> ~ In after (temps js) -> ~ In before (targets js) \/ ~ In after (targets js) ->
  (forall h, In h (f :: seen) -> (exists ls, text_of h before ls) /\ exists ls, text_of h after ls) ->
  diff_while E at_ before after context = (Val (Some d), n) ->
  exists h, In h (f :: seen) /\ fst (diff_new E before after context (start h)) = Val (Some d).
Proof.
  intros f js seen g qs E at_ before after context d n Ho Ht Hi Hc FF Hb Ha Hone Htx H.
  assert (I : forall k, In (at_ k) (f :: seen)) by (intros k; now apply in_order_in).
  destruct (watch_texts (e_fault E) at_ before after context 0) as (lb & la & cl & n' & H1 & H2 & H3 & H4); [apply FF|exact Hc|intros k; apply Htx, I|].
  unfold diff_while in H. rewrite H in H4. injection H4 as -> ->. cbn [Nat.add] in *.
  assert (W : forall k p, ~ In p (temps js) -> ~ In p (targets js) -> at_ k p = f p).
  { intros k p Hp Hp'. destruct (states_whole f js seen g qs (at_ k) p Ho Ht (I k) Hp) as [_ K]. now apply K. }
  assert (D : forall h, In h (f :: seen) -> text_of h before lb -> text_of h after la ->
    exists h, In h (f :: seen) /\ fst (diff_new E before after context (start h)) = Val (Some (TextChange (TextDiff before after cl)))).
  { intros h Ih K1 K2. exists h. split; [exact Ih|]. destruct (p_C37_kind E h before after context FF Hc) as (r & w & -> & _ & K & _). cbn [fst].
    destruct (K lb la K1 K2) as (cl' & Ecl & ->). rewrite H3 in Ecl. now injection Ecl as <-. }
  destruct Hone as [K|K].
  - apply (D (at_ 4)); [apply I| |exact H2]. eapply text_of_same; [|exact H1]. now rewrite !W.
  - apply (D (at_ 2)); [apply I|exact H1|]. eapply text_of_same; [|exact H2]. now rewrite !W.
Qed.
(* N is patched while F and N are compared: the diff is that of the new N *)
Lemma e_C109_example : exists seen g qs at_ d n,
  orderly seen_files [job_n] /\ together seen_files (map begun [job_n]) seen g qs /\ in_order (seen_files :: seen) at_ /\
  diff_while (env_with (bs "T9")) at_ (bs "F") (bs "N") 1 = (Val (Some d), n) /\ n = 6 /\
  fst (diff_new (env_with (bs "T9")) (bs "F") (bs "N") 1 (start seen_files)) <> Val (Some d) /\
  fst (diff_new (env_with (bs "T9")) (bs "F") (bs "N") 1 (start g)) = Val (Some d) /\
  match d with TextChange t => List.length (td_clumps t) = 2 | _ => False end.
Proof.
  set (r := exec (repeat 0 9) seen_files (map begun [job_n])). set (states := seen_files :: fst (fst r)). set (at_ := early_late states seen_files 4 (pred (List.length states))).
  exists (fst (fst r)), (snd (fst r)), (snd r), at_. set (d := match fst (diff_while (env_with (bs "T9")) at_ (bs "F") (bs "N") 1) with Val (Some d) => d | _ => change_n end). exists d, 6.
  split; [exact orderly_n|]. split; [exact (exec_together (repeat 0 9) _ _)|]. split; [apply early_late_order; vm_compute; repeat constructor|]. split; [vr|]. split; [reflexivity|].
  split; [|split; vr]. refine (never_same _ [seen_files] _ _ _ _ _ seen_files (or_introl eq_refl)). vr.
Qed.

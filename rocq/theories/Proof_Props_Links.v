(* Proof_Props_Links.v - the property lemmas on files with several names. *)
From Coq Require Import String.
From Verif Require Import Base Model_Seq Model_Changes Model_IO Model_Text Model_Bytes Model_Json Model_Files Model_Conc Model_Links Spec Spec_Files Spec_Links Cases Proof_Seq Proof_Utf8 Proof_Json Proof_IO Proof_Text Proof_Bytes Proof_Term Proof_Files Proof_Conc Proof_Links Proof_Props_Files.

(* F and G are two names of one file, A a symbolic link to F; P is a saved diff (of the path A),
   Q a symbolic link to P; R is a diff that removes A, S one that adds A; D leads nowhere *)
Definition diff_remove : diff := TextRemove (PathAndLines (bs "A") (L "x y ")).
Definition diff_d : diff := TextAdd (PathAndLines (bs "D") (L "x y ")).
Definition diff_f : diff := TextChange (TextDiff (bs "F") (bs "B") [TextClump (1, 0)%Z (Snippet 0 (L "x y ")) (Snippet 0 (L "x z w "))]).
Definition linked : ifs :=
  Ifs (fun p => match find (fun x => path_eqb (fst x) p) [(bs "F", EFile 0); (bs "G", EFile 0); (bs "A", ELink (bs "F")); (bs "P", EFile 1); (bs "Q", ELink (bs "P"));
                  (bs "R", EFile 2); (bs "S", EFile 3); (bs "U", EFile 4); (bs "D", ELink (bs "X"))] with Some (_, e) => Some e | None => None end)
    (fun n => match n with 0 => (rwx, bs "x y ") | 1 => (rw, saved diff_ab) | 2 => (rw, saved diff_remove) | 3 => (rw, saved diff_d) | _ => (rw, saved diff_f) end) 5.
Lemma linked_wellformed : wellformed linked.
Proof.
  intros p n. unfold linked. cbn [names used].
  repeat (cbn [find fst]; match goal with |- context [path_eqb ?a p] => destruct (path_eqb a p) end; [intros [= <-]; lia|]). discriminate.
Qed.

Lemma triple_of {A B C} (x : A * B * C) a : fst (fst x) = a -> x = (a, snd (fst x), snd x).
Proof. destruct x as [[]]. now intros <-. Qed.
Ltac run3 := apply triple_of; vr.
Lemma patch_one d old st new : is_utf8 old -> fst (text_apply_into true (td_clumps d) (split_lines old) false (Writer [] None)) = Done st ->
  snd (text_apply_into true (td_clumps d) (split_lines old) false (Writer [] None)) = Writer new None -> patches_to true false (TextChange d) old new.
Proof.
  intros Hu H1 H2. eapply patches_text; [exact Hu|apply split_lines_lines_of|]. destruct (text_apply_into _ _ _ _ _) as [r w]. cbn [fst snd] in *. now rewrite H1, H2.
Qed.
Ltac one_patch := eapply patch_one; [apply utf8_valid_spec; vr|vr|vr].

(* ------------------------------------------------------------------ C99 *)
(* C99, full statement: patching a path changes the file it names, so that the new content is
   found under every name of the file, and the path stays what it is.  It is false: the path is
   made the name of a new file.  If it was a symbolic link, the link is gone and the file it led to
   has the old content, ... *)
Lemma p_C99_symbolic_link_refuted : exists E I patch d seen J p m old new, fault_free E /\ wellformed I /\ is_change d /\
  (exists ms s, seen_at I patch (Some (File ms s)) /\ diff_from_json s = Ok (Some d)) /\ patch_links E patch false I = (Val tt, seen, J) /\
  names I (target d) = Some (ELink p) /\ seen_at I (target d) (Some (File m old)) /\ patches_to (e_dbg E) false d old new /\
  ~ seen_at J p (Some (File m new)) /\ seen_at J p (Some (File m old)) /\ forall q, names J (target d) <> Some (ELink q).
Proof.
  exists (calm_env true), linked, (bs "P"), diff_ab. do 2 eexists. exists (bs "F"), rwx, (bs "x y "), (bs "x z w ").
  split; [intros n; reflexivity|]. split; [exact linked_wellformed|]. split; [exact I|].
  split; [exists rw, (saved diff_ab); split; [apply seen_view; vr|vr]|]. split; [run3|]. split; [vr|]. split; [apply seen_view; vr|].
  split; [one_patch|]. split; [intros H; apply seen_view in H; vm_compute in H; discriminate H|]. split; [apply seen_view; vr|]. vm_compute. discriminate.
Qed.
(* ... and if the file has another name (a hard link), it has the old content under that name. *)
Lemma p_C99_hard_link_refuted : exists E I patch d seen J p m old new n, fault_free E /\ wellformed I /\ is_change d /\
  (exists ms s, seen_at I patch (Some (File ms s)) /\ diff_from_json s = Ok (Some d)) /\ patch_links E patch false I = (Val tt, seen, J) /\
  names I (target d) = Some (EFile n) /\ names I p = Some (EFile n) /\ seen_at I (target d) (Some (File m old)) /\ patches_to (e_dbg E) false d old new /\
  ~ seen_at J p (Some (File m new)) /\ seen_at J p (Some (File m old)) /\ names J (target d) <> names J p.
Proof.
  exists (calm_env true), linked, (bs "U"), diff_f. do 2 eexists. exists (bs "G"), rwx, (bs "x y "), (bs "x z w "), 0.
  split; [intros n; reflexivity|]. split; [exact linked_wellformed|]. split; [exact I|].
  split; [exists rw, (saved diff_f); split; [apply seen_view; vr|vr]|]. split; [run3|]. split; [vr|]. split; [vr|]. split; [apply seen_view; vr|].
  split; [one_patch|]. split; [intros H; apply seen_view in H; vm_compute in H; discriminate H|]. split; [apply seen_view; vr|]. vm_compute. discriminate.
Qed.
(* What does hold, for any links, whatever fails: at every moment all files there were at the
   beginning have their content and mode, and all names except the path in the patch and the
   temporary file are what they were; the path is what it was or the name of a new file with the
   result of the patch on what was found through it - the latter at the end exactly if the status
   is 0.  Missing: that the other names of the file follow. *)
Lemma p_C99_change_partial : forall E patch reverse I m s d o seen J, wellformed I ->
  seen_at I patch (Some (File m s)) -> diff_from_json s = Ok (Some d) -> is_change d -> e_tmp E <> target d ->
  patch_links E patch reverse I = (o, seen, J) ->
  let made K := exists m old new n, seen_at I (target d) (Some (File m old)) /\ patches_to (e_dbg E) reverse d old new /\
    used I <= n /\ names K (target d) = Some (EFile n) /\ nodes K n = (e_mode E, new) in
  J = last seen I /\
  (forall K, In K (I :: seen) -> (forall n, n < used I -> nodes K n = nodes I n) /\
     (forall p, p <> target d -> p <> e_tmp E -> names K p = names I p) /\ (names K (target d) = names I (target d) \/ made K)) /\
  (o = Val tt -> made J) /\ (o <> Val tt -> names J (target d) = names I (target d)).
Proof.
  intros E patch reverse I m s d o seen J Hw Hp Hd Hc Ht H made. split; [exact (irun_last _ _ _ _ _ _ _ H)|].
  apply main_run in H as [(-> & -> & Ho)|(m' & s' & d' & Hv & _ & Hd' & H)].
  - split; [intros K [<-|[]]; auto|]. split; [contradiction|reflexivity].
  - apply seen_view in Hp. rewrite Hp in Hv. injection Hv as <- <-. rewrite Hd in Hd'. injection Hd' as <-.
    apply (diff_run E d reverse 2 I o seen J Hw Ht Hc) in H.
    assert (Hmade : forall n new K, (exists m old, view I (target d) = Some (File m old) /\ patches_to (e_dbg E) reverse d old new) -> put E I (target d) n new K -> made K).
    { intros n new K (m0 & old & H1 & H2) (_ & H3 & H4 & H5). exists m0, old, new, n. split; [now apply seen_view|]. auto. }
    destruct H as [(Ho & F & HJ)|(-> & u & new & s1 & s2 & Hm & -> & F1 & F2 & HJ)].
    + split; [|split; [contradiction|intros _; apply HJ]]. intros K [<-|HK]; [auto|]. rewrite Forall_forall in F. destruct (F K HK) as [[A1 A2] A3]. auto.
    + split; [|split; [intros _; now apply (Hmade u new)|contradiction]]. intros K [<-|HK]; [auto|]. rewrite Forall_forall in F1, F2. apply in_app_or in HK as [HK|HK].
      * destruct (F1 K HK) as [[A1 A2] A3]. auto.
      * specialize (F2 K HK). pose proof (Hmade _ _ _ Hm F2). destruct F2 as [[A1 A2] _]. auto.
Qed.
(* Removing a path removes this name, link or not, and nothing else. *)
Lemma p_C99_remove : forall E patch reverse I m s d o seen J,
  seen_at I patch (Some (File m s)) -> diff_from_json s = Ok (Some d) -> removes d reverse -> patch_links E patch reverse I = (o, seen, J) ->
  (forall K, In K (I :: seen) -> nodes K = nodes I /\ forall p, p <> target d -> names K p = names I p) /\
  (o = Val tt -> names J (target d) = None) /\ (o <> Val tt -> J = I /\ seen = []).
Proof.
  intros E patch reverse I m s d o seen J Hp Hd Hr H. apply main_run in H as [(-> & -> & Ho)|(m' & s' & d' & Hv & _ & Hd' & H)].
  - split; [intros K [<-|[]]; auto|]. split; [contradiction|auto].
  - apply seen_view in Hp. rewrite Hp in Hv. injection Hv as <- <-. rewrite Hd in Hd'. injection Hd' as <-.
    assert (Hi : i_diff E d reverse = i_del (target d)) by (destruct d; cbn in Hr; try contradiction; subst reverse; reflexivity).
    rewrite Hi in H. apply del_run in H as [(-> & -> & ->)|(-> & -> & ->)].
    + split; [intros K [<-|[]]; auto|]. split; [discriminate|auto].
    + split; [|split; [intros _; apply name_same|contradiction]]. intros K [<-|[<-|[]]]; [auto|]. split; [reflexivity|]. intros p Hn. apply name_other. congruence.
Qed.
(* Adding a path that is taken - if only by a link that leads nowhere - changes nothing, with
   status 0; otherwise the path becomes the name of a new file. *)
Lemma p_C99_add : forall E patch reverse I m s d c o seen J,
  seen_at I patch (Some (File m s)) -> diff_from_json s = Ok (Some d) -> creates d reverse c -> patch_links E patch reverse I = (o, seen, J) ->
  (names I (target d) <> None -> seen = [] /\ J = I) /\
  (forall K, In K seen -> (forall n, n < used I -> nodes K n = nodes I n) /\ (forall p, p <> target d -> names K p = names I p) /\
     names K (target d) = Some (EFile (used I)) /\ exists k, nodes K (used I) = (e_mode E, firstn k c)).
Proof.
  intros E patch reverse I m s d c o seen J Hp Hd Hr H. apply main_run in H as [(-> & -> & Ho)|(m' & s' & d' & Hv & _ & Hd' & H)]; [now split|].
  apply seen_view in Hp. rewrite Hp in Hv. injection Hv as <- <-. rewrite Hd in Hd'. injection Hd' as <-.
  assert (Hi : exists B (w : io B) r, i_diff E d reverse = i_add E (target d) w /\ emits w c r).
  { destruct d; cbn in Hr; try contradiction; destruct Hr as [-> ->]; do 3 eexists; (split; [reflexivity|]); first [apply emits_write_lines|apply emits_write_all]. }
  destruct Hi as (B & w & r & Hi & He). rewrite Hi in H. eapply add_run in H as [_ [(-> & ->)|(Hn & F)]]; [now split| |exact He].
  split; [contradiction|]. now rewrite Forall_forall in F.
Qed.
(* Where nothing fails, the links stand in the way of nothing: what can be patched is patched, a
   name that is there is removed, a name that is not there is added. *)
Lemma p_C99_calm : forall E patch reverse I m s d, fault_free E -> wellformed I ->
  seen_at I patch (Some (File m s)) -> readable m = true -> diff_from_json s = Ok (Some d) ->
  (forall mt old new, is_change d -> e_tmp E <> target d -> names I (e_tmp E) = None ->
     seen_at I (target d) (Some (File mt old)) -> readable mt = true -> patches_to (e_dbg E) reverse d old new ->
     exists seen J, patch_links E patch reverse I = (Val tt, seen, J) /\ names J (e_tmp E) = None /\ seen_at J (target d) (Some (File (e_mode E) new))) /\
  (removes d reverse -> names I (target d) <> None -> names I (target d) <> Some EDir ->
     exists seen J, patch_links E patch reverse I = (Val tt, seen, J) /\ names J (target d) = None) /\
  (forall c, creates d reverse c -> exists seen J, patch_links E patch reverse I = (Val tt, seen, J) /\
     (names I (target d) = None -> seen_at J (target d) (Some (File (e_mode E) c)))).
Proof.
  intros E patch reverse I m s d HE Hw Hp Hm Hd. apply seen_view in Hp. rewrite (main_calm E patch reverse I m s d HE Hp Hm Hd).
  assert (Hseen : forall J p u x c, names J p = Some (EFile u) -> nodes J u = (x, c) -> seen_at J p (Some (File x c))).
  { intros J p u x c H1 H2. eapply sa_file; [|exact H1|exact H2]. apply lt_here. intros q Hq. congruence. }
  split; [|split].
  - intros mt old new Hc Ht Htmp Hv Hr Hpt. apply seen_view in Hv.
    assert (H : exists seen J, irun E (i_diff E d reverse) 2 I = (Val tt, seen, J) /\ names J (e_tmp E) = None /\ exists u, used I <= u /\ names J (target d) = Some (EFile u) /\ nodes J u = (e_mode E, new)).
    { destruct Hpt as [d old ls st new Hu Hl Ha|d old u new Ha]; cbn [i_diff target] in *.
      - destruct (emitting_text_apply (e_dbg E) (td_clumps d) ls reverse) as (full & r & He). pose proof (emits_run _ _ _ He) as Ha'. rewrite Ha in Ha'. injection Ha' as <- <-.
        eapply change_calm; try eassumption. rewrite read_lines_spec. apply utf8_valid_spec in Hu. rewrite Hu. do 2 f_equal. symmetry. now apply lines_of_unique.
      - destruct (emitting_byte_apply (e_dbg E) (bd_clumps d) old reverse) as (full & r & He). pose proof (emits_run _ _ _ He) as Ha'. rewrite Ha in Ha'. injection Ha' as <- <-.
        eapply change_calm; try eassumption. reflexivity. }
    destruct H as (seen & J & H1 & H2 & u & _ & H3 & H4). exists seen, J. eauto.
  - intros Hr H1 H2. assert (Hi : i_diff E d reverse = i_del (target d)) by (destruct d; cbn in Hr; try contradiction; subst reverse; reflexivity).
    rewrite Hi. unfold i_del. cbn [irun]. unfold i_remove. rewrite HE. destruct (names I (target d)) as [[| |]|]; try contradiction; cbn [last];
      (do 2 eexists; split; [reflexivity|apply name_same]).
  - intros c Hr.
    assert (Hi : exists B (w : io B) b, i_diff E d reverse = i_add E (target d) w /\ emits w c (Done b)).
    { destruct d; cbn in Hr; try contradiction; destruct Hr as [-> ->]; do 3 eexists; (split; [reflexivity|]); first [apply emits_write_lines|apply emits_write_all]. }
    destruct Hi as (B & w & b & Hi & He). rewrite Hi. destruct (names I (target d)) eqn:En.
    + destruct (irun E (i_add E (target d) w) 2 I) as [[o seen] J] eqn:Er. apply add_run with (1 := He) in Er as [-> _]. exists seen, J. split; [reflexivity|discriminate].
    + destruct (add_calm E (target d) w c b 2 I HE En He) as (seen & J & H1 & H2 & H3). exists seen, J. split; [assumption|]. eauto.
Qed.
(* Where there are no links, a run is the run of Model_Files.v through states that look the same. *)
Lemma p_C99_linkless : forall E patch reverse I f o w, wellformed I -> linkless I -> looks_like I f -> patch_main E patch reverse (start f) = (o, w) ->
  exists seen J, patch_links E patch reverse I = (o, seen, J) /\ linkless J /\ looks_like J (w_fs w) /\
    Forall2 looks_like (I :: seen) (w_seen w) /\ Forall linkless seen.
Proof.
  intros E patch reverse I f o w Hw Hl Hf H. apply (like_iff I f Hw Hl) in Hf as Hlike.
  destruct (matches_main E patch reverse I f Hlike 0 [f] []) as (o' & seen & J & seen' & g & n' & R1 & R2 & R3 & R4).
  rewrite perform_main in R2. unfold start in H. rewrite H in R2. injection R2 as -> ->. exists seen, J. split; [exact R1|]. cbn [w_fs w_seen].
  destruct R4 as (W4 & L4 & N4). split; [assumption|]. split; [apply (like_iff J g W4 L4); now repeat split; try apply L4|].
  assert (K : Forall2 looks_like seen seen' /\ Forall linkless seen).
  { clear R1 H. induction R3 as [|x y l l' Hx HR [IH1 IH2]]; [split; constructor|]. split; constructor; try assumption; [|apply Hx].
    apply (like_iff x y); [apply Hx..|assumption]. }
  split; [|apply K]. constructor; [assumption|apply K].
Qed.
(* through the links: A is patched (by Q), removed, D is added; F is read through G *)
Lemma e_C99_example :
  seen_at linked (bs "Q") (Some (File rw (saved diff_ab))) /\ seen_at linked (bs "A") (Some (File rwx (bs "x y "))) /\ seen_at linked (bs "D") None /\
  (exists seen J, patch_links (calm_env true) (bs "Q") false linked = (Val tt, seen, J) /\ names J (bs "A") = Some (EFile 5) /\ nodes J 5 = (rw, bs "x z w ") /\
     seen_at J (bs "G") (Some (File rwx (bs "x y "))) /\ 10 <= length seen) /\
  (exists seen J, patch_links (calm_env true) (bs "R") false linked = (Val tt, seen, J) /\ names J (bs "A") = None /\ seen_at J (bs "F") (Some (File rwx (bs "x y ")))) /\
  (exists seen J, patch_links (calm_env true) (bs "S") false linked = (Val tt, seen, J) /\ names J (bs "D") = Some (ELink (bs "X")) /\ seen_at J (bs "X") None) /\
  (exists I, wellformed I /\ linkless I /\ looks_like I (files [(bs "A", bs "x y "); (bs "P", saved diff_ab)])).
Proof.
  split; [apply seen_view; vr|]. split; [apply seen_view; vr|]. split; [apply seen_view; vr|].
  split; [do 2 eexists; split; [run3|]; split; [vr|]; split; [vr|]; split; [apply seen_view; vr|vm_compute; repeat constructor]|].
  split; [do 2 eexists; split; [run3|]; split; [vr|apply seen_view; vr]|].
  split; [do 2 eexists; split; [run3|]; split; [vr|apply seen_view; vr]|].
  exists (Ifs (fun p => if path_eqb (bs "A") p then Some (EFile 0) else if path_eqb (bs "P") p then Some (EFile 1) else None)
    (fun n => match n with 0 => (rw, bs "x y ") | _ => (rw, saved diff_ab) end) 2).
  assert (W : wellformed (Ifs (fun p => if path_eqb (bs "A") p then Some (EFile 0) else if path_eqb (bs "P") p then Some (EFile 1) else None)
    (fun n => match n with 0 => (rw, bs "x y ") | _ => (rw, saved diff_ab) end) 2)).
  { intros p n. cbn [names used]. destruct (path_eqb (bs "A") p); [intros [= <-]; lia|]. destruct (path_eqb (bs "P") p); [intros [= <-]; lia|discriminate]. }
  assert (N : linkless (Ifs (fun p => if path_eqb (bs "A") p then Some (EFile 0) else if path_eqb (bs "P") p then Some (EFile 1) else None)
    (fun n => match n with 0 => (rw, bs "x y ") | _ => (rw, saved diff_ab) end) 2)).
  { split; cbn [names].
    - intros p q. destruct (path_eqb (bs "A") p); [discriminate|]. now destruct (path_eqb (bs "P") p).
    - intros p q n. destruct (path_reflect (bs "A") p) as [Ep|_]; [|destruct (path_reflect (bs "P") p) as [Ep|_]; [|discriminate]]; intros [= <-];
        (destruct (path_reflect (bs "A") q) as [Eq|_]; [|destruct (path_reflect (bs "P") q) as [Eq|_]; [|discriminate]]); intros [=]; congruence. }
  split; [exact W|]. split; [exact N|]. apply (like_iff _ _ W N). split; [exact W|]. split; [exact N|].
  intros p. unfold node_at, files. cbn [names nodes find fst]. destruct (path_eqb (bs "A") p); [reflexivity|]. destruct (path_eqb (bs "P") p); reflexivity.
Qed.

(* Proof_Props_Power.v - the property lemmas on power failures. *)
From Coq Require Import String.
From Verif Require Import Base Model_Seq Model_Changes Model_IO Model_Text Model_Bytes Model_Json Model_Files Model_Conc Model_Links Spec Spec_Files Spec_Links Spec_Power Cases Proof_Seq Proof_Utf8 Proof_Json Proof_IO Proof_Text Proof_Bytes Proof_Term Proof_Files Proof_Conc Proof_Links Proof_Props_Files Proof_Props_Links.

Lemma prefix_in {A} (x : A) l h rest : l = h ++ rest -> In x h -> In x l.
Proof. intros -> H. apply in_or_app. now left. Qed.
(* two moments of a history of which the first part is kept and the second put *)
Lemma split_in {A} (P Q : A -> Prop) s1 s2 : Forall P s1 -> Forall Q s2 -> forall h rest h1 G h2, s1 ++ s2 = h ++ rest -> h = h1 ++ G :: h2 ->
  (P G) \/ Forall Q (G :: h2).
Proof.
  intros F1 F2 h rest h1. revert s1 s2 F1 F2 h rest. induction h1 as [|x h1 IH]; intros s1 s2 F1 F2 h rest G h2 E Eh; subst h; cbn [app] in E.
  - destruct s1 as [|y s1]; cbn [app] in E.
    + right. subst s2. apply Forall_cons_iff in F2 as [H1 H2]. apply Forall_app in H2 as [H2 _]. now constructor.
    + injection E as -> _. left. now apply Forall_cons_iff in F1 as [H1 _].
  - destruct s1 as [|y s1]; cbn [app] in E.
    + subst s2. apply Forall_cons_iff in F2 as [_ H2]. eapply (IH [] _ (Forall_nil _) H2 (h1 ++ G :: h2) rest); [|reflexivity]. now cbn [app].
    + injection E as -> E. apply Forall_cons_iff in F1 as [_ F1]. eapply (IH s1 s2 F1 F2); [exact E|reflexivity].
Qed.

(* ------------------------------------------------------------------ C122 *)
(* C122, full statement: whenever the power fails during or after a run of the patch tool, the
   target is found with its old or with its complete new content, and with the new one if the run
   has ended with status 0.  Both parts are false, since nothing is ever asked to be put on the
   disk: the name may be that of the new file, of whose content nothing need be there, ... *)
Lemma p_C122_torn_refuted : exists E I patch d seen J m old new, fault_free E /\ wellformed I /\ is_change d /\
  (exists ms s, seen_at I patch (Some (File ms s)) /\ diff_from_json s = Ok (Some d)) /\ patch_links E patch false I = (Val tt, seen, J) /\
  seen_at I (target d) (Some (File m old)) /\ patches_to (e_dbg E) false d old new /\
  forall c, exists K, torn (I :: seen) K /\ seen_at K (target d) (Some (File (e_mode E) c)).
Proof.
  exists (calm_env true), linked, (bs "U"), diff_f. do 2 eexists. exists rwx, (bs "x y "), (bs "x z w ").
  split; [intros n; reflexivity|]. split; [exact linked_wellformed|]. split; [exact I|].
  split; [exists rw, (saved diff_f); split; [apply seen_view; vr|vr]|]. split; [run3|]. split; [apply seen_view; vr|]. split; [one_patch|].
  intros c. set (run := patch_links (calm_env true) (bs "U") false linked).
  exists (upd_node (snd run) 5 (rw, c)). split.
  - exists (snd run). split; [|split; [reflexivity|split; [reflexivity|]]].
    + destruct run as [[o seen] J] eqn:Er. cbn [fst snd]. unfold run, patch_links in Er. rewrite (irun_last _ _ _ _ _ _ _ Er).
      destruct seen as [|x seen] using rev_ind; [now left|]. rewrite last_last. right. apply in_or_app. right. now left.
    + intros n. destruct (Nat.eq_dec 5 n) as [<-|Hn]; [|now rewrite node_other by assumption]. rewrite node_same. split; [vr|].
      intros H. exfalso. assert (Hd : nodes linked 5 = nodes (snd run) 5) by (apply H; now left). vm_compute in Hd. discriminate Hd.
  - assert (Hn : names (upd_node (snd run) 5 (rw, c)) (target diff_f) = Some (EFile 5)) by vr.
    eapply sa_file; [|exact Hn|apply node_same]. apply lt_here. intros q Hq. congruence.
Qed.
(* ... and even a more careful system may have written nothing at all after a successful run. *)
Lemma p_C122_lost_refuted : exists E I patch d seen J K m old new, fault_free E /\ wellformed I /\ is_change d /\
  (exists ms s, seen_at I patch (Some (File ms s)) /\ diff_from_json s = Ok (Some d)) /\ patch_links E patch false I = (Val tt, seen, J) /\
  seen_at I (target d) (Some (File m old)) /\ patches_to (e_dbg E) false d old new /\ ordered (I :: seen) K /\
  ~ seen_at K (target d) (Some (File (e_mode E) new)) /\ seen_at K (target d) (Some (File m old)).
Proof.
  exists (calm_env true), linked, (bs "U"), diff_f. do 2 eexists. exists linked, rwx, (bs "x y "), (bs "x z w ").
  split; [intros n; reflexivity|]. split; [exact linked_wellformed|]. split; [exact I|].
  split; [exists rw, (saved diff_f); split; [apply seen_view; vr|vr]|]. split; [run3|]. split; [apply seen_view; vr|]. split; [one_patch|].
  split; [|split; [intros H; apply seen_view in H; vm_compute in H; discriminate H|apply seen_view; vr]].
  exists [], linked. eexists. split; [reflexivity|]. split; [reflexivity|]. split; [reflexivity|]. intros n. exists linked. split; [now left|reflexivity].
Qed.
(* What does hold, whatever fails and whenever the power does: all files there were have their
   content and mode, all names but the target and the temporary file are what they were, and the
   target is what it was or the name of a new file - the latter only if the run succeeds.  Missing:
   the content of the new file. *)
Lemma p_C122_torn_partial : forall E patch reverse I m s d o seen J h rest K, wellformed I ->
  seen_at I patch (Some (File m s)) -> diff_from_json s = Ok (Some d) -> is_change d -> e_tmp E <> target d ->
  patch_links E patch reverse I = (o, seen, J) -> I :: seen = h ++ rest -> torn h K ->
  (forall n, n < used I -> nodes K n = nodes I n) /\ (forall p, p <> target d -> p <> e_tmp E -> names K p = names I p) /\
  (names K (target d) = names I (target d) \/
   o = Val tt /\ exists n, used I <= n /\ names K (target d) = Some (EFile n) /\ fst (nodes K n) = e_mode E).
Proof.
  intros E patch reverse I m s d o seen J h rest K Hw Hp Hd Hc Ht H Hh (G & HG & K1 & _ & K2). rewrite (K1 (target d)).
  pose proof (p_C99_change_partial E patch reverse I m s d o seen J Hw Hp Hd Hc Ht H) as (_ & HK & _).
  pose proof (prefix_in _ _ _ _ Hh HG) as HG'. destruct (HK G HG') as (A1 & A2 & A3). split; [|split].
  - intros n Hn. rewrite <- (A1 n Hn). apply K2. intros X HX. destruct (HK X (prefix_in _ _ _ _ Hh HX)) as (B1 & _). rewrite (A1 n Hn). auto.
  - intros p P1 P2. rewrite K1. auto.
  - destruct o as [[]|c| |]; [destruct A3 as [A3|(m0 & old & new & n & _ & _ & C1 & C2 & C3)]; [now left|]|left..].
    { right. split; [reflexivity|]. exists n. split; [assumption|]. split; [assumption|]. now rewrite (proj1 (K2 n)), C3. }
    all: apply seen_view in Hp; apply main_run in H as [(-> & -> & Ho)|(m' & s' & d' & Hv & _ & Hd' & H)]; [now destruct HG' as [<-|[]]|].
    all: rewrite Hp in Hv; injection Hv as <- <-; rewrite Hd in Hd'; injection Hd' as <-.
    all: apply (diff_run E d reverse 2 I _ seen J Hw Ht Hc) in H as [(_ & F & _)|(Ho & _)]; [|discriminate]; destruct HG' as [<-|HG']; [reflexivity|].
    all: rewrite Forall_forall in F; apply (F G HG').
Qed.
(* On the more careful system the new file has the complete result of the patch.  Missing: that
   after status 0 it is the new file. *)
Lemma p_C122_ordered_partial : forall E patch reverse I m s d o seen J h rest K, wellformed I ->
  seen_at I patch (Some (File m s)) -> diff_from_json s = Ok (Some d) -> is_change d -> e_tmp E <> target d ->
  patch_links E patch reverse I = (o, seen, J) -> I :: seen = h ++ rest -> ordered h K ->
  (forall n, n < used I -> nodes K n = nodes I n) /\ (forall p, p <> target d -> p <> e_tmp E -> names K p = names I p) /\
  (names K (target d) = names I (target d) \/
   o = Val tt /\ exists m old new n, seen_at I (target d) (Some (File m old)) /\ patches_to (e_dbg E) reverse d old new /\
     used I <= n /\ names K (target d) = Some (EFile n) /\ nodes K n = (e_mode E, new)).
Proof.
  intros E patch reverse I m s d o seen J h rest K Hw Hp Hd Hc Ht H Hh (h1 & G & h2 & Eh & K1 & _ & K2). rewrite (K1 (target d)).
  pose proof (p_C99_change_partial E patch reverse I m s d o seen J Hw Hp Hd Hc Ht H) as (_ & HK & _).
  assert (HG : forall X, In X (G :: h2) -> In X (I :: seen)).
  { intros X HX. apply (prefix_in _ _ h rest Hh). subst h. apply in_or_app. now right. }
  destruct (HK G (HG G (or_introl eq_refl))) as (A1 & A2 & A3). split; [|split].
  - intros n Hn. destruct (K2 n) as (X & HX & ->). now apply (HK X (HG X HX)).
  - intros p P1 P2. rewrite K1. auto.
  - clear A1 A2 A3. apply seen_view in Hp. apply main_run in H as [(-> & -> & Ho)|(m' & s' & d' & Hv & _ & Hd' & H)].
    + left. destruct (HG G (or_introl eq_refl)) as [<-|[]]. reflexivity.
    + rewrite Hp in Hv. injection Hv as <- <-. rewrite Hd in Hd'. injection Hd' as <-.
      apply (diff_run E d reverse 2 I _ seen J Hw Ht Hc) in H as [(_ & F & _)|(-> & u & new & s1 & s2 & (mt & old & M1 & M2) & -> & F1 & F2 & _)].
      * left. destruct (HG G (or_introl eq_refl)) as [<-|HI]; [reflexivity|]. rewrite Forall_forall in F. apply (F G HI).
      * destruct (split_in (fun X => names X (target d) = names I (target d)) (put E I (target d) u new) (I :: s1) s2) with (h := h) (rest := rest) (h1 := h1) (G := G) (h2 := h2) as [HP|HQ]; try assumption.
        -- constructor; [reflexivity|]. eapply Forall_impl; [|exact F1]. intros X HX. apply HX.
        -- now left.
        -- right. split; [reflexivity|]. exists mt, old, new, u. split; [now apply seen_view|]. split; [assumption|].
           pose proof (Forall_inv HQ) as (_ & Q1 & Q2 & _). split; [assumption|]. split; [assumption|]. destruct (K2 u) as (X & HX & ->). rewrite Forall_forall in HQ. apply (HQ X HX).
Qed.
(* Removing and adding: all other names and all files there were are as they were; a removed name
   is gone or what it was, an added one not there or the name of a new file - with any content, on
   the more careful system with a beginning of the right one.  Missing: the rest of it, and that
   after status 0 the name is gone or there. *)
Lemma p_C122_others_partial : forall E patch reverse I m s d o seen J h rest K, wellformed I ->
  seen_at I patch (Some (File m s)) -> diff_from_json s = Ok (Some d) -> ~ is_change d ->
  patch_links E patch reverse I = (o, seen, J) -> I :: seen = h ++ rest -> torn h K \/ ordered h K ->
  (forall n, n < used I -> nodes K n = nodes I n) /\ (forall p, p <> target d -> names K p = names I p) /\
  (removes d reverse -> names K (target d) = names I (target d) \/ o = Val tt /\ names K (target d) = None) /\
  (forall c, creates d reverse c -> names K (target d) = names I (target d) \/
     names I (target d) = None /\ names K (target d) = Some (EFile (used I)) /\ (ordered h K -> exists k, nodes K (used I) = (e_mode E, firstn k c))).
Proof.
  intros E patch reverse I m s d o seen J h rest K Hw Hp Hd Hc H Hh Hl.
  assert (Hkind : removes d reverse \/ exists c, creates d reverse c).
  { destruct d; cbn in Hc |- *; try now destruct Hc. all: destruct reverse; eauto. }
  assert (HG : exists G, In G (I :: seen) /\ (forall p, names K p = names G p) /\
    forall n, (forall X, In X (I :: seen) -> nodes X n = nodes I n) -> nodes K n = nodes I n).
  { destruct Hl as [(G & HG & K1 & _ & K2)|(h1 & G & h2 & -> & K1 & _ & K2)].
    - exists G. split; [now apply (prefix_in _ _ h rest)|]. split; [assumption|]. intros n Hn. rewrite <- (Hn G) by now apply (prefix_in _ _ h rest).
      apply K2. intros X HX. rewrite (Hn X), (Hn G) by now apply (prefix_in _ _ h rest). reflexivity.
    - assert (HI : forall X, In X (G :: h2) -> In X (I :: seen)) by (intros X HX; apply (prefix_in _ _ _ _ Hh); apply in_or_app; now right).
      exists G. split; [apply HI; now left|]. split; [assumption|]. intros n Hn. destruct (K2 n) as (X & HX & ->). apply Hn, HI, HX. }
  destruct HG as (G & HG & K1 & K2). destruct Hkind as [Hr|(c0 & Hr)].
  - pose proof (p_C99_remove E patch reverse I m s d o seen J Hp Hd Hr H) as (HK & _). destruct (HK G HG) as (A1 & A2). split; [|split; [|split]].
    + intros n Hn. apply K2. intros X HX. now rewrite (proj1 (HK X HX)).
    + intros p Hn. rewrite K1. auto.
    + intros _. rewrite K1. apply seen_view in Hp. apply main_run in H as [(-> & -> & Ho)|(m' & s' & d' & Hv & _ & Hd' & H)]; [left; now destruct HG as [<-|[]]|].
      rewrite Hp in Hv. injection Hv as <- <-. rewrite Hd in Hd'. injection Hd' as <-.
      assert (Hi : i_diff E d reverse = i_del (target d)) by (destruct d; cbn in Hr; try contradiction; subst reverse; reflexivity).
      rewrite Hi in H. apply del_run in H as [(-> & -> & ->)|(-> & -> & ->)]; [left; now destruct HG as [<-|[]]|].
      destruct HG as [<-|[<-|[]]]; [now left|right; split; [reflexivity|apply name_same]].
    + intros c Hcr. destruct d; cbn in Hr, Hcr; try contradiction; destruct Hcr as [Hcr _]; congruence.
  - pose proof (p_C99_add E patch reverse I m s d c0 o seen J Hp Hd Hr H) as (B1 & B2).
    assert (HK : forall X, In X (I :: seen) -> (forall n, n < used I -> nodes X n = nodes I n) /\ (forall p, p <> target d -> names X p = names I p)).
    { intros X [<-|HX]; [now split|]. destruct (B2 X HX) as (C1 & C2 & _). now split. }
    split; [|split; [|split]].
    + intros n Hn. apply K2. intros X HX. now apply (HK X HX).
    + intros p Hn. rewrite K1. now apply (HK G HG).
    + intros Hrm. destruct d; cbn in Hr, Hrm; try contradiction; destruct Hr as [Hr _]; congruence.
    + intros c Hcr. assert (c = c0) as -> by (destruct d; cbn in Hr, Hcr; try contradiction; destruct Hr as [_ Hr], Hcr as [_ Hcr]; congruence).
      rewrite K1. destruct (names I (target d)) eqn:En.
      * destruct B1 as (-> & ->); [congruence|]. destruct HG as [<-|[]]. left. assumption.
      * destruct HG as [<-|HG]; [now left|]. right. destruct (B2 G HG) as (_ & _ & C3 & _). split; [reflexivity|]. split; [assumption|].
        intros (h1 & G' & h2 & -> & K1' & _ & K2'). destruct h1 as [|x h1]; cbn [app] in Hh; injection Hh as Hx Hh.
        { subst G'. rewrite <- K1, K1', En in C3. discriminate. }
        destruct (K2' (used I)) as (X & HX & ->). destruct (B2 X) as (_ & _ & _ & C4); [|exact C4].
        rewrite Hh. apply in_or_app. left. apply in_or_app. now right.
Qed.
(* a file is patched, and at any moment anything may be there, or the old or the new content *)
Lemma e_C122_example :
  let f := snd (patch_links (calm_env true) (bs "U") false linked) in
  fst (fst (patch_links (calm_env true) (bs "U") false linked)) = Val tt /\
  seen_at linked (bs "F") (Some (File rwx (bs "x y "))) /\ seen_at f (bs "F") (Some (File rw (bs "x z w "))) /\
  (exists K, torn (linked :: snd (fst (patch_links (calm_env true) (bs "U") false linked))) K /\ seen_at K (bs "F") (Some (File rw (bs "??")))) /\
  (exists K, ordered (linked :: snd (fst (patch_links (calm_env true) (bs "U") false linked))) K /\ seen_at K (bs "F") (Some (File rw (bs "x z w "))) /\
     seen_at K (bs "G") (Some (File rwx (bs "x y ")))).
Proof.
  cbv zeta. destruct (patch_links (calm_env true) (bs "U") false linked) as [[o seen] J] eqn:Er. cbn [fst snd].
  assert (HJ : In J (linked :: seen)).
  { unfold patch_links in Er. rewrite (irun_last _ _ _ _ _ _ _ Er). destruct seen as [|x seen'] using rev_ind; [now left|]. rewrite last_last. right. apply in_or_app. right. now left. }
  assert (Ho : o = Val tt) by (change o with (fst (fst (o, seen, J))); rewrite <- Er; vr).
  assert (HF : names J (bs "F") = Some (EFile 5)) by (change J with (snd (o, seen, J)); rewrite <- Er; vr).
  assert (HG : names J (bs "G") = Some (EFile 0)) by (change J with (snd (o, seen, J)); rewrite <- Er; vr).
  assert (H5 : nodes J 5 = (rw, bs "x z w ")) by (change J with (snd (o, seen, J)); rewrite <- Er; vr).
  assert (H0 : nodes J 0 = (rwx, bs "x y ")) by (change J with (snd (o, seen, J)); rewrite <- Er; vr).
  split; [assumption|]. split; [apply seen_view; vr|]. split; [|split].
  - eapply sa_file; [apply lt_here; congruence|exact HF|exact H5].
  - exists (upd_node J 5 (rw, bs "??")). split.
    + exists J. split; [assumption|]. split; [reflexivity|]. split; [reflexivity|]. intros n. destruct (Nat.eq_dec 5 n) as [<-|Hn]; [|now rewrite node_other by assumption].
      rewrite node_same, H5. split; [reflexivity|]. intros H. exfalso. specialize (H linked (or_introl eq_refl)). vm_compute in H. discriminate H.
    + eapply sa_file; [apply lt_here; cbn [names upd_node]; congruence|exact HF|apply node_same].
  - exists J. split.
    + apply in_split in HJ as (h1 & h2 & E). exists h1, J, h2. split; [assumption|]. split; [reflexivity|]. split; [reflexivity|]. intros n. exists J. split; [now left|reflexivity].
    + split; [eapply sa_file; [apply lt_here|exact HF|exact H5]|eapply sa_file; [apply lt_here|exact HG|exact H0]]; congruence.
Qed.

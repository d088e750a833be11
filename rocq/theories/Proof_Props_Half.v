(* Proof_Props_Half.v - the property lemmas on diffs of which some hunks have been put in. *)
From Coq Require Import String.
From Verif Require Import Base Model_Seq Model_Changes Model_IO Model_Text Model_Bytes Model_Json Model_Files Spec Spec_Outcome Spec_Shape Spec_Files Spec_Half Cases Proof_Seq Proof_Diff Proof_IO Proof_Text Proof_Apply Proof_Fuzzy Proof_Bytes Proof_Outcome Proof_Merge Proof_Props_Text Proof_Props_Outcome Proof_Props_Fewer Proof_Props_Select Proof_Select Proof_Props_Bytes Proof_Props_Ends Proof_Files Proof_Props_Files.

Local Ltac vr := vm_compute; reflexivity.

Lemma skipn_more {T} (t : list T) i x r : skipn i t = x ++ r -> skipn (i + List.length x) t = r.
Proof. intros H. rewrite Nat.add_comm, <- skipn_skipn, H, skipn_app, skipn_all, Nat.sub_diag. reflexivity. Qed.
Lemma sub_found {T} (t : list T) i x r : skipn i t = x ++ r -> sub t i (i + List.length x) = x.
Proof. intros H. unfold sub. rewrite H. replace (i + List.length x - i) with (List.length x) by lia. rewrite firstn_app, firstn_all, Nat.sub_diag. cbn. apply app_nil_r. Qed.
Lemma found_bound {T} (t : list T) i x r : skipn i t = x ++ r -> i <= List.length t -> i + List.length x <= List.length t.
Proof. intros H L. apply (f_equal (@List.length T)) in H. rewrite skipn_length, app_length in H. lia. Qed.
Lemma patched_split {T} (b : list T) hs i i' : i <= i' -> Forall (fun h => i' <= h_b h) hs -> patched b i hs = sub b i i' ++ patched b i' hs.
Proof.
  intros L F. destruct hs as [|h hs]; cbn [patched]; [symmetry; now apply sub_skipn|]. pose proof (Forall_inv F) as F1. cbv beta in F1. rewrite (app_assoc (sub b i i')). f_equal.
  unfold sub. rewrite <- (firstn_skipn (i' - i) (skipn i b)) at 1. rewrite firstn_app, firstn_firstn, skipn_skipn, firstn_length, skipn_length.
  replace (i' - i + i) with i' by lia. replace (Nat.min (h_b h - i) (i' - i)) with (i' - i) by lia. f_equal.
  destruct (Nat.le_gt_cases i' (List.length b)) as [K|K]; [f_equal; lia|]. rewrite (skipn_all2 b) by lia. now rewrite !firstn_nil.
Qed.
Lemma patched_same {T} (t b : list T) : forall hs i, ordered hs -> (match hs with h :: _ => i <= h_b h | [] => True end) -> skipn i t = skipn i b -> patched t i hs = patched b i hs.
Proof.
  induction hs as [|h hs IH]; intros i O F E; cbn [patched]; [exact E|]. destruct O as [O1 O2].
  assert (S : forall k, i <= k -> skipn k t = skipn k b).
  { intros k K. replace k with (k - i + i) by lia. rewrite <- !skipn_skipn. now rewrite E. }
  unfold sub. rewrite E. do 2 f_equal. apply IH; [exact O2|destruct hs; [exact I|lia]|apply S; lia].
Qed.
Lemma cover_b {T} context g (b a : list T) i j hs : cover context g b a i j hs -> Forall (fun h => i <= h_b h) hs.
Proof.
  induction 1 as [|i j d i' j' l t rest Hg H1 H2 H3 H4 H5 H6 H7 H8 H9 H IH]; constructor; [cbn; lia|].
  eapply Forall_impl; [|exact IH]. cbn. lia.
Qed.
Lemma put_incl {T} (hs put left : list (hunk T)) : put_in hs put left -> incl put hs.
Proof. induction 1 as [hs|h hs put left _ H IH|h hs put left _ H IH]; intros x K; [destruct K|destruct K as [<-|K]; [now left|right; auto]|right; auto]. Qed.

Lemma stands_incl {T} i k (hs put left : list (hunk T)) : stands i k hs put left -> incl put hs.
Proof. induction 1 as [i k|i hs|i k h hs put left _ _ H IH|i h hs put left H IH]; intros x K; [destruct K|destruct K|destruct K as [<-|K]; [now left|right; auto]|right; auto]. Qed.
Lemma stands_parts {T} i k (hs put left : list (hunk T)) : stands i k hs put left -> parts hs put left.
Proof. induction 1 as [|i hs| |]; [constructor|induction hs; now constructor|now constructor..]. Qed.
Lemma put_stands {T} context g (b a : list T) hs put left : put_in hs put left -> forall i, cover context g b a i i hs -> stands i i hs put left.
Proof.
  induction 1 as [hs|h hs put left Hl H IH|h hs put left Hl H IH]; intros i Hc; [constructor| |];
    inversion Hc as [|? ? d i' j' l tr rest Hg C1 C2 C3 C4 C5 C6 C7 C8 C9 Hc']; subst; cbn [h_old h_new] in Hl; rewrite !sub_length in Hl by lia; assert (j' = i') by lia; subst j'; specialize (IH i' Hc').
  - apply stands_put; cbn [h_b h_a h_old h_new]; [lia|lia|]. rewrite !sub_length by lia. now replace (i + d + (i' - (i + d))) with i' by lia.
  - apply stands_left; cbn [h_b h_a h_old h_new]. rewrite !sub_length by lia. now replace (i + d + (i' - (i + d))) with i' by lia.
Qed.

Section Half.
  Variables (dbg : bool) (context : nat) (g : nat -> nat -> nat -> Prop) (b a t : list line).

  Lemma half_outcome i k hs put left : stands i k hs put left -> forall j, cover context g b a i j hs -> k <= List.length t ->
    skipn k t = patched b i put -> Forall (fun h => ~ fits_somewhere h t) put -> Forall (fun h => List.length (h_old h) <= List.length t) put -> Forall hunk_ok hs ->
    exists fates, outcome dbg t k 0 hs (Some fates) (List.concat (patched b i hs)) /\ tally fates = Stats (List.length left) 0 (List.length put) 0 0.
  Proof.
    induction 1 as [i k|i hs|i k h hs put left Hi0 Ha0 H IH|i h hs put left H IH]; intros j Hc Hi E N S Hok.
    - exists []. split; [|reflexivity]. cbn [patched] in E |- *. rewrite <- E. now apply outcome_end.
    - cbn [patched] in E. pose proof (cover_ordered _ _ _ _ _ _ _ Hc) as Ho. pose proof (cover_first _ _ _ _ _ _ _ Hc) as Hf.
      exists (map (fun _ => Placed false 0 Cleanly) hs). split; [|apply tally_all]. rewrite <- (patched_same t b hs i Ho ltac:(destruct hs; [exact I|apply Hf]) E).
      apply in_place_outcome; [|exact Ho|destruct hs; [exact Hi|apply Hf]].
      apply Forall_forall. intros h Hh. destruct (cover_in_b _ _ _ _ _ _ _ h Hc Hh) as [B1 B2]. pose proof (cover_b _ _ _ _ _ _ _ Hc) as F. rewrite Forall_forall in F. specialize (F h Hh).
      assert (K : skipn (h_b h) t = skipn (h_b h) b) by (replace (h_b h) with (h_b h - i + i) by lia; rewrite <- !skipn_skipn; now rewrite E).
      split; [|unfold sub in *; now rewrite K]. apply (f_equal (@List.length line)) in K. rewrite !skipn_length in K. destruct (h_old h); cbn [List.length] in *; [|lia].
      apply (f_equal (@List.length line)) in E. rewrite !skipn_length in E. lia.
    - inversion Hc as [|? ? d i' j' l tr rest Hg C1 C2 C3 C4 C5 C6 C7 C8 C9 Hc']; subst. inversion Hok as [|? ? O1 O2]; subst. inversion N as [|? ? N1 N2]; subst. inversion S as [|? ? S1 S2]; subst.
      set (h := Hunk l tr (i + d) (sub b (i + d) i') (j + d) (sub a (j + d) j')) in *. cbn [patched] in E |- *.
      change (h_b h) with (i + d) in *. change (h_a h) with (j + d) in *. change (h_new h) with (sub a (j + d) j') in *. change (h_old h) with (sub b (i + d) i') in *.
      assert (j = k) by lia. subst k. rewrite !sub_length in * by lia. replace (i + d + (i' - (i + d))) with i' in * by lia. replace (j + d + (j' - (j + d))) with j' in * by lia.
      assert (Lx : List.length (sub b i (i + d)) = d) by (rewrite sub_length by lia; lia). assert (Ly : List.length (sub a (j + d) j') = j' - (j + d)) by (rewrite sub_length by lia; lia).
      pose proof (skipn_more _ _ _ _ E) as E1. rewrite Lx in E1. pose proof (skipn_more _ _ _ _ E1) as E2. rewrite Ly in E2. replace (j + d + (j' - (j + d))) with j' in E2 by lia.
      pose proof (found_bound _ _ _ _ E Hi) as L1. rewrite Lx in L1. pose proof (found_bound _ _ _ _ E1 L1) as L2. rewrite Ly in L2.
      destruct (IH j' Hc' ltac:(lia) E2 N2 S2 O2) as (fates & HO & HT).
      exists (Seen false 0 Cleanly :: fates). split.
      2:{ unfold tally, how_many in *. injection HT as T1 T2 T3 T4 T5. cbn [filter List.length]. now rewrite T1, T2, T3, T4, T5. }
      assert (Ek : kept_from (h_a h) 0 Cleanly + kept_count (h_new h) Cleanly = j') by (unfold kept_from, kept_count; change (h_new h) with (sub a (j + d) j'); rewrite Ly; cbn; lia).
      assert (Eo : sub t j j' = sub b i (i + d) ++ sub a (j + d) j').
      { rewrite app_assoc in E. pose proof (sub_found _ _ _ _ E) as K. rewrite app_length, Lx, Ly in K. replace (j + (d + (j' - (j + d)))) with j' in K by lia. exact K. }
      rewrite app_assoc, concat_app, <- Eo, <- Ek at 1. change (Some (?x :: ?l)) with (option_map (cons x) (Some l)).
      apply outcome_seen; [|rewrite Ek, Nat.max_r by lia; exact HO].
      assert (D : forall pos, decision h t pos None) by (apply decision_none; assumption).
      apply (fate_seen _ _ _ _ _ _ Cleanly); [apply D| | |].
      + intros _ [_ U]. revert U. unfold search_limit, core_length, zlen. change (h_old h) with (sub b (i + d) i'). rewrite sub_length by lia. cbn [h_lead h_trail h].
        pose proof (cover_first _ _ _ _ _ _ _ Hc') as F. destruct hs as [|n hs]; cbn [hd_error]; [lia|]. destruct F as [F _]. lia.
      + apply nearest_none. intros e _. apply D.
      + constructor. exists (j + d). change (h_old (swap_hunk h)) with (sub a (j + d) j'). change (h_a h) with (j + d). rewrite Ly. split; [lia|]. split; [lia|]. pose proof (sub_found _ _ _ _ E1) as K. rewrite Ly in K. exact K.
    - inversion Hc as [|? ? d i' j' l tr rest Hg C1 C2 C3 C4 C5 C6 C7 C8 C9 Hc']; subst. inversion Hok as [|? ? O1 O2]; subst.
      assert (Fp : Forall (fun x => i' <= h_b x) put).
      { pose proof (cover_b _ _ _ _ _ _ _ Hc') as F. rewrite Forall_forall in *. intros x Hx. apply F. now apply (stands_incl _ _ _ _ _ H). }
      assert (Fq : Forall (fun x => i + d <= h_b x) put) by (eapply Forall_impl; [|exact Fp]; cbv beta; lia).
      rewrite (patched_split b put i (i + d) ltac:(lia) Fq), (patched_split b put (i + d) i' ltac:(lia) Fp) in E.
      set (h := Hunk l tr (i + d) (sub b (i + d) i') (j + d) (sub a (j + d) j')) in *. cbn [patched].
      change (h_b h) with (i + d) in *. change (h_new h) with (sub a (j + d) j') in *. change (h_old h) with (sub b (i + d) i') in *.
      assert (Lx : List.length (sub b i (i + d)) = d) by (rewrite sub_length by lia; lia). assert (Ly : List.length (sub b (i + d) i') = i' - (i + d)) by (rewrite sub_length by lia; lia).
      pose proof (skipn_more _ _ _ _ E) as E1. rewrite Lx in E1. pose proof (skipn_more _ _ _ _ E1) as E2. rewrite Ly in E2. rewrite Ly in *. replace (i + d + (i' - (i + d))) with i' in * by lia.
      pose proof (found_bound _ _ _ _ E Hi) as L1. rewrite Lx in L1. pose proof (found_bound _ _ _ _ E1 L1) as L2. rewrite Ly in L2.
      destruct (IH j' Hc' ltac:(lia) E2 N S O2) as (fates & HO & HT).
      exists (Placed false 0 Cleanly :: fates). split.
      2:{ unfold tally, how_many in *. injection HT as T1 T2 T3 T4 T5. cbn [filter List.length]. now rewrite T1, T2, T3, T4, T5. }
      assert (Ek : kept_from (h_b h) 0 Cleanly = i + d) by (unfold kept_from; cbn; lia).
      pose proof (sub_found _ _ _ _ E) as Eo. rewrite Lx in Eo. rewrite !concat_app, <- Eo, <- Ek at 1. change (Some (?x :: ?l)) with (option_map (cons x) (Some l)).
      change (sub a (j + d) j') with (written h Cleanly). apply outcome_placed; [|now left|].
      + apply (fate_here _ _ _ _ _ _ Cleanly). constructor. exists (i + d). change (h_old h) with (sub b (i + d) i'). rewrite Ly. change (h_b h) with (i + d). split; [lia|]. split; [lia|].
        pose proof (sub_found _ _ _ _ E1) as K. rewrite Ly in K. exact K.
      + rewrite Ek. unfold kept_count. change (h_old h) with (sub b (i + d) i'). rewrite Ly. cbn [cut_lead cut_trail]. rewrite Nat.max_r by lia. replace (i + d + (i' - (i + d) - 0 - 0)) with i' by lia. exact HO.
  Qed.
End Half.
Lemma half_length {T} context g (b a : list T) hs put left : put_in hs put left -> forall i, i <= List.length b -> cover context g b a i i hs ->
  i + List.length (patched b i put) = List.length b.
Proof.
  induction 1 as [hs|h hs put left Hl H IH|h hs put left Hl H IH]; intros i Hi Hc; [cbn [patched]; rewrite skipn_length; lia| |];
    inversion Hc as [|? ? d i' j' l tr rest Hg C1 C2 C3 C4 C5 C6 C7 C8 C9 Hc']; subst; cbn [h_old h_new] in Hl; rewrite !sub_length in Hl by lia; assert (j' = i') by lia; subst j'; specialize (IH i' ltac:(lia) Hc').
  - cbn [patched h_b h_new h_old]. rewrite !app_length, !sub_length by lia. replace (i + d + (i' - (i + d))) with i' by lia. lia.
  - assert (Fp : Forall (fun x => i' <= h_b x) put).
    { pose proof (cover_b _ _ _ _ _ _ _ Hc') as F. rewrite Forall_forall in *. intros x Hx. apply F. now apply (put_incl _ _ _ H). }
    rewrite (patched_split b put i i' ltac:(lia) Fp), app_length, sub_length by lia. lia.
Qed.
Lemma put_parts {T} (hs put left : list (hunk T)) : put_in hs put left -> parts hs put left.
Proof. induction 1 as [hs| |]; [induction hs; now constructor|now constructor..]. Qed.
Lemma put_swap {T} (hs put left : list (hunk T)) : put_in hs put left -> put_in (map swap_hunk hs) (map swap_hunk put) (map swap_hunk left).
Proof. induction 1; cbn [map]; constructor; auto. Qed.

Lemma half_apply dbg context g b a hs put left : fits_lines (b ++ a) -> fits_lines (patched b 0 put) -> cover context g b a 0 0 hs -> Forall hunk_ok hs -> stands 0 0 hs put left ->
  Forall (fun h => ~ fits_somewhere h (patched b 0 put) /\ List.length (h_old h) <= List.length (patched b 0 put)) put ->
  text_apply_into dbg (map text_of_hunk hs) (patched b 0 put) false (Writer [] None) = (Done (Stats (List.length left) 0 (List.length put) 0 0), Writer (List.concat (patched b 0 hs)) None).
Proof.
  intros F Ft Hc Hok Hp N. apply Forall_and_inv in N as [N1 N2].
  destruct (half_outcome dbg context g b a (patched b 0 put) _ _ _ _ _ Hp 0 Hc ltac:(lia) eq_refl N1 N2 Hok) as (fates & HO & HT).
  destruct (p_C73_outcome dbg hs _ Hok (cover_lines_fit _ _ _ _ _ F Hc) Ft) as (r & out & _ & U & E). destruct (U _ _ HO) as [<- <-]. rewrite E, HT. reflexivity.
Qed.
(* where the hunks put in are as long as what they replace, the last two conditions hold anyway *)
Lemma half_apply_even dbg context g b a hs put left : fits_lines (b ++ a) -> cover context g b a 0 0 hs -> Forall hunk_ok hs -> put_in hs put left ->
  Forall (fun h => ~ fits_somewhere h (patched b 0 put)) put ->
  text_apply_into dbg (map text_of_hunk hs) (patched b 0 put) false (Writer [] None) = (Done (Stats (List.length left) 0 (List.length put) 0 0), Writer (List.concat (patched b 0 hs)) None).
Proof.
  intros F Hc Hok Hp N. pose proof (half_length _ _ _ _ _ _ _ Hp 0 ltac:(lia) Hc) as L. cbn in L.
  apply (half_apply dbg context g b a); auto; [unfold fits_lines, zlen in *; rewrite app_length in F; lia|now apply (put_stands context g b a)|].
  rewrite Forall_forall in *. intros h Hh. split; [now apply N|]. pose proof (cover_in_place _ _ _ _ _ _ _ Hc) as K. rewrite Forall_forall in K. destruct (K h (put_incl _ _ _ Hp h Hh)) as [K1 _]. lia.
Qed.

Lemma half_bytes context g (b a t : list byte) hs put left : put_in hs put left -> forall i, cover context g b a i i hs -> i <= List.length t ->
  skipn i t = patched b i put -> Forall (fun h => h_old h <> []) hs -> byte_outcome t i hs = (true, patched b i hs).
Proof.
  induction 1 as [hs|h hs put left Hl H IH|h hs put left Hl H IH]; intros i Hc Hi E Hne.
  - cbn [patched] in E. pose proof (cover_ordered _ _ _ _ _ _ _ Hc) as Ho. pose proof (cover_first _ _ _ _ _ _ _ Hc) as Hf.
    rewrite <- (patched_same t b hs i Ho ltac:(destruct hs; [exact I|apply Hf]) E).
    apply in_place_bytes; [|exact Hne|exact Ho|destruct hs; [exact Hi|apply Hf]].
    apply Forall_forall. intros h Hh. destruct (proj1 (Forall_forall _ _) (cover_in_place _ _ _ _ _ _ _ Hc) h Hh) as [B1 B2]. pose proof (cover_b _ _ _ _ _ _ _ Hc) as F. rewrite Forall_forall in F. specialize (F h Hh).
    assert (S : skipn (h_b h) t = skipn (h_b h) b) by (replace (h_b h) with (h_b h - i + i) by lia; rewrite <- !skipn_skipn; now rewrite E).
    split; [|unfold sub in *; now rewrite S]. apply (f_equal (@List.length byte)) in S. rewrite !skipn_length in S. rewrite Forall_forall in Hne. specialize (Hne h Hh). destruct (h_old h); cbn [List.length] in *; [congruence|lia].
  - inversion Hc as [|? ? d i' j' l tr rest Hg C1 C2 C3 C4 C5 C6 C7 C8 C9 Hc']; subst. inversion Hne as [|? ? N1 N2]; subst.
    cbn [h_old h_new] in Hl, N1. rewrite !sub_length in Hl by lia. assert (j' = i') by lia. subst j'.
    assert (Lo : List.length (sub b (i + d) i') = i' - (i + d)) by (rewrite sub_length by lia; lia). assert (Hd : i + d < i') by (destruct (sub b (i + d) i'); [congruence|cbn in Lo; lia]).
    cbn [patched byte_outcome h_b h_a h_old h_new] in E |- *. rewrite Lo in *. replace (i + d + (i' - (i + d))) with i' in * by lia.
    assert (Lx : List.length (sub b i (i + d)) = d) by (rewrite sub_length by lia; lia). assert (Ly : List.length (sub a (i + d) i') = i' - (i + d)) by (rewrite sub_length by lia; lia).
    pose proof (skipn_more _ _ _ _ E) as E1. rewrite Lx in E1. pose proof (skipn_more _ _ _ _ E1) as E2. rewrite Ly in E2. replace (i + d + (i' - (i + d))) with i' in E2 by lia.
    pose proof (found_bound _ _ _ _ E Hi) as L1. rewrite Lx in L1. pose proof (found_bound _ _ _ _ E1 L1) as L2. rewrite Ly in L2.
    pose proof (sub_found _ _ _ _ E) as Eo. rewrite Lx in Eo. pose proof (sub_found _ _ _ _ E1) as En. rewrite Ly in En. replace (i + d + (i' - (i + d))) with i' in * by lia.
    specialize (IH i' Hc' ltac:(lia) E2 N2). rewrite Ly. replace (i + d + (i' - (i + d))) with i' by lia.
    replace (Nat.max i (i + d)) with (i + d) by lia. replace (Nat.max i i') with i' by lia. replace (i + d + (i' - (i + d))) with i' by lia. rewrite IH.
    destruct (matches_at t (sub b (i + d) i') (i + d)); [now rewrite Eo|].
    rewrite (proj2 (matches_at_true t (sub a (i + d) i') (i + d))).
    + rewrite app_assoc, <- Eo. f_equal. f_equal. rewrite app_assoc in E. pose proof (sub_found _ _ _ _ E) as K. rewrite app_length, Lx, Ly in K. replace (i + (d + (i' - (i + d)))) with i' in K by lia. now rewrite K, Eo.
    + split; [lia|]. exists (i + d). rewrite Ly. replace (i + d + (i' - (i + d))) with i' by lia. split; [reflexivity|]. split; [lia|exact En].
  - inversion Hc as [|? ? d i' j' l tr rest Hg C1 C2 C3 C4 C5 C6 C7 C8 C9 Hc']; subst. inversion Hne as [|? ? N1 N2]; subst.
    cbn [h_old h_new] in Hl, N1. rewrite !sub_length in Hl by lia. assert (j' = i') by lia. subst j'.
    assert (Fp : Forall (fun x => i' <= h_b x) put).
    { pose proof (cover_b _ _ _ _ _ _ _ Hc') as F. rewrite Forall_forall in *. intros x Hx. apply F. now apply (put_incl _ _ _ H). }
    assert (Fq : Forall (fun x => i + d <= h_b x) put) by (eapply Forall_impl; [|exact Fp]; cbv beta; lia).
    rewrite (patched_split b put i (i + d) ltac:(lia) Fq), (patched_split b put (i + d) i' ltac:(lia) Fp) in E.
    assert (Lx : List.length (sub b i (i + d)) = d) by (rewrite sub_length by lia; lia). assert (Ly : List.length (sub b (i + d) i') = i' - (i + d)) by (rewrite sub_length by lia; lia).
    assert (Hd : i + d < i') by (destruct (sub b (i + d) i'); [congruence|cbn in Ly; lia]).
    pose proof (skipn_more _ _ _ _ E) as E1. rewrite Lx in E1. pose proof (skipn_more _ _ _ _ E1) as E2. rewrite Ly in E2. replace (i + d + (i' - (i + d))) with i' in E2 by lia.
    pose proof (found_bound _ _ _ _ E Hi) as L1. rewrite Lx in L1. pose proof (found_bound _ _ _ _ E1 L1) as L2. rewrite Ly in L2.
    pose proof (sub_found _ _ _ _ E) as Eo. rewrite Lx in Eo. pose proof (sub_found _ _ _ _ E1) as En. rewrite Ly in En.
    cbn [patched byte_outcome h_b h_a h_old h_new]. rewrite Ly. rewrite (proj2 (matches_at_true t (sub b (i + d) i') (i + d))).
    + replace (Nat.max i (i + d)) with (i + d) by lia. replace (i + d + (i' - (i + d))) with i' by lia. rewrite (IH i' Hc' ltac:(lia) E2 N2). now rewrite Eo.
    + split; [lia|]. exists (i + d). rewrite Ly. split; [reflexivity|]. split; [lia|exact En].
Qed.
(* the same where the hunks stand in the right places *)
Lemma half_bytes_stands context g (b a t : list byte) i k hs put left : stands i k hs put left -> forall j, cover context g b a i j hs -> k <= List.length t ->
  skipn k t = patched b i put -> Forall (fun h => h_old h <> []) hs -> Forall (fun h => matches_at t (h_old h) (h_b h) = false /\ h_new h <> []) put -> byte_outcome t k hs = (true, patched b i hs).
Proof.
  induction 1 as [i k|i hs|i k h hs put left Hi0 Ha0 H IH|i h hs put left H IH]; intros j Hc Hi E Hne N.
  - cbn [patched byte_outcome] in *. rewrite <- E. now rewrite (proj2 (Nat.leb_le _ _) Hi).
  - cbn [patched] in E. pose proof (cover_ordered _ _ _ _ _ _ _ Hc) as Ho. pose proof (cover_first _ _ _ _ _ _ _ Hc) as Hf.
    rewrite <- (patched_same t b hs i Ho ltac:(destruct hs; [exact I|apply Hf]) E).
    apply in_place_bytes; [|exact Hne|exact Ho|destruct hs; [exact Hi|apply Hf]].
    apply Forall_forall. intros h Hh. destruct (proj1 (Forall_forall _ _) (cover_in_place _ _ _ _ _ _ _ Hc) h Hh) as [B1 B2]. pose proof (cover_b _ _ _ _ _ _ _ Hc) as F. rewrite Forall_forall in F. specialize (F h Hh).
    assert (S : skipn (h_b h) t = skipn (h_b h) b) by (replace (h_b h) with (h_b h - i + i) by lia; rewrite <- !skipn_skipn; now rewrite E).
    split; [|unfold sub in *; now rewrite S]. apply (f_equal (@List.length byte)) in S. rewrite !skipn_length in S. rewrite Forall_forall in Hne. specialize (Hne h Hh). destruct (h_old h); cbn [List.length] in *; [congruence|lia].
  - inversion Hc as [|? ? d i' j' l tr rest Hg C1 C2 C3 C4 C5 C6 C7 C8 C9 Hc']; subst. inversion Hne as [|? ? N1 N2]; subst. inversion N as [|? ? [M1 M3] M2]; subst.
    cbn [patched byte_outcome h_b h_a h_old h_new] in *. assert (j = k) by lia. subst k. rewrite !sub_length in * by lia. replace (i + d + (i' - (i + d))) with i' in * by lia. replace (j + d + (j' - (j + d))) with j' in * by lia.
    assert (Lx : List.length (sub b i (i + d)) = d) by (rewrite sub_length by lia; lia). assert (Ly : List.length (sub a (j + d) j') = j' - (j + d)) by (rewrite sub_length by lia; lia).
    assert (Hd : j + d < j') by (destruct (sub a (j + d) j'); [congruence|cbn in Ly; lia]).
    pose proof (skipn_more _ _ _ _ E) as E1. rewrite Lx in E1. pose proof (skipn_more _ _ _ _ E1) as E2. rewrite Ly in E2. replace (j + d + (j' - (j + d))) with j' in E2 by lia.
    pose proof (found_bound _ _ _ _ E Hi) as L1. rewrite Lx in L1. pose proof (found_bound _ _ _ _ E1 L1) as L2. rewrite Ly in L2.
    pose proof (sub_found _ _ _ _ E1) as En. rewrite Ly in En.
    rewrite M1, (proj2 (matches_at_true t (sub a (j + d) j') (j + d))).
    + replace (Nat.max j j') with j' by lia. rewrite (IH j' Hc' ltac:(lia) E2 N2 M2). f_equal. rewrite app_assoc. f_equal.
      rewrite app_assoc in E. pose proof (sub_found _ _ _ _ E) as K. rewrite app_length, Lx, Ly in K. replace (j + (d + (j' - (j + d)))) with j' in K by lia. exact K.
    + split; [lia|]. exists (j + d). rewrite Ly. split; [reflexivity|]. split; [lia|exact En].
  - inversion Hc as [|? ? d i' j' l tr rest Hg C1 C2 C3 C4 C5 C6 C7 C8 C9 Hc']; subst. inversion Hne as [|? ? N1 N2]; subst. cbn [h_b h_a h_old h_new] in *.
    assert (Fp : Forall (fun x => i' <= h_b x) put).
    { pose proof (cover_b _ _ _ _ _ _ _ Hc') as F. rewrite Forall_forall in *. intros x Hx. apply F. now apply (stands_incl _ _ _ _ _ H). }
    assert (Fq : Forall (fun x => i + d <= h_b x) put) by (eapply Forall_impl; [|exact Fp]; cbv beta; lia).
    rewrite (patched_split b put i (i + d) ltac:(lia) Fq), (patched_split b put (i + d) i' ltac:(lia) Fp) in E.
    assert (Lx : List.length (sub b i (i + d)) = d) by (rewrite sub_length by lia; lia). assert (Ly : List.length (sub b (i + d) i') = i' - (i + d)) by (rewrite sub_length by lia; lia).
    assert (Hd : i + d < i') by (destruct (sub b (i + d) i'); [congruence|cbn in Ly; lia]).
    pose proof (skipn_more _ _ _ _ E) as E1. rewrite Lx in E1. pose proof (skipn_more _ _ _ _ E1) as E2. rewrite Ly in E2. rewrite Ly in *. replace (i + d + (i' - (i + d))) with i' in * by lia.
    pose proof (found_bound _ _ _ _ E Hi) as L1. rewrite Lx in L1. pose proof (found_bound _ _ _ _ E1 L1) as L2. rewrite Ly in L2.
    pose proof (sub_found _ _ _ _ E) as Eo. rewrite Lx in Eo. pose proof (sub_found _ _ _ _ E1) as En. rewrite Ly in En.
    cbn [patched byte_outcome h_b h_a h_old h_new]. rewrite Ly. rewrite (proj2 (matches_at_true t (sub b (i + d) i') (i + d))).
    + replace (Nat.max i (i + d)) with (i + d) by lia. replace (i + d + (i' - (i + d))) with i' by lia. rewrite (IH j' Hc' ltac:(lia) E2 N2 N). now rewrite Eo.
    + split; [lia|]. exists (i + d). rewrite Ly. split; [reflexivity|]. split; [lia|exact En].
Qed.

Lemma two_halves {T} context (b a : list T) hs put left : parts hs put left -> Forall (fun h => List.length (h_old h) = List.length (h_new h)) hs ->
  forall i, cover context (equal_gap b a) b a i i hs -> patched b i put = patched a i (map swap_hunk left).
Proof.
  assert (S : forall (hs put left : list (hunk T)), parts hs put left -> incl put hs /\ incl left hs).
  { induction 1 as [|x l c r H [A B]|x l c r H [A B]]; split; intros y K; try (destruct K as [<-|K]; [now left|]); try (right; auto; fail); destruct K. }
  induction 1 as [|h hs put left Hp IH|h hs put left Hp IH]; intros HF i Hc.
  - inversion Hc as [? ? d Hg E1 E2|]; subst. cbn [patched map]. unfold equal_gap in Hg. rewrite <- (sub_all b i), <- (sub_all a i), <- E1, <- E2. exact Hg.
  - inversion Hc as [|? ? d i' j' l tr rest Hg C1 C2 C3 C4 C5 C6 C7 C8 C9 Hc']; subst. inversion HF as [|? ? F1 F2]; subst.
    cbn [h_old h_new] in F1. rewrite !sub_length in F1 by lia. assert (j' = i') by lia. subst j'. specialize (IH F2 i' Hc').
    cbn [patched h_b h_new h_old]. rewrite sub_length by lia. replace (i + d + (i' - (i + d))) with i' by lia. rewrite IH.
    assert (Fl : Forall (fun x => i' <= h_b x) (map swap_hunk left)).
    { pose proof (cover_b _ _ _ _ _ _ _ (cover_swap _ _ _ _ _ _ _ Hc')) as F. rewrite Forall_map in *. rewrite Forall_forall in *. intros x Hx. apply F. now apply (proj2 (S _ _ _ Hp)). }
    rewrite (patched_split a _ i (i + d)), (patched_split a _ (i + d) i'); [|lia|exact Fl|lia|eapply Forall_impl; [|exact Fl]; cbv beta; lia]. unfold equal_gap in Hg. now rewrite Hg.
  - inversion Hc as [|? ? d i' j' l tr rest Hg C1 C2 C3 C4 C5 C6 C7 C8 C9 Hc']; subst. inversion HF as [|? ? F1 F2]; subst.
    cbn [h_old h_new] in F1. rewrite !sub_length in F1 by lia. assert (j' = i') by lia. subst j'. specialize (IH F2 i' Hc').
    cbn [map patched swap_hunk h_b h_a h_new h_old]. rewrite sub_length by lia. replace (i + d + (i' - (i + d))) with i' by lia. fold (@swap_hunk T). rewrite <- IH.
    assert (Fl : Forall (fun x => i' <= h_b x) put).
    { pose proof (cover_b _ _ _ _ _ _ _ Hc') as F. rewrite Forall_forall in *. intros x Hx. apply F. now apply (proj1 (S _ _ _ Hp)). }
    rewrite (patched_split b _ i (i + d)), (patched_split b _ (i + d) i'); [|lia|exact Fl|lia|eapply Forall_impl; [|exact Fl]; cbv beta; lia]. unfold equal_gap in Hg. now rewrite Hg.
Qed.
Lemma parts_put {T} (hs put left : list (hunk T)) : parts hs put left -> Forall (fun h => List.length (h_old h) = List.length (h_new h)) hs -> put_in hs put left.
Proof. induction 1; intros F; [constructor|inversion F; subst; constructor; auto..]. Qed.
Lemma parts_other {A} (l c r : list A) : parts l c r -> parts l r c.
Proof. induction 1; now constructor. Qed.

Lemma patched_cover_conv_any {T} context g (b a : list T) i j hs : cover context g b a i j hs -> patched b i hs = skipn j a ->
  cover context (equal_gap b a) b a i j hs.
Proof.
  induction 1 as [i j d Hg E1 E2|i j d i' j' l t rest Hg H1 H2 H3 H4 H5 H6 H7 H8 H9 Hc IH]; intros E.
  - cbn [patched] in E. econstructor; eauto. unfold equal_gap. rewrite E1, E2, !sub_all. exact E.
  - cbn [patched h_b h_old h_new] in E.
    assert (Ei : i + d + List.length (sub b (i + d) i') = i') by (rewrite sub_length by assumption; lia).
    rewrite Ei in E.
    rewrite <- (sub_skipn a j (j + d)) in E by lia. rewrite <- (sub_skipn a (j + d) j') in E by lia.
    assert (HA : forall (x y u v : list T), List.length x = List.length y -> x ++ u = y ++ v -> x = y /\ u = v).
    { intros x. induction x as [|e x IHx]; intros [|f y] u v Hl Hxy; try discriminate; [auto|].
      injection Hl as Hl. cbn in Hxy. injection Hxy as -> Hxy. destruct (IHx y u v Hl Hxy) as [-> ->]. auto. }
    apply HA in E as [G1 E]; [|rewrite !sub_length by lia; lia].
    apply HA in E as [_ E]; [|reflexivity].
    econstructor; eauto.
Qed.

(* ------------------------------------------------------------------ C140 *)
(* C140, full statement: a diff of which some clumps have been put in is completed by applying it: the
   whole diff applied to the text with these clumps gives the same as applied to the original text.
   It is false: the first clump is recognised as already there, but the second is put in at a wrong
   place, in the midst of the new lines of the first; nothing is reported. *)
Lemma p_C140_completed_refuted : exists before after clumps first second half,
  text_diff_clumps before after 3 = Ok clumps /\ parts clumps first second /\ List.length first = 1 /\ List.length second = 1 /\
  forall dbg,
    text_apply_into dbg clumps before false (Writer [] None) = (Done (Stats 2 0 0 0 0), Writer (List.concat after) None) /\
    text_apply_into dbg first before false (Writer [] None) = (Done (Stats 1 0 0 0 0), Writer (List.concat half) None) /\
    exists out, text_apply_into dbg clumps half false (Writer [] None) = (Done (Stats 1 0 1 0 0), Writer out None) /\ out <> List.concat after.
Proof.
  exists (L "O p1 p2 p3 p4 p5 p6 p7 p8 p9 p10 t u v R n n2 n3 "),
    (L "a b c d e f g h i j k t u v R n n2 n3 U p1 p2 p3 p4 p5 p6 p7 p8 p9 p10 t u v Z W n n2 n3 ").
  do 3 eexists. exists (L "a b c d e f g h i j k t u v R n n2 n3 U p1 p2 p3 p4 p5 p6 p7 p8 p9 p10 t u v R n n2 n3 ").
  split; [vr|]. split; [apply parts_first, parts_second, parts_nil|]. split; [reflexivity|]. split; [reflexivity|].
  intros dbg. split; [destruct dbg; vr|]. split; [destruct dbg; vr|]. eexists. split; [destruct dbg; vr|]. intros H. vm_compute in H. discriminate H.
Qed.
(* It is false as well if the clumps move nothing, but the old lines of one that has been put in are found
   elsewhere: it is put in once more. *)
Lemma p_C140_again_refuted : exists before after hs put left half,
  text_diff_clumps before after 0 = Ok (map text_of_hunk hs) /\ put_in hs put left /\ Forall (fun h => List.length (h_old h) = List.length (h_new h)) hs /\ half = patched before 0 put /\
  forall dbg,
    text_apply_into dbg (map text_of_hunk hs) before false (Writer [] None) = (Done (Stats 2 0 0 0 0), Writer (List.concat after) None) /\
    text_apply_into dbg (map text_of_hunk hs) half false (Writer [] None) = (Done (Stats 0 2 0 0 0), Writer (bs "X C D X E F G H Y ") None) /\
    after = L "X C D B E F G H Y ".
Proof.
  exists (L "B C D B E F G H I "), (L "X C D B E F G H Y "), [Hunk 0 0 0 (L "B ") 0 (L "X "); Hunk 0 0 8 (L "I ") 8 (L "Y ")],
    [Hunk 0 0 0 (L "B ") 0 (L "X ")], [Hunk 0 0 8 (L "I ") 8 (L "Y ")], (L "X C D B E F G H I ").
  split; [vr|]. split; [apply put_this; [reflexivity|]; apply put_none|]. split; [repeat constructor|]. split; [vr|].
  intros dbg. split; [destruct dbg; vr|]. split; [destruct dbg; vr|reflexivity].
Qed.
(* What does hold: it is so if in the text each clump that has been put in stands where the new text has
   it, and each other clump where the old text has it ([stands]: before a clump put in, those left out add
   together as many lines as they take away, and before another one, those put in do), and the old lines of
   no clump that has been put in are found in the text any more.  The statistics tell which is which.  Missing: clumps that have been moved, and clumps whose old lines are still found somewhere. *)
Lemma p_C140_completed_partial : forall dbg before after context hs put left,
  context <= 255 -> fits_lines (before ++ after) -> text_diff_clumps before after context = Ok (map text_of_hunk hs) -> stands 0 0 hs put left ->
  let half := patched before 0 put in fits_lines half ->
  Forall (fun h => ~ fits_somewhere h half /\ List.length (h_old h) <= List.length half) put ->
  text_apply_into dbg (map text_of_hunk put) before false (Writer [] None) = (Done (Stats (List.length put) 0 0 0 0), Writer (List.concat half) None) /\
  exists whole,
    text_apply_into dbg (map text_of_hunk hs) before false (Writer [] None) = (Done (Stats (List.length hs) 0 0 0 0), Writer whole None) /\
    text_apply_into dbg (map text_of_hunk hs) half false (Writer [] None) = (Done (Stats (List.length left) 0 (List.length put) 0 0), Writer whole None).
Proof.
  intros dbg b a context hs put left Hc F E Hp half Ft N.
  assert (Fb : fits_lines b) by (unfold fits_lines, zlen in *; rewrite app_length in F; lia). assert (Fa : fits_lines a) by (unfold fits_lines, zlen in *; rewrite app_length in F; lia).
  destruct (diff_facts_hs b a context hs Hc Fb Fa E) as (cs & _ & Hcov & Hok & Hord). pose proof (stands_parts _ _ _ _ _ Hp) as Hq.
  destruct (parts_forall _ _ _ _ Hq Hok) as [Hok' _]. split.
  - apply emits_run, text_apply_placed; [assumption..|]. exact (proj1 (placed_parts _ _ _ _ Hq _ (cover_placed _ _ _ _ _ _ _ Hcov))).
  - exists (List.concat (patched b 0 hs)). split; [|now apply (half_apply dbg context (unchanged cs) b a)]. apply emits_run, text_apply_placed; [assumption..|]. exact (cover_placed _ _ _ _ _ _ _ Hcov).
Qed.
(* In reverse: some of the clumps have been taken back.  Missing: the same. *)
Lemma p_C140_completed_reverse_partial : forall dbg before after context hs put left,
  context <= 255 -> fits_lines (before ++ after) -> text_diff_clumps before after context = Ok (map text_of_hunk hs) -> stands 0 0 (map swap_hunk hs) (map swap_hunk put) (map swap_hunk left) ->
  let half := patched after 0 (map swap_hunk put) in fits_lines half ->
  Forall (fun h => ~ fits_somewhere (swap_hunk h) half /\ List.length (h_new h) <= List.length half) put ->
  text_apply_into dbg (map text_of_hunk put) after true (Writer [] None) = (Done (Stats (List.length put) 0 0 0 0), Writer (List.concat half) None) /\
  exists whole,
    text_apply_into dbg (map text_of_hunk hs) after true (Writer [] None) = (Done (Stats (List.length hs) 0 0 0 0), Writer whole None) /\
    text_apply_into dbg (map text_of_hunk hs) half true (Writer [] None) = (Done (Stats (List.length left) 0 (List.length put) 0 0), Writer whole None).
Proof.
  intros dbg b a context hs put left Hc F E Hp half Ft N.
  assert (Fb : fits_lines b) by (unfold fits_lines, zlen in *; rewrite app_length in F; lia). assert (Fa : fits_lines a) by (unfold fits_lines, zlen in *; rewrite app_length in F; lia).
  assert (F' : fits_lines (a ++ b)) by (unfold fits_lines, zlen in *; rewrite app_length in *; lia).
  destruct (diff_facts_hs b a context hs Hc Fb Fa E) as (cs & _ & Hcov & Hok & Hord). apply cover_swap in Hcov. apply hunks_ok_swap in Hok. pose proof (stands_parts _ _ _ _ _ Hp) as Hq.
  destruct (parts_forall _ _ _ _ Hq Hok) as [Hok' _]. setoid_rewrite reverse_apply. rewrite <- (map_length swap_hunk put), <- (map_length swap_hunk left), <- (map_length swap_hunk hs). split.
  - apply emits_run, text_apply_placed; [assumption..|]. exact (proj1 (placed_parts _ _ _ _ Hq _ (cover_placed _ _ _ _ _ _ _ Hcov))).
  - exists (List.concat (patched a 0 (map swap_hunk hs))). split.
    + apply emits_run, text_apply_placed; [assumption..|]. exact (cover_placed _ _ _ _ _ _ _ Hcov).
    + eapply half_apply; [exact F'|exact Ft|exact Hcov|exact Hok|exact Hp|]. now apply Forall_map.
Qed.
(* A diff that is right and whose clumps have as many old lines as new ones: with any of them put in, it
   completes the text, and in reverse takes back what has been put in.  Missing: as above, and diffs
   that overlook something. *)
Lemma p_C140_both_ways_partial : forall dbg before after context hs put left,
  context <= 255 -> fits_lines (before ++ after) -> text_diff_clumps before after context = Ok (map text_of_hunk hs) -> patched before 0 hs = after ->
  parts hs put left -> Forall (fun h => List.length (h_old h) = List.length (h_new h)) hs ->
  let half := patched before 0 put in
  (Forall (fun h => ~ fits_somewhere h half) put ->
     text_apply_into dbg (map text_of_hunk hs) half false (Writer [] None) = (Done (Stats (List.length left) 0 (List.length put) 0 0), Writer (List.concat after) None)) /\
  (Forall (fun h => ~ fits_somewhere (swap_hunk h) half) left ->
     text_apply_into dbg (map text_of_hunk hs) half true (Writer [] None) = (Done (Stats (List.length put) 0 (List.length left) 0 0), Writer (List.concat before) None)).
Proof.
  intros dbg b a context hs put left Hc F E Ea Hp HF half.
  assert (Fb : fits_lines b) by (unfold fits_lines, zlen in *; rewrite app_length in F; lia). assert (Fa : fits_lines a) by (unfold fits_lines, zlen in *; rewrite app_length in F; lia).
  assert (F' : fits_lines (a ++ b)) by (unfold fits_lines, zlen in *; rewrite app_length in *; lia).
  destruct (diff_facts_hs b a context hs Hc Fb Fa E) as (cs & _ & Hcov & Hok & Hord). apply patched_cover_conv in Hcov; [|exact Ea]. split; intros N.
  - unfold half in *. rewrite (half_apply_even dbg context _ b a hs put left F Hcov Hok (parts_put _ _ _ Hp HF) N). now rewrite Ea.
  - assert (Hcov' : cover context (equal_gap a b) a b 0 0 (map swap_hunk hs)) by (eapply cover_mono; [|exact (cover_swap _ _ _ _ _ _ _ Hcov)]; intros x y d; apply equal_gap_sym).
    unfold half in *. rewrite (two_halves context b a hs put left Hp HF 0 Hcov) in *. rewrite reverse_apply.
    rewrite (half_apply_even dbg context _ a b (map swap_hunk hs) (map swap_hunk left) (map swap_hunk put) F' Hcov' (hunks_ok_swap _ Hok) (put_swap _ _ _ (parts_put _ _ _ (parts_other _ _ _ Hp) HF))); [|now apply Forall_map].
    rewrite !map_length. rewrite (patched_cover _ _ _ _ _ _ Hcov'). reflexivity.
Qed.
(* Bytes, full statement: the same.  It is false in the same way. *)
Lemma p_C140_bytes_refuted : exists before after clumps first second half,
  byte_diff_clumps before after 0 = Ok clumps /\ parts clumps first second /\ List.length first = 1 /\ List.length second = 1 /\
  forall dbg,
    byte_apply_into dbg clumps before false (Writer [] None) = (Done tt, Writer after None) /\
    byte_apply_into dbg first before false (Writer [] None) = (Done tt, Writer half None) /\
    exists out, byte_apply_into dbg clumps half false (Writer [] None) = (Done tt, Writer out None) /\ out <> after.
Proof.
  exists (list_byte_of_string "OxyRn"), (list_byte_of_string "PQTRUxyZWn"). do 3 eexists. exists (list_byte_of_string "PQTRUxyRn").
  split; [vr|]. split; [apply parts_first, parts_second, parts_nil|]. split; [reflexivity|]. split; [reflexivity|].
  intros dbg. split; [destruct dbg; vr|]. split; [destruct dbg; vr|]. eexists. split; [destruct dbg; vr|]. intros H. vm_compute in H. discriminate H.
Qed.
(* What does hold: if all clumps up to the last that has been put in have as many old bytes as new ones,
   and no clump only puts in bytes.  Missing: clumps that move the bytes behind them, and clumps
   without old bytes. *)
Lemma p_C140_bytes_partial : forall dbg before after context hs put left,
  context <= 255 -> bytes_fit before hs -> byte_diff_clumps before after context = Ok (map byte_of_hunk hs) -> put_in hs put left ->
  Forall (fun h => h_old h <> []) hs ->
  exists whole,
    byte_apply_into dbg (map byte_of_hunk hs) before false (Writer [] None) = (Done tt, Writer whole None) /\
    byte_apply_into dbg (map byte_of_hunk hs) (patched before 0 put) false (Writer [] None) = (Done tt, Writer whole None).
Proof.
  intros dbg b a context hs put left Hc Fh E Hp Hne. destruct (bdiff_facts_hs b a context hs Hc E) as (cs & _ & Hcov & Hord).
  pose proof (half_length _ _ _ _ _ _ _ Hp 0 ltac:(lia) Hcov) as L. exists (patched b 0 hs). split.
  - rewrite (proj1 (p_C75_byte_outcome dbg hs b Fh)). rewrite (half_bytes context (unchanged cs) b a b hs [] hs (put_none hs) 0 Hcov ltac:(lia) eq_refl Hne). reflexivity.
  - rewrite (proj1 (p_C75_byte_outcome dbg hs (patched b 0 put) ltac:(unfold bytes_fit in *; cbn in L; now rewrite L))).
    rewrite (half_bytes context (unchanged cs) b a _ hs put left Hp 0 Hcov ltac:(lia) eq_refl Hne). reflexivity.
Qed.
(* In reverse.  Missing: clumps that move the bytes behind them, and clumps without new bytes. *)
Lemma p_C140_bytes_reverse_partial : forall dbg before after context hs put left,
  context <= 255 -> bytes_fit after hs -> byte_diff_clumps before after context = Ok (map byte_of_hunk hs) -> put_in hs put left ->
  Forall (fun h => h_new h <> []) hs ->
  exists whole,
    byte_apply_into dbg (map byte_of_hunk hs) after true (Writer [] None) = (Done tt, Writer whole None) /\
    byte_apply_into dbg (map byte_of_hunk hs) (patched after 0 (map swap_hunk put)) true (Writer [] None) = (Done tt, Writer whole None).
Proof.
  intros dbg b a context hs put left Hc Fh E Hp Hne. destruct (bdiff_facts_hs b a context hs Hc E) as (cs & _ & Hcov & Hord). apply cover_swap in Hcov. apply put_swap in Hp.
  assert (Hne' : Forall (fun h => h_old h <> []) (map swap_hunk hs)) by (apply Forall_map; exact Hne).
  pose proof (half_length _ _ _ _ _ _ _ Hp 0 ltac:(lia) Hcov) as L. exists (patched a 0 (map swap_hunk hs)). split.
  - rewrite (proj2 (p_C75_byte_outcome dbg hs a Fh)). rewrite (half_bytes context _ a b a _ [] _ (put_none _) 0 Hcov ltac:(lia) eq_refl Hne'). reflexivity.
  - rewrite (proj2 (p_C75_byte_outcome dbg hs (patched a 0 (map swap_hunk put)) ltac:(unfold bytes_fit in *; cbn in L; now rewrite L))).
    rewrite (half_bytes context _ a b _ _ _ _ Hp 0 Hcov ltac:(lia) eq_refl Hne'). reflexivity.
Qed.
(* Clumps that move bytes: so it is, too, if each clump stands in its place as for texts, and a clump that has
   been put in has new bytes and its old bytes are not found at their old place (they may be elsewhere).
   Missing: clumps that have been moved, clumps without old bytes, and clumps that still match. *)
Lemma p_C140_bytes_moved_partial : forall dbg before after context hs put left,
  context <= 255 -> bytes_fit before hs -> byte_diff_clumps before after context = Ok (map byte_of_hunk hs) -> stands 0 0 hs put left ->
  Forall (fun h => h_old h <> []) hs ->
  let half := patched before 0 put in bytes_fit half hs ->
  Forall (fun h => matches_at half (h_old h) (h_b h) = false /\ h_new h <> []) put ->
  exists whole,
    byte_apply_into dbg (map byte_of_hunk hs) before false (Writer [] None) = (Done tt, Writer whole None) /\
    byte_apply_into dbg (map byte_of_hunk hs) half false (Writer [] None) = (Done tt, Writer whole None).
Proof.
  intros dbg b a context hs put left Hc Fh E Hp Hne half Ft N. destruct (bdiff_facts_hs b a context hs Hc E) as (cs & _ & Hcov & Hord).
  exists (patched b 0 hs). split.
  - rewrite (proj1 (p_C75_byte_outcome dbg hs b Fh)). rewrite (half_bytes context (unchanged cs) b a b hs [] hs (put_none hs) 0 Hcov ltac:(lia) eq_refl Hne). reflexivity.
  - rewrite (proj1 (p_C75_byte_outcome dbg hs half Ft)).
    rewrite (half_bytes_stands context (unchanged cs) b a half 0 0 hs put left Hp 0 Hcov ltac:(lia) eq_refl Hne N). reflexivity.
Qed.
(* In reverse.  Missing: the same. *)
Lemma p_C140_bytes_moved_reverse_partial : forall dbg before after context hs put left,
  context <= 255 -> bytes_fit after hs -> byte_diff_clumps before after context = Ok (map byte_of_hunk hs) -> stands 0 0 (map swap_hunk hs) (map swap_hunk put) (map swap_hunk left) ->
  Forall (fun h => h_new h <> []) hs ->
  let half := patched after 0 (map swap_hunk put) in bytes_fit half hs ->
  Forall (fun h => matches_at half (h_new h) (h_a h) = false /\ h_old h <> []) put ->
  exists whole,
    byte_apply_into dbg (map byte_of_hunk hs) after true (Writer [] None) = (Done tt, Writer whole None) /\
    byte_apply_into dbg (map byte_of_hunk hs) half true (Writer [] None) = (Done tt, Writer whole None).
Proof.
  intros dbg b a context hs put left Hc Fh E Hp Hne half Ft N. destruct (bdiff_facts_hs b a context hs Hc E) as (cs & _ & Hcov & Hord). apply cover_swap in Hcov.
  assert (Hne' : Forall (fun h => h_old h <> []) (map swap_hunk hs)) by (apply Forall_map; exact Hne).
  exists (patched a 0 (map swap_hunk hs)). split.
  - rewrite (proj2 (p_C75_byte_outcome dbg hs a Fh)). rewrite (half_bytes context _ a b a _ [] _ (put_none _) 0 Hcov ltac:(lia) eq_refl Hne'). reflexivity.
  - rewrite (proj2 (p_C75_byte_outcome dbg hs half Ft)).
    rewrite (half_bytes_stands context _ a b half 0 0 _ _ _ Hp 0 Hcov ltac:(lia) eq_refl Hne' ltac:(apply Forall_map; exact N)). reflexivity.
Qed.
(* Both ways, as for text.  Missing: as above, and diffs that overlook something. *)
Lemma p_C140_bytes_both_ways_partial : forall dbg before after context hs put left,
  context <= 255 -> bytes_fit before hs -> byte_diff_clumps before after context = Ok (map byte_of_hunk hs) -> patched before 0 hs = after ->
  parts hs put left -> Forall (fun h => List.length (h_old h) = List.length (h_new h) /\ h_old h <> []) hs ->
  let half := patched before 0 put in
  byte_apply_into dbg (map byte_of_hunk hs) half false (Writer [] None) = (Done tt, Writer after None) /\
  byte_apply_into dbg (map byte_of_hunk hs) half true (Writer [] None) = (Done tt, Writer before None).
Proof.
  intros dbg b a context hs put left Hc Fh E Ea Hp HF half. destruct (bdiff_facts_hs b a context hs Hc E) as (cs & _ & Hcov & Hord). apply patched_cover_conv_any in Hcov; [|exact Ea].
  assert (H1 : Forall (fun h => List.length (h_old h) = List.length (h_new h)) hs) by (eapply Forall_impl; [|exact HF]; intros h [K _]; exact K).
  assert (H2 : Forall (fun h => h_old h <> []) hs) by (eapply Forall_impl; [|exact HF]; intros h [_ K]; exact K).
  assert (H3 : Forall (fun h => h_old h <> []) (map swap_hunk hs)).
  { apply Forall_map. eapply Forall_impl; [|exact HF]. intros h [K1 K2] K3. cbn [swap_hunk h_old] in K3. rewrite K3 in K1. now destruct (h_old h). }
  assert (Hcov' : cover context (equal_gap a b) a b 0 0 (map swap_hunk hs)) by (eapply cover_mono; [|exact (cover_swap _ _ _ _ _ _ _ Hcov)]; intros x y d; apply equal_gap_sym).
  pose proof (half_length _ _ _ _ _ _ _ (parts_put _ _ _ Hp H1) 0 ltac:(lia) Hcov) as L. cbn in L.
  assert (Ft : bytes_fit half hs) by (unfold bytes_fit, half in *; now rewrite L). destruct (p_C75_byte_outcome dbg hs half Ft) as [O1 O2]. split.
  - rewrite O1. rewrite (half_bytes context _ b a half hs put left (parts_put _ _ _ Hp H1) 0 Hcov ltac:(lia) eq_refl H2). now rewrite Ea.
  - rewrite O2. rewrite (half_bytes context _ a b half _ _ _ (put_swap _ _ _ (parts_put _ _ _ (parts_other _ _ _ Hp) H1)) 0 Hcov' ltac:(lia) (two_halves context b a hs put left Hp H1 0 Hcov) H3).
    rewrite (bpatched_cover _ _ _ _ _ _ Hcov'). reflexivity.
Qed.
(* The patch tool: a file into which some of the clumps of a saved diff have been put is completed, or
   with the option -r taken back; no other file is touched.  Missing: as above, and runs with faults. *)
Lemma p_C140_file_partial : forall E f P d before after context hs put left,
  fault_free E -> N.testbit (e_mode E) 8 = true -> f (e_tmp E) = None -> holds_diff f P (TextChange d) -> td_clumps d = map text_of_hunk hs ->
  context <= 255 -> fits_lines (before ++ after) -> text_diff_clumps before after context = Ok (map text_of_hunk hs) -> patched before 0 hs = after ->
  parts hs put left -> Forall (fun h => List.length (h_old h) = List.length (h_new h)) hs ->
  text_of f (td_before d) (patched before 0 put) ->
  (Forall (fun h => ~ fits_somewhere h (patched before 0 put)) put ->
     exists w, patch_main E P false (start f) = (Val tt, w) /\ content (w_fs w) (td_before d) = Some (List.concat after) /\ forall p, p <> td_before d -> w_fs w p = f p) /\
  (Forall (fun h => ~ fits_somewhere (swap_hunk h) (patched before 0 put)) left ->
     exists w, patch_main E P true (start f) = (Val tt, w) /\ content (w_fs w) (td_before d) = Some (List.concat before) /\ forall p, p <> td_before d -> w_fs w p = f p).
Proof.
  intros E f P d b a context hs put left FF He Ht Hd Ed Hc F D Ea Hp HF (s & T1 & T2 & T3).
  destruct (p_C140_both_ways_partial (e_dbg E) b a context hs put left Hc F D Ea Hp HF) as [R1 R2]. rewrite <- Ed in R1, R2. split; intros N.
  - destruct (way_change E P false (TextChange d) s (List.concat a) f FF He Hd Ht T1) as (g & w & W1 & W2 & W3 & _ & W5); [eapply patches_text; [eassumption..|now apply R1]|]. subst g. exists w. auto.
  - destruct (way_change E P true (TextChange d) s (List.concat b) f FF He Hd Ht T1) as (g & w & W1 & W2 & W3 & _ & W5); [eapply patches_text; [eassumption..|now apply R2]|]. subst g. exists w. auto.
Qed.
(* The same for clumps that move lines: the patch file, run on a file that holds the text with some of its
   clumps, leaves the whole new text.  Missing: as for C140_completed_partial. *)
Lemma p_C140_file_moved_partial : forall E f P d before after context hs put left,
  fault_free E -> N.testbit (e_mode E) 8 = true -> f (e_tmp E) = None -> holds_diff f P (TextChange d) -> td_clumps d = map text_of_hunk hs ->
  context <= 255 -> fits_lines (before ++ after) -> text_diff_clumps before after context = Ok (map text_of_hunk hs) -> patched before 0 hs = after ->
  stands 0 0 hs put left ->
  let half := patched before 0 put in fits_lines half -> text_of f (td_before d) half ->
  Forall (fun h => ~ fits_somewhere h half /\ List.length (h_old h) <= List.length half) put ->
  exists w, patch_main E P false (start f) = (Val tt, w) /\ content (w_fs w) (td_before d) = Some (List.concat after) /\ forall p, p <> td_before d -> w_fs w p = f p.
Proof.
  intros E f P d b a context hs put left FF He Ht Hd Ed Hc F D Ea Hp half Fh (s & T1 & T2 & T3) N.
  assert (Fb : fits_lines b) by (unfold fits_lines, zlen in *; rewrite app_length in F; lia). assert (Fa : fits_lines a) by (unfold fits_lines, zlen in *; rewrite app_length in F; lia).
  destruct (diff_facts_hs b a context hs Hc Fb Fa D) as (cs & _ & Hcov & Hok & _).
  pose proof (half_apply (e_dbg E) context (unchanged cs) b a hs put left F Fh Hcov Hok Hp N) as R. rewrite <- Ed, Ea in R.
  destruct (way_change E P false (TextChange d) s (List.concat a) f FF He Hd Ht T1) as (g & w & W1 & W2 & W3 & _ & W5); [eapply patches_text; [eassumption..|exact R]|]. subst g. exists w. auto.
Qed.
(* The same for files of bytes. *)
Lemma p_C140_bytes_file_partial : forall E f P d before after context hs put left,
  fault_free E -> N.testbit (e_mode E) 8 = true -> f (e_tmp E) = None -> holds_diff f P (ByteChange d) -> bd_clumps d = map byte_of_hunk hs ->
  context <= 255 -> bytes_fit before hs -> byte_diff_clumps before after context = Ok (map byte_of_hunk hs) -> patched before 0 hs = after ->
  parts hs put left -> Forall (fun h => List.length (h_old h) = List.length (h_new h) /\ h_old h <> []) hs ->
  content f (bd_before d) = Some (patched before 0 put) ->
  forall reverse : bool, exists w, patch_main E P reverse (start f) = (Val tt, w) /\ content (w_fs w) (bd_before d) = Some (if reverse then before else after) /\
    forall p, p <> bd_before d -> w_fs w p = f p.
Proof.
  intros E f P d b a context hs put left FF He Ht Hd Ed Hc F D Ea Hp HF T reverse.
  destruct (p_C140_bytes_both_ways_partial (e_dbg E) b a context hs put left Hc F D Ea Hp HF) as [R1 R2]. rewrite <- Ed in R1, R2.
  destruct (way_change E P reverse (ByteChange d) (patched b 0 put) (if reverse then b else a) f FF He Hd Ht T) as (g & w & W1 & W2 & W3 & _ & W5).
  { eapply patches_bytes. destruct reverse; [exact R2|exact R1]. }
  subst g. exists w. auto.
Qed.
(* Clumps that move bytes.  Missing: as for C140_bytes_moved_partial. *)
Lemma p_C140_bytes_file_moved_partial : forall E f P d before after context hs put left,
  fault_free E -> N.testbit (e_mode E) 8 = true -> f (e_tmp E) = None -> holds_diff f P (ByteChange d) -> bd_clumps d = map byte_of_hunk hs ->
  context <= 255 -> bytes_fit before hs -> byte_diff_clumps before after context = Ok (map byte_of_hunk hs) -> patched before 0 hs = after ->
  stands 0 0 hs put left -> Forall (fun h => h_old h <> []) hs ->
  let half := patched before 0 put in bytes_fit half hs -> content f (bd_before d) = Some half ->
  Forall (fun h => matches_at half (h_old h) (h_b h) = false /\ h_new h <> []) put ->
  exists w, patch_main E P false (start f) = (Val tt, w) /\ content (w_fs w) (bd_before d) = Some after /\ forall p, p <> bd_before d -> w_fs w p = f p.
Proof.
  intros E f P d b a context hs put left FF He Ht Hd Ed Hc F D Ea Hp Hne half Fh T N.
  destruct (bdiff_facts_hs b a context hs Hc D) as (cs & _ & Hcov & _).
  assert (R : byte_apply_into (e_dbg E) (bd_clumps d) half false (Writer [] None) = (Done tt, Writer a None)).
  { rewrite Ed, (proj1 (p_C75_byte_outcome (e_dbg E) hs half Fh)), (half_bytes_stands context (unchanged cs) b a half 0 0 hs put left Hp 0 Hcov ltac:(lia) eq_refl Hne N), Ea. reflexivity. }
  destruct (way_change E P false (ByteChange d) half a f FF He Hd Ht T) as (g & w & W1 & W2 & W3 & _ & W5); [eapply patches_bytes; exact R|]. subst g. exists w. auto.
Qed.
(* the first two of three clumps have been put in; the first adds a line and the second takes one away *)
Lemma e_C140_example : let b := L "A V B C E Q D F H " in let a := L "A X W B C Y D F Z " in let half := L "A X W B C Y D F H " in
  let k1 := Hunk 1 1 0 (L "A V B ") 0 (L "A X W B ") in let k2 := Hunk 1 1 3 (L "C E Q D ") 4 (L "C Y D ") in let k3 := Hunk 1 0 7 (L "F H ") 7 (L "F Z ") in
  text_diff_clumps b a 1 = Ok (map text_of_hunk [k1; k2; k3]) /\ stands 0 0 [k1; k2; k3] [k1; k2] [k3] /\
  patched b 0 [k1; k2] = half /\ Forall (fun h => ~ fits_somewhere h half /\ List.length (h_old h) <= List.length half) [k1; k2] /\
  forall dbg, text_apply_into dbg (map text_of_hunk [k1; k2; k3]) half false (Writer [] None) = (Done (Stats 1 0 2 0 0), Writer (List.concat a) None).
Proof.
  intros b a half k1 k2 k3. split; [vr|]. split.
  { apply stands_put; [cbn; lia|vr|]. apply stands_put; [vm_compute; lia|vr|]. exact (stands_rest 7 [k3]). }
  split; [vr|]. split; [|intros dbg; destruct dbg; vr].
  repeat (constructor; [split; [apply fits_check_false; vr|vm_compute; lia]|]). constructor.
Qed.
Lemma e_C140_bytes_example : let b := list_byte_of_string "ABCMDEFNOGHI" in let a := list_byte_of_string "AXCMDYFNOGZWI" in
  let k3 := Hunk 1 1 9 (list_byte_of_string "GHI") 9 (list_byte_of_string "GZWI") in
  let k1 := Hunk 1 1 0 (list_byte_of_string "ABC") 0 (list_byte_of_string "AXC") in let k2 := Hunk 1 1 4 (list_byte_of_string "DEF") 4 (list_byte_of_string "DYF") in
  byte_diff_clumps b a 1 = Ok (map byte_of_hunk [k1; k2; k3]) /\ put_in [k1; k2; k3] [k2] [k1; k3] /\ bytes_fit b [k1; k2; k3] /\
  patched b 0 [k2] = list_byte_of_string "ABCMDYFNOGHI" /\
  forall dbg, byte_apply_into dbg (map byte_of_hunk [k1; k2; k3]) (list_byte_of_string "ABCMDYFNOGHI") false (Writer [] None) = (Done tt, Writer a None).
Proof.
  intros b a k3 k1 k2. split; [vr|]. split; [apply put_other; [reflexivity|]; apply put_this; [reflexivity|]; apply put_none|]. split; [vr|]. split; [vr|]. intros dbg; destruct dbg; vr.
Qed.
(* the first two of three clumps have been put in; the first adds a byte and the second takes one away *)
Lemma e_C140_bytes_moved_example : let b := list_byte_of_string "AVBCEQDFH" in let a := list_byte_of_string "AXWBCYDFZ" in let half := list_byte_of_string "AXWBCYDFH" in
  let k1 := Hunk 1 1 0 (list_byte_of_string "AVB") 0 (list_byte_of_string "AXWB") in let k2 := Hunk 1 1 3 (list_byte_of_string "CEQD") 4 (list_byte_of_string "CYD") in let k3 := Hunk 1 0 7 (list_byte_of_string "FH") 7 (list_byte_of_string "FZ") in
  byte_diff_clumps b a 1 = Ok (map byte_of_hunk [k1; k2; k3]) /\ stands 0 0 [k1; k2; k3] [k1; k2] [k3] /\ patched b 0 [k1; k2] = half /\
  Forall (fun h => matches_at half (h_old h) (h_b h) = false /\ h_new h <> []) [k1; k2] /\
  forall dbg, byte_apply_into dbg (map byte_of_hunk [k1; k2; k3]) half false (Writer [] None) = (Done tt, Writer a None).
Proof.
  intros b a half k1 k2 k3. split; [vr|]. split.
  { apply stands_put; [cbn; lia|vr|]. apply stands_put; [vm_compute; lia|vr|]. exact (stands_rest 7 [k3]). }
  split; [vr|]. split; [|intros dbg; destruct dbg; vr].
  repeat (constructor; [split; [vr|discriminate]|]). constructor.
Qed.
Lemma e_C140_both_ways_example : let b := L "B C D E F G H I J K M " in let a := L "X C D E Y G H I J K Z " in
  let k1 := Hunk 0 1 0 (L "B C ") 0 (L "X C ") in let k2 := Hunk 1 1 3 (L "E F G ") 3 (L "E Y G ") in let k3 := Hunk 1 0 9 (L "K M ") 9 (L "K Z ") in
  text_diff_clumps b a 1 = Ok (map text_of_hunk [k1; k2; k3]) /\ patched b 0 [k1; k2; k3] = a /\ parts [k1; k2; k3] [k2] [k1; k3] /\
  patched b 0 [k2] = L "B C D E Y G H I J K M " /\
  Forall (fun h => ~ fits_somewhere h (L "B C D E Y G H I J K M ")) [k2] /\ Forall (fun h => ~ fits_somewhere (swap_hunk h) (L "B C D E Y G H I J K M ")) [k1; k3] /\
  forall dbg, text_apply_into dbg (map text_of_hunk [k1; k2; k3]) (L "B C D E Y G H I J K M ") true (Writer [] None) = (Done (Stats 1 0 2 0 0), Writer (List.concat b) None).
Proof.
  intros b a k1 k2 k3. split; [vr|]. split; [vr|]. split; [apply parts_second, parts_first, parts_second, parts_nil|]. split; [vr|].
  split; [repeat (constructor; [apply fits_check_false; vr|]); constructor|]. split; [repeat (constructor; [apply fits_check_false; vr|]); constructor|]. intros dbg; destruct dbg; vr.
Qed.
Lemma e_C140_bytes_both_ways_example : let b := list_byte_of_string "BCDEFGHIJKM" in let a := list_byte_of_string "XCDEYGHIJKZ" in
  let k1 := Hunk 0 1 0 (list_byte_of_string "BC") 0 (list_byte_of_string "XC") in let k2 := Hunk 1 1 3 (list_byte_of_string "EFG") 3 (list_byte_of_string "EYG") in let k3 := Hunk 1 0 9 (list_byte_of_string "KM") 9 (list_byte_of_string "KZ") in
  byte_diff_clumps b a 1 = Ok (map byte_of_hunk [k1; k2; k3]) /\ patched b 0 [k1; k2; k3] = a /\ parts [k1; k2; k3] [k2] [k1; k3] /\ bytes_fit b [k1; k2; k3] /\
  patched b 0 [k2] = list_byte_of_string "BCDEYGHIJKM" /\
  forall dbg, byte_apply_into dbg (map byte_of_hunk [k1; k2; k3]) (list_byte_of_string "BCDEYGHIJKM") true (Writer [] None) = (Done tt, Writer b None).
Proof. intros b a k1 k2 k3. split; [vr|]. split; [vr|]. split; [apply parts_second, parts_first, parts_second, parts_nil|]. split; [vr|]. split; [vr|]. intros dbg; destruct dbg; vr. Qed.
Lemma e_C140_file_moved_example :
  let hs := [Hunk 1 1 0 (L "A V B ") 0 (L "A X W B "); Hunk 1 1 3 (L "C E Q D ") 4 (L "C Y D "); Hunk 1 0 7 (L "F H ") 7 (L "F Z ")] in
  let f := files [(bs "A", bs "A X W B C Y D F H "); (bs "P", saved (TextChange (TextDiff (bs "A") (bs "B") (map text_of_hunk hs))))] in
  let run := patch_main (calm_env true) (bs "P") false (start f) in
  fst run = Val tt /\ content (w_fs (snd run)) (bs "A") = Some (bs "A X W B C Y D F Z ").
Proof. intros hs f run. split; vr. Qed.
Lemma e_C140_bytes_file_moved_example :
  let hs := [Hunk 1 1 0 (list_byte_of_string "AVB") 0 (list_byte_of_string "AXWB"); Hunk 1 1 3 (list_byte_of_string "CEQD") 4 (list_byte_of_string "CYD"); Hunk 1 0 7 (list_byte_of_string "FH") 7 (list_byte_of_string "FZ")] in
  let f := files [(bs "A", list_byte_of_string "AXWBCYDFH"); (bs "P", saved (ByteChange (ByteDiff (bs "A") (bs "B") false (map byte_of_hunk hs))))] in
  let run := patch_main (calm_env true) (bs "P") false (start f) in
  fst run = Val tt /\ content (w_fs (snd run)) (bs "A") = Some (list_byte_of_string "AXWBCYDFZ").
Proof. intros hs f run. split; vr. Qed.
Lemma e_C140_file_example :
  let hs := [Hunk 0 1 0 (L "B C ") 0 (L "X C "); Hunk 1 1 3 (L "E F G ") 3 (L "E Y G "); Hunk 1 0 9 (L "K M ") 9 (L "K Z ")] in
  let f := files [(bs "A", bs "B C D E Y G H I J K M "); (bs "P", saved (TextChange (TextDiff (bs "A") (bs "B") (map text_of_hunk hs))))] in
  let run reverse := patch_main (calm_env true) (bs "P") reverse (start f) in
  fst (run false) = Val tt /\ content (w_fs (snd (run false))) (bs "A") = Some (bs "X C D E Y G H I J K Z ") /\
  fst (run true) = Val tt /\ content (w_fs (snd (run true))) (bs "A") = Some (bs "B C D E F G H I J K M ").
Proof. intros hs f run. split; [vr|]. split; [vr|]. split; vr. Qed.
Lemma e_C140_bytes_file_example :
  let hs := [Hunk 0 1 0 (list_byte_of_string "BC") 0 (list_byte_of_string "XC"); Hunk 1 1 3 (list_byte_of_string "EFG") 3 (list_byte_of_string "EYG"); Hunk 1 0 9 (list_byte_of_string "KM") 9 (list_byte_of_string "KZ")] in
  let f := files [(list_byte_of_string "A", list_byte_of_string "BCDEYGHIJKM"); (list_byte_of_string "P", saved (ByteChange (ByteDiff (list_byte_of_string "A") (list_byte_of_string "B") false (map byte_of_hunk hs))))] in
  let run reverse := patch_main (calm_env true) (list_byte_of_string "P") reverse (start f) in
  fst (run false) = Val tt /\ content (w_fs (snd (run false))) (list_byte_of_string "A") = Some (list_byte_of_string "XCDEYGHIJKZ") /\
  fst (run true) = Val tt /\ content (w_fs (snd (run true))) (list_byte_of_string "A") = Some (list_byte_of_string "BCDEFGHIJKM").
Proof. intros hs f run. split; [vr|]. split; [vr|]. split; vr. Qed.

(* Proof_Merge.v - lemmas for C93 and C94. *)
From Verif Require Import Base Model_Seq Model_Changes Model_IO Model_Text Spec Spec_Outcome Spec_Merge Proof_Arith Proof_Seq Proof_Diff Proof_Text Proof_Nearby Proof_Apply Proof_Fuzzy Proof_IO Proof_Outcome.
Local Open Scope Z_scope.

Lemma best_elsewhere h target expected p pos : best_place h target expected p -> pos <> Z.of_nat p ->
  ~ (Z.abs (Z.of_nat p - expected) < Z.abs (pos - expected) \/ (Z.of_nat p - expected = expected - pos /\ Z.of_nat p < pos)) ->
  decision h target pos None.
Proof.
  intros [_ Hb] Hne Hf. apply decide_none.
  - intros Ho. destruct (Hb pos 0%nat) as [E|E]; [now left| |contradiction|contradiction].
    unfold occurs_trimmed. simpl. now rewrite trimmed_0, Z.add_0_r.
  - intros k K1 K2 Ho. destruct (Hb pos k) as [E|E]; [now right|assumption|contradiction|contradiction].
Qed.

Lemma best_fate dbg target h next from offset p : hunk_ok h ->
  match next with Some n => (h_b h + length (h_old h) <= h_b n)%nat | None => True end ->
  (from <= p)%nat -> best_place h target (Z.of_nat (h_b h) + offset) p -> within_reach h next target offset p ->
  fate_of dbg target h next from offset
    (Placed (negb (Z.of_nat p =? Z.of_nat (h_b h) + offset)) (Z.of_nat p - Z.of_nat (h_b h)) Cleanly).
Proof.
  intros Hok Hn Hf Hb Hr. pose proof Hb as [Ho _]. pose proof Ho as (p' & Ep & Hp & _). apply Nat2Z.inj in Ep. subst p'.
  destruct Hok as (H1 & _). set (e := Z.of_nat (h_b h) + offset) in *.
  destruct (Z.eqb_spec (Z.of_nat p) e) as [E|E]; cbn [negb].
  - replace (Z.of_nat p - Z.of_nat (h_b h)) with offset by (unfold e in E; lia).
    change false with (reduced Cleanly). apply fate_here. fold e. rewrite <- E. now constructor.
  - replace (Z.of_nat p - Z.of_nat (h_b h)) with (offset + (Z.of_nat p - e)) by (unfold e; lia).
    assert (Hl : search_limit h target next offset > Z.of_nat p \/ (Z.of_nat p < e /\ 0 <= search_limit h target next offset)).
    { destruct Hr as [Hr|Hr].
      - right. split; [lia|]. unfold search_limit, core_length, zlen. fold e in Hr. destruct next as [n|]; [|lia]. unfold e in Hr. lia.
      - left. unfold search_limit. destruct next; lia. }
    apply fate_near.
    + fold e. apply (best_elsewhere h target e p); [assumption|congruence|lia].
    + intros _ [_ Hu]. lia.
    + unfold old_nearby. fold e. apply nearest_found.
      * destruct Hl as [Hl|[Hl _]]; [destruct (Z.lt_ge_cases (Z.of_nat p) e); [left|right]|left]; lia.
      * replace (e + (Z.of_nat p - e)) with (Z.of_nat p) by lia. now constructor.
      * intros d Hw Hd. apply (best_elsewhere h target e p); [assumption|lia|lia].
Qed.

Lemma merged_outcome dbg target : forall hs from offset moved out, Forall hunk_ok hs -> ordered hs ->
  merged within_reach target from offset hs moved out ->
  exists l, outcome dbg target from offset hs (Some l) (concat out) /\ tally l = Stats (length hs - moved) moved 0 0 0 /\
    (moved <= length hs)%nat.
Proof.
  intros hs from offset moved out Hok Hord H.
  induction H as [from offset Hf|from offset h rest p moved out Hf Hb Hr H IH].
  - exists []. split; [now apply outcome_end|]. split; [reflexivity|lia].
  - inversion Hok as [|? ? Ok1 Ok2]; subst. destruct Hord as [Ho1 Ho2]. destruct (IH Ok2 Ho2) as (l & A & B & C). clear IH.
    pose proof Hb as [(p' & Ep & Hp & _) _]. apply Nat2Z.inj in Ep. subst p'.
    assert (HF : fate_of dbg target h (hd_error rest) from offset
                   (Placed (negb (Z.of_nat p =? Z.of_nat (h_b h) + offset)) (Z.of_nat p - Z.of_nat (h_b h)) Cleanly)).
    { apply best_fate; auto. destruct rest; cbn [hd_error]; [exact I|apply Ho1]. }
    eexists. split; [|split].
    + rewrite !concat_app.
      assert (Ek : kept_from (h_b h) (Z.of_nat p - Z.of_nat (h_b h)) Cleanly = p) by (unfold kept_from; cbn [cut_lead]; lia).
      rewrite <- Ek at 1. change (h_new h) with (written h Cleanly). change (Some (?x :: l)) with (option_map (cons x) (Some l)).
      eapply (outcome_placed _ _ _ _ _ _ _ _ _ (Some l)); [exact HF|now left|].
      rewrite Ek. unfold kept_count. cbn [cut_lead cut_trail]. rewrite !Nat.sub_0_r, Nat.max_r by lia. exact A.
    + unfold tally in *. injection B as B1 B2 B3 B4 B5. unfold how_many in *.
      destruct (Z.of_nat p =? Z.of_nat (h_b h) + offset); cbn [negb filter length] in *; rewrite ?B1, ?B2, ?B3, ?B4, ?B5; f_equal; lia.
    + destruct (Z.of_nat p =? _); cbn [length]; lia.
Qed.

Lemma text_apply_merged dbg hs target moved out : Forall hunk_ok hs -> ordered hs -> lines_fit hs -> fits_lines target ->
  merged within_reach target 0 0 hs moved out ->
  emits (text_apply_into dbg (map text_of_hunk hs) target false) (concat out) (Done (Stats (length hs - moved) moved 0 0 0)).
Proof.
  intros Hok Hord Hf Ft Hm. destruct (merged_outcome dbg target hs 0 0 moved out Hok Hord Hm) as (l & A & B & _).
  destruct (text_outcome dbg hs target Hok Hf Ft) as (r & out' & HO & HE).
  destruct (outcome_unique _ _ _ _ _ _ _ HO _ _ A) as [-> ->]. now rewrite B in HE.
Qed.

Lemma ordered_swap (hs : list (hunk line)) : ordered hs -> ordered (map swap_hunk hs).
Proof.
  induction hs as [|h [|n rest] IH]; cbn [map ordered]; auto. intros [[H1 H2] H3]. split; [split; assumption|]. now apply IH.
Qed.

(* ---------------- undoing ---------------- *)
(* what lies between two hunks is equally long on both sides *)
Fixpoint level (hs : list (hunk line)) : Prop :=
  match hs with
  | [] => True
  | h :: rest => match rest with [] => True | n :: _ => (h_b n + h_a h + length (h_new h) = h_a n + h_b h + length (h_old h))%nat end /\ level rest
  end.
Lemma sub_app_mid {T} (pre x post : list T) : sub (pre ++ x ++ post) (length pre) (length pre + length x) = x.
Proof.
  unfold sub. rewrite skipn_app, skipn_all, Nat.sub_diag. cbn [app skipn].
  replace (length pre + length x - length pre)%nat with (length x) by lia. rewrite firstn_app, firstn_all, Nat.sub_diag. cbn [firstn]. apply app_nil_r.
Qed.
Lemma merged_undo target out0 : forall hs from offset moved out, merged within_reach target from offset hs moved out ->
  Forall hunk_ok hs -> level hs -> Forall (fun h => fits_once (swap_hunk h) out0) hs -> (from <= length target)%nat ->
  forall pre offset', out0 = pre ++ out ->
  match hs with [] => True | h :: _ => Z.of_nat (length pre) - Z.of_nat from = Z.of_nat (h_a h) - Z.of_nat (h_b h) + offset' - offset end ->
  merged within_reach out0 (length pre) offset' (map swap_hunk hs) moved (skipn from target).
Proof.
  intros hs from offset moved out H.
  induction H as [from offset Hf|from offset h rest p moved out Hf Hb Hr H IH]; intros Hok Hl Hu Hft pre offset' E Hs; cbn [map].
  - replace (skipn from target) with (skipn (length pre) out0) by (rewrite E, skipn_app, skipn_all, Nat.sub_diag; reflexivity).
    apply merged_end. rewrite E, app_length. lia.
  - inversion Hok as [|? ? Ok1 Ok2]; subst. inversion Hu as [|? ? Hu1 Hu2]; subst. destruct Hl as [Hl1 Hl2].
    destruct Hb as [(p1 & Ep & Hp & Esub) _]. apply Nat2Z.inj in Ep. subst p1.
    set (mid := sub target from p) in *. assert (Lm : length mid = (p - from)%nat) by (unfold mid; rewrite sub_length; lia).
    set (out0 := pre ++ mid ++ h_new h ++ out) in *. set (p' := (length pre + length mid)%nat).
    assert (Ep' : sub out0 (length pre) p' = mid) by apply sub_app_mid.
    assert (Hocc : occurs_at out0 (h_new h) (Z.of_nat p')).
    { exists p'. split; [reflexivity|]. unfold out0, p'. rewrite !app_length. split; [lia|]. rewrite app_assoc, <- app_length. apply sub_app_mid. }
    assert (Elen : length out = (length out0 - p' - length (h_new h))%nat) by (unfold out0, p'; rewrite !app_length; lia).
    assert (Llast : rest = [] -> length out = (length target - (p + length (h_old h)))%nat).
    { intros ->. inversion H; subst. now rewrite skipn_length. }
    assert (Hlen : (p' + length (h_new h) <= length out0)%nat) by (unfold out0, p'; rewrite !app_length; lia).
    replace (skipn from target) with (sub out0 (length pre) p' ++ h_new (swap_hunk h) ++ skipn (p + length (h_old h)) target).
    2:{ rewrite Ep'. cbn [swap_hunk h_new]. unfold mid. rewrite <- Esub at 1.
        rewrite app_assoc, sub_app by lia. apply sub_skipn; lia. }
    replace (Z.of_nat p =? Z.of_nat (h_b h) + offset) with (Z.of_nat p' =? Z.of_nat (h_b (swap_hunk h)) + offset')
      by (apply eq_true_iff_eq; rewrite !Z.eqb_eq; cbn [swap_hunk h_b]; unfold p'; lia).
    apply merged_hunk.
    + unfold p'. lia.
    + split; [exact Hocc|]. intros pos k Hk Ho. left. apply (Hu1 pos k (Z.of_nat p') 0%nat Hk Ho); [now left|].
      unfold occurs_trimmed. simpl. rewrite trimmed_0, Z.add_0_r. exact Hocc.
    + unfold within_reach in *. unfold core_length, zlen in *. destruct Hr as [Hr|Hr]; [left; cbn [swap_hunk h_b]; unfold p'; lia|right].
      destruct rest as [|n rest]; cbn [map hd_error swap_hunk h_old h_new h_b h_a h_lead h_trail] in *.
      * specialize (Llast eq_refl). unfold p' in *. lia.
      * unfold p'. lia.
    + cbn [swap_hunk h_old h_b]. replace (p' + length (h_new h))%nat with (length (pre ++ mid ++ h_new h)) by (unfold p'; rewrite !app_length; lia).
      apply IH; auto.
      * unfold out0. now rewrite !app_assoc.
      * destruct rest as [|n rest]; [exact I|]. rewrite !app_length. unfold p'. lia.
Qed.

(* ---------------- hunks of a diff ---------------- *)
Lemma cover_level context g (b a : list line) i j hs : cover context g b a i j hs -> level hs /\
  match hs with [] => True | h :: _ => (h_b h + j = h_a h + i)%nat end.
Proof.
  intros H. induction H as [|i j d i' j' l t rest Hg H1 H2 H3 H4 H5 H6 H7 H8 H9 H [IH1 IH2]]; [split; exact I|].
  split; [|cbn [h_b h_a]; lia]. split; [|assumption]. destruct rest as [|n rest]; [exact I|]. cbn [h_b h_a h_old h_new]. rewrite !sub_length by lia. lia.
Qed.
Lemma cover_total context g (b a : list line) i j hs : cover context g b a i j hs ->
  (i + j + fold_right (fun h n => length (h_old h) + length (h_new h) + n) 0 hs <= length b + length a)%nat.
Proof.
  intros H. induction H as [|i j d i' j' l t rest Hg H1 H2 H3 H4 H5 H6 H7 H8 H9 H IH]; cbn [fold_right h_old h_new]; [lia|].
  rewrite !sub_length by lia. lia.
Qed.
Lemma cover_lines_fit context g (b a : list line) hs : fits_lines (b ++ a) -> cover context g b a 0 0 hs -> lines_fit hs.
Proof.
  intros F H. apply cover_total in H. unfold fits_lines, lines_fit, zlen in *. rewrite app_length in F. lia.
Qed.

(* ---------------- deciding the conditions on concrete cases ---------------- *)
Definition spots (h : hunk line) (target : list line) : list Z :=
  flat_map (fun k => flat_map (fun p => if list_eqb line_eqb (sub target p (p + length (trimmed h k))) (trimmed h k)
                                        then [Z.of_nat p - Z.of_nat (Nat.min k (h_lead h))] else []) (seq 0 (S (length target))))
           (seq 0 (Nat.max 1 (Nat.max (h_lead h) (h_trail h)))).
Lemma spots_complete h target pos k : admissible h k -> occurs_trimmed h target pos k -> In pos (spots h target).
Proof.
  intros Hk (p & Ep & Hp & E). apply in_flat_map. exists k. split; [apply in_seq; destruct Hk; lia|].
  apply in_flat_map. exists p. split; [apply in_seq; lia|].
  rewrite (proj2 (list_eqb_lawful line_eqb line_eqb_lawful _ _) E). left. lia.
Qed.
Lemma once_check h target p : forallb (Z.eqb p) (spots h target) = true -> fits_once h target.
Proof.
  intros H. rewrite forallb_forall in H. intros pos k pos' k' H1 H2 H3 H4.
  pose proof (H _ (spots_complete _ _ _ _ H1 H2)) as E1. pose proof (H _ (spots_complete _ _ _ _ H3 H4)) as E2.
  apply Z.eqb_eq in E1, E2. congruence.
Qed.
Lemma occurs_check (target items : list line) p : (p + length items <=? length target)%nat = true -> list_eqb line_eqb (sub target p (p + length items)) items = true ->
  occurs_at target items (Z.of_nat p).
Proof. intros H E. exists p. split; [reflexivity|]. apply Nat.leb_le in H. split; [assumption|]. now apply (list_eqb_lawful line_eqb line_eqb_lawful). Qed.
Lemma best_of_once h target e p : occurs_at target (h_old h) (Z.of_nat p) -> fits_once h target -> best_place h target e p.
Proof.
  intros Ho Hu. split; [assumption|]. intros pos k Hk H. left. apply (Hu pos k (Z.of_nat p) 0%nat Hk H); [now left|].
  unfold occurs_trimmed. simpl. now rewrite trimmed_0, Z.add_0_r.
Qed.
Lemma merged_at (reach : hunk line -> option (hunk line) -> list line -> Z -> nat -> Prop) target from offset h rest p m moved out2 out :
  m = (if Z.of_nat p =? Z.of_nat (h_b h) + offset then moved else S moved) -> out = sub target from p ++ h_new h ++ out2 ->
  (from <= p)%nat -> best_place h target (Z.of_nat (h_b h) + offset) p -> reach h (hd_error rest) target offset p ->
  merged reach target (p + length (h_old h)) (Z.of_nat p - Z.of_nat (h_b h)) rest moved out2 ->
  merged reach target from offset (h :: rest) m out.
Proof. intros -> -> H1 H2 H3 H4. now apply merged_hunk. Qed.
Lemma merged_stop reach target from offset out : (from <=? length target)%nat = true -> out = skipn from target -> merged reach target from offset [] 0 out.
Proof. intros H ->. apply merged_end. now apply Nat.leb_le. Qed.

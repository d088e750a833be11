(* Proof_Props_Select.v - the property lemmas on applying a diff in parts. *)
From Coq Require Import String.
From Verif Require Import Base Model_Seq Model_Changes Model_IO Model_Text Model_Bytes Spec Spec_Nearly Spec_Shape Cases Proof_Seq Proof_Changes Proof_Clumps Proof_IO Proof_Diff Proof_Arith Proof_Text Proof_Apply Proof_Bytes Proof_Select Proof_Props_Gen Proof_Props_Text Proof_Props_Bytes.

Local Ltac vr := vm_compute; reflexivity.

(* ---------------- auxiliary ---------------- *)
Lemma parts_map {A B} (f : A -> B) l c r : parts (map f l) c r -> exists c' r', c = map f c' /\ r = map f r' /\ parts l c' r'.
Proof.
  revert c r. induction l as [|x l IH]; intros c r H; cbn [map] in H; inversion H as [|? ? c0 ? H'|? ? ? r0 H']; subst.
  - exists [], []. repeat split; constructor.
  - destruct (IH _ _ H') as (c' & r' & -> & -> & Hp). exists (x :: c'), r'. repeat split. now constructor.
  - destruct (IH _ _ H') as (c' & r' & -> & -> & Hp). exists c', (x :: r'). repeat split. now constructor.
Qed.
Lemma map_parts {A B} (f : A -> B) l c r : parts l c r -> parts (map f l) (map f c) (map f r).
Proof. induction 1; cbn [map]; now constructor. Qed.
Lemma parts_forall {A} (P : A -> Prop) l c r : parts l c r -> Forall P l -> Forall P c /\ Forall P r.
Proof. induction 1 as [|x l c r H IH|x l c r H IH]; intros HF; [auto|..]; inversion HF as [|? ? F1 F2]; subst; destruct (IH F2); split; try constructor; assumption. Qed.
Lemma swap_steady {T} (hs c r : list (hunk T)) : steady_parts hs c r -> steady_parts (map swap_hunk hs) (map swap_hunk c) (map swap_hunk r).
Proof. induction 1; cbn [map]; constructor; auto. Qed.
Lemma parts_length {T} context g (b a : list T) i j hs : cover context g b a i j hs -> forall c r, parts hs c r ->
  length (patched b i c) + i + j <= length b + length a.
Proof.
  induction 1 as [i j d Hg H1 H2|i j d i' j' l t rest Hg H1 H2 H3 H4 H5 H6 H7 H8 H9 H IH]; intros c r Hp.
  - inversion Hp; subst. cbn [patched]. rewrite skipn_length. lia.
  - pose proof (cover_placed _ _ _ _ _ _ _ H) as Hpl. inversion Hp as [|? ? c0 ? Hp'|? ? ? r0 Hp']; subst; specialize (IH _ _ Hp').
    + cbn [patched h_b h_old h_new]. rewrite (sub_length b (i + d) i') by lia. replace (i + d + (i' - (i + d))) with i' by lia.
      rewrite !app_length, !sub_length by lia. lia.
    + rewrite (patched_from b i i') by (lia || exact (proj1 (placed_parts _ _ _ _ Hp' _ Hpl))). rewrite app_length, sub_length by lia. lia.
Qed.
Lemma fits_parts (b a out : list line) : fits_lines (b ++ a) -> length out <= length b + length a -> fits_lines out.
Proof. unfold fits_lines, zlen. rewrite app_length. lia. Qed.
Lemma fits_app_lines (b a : list line) : fits_lines (b ++ a) -> fits_lines b /\ fits_lines a.
Proof. unfold fits_lines, zlen. rewrite app_length. lia. Qed.
Lemma fits_bparts (b a out : list byte) : fits_bytes (b ++ a) -> length out <= length b + length a -> fits_bytes out.
Proof. unfold fits_bytes, zlen. rewrite app_length. lia. Qed.
Lemma fits_app_bytes (b a : list byte) : fits_bytes (b ++ a) -> fits_bytes b /\ fits_bytes a.
Proof. unfold fits_bytes, zlen. rewrite app_length. lia. Qed.

(* ---------------- the parts of a patched text are lines ---------------- *)
Definition ended (l : line) : Prop := is_line l /\ ends_in_newline l.
Definition good (ls : list line) : Prop := Forall is_line ls /\ forall pre l post, ls = pre ++ l :: post -> post <> [] -> ends_in_newline l.
Lemma good_app xs ys : Forall ended xs -> good ys -> good (xs ++ ys).
Proof.
  intros Hx [H1 H2]. split; [apply Forall_app; split; [eapply Forall_impl; [|exact Hx]; intros l []; assumption|assumption]|].
  induction Hx as [|x xs [_ Hn] Hx IH]; [assumption|]. intros [|p pre] l post E Hp; cbn [app] in E; injection E as -> E; [assumption|]. now apply (IH pre l post).
Qed.
Lemma good_skipn ls i : good ls -> good (skipn i ls).
Proof.
  intros [H1 H2]. split.
  - rewrite <- (firstn_skipn i ls) in H1. now apply Forall_app in H1.
  - intros pre l post E. apply (H2 (firstn i ls ++ pre) l post). rewrite <- (firstn_skipn i ls) at 1. now rewrite E, app_assoc.
Qed.
Lemma good_sub ls i k : good ls -> k < length ls -> Forall ended (sub ls i k).
Proof.
  intros [H1 H2] Hk. apply Forall_forall. intros l Hl. apply In_nth_error in Hl as (t & Ht). rewrite sub_nth in Ht. destruct (Nat.ltb_spec t (k - i)) as [L|L]; [|discriminate].
  split; [rewrite Forall_forall in H1; apply H1; eapply nth_error_In; eassumption|].
  apply nth_error_split in Ht as (pre & post & -> & Hpre). apply (H2 pre l post eq_refl). intros ->. rewrite app_length in Hk. cbn in Hk. lia.
Qed.
Lemma parts_good context g (b a : list line) i j hs : 1 <= context -> good b -> good a -> cover context g b a i j hs -> forall c r, parts hs c r -> good (patched b i c).
Proof.
  intros Hc Gb Ga. induction 1 as [i j d Hg H1 H2|i j d i' j' l t rest Hg H1 H2 H3 H4 H5 H6 H7 H8 H9 H IH]; intros c r Hp.
  - inversion Hp; subst. now apply good_skipn.
  - inversion Hp as [|? ? c0 ? Hp'|? ? ? r0 Hp']; subst; specialize (IH _ _ Hp').
    + cbn [patched h_b h_old h_new]. rewrite (sub_length b (i + d) i') by lia. replace (i + d + (i' - (i + d))) with i' by lia.
      assert (Hb : Forall ended (sub b i (i + d))).
      { destruct l as [|l]; [|apply good_sub; [assumption|lia]]. destruct (H8 eq_refl) as [?|[? ?]]; [lia|]. replace i with 0 by lia. replace d with 0 by lia. constructor. }
      apply good_app; [assumption|]. destruct (Nat.eq_dec j' (length a)) as [->|Hj].
      * assert (E : i' = length b /\ rest = []).
        { inversion H as [? ? d' G1 G2 G3|? ? d' ? ? l' t' ? G0 G1 G2 G3 G4 G5 G6 G7 G8 G9]; subst; [split; [lia|reflexivity]|].
          exfalso. destruct l' as [|l']; [|lia]. destruct (G8 eq_refl) as [?|[? ?]]; lia. }
        destruct E as [-> ->]. inversion Hp'; subst. cbn [patched]. rewrite skipn_all, app_nil_r, sub_all. now apply good_skipn.
      * apply good_app; [apply good_sub; [assumption|lia]|exact IH].
    + rewrite (patched_from b i i') by (lia || exact (proj1 (placed_parts _ _ _ _ Hp' _ (cover_placed _ _ _ _ _ _ _ H)))).
      destruct (Nat.eq_dec i' (length b)) as [->|Hi].
      * assert (E : rest = []).
        { inversion H as [? ? d' G1 G2 G3|? ? d' ? ? l' t' ? G0 G1 G2 G3 G4 G5 G6 G7 G8 G9]; subst; [reflexivity|].
          exfalso. destruct l' as [|l']; [|lia]. destruct (G8 eq_refl) as [?|[? ?]]; lia. }
        subst rest. inversion Hp'; subst. cbn [patched]. rewrite skipn_all, app_nil_r, sub_all. now apply good_skipn.
      * apply good_app; [apply good_sub; [assumption|lia]|exact IH].
Qed.

(* ------------------------------------------------------------------ C104 *)
(* C104: any selection of the clumps of a diff applies cleanly to the text the diff was made from,
   and each of them in its place: exactly the selected hunks are replaced.  Likewise in reverse on
   the other text. *)
Lemma p_C104_selection : forall dbg before after context clumps chosen others,
  context <= 255 -> fits_lines before -> fits_lines after -> text_diff_clumps before after context = Ok clumps -> parts clumps chosen others ->
  exists hs, chosen = map text_of_hunk hs /\
    text_apply_into dbg chosen before false (Writer [] None) = (Done (Stats (length chosen) 0 0 0 0), Writer (List.concat (patched before 0 hs)) None) /\
    text_apply_into dbg chosen after true (Writer [] None) = (Done (Stats (length chosen) 0 0 0 0), Writer (List.concat (patched after 0 (map swap_hunk hs))) None).
Proof.
  intros dbg b a context clumps chosen others Hc Fb Fa E Hp.
  destruct (diff_facts b a context clumps Hc Fb Fa E) as (cs & hs0 & -> & E3 & Hcov & Hok & Hord).
  destruct (parts_map _ _ _ _ Hp) as (hs & rs & -> & -> & Hp'). exists hs. split; [reflexivity|]. rewrite map_length.
  destruct (parts_forall _ _ _ _ Hp' Hok) as [Hok' _]. split.
  - apply emits_run. apply text_apply_placed; [assumption..|]. exact (proj1 (placed_parts _ _ _ _ Hp' _ (cover_placed _ _ _ _ _ _ _ Hcov))).
  - rewrite reverse_apply, <- (map_length swap_hunk hs). apply emits_run. apply text_apply_placed; [assumption|now apply hunks_ok_swap|].
    exact (proj1 (placed_parts _ _ _ _ (map_parts swap_hunk _ _ _ Hp') _ (cover_placed _ _ _ _ _ _ _ (cover_swap _ _ _ _ _ _ _ Hcov)))).
Qed.
(* with context the lines written are those the result is read as *)
Lemma p_C104_lines : forall before_text after_text before after context clumps hs others,
  1 <= context <= 255 -> lines_of before_text before -> lines_of after_text after -> fits_lines before -> fits_lines after ->
  text_diff_clumps before after context = Ok clumps -> parts clumps (map text_of_hunk hs) others ->
  lines_of (List.concat (patched before 0 hs)) (patched before 0 hs).
Proof.
  intros tb ta b a context clumps hs others Hc Lb La Fb Fa E Hp.
  destruct (diff_facts b a context clumps (proj2 Hc) Fb Fa E) as (cs & hs0 & -> & E3 & Hcov & Hok & Hord).
  destruct (parts_map _ _ _ _ Hp) as (hs' & rs & Eh & -> & Hp'). apply map_text_of_hunk_inj in Eh as <-.
  split; [reflexivity|]. exact (parts_good _ _ _ _ _ _ _ (proj1 Hc) (proj2 Lb) (proj2 La) Hcov _ _ Hp').
Qed.
(* bytes, full statement: the same for every selection.  It is false: a clump at the very end is not found *)
Lemma p_C104_selection_bytes_refuted : exists before after hs chosen others,
  byte_diff_clumps before after 0 = Ok (map byte_of_hunk hs) /\ parts hs chosen others /\
  forall dbg, byte_apply_into dbg (map byte_of_hunk chosen) before false (Writer [] None) = (Done tt, Writer before None) /\
    patched before 0 chosen <> before.
Proof.
  exists (bs "ABCDEF"), (bs "AXBCDEFYZ"), [Hunk 0 0 1 [] 1 (bs "X"); Hunk 0 0 6 [] 7 (bs "YZ")]. do 2 eexists.
  split; [vr|]. split; [apply parts_second, parts_first, parts_nil|]. intros dbg. split; [destruct dbg; vr|discriminate].
Qed.
(* What does hold: if all clumps start before the end of the file.  Missing: clumps at the end. *)
Lemma p_C104_selection_bytes_partial : forall dbg before after context hs chosen others,
  context <= 255 -> fits_bytes before -> fits_bytes after -> byte_diff_clumps before after context = Ok (map byte_of_hunk hs) -> parts hs chosen others ->
  (Forall (fun h => h_b h < length before) chosen ->
     byte_apply_into dbg (map byte_of_hunk chosen) before false (Writer [] None) = (Done tt, Writer (patched before 0 chosen) None)) /\
  (Forall (fun h => h_a h < length after) chosen ->
     byte_apply_into dbg (map byte_of_hunk chosen) after true (Writer [] None) = (Done tt, Writer (patched after 0 (map swap_hunk chosen)) None)).
Proof.
  intros dbg b a context hs chosen others Hc Fb Fa E Hp. destruct (bdiff_facts_hs b a context hs Hc E) as (cs & E3 & Hcov & Hord). split; intros HF.
  - apply emits_run. apply byte_apply_placed; [assumption| |assumption]. exact (proj1 (placed_parts _ _ _ _ Hp _ (cover_placed _ _ _ _ _ _ _ Hcov))).
  - rewrite breverse_apply. apply emits_run. apply byte_apply_placed; [assumption| |].
    + exact (proj1 (placed_parts _ _ _ _ (map_parts swap_hunk _ _ _ Hp) _ (cover_placed _ _ _ _ _ _ _ (cover_swap _ _ _ _ _ _ _ Hcov)))).
    + apply Forall_map. eapply Forall_impl; [|exact HF]. auto.
Qed.
Lemma e_C104_example : let b := L "P Q A B A B A B A B C D " in let a := L "N M P Q A B A B A B Z A B C D " in
  let h1 := Hunk 0 1 0 (L "P ") 0 (L "N M P ") in let h2 := Hunk 1 1 7 (L "B A ") 9 (L "B Z A ") in
  text_diff_clumps b a 1 = Ok (map text_of_hunk [h1; h2]) /\ parts (map text_of_hunk [h1; h2]) [text_of_hunk h2] [text_of_hunk h1] /\
  patched b 0 [h2] = L "P Q A B A B A B Z A B C D ".
Proof. split; [vr|]. split; [repeat constructor|]. vr. Qed.

(* ------------------------------------------------------------------ C105 *)
(* C105, full statement: a diff can be applied in two steps: some of its clumps, and then the others
   to the result, give the same as all of them at once.  It is false: lines put in by the first step
   move the places of the others, and a text that repeats itself then fits at the old place. *)
Lemma p_C105_in_parts_refuted : exists before after clumps first second out,
  text_diff_clumps before after 1 = Ok clumps /\ parts clumps first second /\
  forall dbg, text_apply_into dbg clumps before false (Writer [] None) = (Done (Stats 2 0 0 0 0), Writer (List.concat after) None) /\
    text_apply_into dbg first before false (Writer [] None) = (Done (Stats 1 0 0 0 0), Writer (List.concat out) None) /\
    exists out', text_apply_into dbg second out false (Writer [] None) = (Done (Stats 1 0 0 0 0), Writer out' None) /\ out' <> List.concat after.
Proof.
  exists (L "P Q A B A B A B A B C D "), (L "N M P Q A B A B A B Z A B C D "). eexists. do 2 eexists. exists (L "N M P Q A B A B A B A B C D ").
  split; [vr|]. split; [apply parts_first, parts_second, parts_nil|]. intros dbg. split; [destruct dbg; vr|]. split; [destruct dbg; vr|].
  eexists. split; [destruct dbg; vr|]. vm_compute. discriminate.
Qed.
(* What does hold: it is so if the clumps of the first step leave the others where they are, that is,
   put in as many lines as they take out or come after all others; in both directions.
   Missing: clumps that move the others. *)
Lemma p_C105_in_parts_partial : forall dbg before after context hs first second,
  context <= 255 -> fits_lines (before ++ after) -> text_diff_clumps before after context = Ok (map text_of_hunk hs) -> steady_parts hs first second ->
  (exists out whole,
     text_apply_into dbg (map text_of_hunk first) before false (Writer [] None) = (Done (Stats (length first) 0 0 0 0), Writer (List.concat out) None) /\
     text_apply_into dbg (map text_of_hunk second) out false (Writer [] None) = (Done (Stats (length second) 0 0 0 0), Writer whole None) /\
     text_apply_into dbg (map text_of_hunk hs) before false (Writer [] None) = (Done (Stats (length hs) 0 0 0 0), Writer whole None) /\
     (forall before_text after_text, 1 <= context -> lines_of before_text before -> lines_of after_text after -> lines_of (List.concat out) out)) /\
  (exists out whole,
     text_apply_into dbg (map text_of_hunk first) after true (Writer [] None) = (Done (Stats (length first) 0 0 0 0), Writer (List.concat out) None) /\
     text_apply_into dbg (map text_of_hunk second) out true (Writer [] None) = (Done (Stats (length second) 0 0 0 0), Writer whole None) /\
     text_apply_into dbg (map text_of_hunk hs) after true (Writer [] None) = (Done (Stats (length hs) 0 0 0 0), Writer whole None) /\
     (forall before_text after_text, 1 <= context -> lines_of before_text before -> lines_of after_text after -> lines_of (List.concat out) out)).
Proof.
  assert (G : forall dbg (b a : list line) context g hs c r, fits_lines (b ++ a) -> cover context g b a 0 0 hs -> Forall hunk_ok hs -> steady_parts hs c r ->
    exists out whole, text_apply_into dbg (map text_of_hunk c) b false (Writer [] None) = (Done (Stats (length c) 0 0 0 0), Writer (List.concat out) None) /\
     text_apply_into dbg (map text_of_hunk r) out false (Writer [] None) = (Done (Stats (length r) 0 0 0 0), Writer whole None) /\
     text_apply_into dbg (map text_of_hunk hs) b false (Writer [] None) = (Done (Stats (length hs) 0 0 0 0), Writer whole None) /\
     (1 <= context -> good b -> good a -> good out)).
  { intros dbg b a context g hs c r F Hcov Hok Hs. destruct (fits_app_lines _ _ F) as [Fb Fa]. pose proof (steady_is_parts _ _ _ Hs) as Hp.
    pose proof (cover_placed _ _ _ _ _ _ _ Hcov) as Hpl. destruct (parts_forall _ _ _ _ Hp Hok) as [O1 O2].
    destruct (steady_twice b hs c r Hs 0 [] eq_refl Hpl) as [S1 S2]. cbn [app] in S1, S2.
    exists (patched b 0 c), (List.concat (patched b 0 hs)). split; [|split; [|split]].
    - apply emits_run, text_apply_placed; [assumption..|]. exact (proj1 (placed_parts _ _ _ _ Hp _ Hpl)).
    - rewrite <- S2. apply emits_run, text_apply_placed; [|assumption..]. apply (fits_parts b a); [assumption|]. pose proof (parts_length _ _ _ _ _ _ _ Hcov _ _ Hp). lia.
    - apply emits_run, text_apply_placed; assumption.
    - intros H1 Gb Ga. exact (parts_good _ _ _ _ _ _ _ H1 Gb Ga Hcov _ _ Hp). }
  intros dbg b a context hs c r Hc F E Hs. destruct (fits_app_lines _ _ F) as [Fb Fa].
  destruct (diff_facts_hs b a context hs Hc Fb Fa E) as (cs & E3 & Hcov & Hok & Hord). split.
  - destruct (G dbg b a context _ hs c r F Hcov Hok Hs) as (out & whole & R1 & R2 & R3 & R4). exists out, whole. repeat (split; [assumption|]).
    intros tb ta H1 Lb La. split; [reflexivity|]. exact (R4 H1 (proj2 Lb) (proj2 La)).
  - assert (F' : fits_lines (a ++ b)) by (unfold fits_lines, zlen in *; rewrite app_length in *; lia).
    destruct (G dbg a b context _ _ _ _ F' (cover_swap _ _ _ _ _ _ _ Hcov) (hunks_ok_swap _ Hok) (swap_steady _ _ _ Hs)) as (out & whole & R1 & R2 & R3 & R4).
    exists out, whole. rewrite !map_length in *. rewrite !reverse_apply. repeat (split; [assumption|]).
      intros tb ta H1 Lb La. split; [reflexivity|]. exact (R4 H1 (proj2 La) (proj2 Lb)).
Qed.
(* in particular from the last clump to the first: the clumps after any point first *)
Lemma p_C105_last_first_partial : forall dbg before after context hs1 hs2,
  context <= 255 -> fits_lines (before ++ after) -> text_diff_clumps before after context = Ok (map text_of_hunk (hs1 ++ hs2)) ->
  exists out whole,
    text_apply_into dbg (map text_of_hunk hs2) before false (Writer [] None) = (Done (Stats (length hs2) 0 0 0 0), Writer (List.concat out) None) /\
    text_apply_into dbg (map text_of_hunk hs1) out false (Writer [] None) = (Done (Stats (length hs1) 0 0 0 0), Writer whole None) /\
    text_apply_into dbg (map text_of_hunk (hs1 ++ hs2)) before false (Writer [] None) = (Done (Stats (length (hs1 ++ hs2)) 0 0 0 0), Writer whole None).
Proof.
  intros dbg b a context hs1 hs2 Hc F E. destruct (p_C105_in_parts_partial dbg b a context (hs1 ++ hs2) hs2 hs1 Hc F E) as [(out & whole & R1 & R2 & R3 & _) _].
  - clear. induction hs1 as [|h hs1 IH]; cbn [app]; [constructor|now constructor].
  - exists out, whole. now repeat split.
Qed.
Lemma p_C105_bytes_partial : forall dbg before after context hs first second,
  1 <= context <= 255 -> fits_bytes (before ++ after) -> before <> [] -> patched before 0 first <> [] ->
  byte_diff_clumps before after context = Ok (map byte_of_hunk hs) -> steady_parts hs first second ->
  Forall (fun h => h_b h < length (patched before 0 first)) second ->
  exists out whole,
    byte_apply_into dbg (map byte_of_hunk first) before false (Writer [] None) = (Done tt, Writer out None) /\
    byte_apply_into dbg (map byte_of_hunk second) out false (Writer [] None) = (Done tt, Writer whole None) /\
    byte_apply_into dbg (map byte_of_hunk hs) before false (Writer [] None) = (Done tt, Writer whole None).
Proof.
  intros dbg b a context hs c r Hc F Hb Ho E Hs HF. destruct (fits_app_bytes _ _ F) as [Fb Fa].
  destruct (bdiff_facts_hs b a context hs (proj2 Hc) E) as (cs & E3 & Hcov & Hord).
  pose proof (steady_is_parts _ _ _ Hs) as Hp. pose proof (cover_placed _ _ _ _ _ _ _ Hcov) as Hpl.
  assert (HA : Forall (fun h => h_b h < length b) hs) by (eapply cover_starts_inside; [exact (proj1 Hc)|exact Hb|exact Hcov]).
  destruct (parts_forall _ _ _ _ Hp HA) as [A1 A2]. destruct (steady_twice b hs c r Hs 0 [] eq_refl Hpl) as [S1 S2]. cbn [app] in S1, S2.
  exists (patched b 0 c), (patched b 0 hs). split; [|split].
  - apply emits_run, byte_apply_placed; [assumption| |assumption]. exact (proj1 (placed_parts _ _ _ _ Hp _ Hpl)).
  - rewrite <- S2. apply emits_run, byte_apply_placed; [|assumption|assumption]. apply (fits_bparts b a); [assumption|]. pose proof (parts_length _ _ _ _ _ _ _ Hcov _ _ Hp). lia.
  - apply emits_run, byte_apply_placed; assumption.
Qed.
Lemma e_C105_example : let b := L "P Q A B A B A B A B C D " in let a := L "N M P Q A B A B A B Z A B C D " in
  let h1 := Hunk 0 1 0 (L "P ") 0 (L "N M P ") in let h2 := Hunk 1 1 7 (L "B A ") 9 (L "B Z A ") in
  text_diff_clumps b a 1 = Ok (map text_of_hunk [h1; h2]) /\ steady_parts [h1; h2] [h2] [h1] /\ ~ steady_parts [h1; h2] [h1] [h2] /\
  patched (patched b 0 [h2]) 0 [h1] = a.
Proof.
  split; [vr|]. split; [apply steady_second, steady_rest|]. split; [|vr]. intros H. inversion H as [|? ? ? ? E _|]; subst. discriminate.
Qed.

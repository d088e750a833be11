(* Proof_Carry.v - carrying out a printed unified diff. *)
From Coq Require Import String.
From Verif Require Import Base Model_Seq Model_Changes Model_Json Model_Regex Model_IO Model_Text Model_Unified Spec Spec_Unified Spec_Nearly Spec_Carry.
From Verif Require Import Proof_Seq Proof_Lcs Proof_Regex Proof_Changes Proof_Clumps Proof_Diff Proof_Json Proof_Unified Proof_UClump Proof_Apply Proof_Nearly Proof_Props_Gen Proof_Props_Unified.

Lemma sub_mid_at {T} (p x y : list T) i k : length p = i -> length x = k - i -> sub (p ++ x ++ y) i k = x.
Proof.
  intros <- H. unfold sub. rewrite skipn_app, skipn_all, Nat.sub_diag. cbn [app skipn]. rewrite <- H, firstn_app, firstn_all, Nat.sub_diag. cbn. apply app_nil_r.
Qed.
Lemma sub_inner {T} (s t : list T) i j n p d : p + d <= n -> sub s i (i + n) = sub t j (j + n) -> sub s (i + p) (i + p + d) = sub t (j + p) (j + p + d).
Proof.
  intros H E. apply nth_error_ext. intros k. rewrite !sub_nth. replace (i + p + d - (i + p)) with d by lia. replace (j + p + d - (j + p)) with d by lia.
  destruct (Nat.ltb_spec k d) as [L|L]; [|reflexivity]. apply (f_equal (fun l => nth_error l (p + k))) in E. rewrite !sub_nth in E.
  replace (i + n - i) with n in E by lia. replace (j + n - j) with n in E by lia.
  destruct (Nat.ltb_spec (p + k) n); [|lia]. rewrite !Nat.add_assoc in E. exact E.
Qed.

Section Whole.
  Variables b a : list line.
  Variable cs : list change.
  Hypothesis Ht : tiles 0 0 cs (length b) (length a).
  Hypothesis Hne : Forall non_empty cs.

  Definition settled : list line := concat (map (new_part b a) cs).

  Lemma cs_forward : Forall forward cs.
  Proof. eapply Forall_impl; [|exact Hne]. intros x Hx. destruct x; cbn in Hx; unfold forward; cbn; lia. Qed.
  Lemma settled_length : length settled = length a.
  Proof. destruct (clump_ok b a _ _ _ _ _ Ht cs_forward (le_n _) (le_n _)) as (_ & _ & _ & E). unfold settled. rewrite E. lia. Qed.
  Lemma settled_at x : In x cs -> sub settled (a_from x) (a_to x) = new_part b a x /\ b_to x <= length b /\ a_to x <= length a.
  Proof.
    intros Hin. destruct (in_split _ _ Hin) as (u & v & E). pose proof Ht as T. rewrite E in T. pose proof cs_forward as F. rewrite E in F.
    apply Forall_app in F as [F1 F2]. inversion F2 as [|? ? F3 F4]; subst x0 l.
    apply tiles_app_inv in T as (i & j & T1 & T2). inversion T2 as [|? ? ? ? ? ? A1 A2 A3]; subst.
    pose proof (tiles_le _ _ _ _ _ F4 A3) as [L1 L2]. pose proof F3 as [L3 L4].
    destruct (clump_ok b a _ _ _ _ _ T1 F1 ltac:(lia) ltac:(lia)) as (_ & _ & _ & EL).
    split; [|split; assumption]. unfold settled. rewrite E, map_app, concat_app. cbn [map concat]. apply sub_mid_at; [lia|].
    apply new_part_length; assumption.
  Qed.
  Lemma settled_unchanged i j d : unchanged cs i j d -> sub b i (i + d) = sub settled j (j + d).
  Proof.
    intros [->|(m & p & Hm & -> & -> & Hp)]; [unfold sub; rewrite !Nat.add_0_r, !Nat.sub_diag; reflexivity|].
    destruct (settled_at _ Hm) as [E _]. cbn [a_from a_to new_part] in E. eapply sub_inner; [exact Hp|]. now symmetry.
  Qed.
  (* a clump whose unchanged parts are parts of unchanged blocks *)
  Lemma settled_clump i j c n m : tiles i j c n m -> Forall forward c ->
    (forall x, In x c -> if real x then In x cs else unchanged cs (b_from x) (a_from x) (b_to x - b_from x)) ->
    concat (map (new_part b a) c) = sub settled j m.
  Proof.
    induction 1 as [i j|i j c l n m H1 H2 H IH]; intros Hf Hc; [unfold sub; now rewrite Nat.sub_diag|].
    inversion Hf as [|? ? F1 F2]; subst. cbn [map concat]. rewrite (IH F2) by (intros k Hk; apply Hc; now right).
    pose proof (tiles_le _ _ _ _ _ F2 H) as [L1 L2]. pose proof F1 as [L3 L4].
    assert (E : new_part b a c = sub settled (a_from c) (a_to c)).
    { specialize (Hc c (or_introl eq_refl)). destruct (real c) eqn:R; [symmetry; now apply settled_at|].
      destruct c as [k| | |]; try discriminate R. cbn [b_from b_to a_from a_to new_part] in *. replace (cs_b k + cs_n k - cs_b k) with (cs_n k) in Hc by lia.
      now apply settled_unchanged. }
    rewrite E. apply sub_app; lia.
  Qed.
  Lemma tiles_find i j l n m : tiles i j l n m -> Forall forward l -> forall k, j <= k < m -> exists x, In x l /\ a_from x <= k < a_to x.
  Proof.
    induction 1 as [i j|i j c l n m H1 H2 H IH]; intros Hf k Hk; [lia|]. inversion Hf as [|? ? F1 F2]; subst.
    destruct (Nat.lt_ge_cases k (a_to c)) as [L|L]; [exists c; split; [now left|lia]|]. destruct (IH F2 k ltac:(lia)) as (x & X1 & X2). exists x. split; [now right|lia].
  Qed.
  Lemma settled_nearly : (forall m, In (NoChange m) cs -> nearly_common b a (cs_b m) (cs_a m) (cs_n m)) -> nearly b a settled.
  Proof.
    intros Hn. split; [exact settled_length|]. intros k Hk. destruct (tiles_find _ _ _ _ _ Ht cs_forward k ltac:(lia)) as (x & Hx & X1 & X2).
    destruct (settled_at x Hx) as (E & B1 & B2).
    assert (N : nth_error settled k = nth_error (new_part b a x) (k - a_from x)).
    { rewrite <- E, sub_nth. destruct (Nat.ltb_spec (k - a_from x) (a_to x - a_from x)); [|lia]. f_equal. lia. }
    rewrite N. destruct x as [m|rb p|p r|rb ra]; cbn [new_part a_from a_to b_to] in *.
    - rewrite sub_nth. destruct (Nat.ltb_spec (k - cs_a m) (cs_b m + cs_n m - cs_b m)); [|lia].
      destruct (unchanged_near b a cs Hn (cs_b m) (cs_a m) (cs_n m)) with (t := k - cs_a m) as [(v & V1 & V2)|(x & y & Y1 & Y2 & Y3)]; [|lia| |].
      + right. exists m, 0. split; [assumption|]. lia.
      + left. replace (cs_a m + (k - cs_a m)) with k in V2 by lia. congruence.
      + right. exists x, y. split; [lia|]. split; [assumption|]. now rewrite Y1.
    - left. rewrite sub_nth. destruct (Nat.ltb_spec (k - p) (p - p)); lia.
    - left. rewrite sub_nth. destruct (Nat.ltb_spec (k - r_start r) (r_end r - r_start r)); [|lia]. f_equal. lia.
    - left. rewrite sub_nth. destruct (Nat.ltb_spec (k - r_start ra) (r_end ra - r_start ra)); [|lia]. f_equal. lia.
  Qed.

  Variable context : nat.
  Hypothesis Hctx : context <= 255.
  Hypothesis Lb : (Z.of_nat (length b) < two64)%Z.
  Hypothesis La : (Z.of_nat (length a) < two64)%Z.

  Lemma spreadc_ends i j clumps : spreadc context cs (length b) (length a) i j clumps -> i <= length b /\ j <= length a.
  Proof.
    intros H. pose proof (spreadc_forward _ _ _ _ _ _ _ Hne H) as F. revert F.
    induction H as [i j d Hu H1 H2|i j d p body q i' j' rest Hu Hb T Hp Hq Hx H IH]; intros F; [lia|].
    inversion F as [|? ? F1 F2]; subst. destruct (IH F2). pose proof (tiles_le _ _ _ _ _ F1 T). lia.
  Qed.
  Lemma spreadc_carried i j clumps ts : spreadc context cs (length b) (length a) i j clumps -> unified_texts b a clumps = Ok ts ->
    carried lines_before i j (skipn i b) ts (skipn j settled).
  Proof.
    intros H. pose proof (spreadc_forward _ _ _ _ _ _ _ Hne H) as F. revert ts F.
    induction H as [i j d Hu H1 H2|i j d p body q i' j' rest Hu Hb T Hp Hq Hx H IH]; intros ts F E.
    - cbn in E. injection E as <-. apply settled_unchanged in Hu. rewrite H1, H2, <- settled_length, !sub_all in Hu. rewrite Hu. constructor.
    - inversion F as [|? ? F1 F2]; subst. set (c := lead context p ++ body ++ trail context q) in *.
      destruct (spreadc_ends _ _ _ H) as [B1 B2]. pose proof (tiles_le _ _ _ _ _ F1 T) as [L1 L2].
      cbn [unified_texts] in E. destruct (unified_clump_text b a c) as [t| |] eqn:Et; try discriminate E. cbn [bind] in E.
      destruct (unified_texts b a rest) as [ts'| |] eqn:Er; try discriminate E. cbn [bind] in E. injection E as <-.
      specialize (IH ts' F2 eq_refl).
      assert (Hcne : c <> []).
      { destruct Hb as ((x & tl & -> & _) & _). unfold c. destruct (lead context p); discriminate. }
      destruct (clump_ok b a _ _ _ _ _ T F1 B1 B2) as (E1 & E2 & E3 & E4).
      assert (E5 : concat (map (new_part b a) c) = sub settled (j + d) j').
      { apply (settled_clump _ _ _ _ _ T F1). intros x Hin. unfold c in Hin. rewrite !in_app_iff in Hin. destruct Hin as [Hin|[Hin|Hin]].
        - destruct p as [m|]; [|contradiction]. cbn in Hin. destruct Hin as [<-|[]]. cbn [real b_from a_from b_to]. right. exists m, (cs_n m - context).
          split; [assumption|]. unfold last_items. cbn. lia.
        - specialize (Hx x Hin). destruct (real x) eqn:R; [assumption|]. destruct x as [m| | |]; try discriminate R. cbn. right. exists m, 0. split; [assumption|]. lia.
        - destruct q as [m|]; [|contradiction]. cbn in Hin. destruct Hin as [<-|[]]. cbn [real b_from a_from b_to]. right. exists m, 0.
          split; [assumption|]. unfold first_items. cbn. lia. }
      assert (S1 : skipn i b = sub b i (i + d) ++ sub b (i + d) i' ++ skipn i' b).
      { rewrite app_assoc, sub_app by lia. symmetry. apply sub_skipn. lia. }
      assert (S2 : skipn j settled = sub b i (i + d) ++ sub settled (j + d) j' ++ skipn j' settled).
      { rewrite (settled_unchanged i j d Hu), app_assoc, sub_app by lia. symmetry. apply sub_skipn. lia. }
      rewrite S1, S2. pose proof settled_length as SLn.
      unfold unified_clump_text in Et. rewrite (clump_starts_tiles _ _ _ _ _ Hcne T), (clump_ends_tiles _ _ _ _ _ Hcne T) in Et.
      unfold usub in Et. rewrite !(proj2 (Nat.leb_le _ _)) in Et by lia. cbn [bind] in Et. rewrite E1 in Et. cbn [bind] in Et.
      destruct (rev (clump_lines b a c)) as [|z pre] eqn:Rv; [discriminate|]. injection Et as <-.
      assert (NE : clump_lines b a c = rev pre ++ [z]) by (rewrite <- (rev_involutive (clump_lines b a c)), Rv; reflexivity).
      apply (carried_clump lines_before i j _ _ _ (clump_lines b a c)).
      + unfold clump_lines. apply Forall_concat, Forall_map, Forall_forall. intros x _. apply change_lines_marked.
      + cbn [ut_lines].
        assert (W : last_has_newline (clump_lines b a c) <-> ends_with_newline z = true).
        { rewrite ends_with_newline_iff. split; [intros (p1 & z1 & Q & Hz)|intros Hz].
          - rewrite NE in Q. apply app_inj_tail in Q as [_ ->]. assumption.
          - exists (rev pre), z. now split. }
        unfold with_marker. rewrite W. destruct (ends_with_newline z); [left; now split|right]. split; [discriminate|reflexivity].
      + exact E2.
      + congruence.
      + cbn [ut_header]. unfold lines_before. rewrite !sub_length by lia. replace (i + d - i) with d by lia.
        apply (header_text_written (SLs (SL (Z.of_nat (i + d)) (Z.of_nat (i' - (i + d)))) (SL (Z.of_nat (j + d)) (Z.of_nat (j' - (j + d)))))).
        unfold machine_header, is_usize. cbn. lia.
      + rewrite !sub_length by lia. replace (i + (i + d - i) + (i' - (i + d))) with i' by lia. replace (j + (i + d - i) + (j' - (j + d))) with j' by lia. exact IH.
  Qed.
End Whole.

(* ---------------- the header and the lines tell the numbers ---------------- *)
Lemma numeral_chars d v : numeral d v -> digits no_more_digits d /\ Forall character d.
Proof.
  intros H. apply numeral_dec in H as (l & -> & Hl & Hd & _). unfold is_dec in Hd. rewrite forallb_forall in Hd.
  assert (D : forall x, In x l -> (48 <= Byte.to_N x <= 57)%N) by (intros x Hx; apply is_digit_spec; auto).
  split; [split|].
  - destruct l; [congruence|discriminate].
  - apply Forall_map, Forall_forall. intros x Hx. left. exists x. split; [reflexivity|auto].
  - apply Forall_map, Forall_forall. intros x Hx. apply ascii_one. specialize (D x Hx). lia.
Qed.
Lemma header_read text b bl a al : header_written text b bl a al ->
  starts_and_lengths no_more_digits text 0 = DOk (Some (SLs (SL b bl) (SL a al))).
Proof.
  intros (d1 & o2 & d3 & o4 & E & N1 & N2 & N3 & N4 & _ & _).
  destruct (numeral_chars _ _ N1) as [D1 C1]. destruct (numeral_chars _ _ N3) as [D3 C3].
  assert (X : forall o v, length_field o v -> (forall d, o = Some d -> digits no_more_digits d) /\ Forall character (comma o)).
  { intros [d|] v H; cbn in H |- *; [|split; [discriminate|constructor]]. destruct (numeral_chars _ _ H) as [D C].
    split; [now intros ? [= <-]|]. constructor; [apply ascii_one; vm_compute; reflexivity|assumption]. }
  destruct (X _ _ N2) as [D2 C2]. destruct (X _ _ N4) as [D4 C4]. clear X.
  assert (AC : forall s, forallb (fun x => (Byte.to_N x <? 128)%N) (list_byte_of_string s) = true -> Forall character (asc s)).
  { intros s Hs. rewrite asc_single. apply Forall_map. apply Forall_forall. intros x Hx. apply ascii_one. apply N.ltb_lt. now apply (proj1 (forallb_forall _ _) Hs). }
  rewrite <- (chars_concat text), E.
  destruct (p_C66_header_exact no_more_digits (asc "@@ -" ++ d1 ++ comma o2 ++ asc " +" ++ d3 ++ comma o4 ++ asc " @@") 0 no_more_digits_table) as [_ S].
  { rewrite !Forall_app. repeat split; try assumption; apply AC; reflexivity. }
  apply (S d1 o2 d3 o4); try assumption.
  assert (BL : blanks (asc " ")) by (split; [discriminate|]; constructor; [exact blank_space|constructor]).
  exists (asc " "), (asc " "), (asc " "), [], []. do 3 (split; [assumption|]). split; [constructor|].
  split; [exists []; split; [intros []|now left]|]. do 4 (split; [assumption|]).
  rewrite app_nil_r. change (asc "@@ -") with (asc "@@" ++ asc " " ++ asc "-"). change (asc " +") with (asc " " ++ asc "+").
  change (asc " @@") with (asc " " ++ asc "@@"). rewrite <- !app_assoc. reflexivity.
Qed.
Lemma header_numbers text b bl a al b' bl' a' al' : header_written text b bl a al -> header_written text b' bl' a' al' ->
  b = b' /\ bl = bl' /\ a = a' /\ al = al'.
Proof. intros H1 H2. apply header_read in H1, H2. rewrite H1 in H2. injection H2 as -> -> -> ->. auto. Qed.
Lemma marker_body body body' printed : Forall marked_line body -> Forall marked_line body' -> with_marker body printed -> with_marker body' printed -> body = body'.
Proof.
  assert (X : forall u, ~ Forall marked_line (u ++ [[newline; "\"%byte; newline]])).
  { intros u H. apply Forall_app in H as [_ H]. inversion H as [|? ? [Q|Q] _]; discriminate Q. }
  intros M M' [[H1 ->]|[H1 ->]] [[H2 E]|[H2 E]].
  - congruence.
  - subst. now apply X in M.
  - subst. now apply X in M'.
  - now apply app_inj_tail in E.
Qed.

Lemma app_kept {T} (kept kept' x x' : list T) : length kept = length kept' -> kept ++ x = kept' ++ x' -> kept = kept' /\ x = x'.
Proof.
  revert kept'. induction kept as [|k kept IH]; intros [|k' kept'] L E; try discriminate L; [auto|].
  cbn in E. injection E as -> E. injection L as L. destruct (IH _ L E) as [-> ->]. auto.
Qed.
(* a way of numbering from which the position can be told *)
Definition telling (number : nat -> nat -> nat) : Prop := forall s s' n, number s n = number s' n -> s = s'.
Lemma carried_result number : telling number -> forall i j old ts new, carried number i j old ts new ->
  forall new', carried number i j old ts new' -> new = new'.
Proof.
  intros Hn i j old ts new H. induction H as [i j rest|i j kept o n body t ts rest rest' M W E1 E2 Hh H IH]; intros new' H'.
  - now inversion H'.
  - inversion H' as [|i0 j0 kept' o' n' body' t0 ts0 r r' M' W' E1' E2' Hh' H2]; subst i0 j0 t0 ts0.
    assert (body' = body) as -> by (eapply marker_body; eauto). rewrite E1 in E1'. rewrite E2 in E2'. subst o' n'.
    destruct (header_numbers _ _ _ _ _ _ _ _ _ Hh Hh') as (Q & _ & _ & _). apply Nat2Z.inj, Hn in Q.
    assert (L : length kept = length kept') by lia.
    match goal with K : kept' ++ _ = kept ++ _ |- _ => symmetry in K; destruct (app_kept _ _ _ _ L K) as [-> K'] end.
    apply app_inv_head in K'. subst r. now rewrite (IH _ H2).
Qed.
Lemma carried_origin number : telling number -> forall i j old ts new, carried number i j old ts new ->
  forall old', carried number i j old' ts new -> old = old'.
Proof.
  intros Hn i j old ts new H. induction H as [i j rest|i j kept o n body t ts rest rest' M W E1 E2 Hh H IH]; intros new' H'.
  - now inversion H'.
  - inversion H' as [|i0 j0 kept' o' n' body' t0 ts0 r r' M' W' E1' E2' Hh' H2]; subst i0 j0 t0 ts0.
    assert (body' = body) as -> by (eapply marker_body; eauto). rewrite E1 in E1'. rewrite E2 in E2'. subst o' n'.
    destruct (header_numbers _ _ _ _ _ _ _ _ _ Hh Hh') as (Q & _ & _ & _). apply Nat2Z.inj, Hn in Q.
    assert (L : length kept = length kept') by lia.
    match goal with K : kept' ++ _ = kept ++ _ |- _ => symmetry in K; destruct (app_kept _ _ _ _ L K) as [-> K'] end.
    apply app_inv_head in K'. subst r'. now rewrite (IH _ H2).
Qed.

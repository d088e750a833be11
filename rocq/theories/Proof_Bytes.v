(* Proof_Bytes.v - applying byte patches (C31-C36). *)
From Coq Require Import ZifyBool.
From Verif Require Import Base Model_Seq Model_Changes Model_IO Model_Text Model_Bytes Spec
  Proof_Seq Proof_Lcs Proof_Changes Proof_Clumps Proof_IO Proof_Diff Proof_Arith Proof_Text Proof_Nearby Proof_Apply.
Local Open Scope Z_scope.

(* ---------------- the subsequence test (C34) ---------------- *)
Lemma zip_all_eq_prefix {T} (eqb : T -> T -> bool) (Heq : lawful eqb) (l r : list T) : (length l <= length r)%nat ->
  zip_all_eq eqb l r = true <-> firstn (length l) r = l.
Proof.
  revert r. induction l as [|x l IH]; intros [|y r] H; cbn in *; try tauto; try lia.
  rewrite andb_true_iff, IH, (Heq y x) by lia. split; [intros [-> ->]; reflexivity|]. intros E. injection E. auto.
Qed.
Lemma has_subsequence_spec {T} (eqb : T -> T -> bool) (Heq : lawful eqb) s items at_ : 0 <= at_ ->
  has_subsequence_at_z eqb s items at_ = true <-> at_ < zlen s /\ occurs_at s items at_.
Proof.
  intros H0. unfold has_subsequence_at_z, occurs_at, zlen.
  destruct ((at_ <? Z.of_nat (length s)) && (Z.of_nat (length items) <=? Z.of_nat (length s) - at_)) eqn:E.
  - rewrite zip_all_eq_prefix; [|assumption|rewrite skipn_length; lia]. split.
    + intros H. split; [lia|]. exists (Z.to_nat at_). split; [lia|]. split; [lia|]. unfold sub.
      replace (Z.to_nat at_ + length items - Z.to_nat at_)%nat with (length items) by lia. assumption.
    + intros (H1 & p & -> & H2 & H3). rewrite Nat2Z.id. unfold sub in H3. now replace (p + length items - p)%nat with (length items) in H3 by lia.
  - split; [discriminate|]. intros (H1 & p & -> & H2 & _). lia.
Qed.

(* ---------------- reverse is swap ---------------- *)
Section ReverseBytes.
  Variable dbg : bool.
  Lemma bc_side_swap c r : bc_side (swap_bclump c) r = bc_side c (negb r).
  Proof. destruct r; reflexivity. Qed.
  Lemma byte_apply_clumps_swap p r cs : forall n w,
    byte_apply_clumps dbg p r (map swap_bclump cs) n w = byte_apply_clumps dbg p (negb r) cs n w.
  Proof.
    induction cs as [|c cs IH]; intros n w; cbn [map byte_apply_clumps]; [reflexivity|]. revert w.
    apply iobind_ext; [|intros; apply IH]. intros w.
    unfold byte_will_apply, byte_is_already_applied, byte_clump_apply_into, byte_already_applied_into.
    rewrite !bc_side_swap. reflexivity.
  Qed.
  Lemma byte_apply_into_swap p r cs w : byte_apply_into dbg (map swap_bclump cs) p r w = byte_apply_into dbg cs p (negb r) w.
  Proof. unfold byte_apply_into. revert w. apply iobind_ext; [|reflexivity]. intros w. apply byte_apply_clumps_swap. Qed.
  Lemma byte_already_applied_swap p r cs : byte_already_applied (map swap_bclump cs) p r = byte_already_applied cs p (negb r).
  Proof.
    unfold byte_already_applied. induction cs as [|c cs IH]; [reflexivity|]. cbn [map forallb]. rewrite IH. f_equal.
    unfold byte_is_already_applied. now rewrite bc_side_swap.
  Qed.
End ReverseBytes.
Lemma map_swap_bhunk hs : map swap_bclump (map byte_of_hunk hs) = map byte_of_hunk (map swap_hunk hs).
Proof. rewrite !map_map. reflexivity. Qed.

(* ---------------- write failures (C36), no match (C35) ---------------- *)
Lemma emits_write_bytes (l : list byte) : emits (write_all l) (id l) (Done tt).
Proof. apply emits_write_all. Qed.
Section BytesEmit.
  Variable dbg : bool.
  Lemma emitting_byte_clumps p r cs : forall n, emitting (byte_apply_clumps dbg p r cs n).
  Proof.
    induction cs as [|c cs IH]; intros n; cbn [byte_apply_clumps]; [apply emitting_ret|].
    apply emitting_bind; [|intros; apply IH].
    destruct (byte_will_apply c p r); [|destruct (byte_is_already_applied c p r); [|apply emitting_ret]].
    - unfold byte_clump_apply_into. apply emitting_bind; [apply (emitting_write_into_upto _ id emits_write_bytes)|]. intros.
      apply emitting_bind; [apply emitting_write_all|]. intros. apply emitting_lift.
    - unfold byte_already_applied_into. apply emitting_bind; [apply emitting_lift|]. intros.
      apply (emitting_write_into_upto _ id emits_write_bytes).
  Qed.
  Lemma emitting_byte_apply cs p r : emitting (byte_apply_into dbg cs p r).
  Proof.
    unfold byte_apply_into. apply emitting_bind; [apply emitting_byte_clumps|]. intros n.
    apply emitting_bind; [|intros; apply emitting_ret]. apply (emitting_write_remainder _ id emits_write_bytes).
  Qed.

  Lemma byte_clumps_no_match p r cs : forall n,
    Forall (fun c => byte_will_apply c p r = false /\ byte_is_already_applied c p r = false) cs ->
    emits (byte_apply_clumps dbg p r cs n) [] (Done n).
  Proof.
    induction cs as [|c cs IH]; intros n H; cbn [byte_apply_clumps]; [apply emits_ret|].
    inversion H as [|? ? [H1 H2] H3]; subst. rewrite H1, H2.
    apply (emits_bind _ _ [] n []); [apply emits_ret|]. auto.
  Qed.
  Lemma byte_apply_no_match p r cs :
    Forall (fun c => byte_will_apply c p r = false /\ byte_is_already_applied c p r = false) cs ->
    emits (byte_apply_into dbg cs p r) p (Done tt).
  Proof.
    intros H. unfold byte_apply_into. rewrite <- (app_nil_l p) at 2. eapply emits_bind; [now apply byte_clumps_no_match|].
    rewrite <- (app_nil_r p) at 2. eapply emits_bind; [|apply emits_ret].
    apply (emits_write_remainder write_all id emits_write_bytes dbg p 0). lia.
  Qed.
End BytesEmit.

(* ---------------- hunks of a byte diff ---------------- *)
Definition bhunk_ok (h : hunk byte) : Prop := Z.of_nat (h_b h + length (h_old h)) < two63 /\ Z.of_nat (h_a h + length (h_new h)) < two63.
Lemma cover_bok context g (b a : list byte) i j hs : fits_bytes b -> fits_bytes a ->
  cover context g b a i j hs -> Forall bhunk_ok hs.
Proof.
  unfold fits_bytes, zlen. intros Fb Fa. induction 1; constructor; auto.
  unfold bhunk_ok. cbn. rewrite !sub_length by lia. lia.
Qed.
Lemma bpatched_cover context (b a : list byte) i j hs : cover context (equal_gap b a) b a i j hs -> patched b i hs = skipn j a.
Proof.
  induction 1 as [i j d Hg H1 H2|i j d i' j' l t rest Hg H1 H2 H3 H4 H5 H6 H7 H8 H9 H IH]; cbn [patched].
  - unfold equal_gap in Hg. rewrite H1, H2, !sub_all in Hg. assumption.
  - unfold equal_gap in Hg. cbn [h_b h_new h_old]. rewrite Hg, sub_length by lia.
    replace (i + d + (i' - (i + d)))%nat with i' by lia. rewrite IH.
    rewrite sub_skipn by lia. apply sub_skipn. lia.
Qed.
(* with at least one byte of context every hunk of a diff of a non-empty file starts
   inside it *)
Lemma cover_starts_inside context g (b a : list byte) i j hs : (1 <= context)%nat -> b <> [] ->
  cover context g b a i j hs -> Forall (fun h => (h_b h < length b)%nat) hs.
Proof.
  intros Hc Hb. assert (0 < length b)%nat by (destruct b; [contradiction|cbn; lia]).
  induction 1; constructor; auto. cbn. lia.
Qed.

Section OwnBytes.
  Variable dbg : bool.
  Variable b : list byte.
  Hypothesis Fb : fits_bytes b.

  Lemma own_match context g (a : list byte) i j hs h : cover context g b a i j hs -> In h hs -> (h_b h < length b)%nat ->
    byte_will_apply (byte_of_hunk h) b false = true.
  Proof.
    intros H Hin Hlt. unfold byte_will_apply. cbn [bc_side byte_of_hunk bc_before sn_items sn_start].
    apply has_subsequence_spec; [apply byte_eqb_lawful|lia|]. split; [unfold zlen; lia|].
    induction H as [|i j d i' j' l t rest Hg H1 H2 H3 H4 H5 H6 H7 H8 H9 H IH]; [contradiction|].
    destruct Hin as [<-|Hin]; [|auto]. cbn [h_old h_b]. exists (i + d)%nat. rewrite sub_length by lia.
    split; [reflexivity|]. split; [lia|]. f_equal. lia.
  Qed.
  Lemma byte_clumps_own context g (a : list byte) i j hs : cover context g b a i j hs ->
    Forall (fun h => h_b h < length b)%nat hs ->
    exists out e, emits (byte_apply_clumps dbg b false (map byte_of_hunk hs) (Z.of_nat i)) out (Done (Z.of_nat e)) /\
      (e <= length b)%nat /\ out ++ skipn e b = patched b i hs.
  Proof.
    intros H. assert (Hall : forall h, In h hs -> (h_b h < length b)%nat -> byte_will_apply (byte_of_hunk h) b false = true)
      by (intros; eapply own_match; eauto). revert Hall.
    induction H as [i j d Hg H1 H2|i j d i' j' l t rest Hg H1 H2 H3 H4 H5 H6 H7 H8 H9 H IH]; intros Hall Hlt.
    - exists [], i. cbn [map byte_apply_clumps patched]. split; [apply emits_ret|]. split; [lia|reflexivity].
    - inversion Hlt as [|? ? L1 L2]; subst.
      destruct IH as (out & e & E & He & Eo); [intros; apply Hall; [now right|assumption]|assumption|].
      set (h := Hunk l t (i + d) (sub b (i + d) i') (j + d) (sub a (j + d) j')) in *.
      assert (L : length (h_old h) = (i' - (i + d))%nat) by (cbn; apply sub_length; lia).
      assert (Li : (h_b h + length (h_old h))%nat = i') by (rewrite L; cbn; lia).
      exists ((sub b i (i + d) ++ h_new h) ++ out), e. split; [|split; [assumption|]].
      + cbn [map byte_apply_clumps]. rewrite (Hall h (or_introl eq_refl) L1).
        apply (emits_bind _ _ _ (Z.of_nat i')); [|exact E]. unfold byte_clump_apply_into.
        eapply emits_bind.
        * apply (emits_write_into_upto write_all id emits_write_bytes dbg b i (i + d)); try reflexivity; lia.
        * rewrite <- (app_nil_r (h_new h)). eapply emits_bind; [apply emits_write_all|].
          unfold advance_consumed_by, fits_bytes, zlen in *. cbn [bc_side byte_of_hunk bc_before sn_items].
          rewrite uadd_ok by (consts; lia). rewrite L.
          replace (Z.of_nat (i + d) + Z.of_nat (i' - (i + d))) with (Z.of_nat i') by lia. apply (emits_lift (Ok _)).
      + cbn [patched]. rewrite Li, <- Eo, <- !app_assoc. reflexivity.
  Qed.
  Lemma byte_apply_own context g (a : list byte) hs : cover context g b a 0 0 hs ->
    Forall (fun h => h_b h < length b)%nat hs ->
    emits (byte_apply_into dbg (map byte_of_hunk hs) b false) (patched b 0 hs) (Done tt).
  Proof.
    intros H Hlt. destruct (byte_clumps_own _ _ _ _ _ _ H Hlt) as (out & e & E & He & Eo).
    rewrite <- Eo. unfold byte_apply_into. eapply emits_bind; [exact E|]. rewrite <- (app_nil_r (skipn e b)).
    eapply emits_bind; [|apply emits_ret]. now apply (emits_write_remainder write_all id emits_write_bytes).
  Qed.
  Lemma byte_already_own context g (a : list byte) hs : cover context g b a 0 0 hs ->
    Forall (fun h => h_b h < length b)%nat hs ->
    byte_already_applied (map byte_of_hunk hs) b true = true.
  Proof.
    intros H Hlt. unfold byte_already_applied. apply forallb_forall. intros c Hc. apply in_map_iff in Hc as (h & <- & Hin).
    rewrite Forall_forall in Hlt. exact (own_match _ _ _ _ _ _ h H Hin (Hlt h Hin)).
  Qed.
End OwnBytes.

(* ---------------- other targets ---------------- *)
Lemma matches_at_true (target items : list byte) p : matches_at target items p = true <->
  (p < length target)%nat /\ occurs_at target items (Z.of_nat p).
Proof.
  unfold matches_at, occurs_at. rewrite andb_true_iff, Nat.ltb_lt. split.
  - intros [H1 H2]. apply (list_eqb_lawful Byte.eqb byte_eqb_lawful) in H2. split; [assumption|]. exists p.
    split; [reflexivity|]. split; [|assumption]. apply (f_equal (@length byte)) in H2. unfold sub in H2.
    rewrite firstn_length, skipn_length in H2. lia.
  - intros (H1 & q & Hq & H2 & H3). apply Nat2Z.inj in Hq as <-. split; [assumption|]. now apply (list_eqb_lawful Byte.eqb byte_eqb_lawful).
Qed.
Lemma will_apply_matches h target : byte_will_apply (byte_of_hunk h) target false = matches_at target (h_old h) (h_b h).
Proof.
  apply eq_true_iff_eq. rewrite matches_at_true. unfold byte_will_apply. cbn [bc_side byte_of_hunk bc_before sn_items sn_start].
  rewrite has_subsequence_spec; [|apply byte_eqb_lawful|lia]. unfold zlen. split; intros [H1 H2]; (split; [lia|assumption]).
Qed.
Lemma already_matches h target : byte_is_already_applied (byte_of_hunk h) target false = matches_at target (h_new h) (h_a h).
Proof.
  apply eq_true_iff_eq. rewrite matches_at_true. unfold byte_is_already_applied. cbn [negb bc_side byte_of_hunk bc_after sn_items sn_start].
  rewrite has_subsequence_spec; [|apply byte_eqb_lawful|lia]. unfold zlen. split; intros [H1 H2]; (split; [lia|assumption]).
Qed.
Section OtherBytes.
  Variable dbg : bool.
  Variable target : list byte.
  Hypothesis Ft : fits_bytes target.
  Let applies (h : hunk byte) := matches_at target (h_old h) (h_b h).
  Let already (h : hunk byte) := matches_at target (h_new h) (h_a h).

  Lemma applies_bound h : applies h = true -> (h_b h + length (h_old h) <= length target)%nat.
  Proof. intros H. apply matches_at_true in H as (_ & q & Hq & H & _). apply Nat2Z.inj in Hq as <-. assumption. Qed.
  Lemma already_bound h : already h = true -> (h_a h + length (h_new h) <= length target)%nat.
  Proof. intros H. apply matches_at_true in H as (_ & q & Hq & H & _). apply Nat2Z.inj in Hq as <-. assumption. Qed.

  Lemma ordered_tail_b (h : hunk byte) hs : ordered (h :: hs) -> Forall (fun x => h_b h + length (h_old h) <= h_b x)%nat hs.
  Proof.
    revert h. induction hs as [|n hs IH]; intros h H; constructor; destruct H as [[H1 _] H2]; [assumption|].
    specialize (IH n H2). eapply Forall_impl; [|exact IH]. cbn. intros. lia.
  Qed.
  Lemma ordered_tail_a (h : hunk byte) hs : ordered (h :: hs) -> Forall (fun x => h_a h + length (h_new h) <= h_a x)%nat hs.
  Proof.
    revert h. induction hs as [|n hs IH]; intros h H; constructor; destruct H as [[_ H1] H2]; [assumption|].
    specialize (IH n H2). eapply Forall_impl; [|exact IH]. cbn. intros. lia.
  Qed.

  Lemma byte_clumps_apply hs : forall n, ordered hs -> Forall (fun x => n <= h_b x)%nat hs -> (n <= length target)%nat ->
    Forall (fun h => applies h = true \/ already h = false) hs ->
    exists out e, emits (byte_apply_clumps dbg target false (map byte_of_hunk hs) (Z.of_nat n)) out (Done (Z.of_nat e)) /\
      (e <= length target)%nat /\ out ++ skipn e target = patched target n (filter applies hs).
  Proof.
    induction hs as [|h hs IH]; intros n Hord Hn Hlen HF.
    - exists [], n. cbn. split; [apply emits_ret|]. split; [assumption|reflexivity].
    - inversion HF as [|? ? F1 F2]; subst. inversion Hn as [|? ? N1 N2]; subst. cbn [map byte_apply_clumps filter].
      rewrite will_apply_matches. change (matches_at target (h_old h) (h_b h)) with (applies h).
      destruct (applies h) eqn:Ea.
      + pose proof (applies_bound h Ea) as Hb. pose proof (ordered_tail_b h hs Hord) as Ht.
        destruct (IH (h_b h + length (h_old h))%nat (proj2 Hord) Ht Hb F2) as (out & e & E & He & Eo).
        exists ((sub target n (h_b h) ++ h_new h) ++ out), e. split; [|split; [assumption|]].
        * apply (emits_bind _ _ _ (Z.of_nat (h_b h + length (h_old h)))); [|exact E]. unfold byte_clump_apply_into.
          eapply emits_bind.
          -- apply (emits_write_into_upto write_all id emits_write_bytes dbg target n (h_b h)); try reflexivity; lia.
          -- rewrite <- (app_nil_r (h_new h)). eapply emits_bind; [apply emits_write_all|].
             unfold advance_consumed_by, fits_bytes, zlen in *. cbn [bc_side byte_of_hunk bc_before sn_items].
             rewrite uadd_ok by (consts; lia).
             replace (Z.of_nat (h_b h) + Z.of_nat (length (h_old h))) with (Z.of_nat (h_b h + length (h_old h))) by lia. apply (emits_lift (Ok _)).
        * cbn [patched]. rewrite <- Eo, <- !app_assoc. reflexivity.
      + destruct F1 as [F1|F1]; [discriminate|]. rewrite already_matches. change (matches_at target (h_new h) (h_a h)) with (already h). rewrite F1.
        destruct (IH n (proj2 Hord) N2 Hlen F2) as (out & e & E & He & Eo). exists out, e. split; [|split; assumption].
        rewrite <- (app_nil_l out). eapply emits_bind; [apply emits_ret|exact E].
  Qed.
  Lemma byte_apply_matching hs : ordered hs -> Forall (fun h => applies h = true \/ already h = false) hs ->
    emits (byte_apply_into dbg (map byte_of_hunk hs) target false) (patched target 0 (filter applies hs)) (Done tt).
  Proof.
    intros Hord HF. destruct (byte_clumps_apply hs 0 Hord) as (out & e & E & He & Eo); [apply Forall_forall; intros; lia|lia|assumption|].
    rewrite <- Eo. unfold byte_apply_into. eapply emits_bind; [exact E|]. rewrite <- (app_nil_r (skipn e target)).
    eapply emits_bind; [|apply emits_ret]. now apply (emits_write_remainder write_all id emits_write_bytes).
  Qed.

  Lemma byte_clumps_again hs : forall n, (n <= length target)%nat ->
    Forall (fun h => applies h = false) hs -> ordered hs -> Forall (fun x => n <= h_a x)%nat hs ->
    exists out e, emits (byte_apply_clumps dbg target false (map byte_of_hunk hs) (Z.of_nat n)) out (Done (Z.of_nat e)) /\
      (e <= length target)%nat /\ out ++ skipn e target = skipn n target.
  Proof.
    induction hs as [|h hs IH]; intros n Hlen HF Hord Hn.
    - exists [], n. cbn. split; [apply emits_ret|]. split; [assumption|reflexivity].
    - inversion HF as [|? ? F1 F2]; subst. inversion Hn as [|? ? N1 N2]; subst. cbn [map byte_apply_clumps].
      rewrite will_apply_matches. change (matches_at target (h_old h) (h_b h)) with (applies h). rewrite F1.
      rewrite already_matches. change (matches_at target (h_new h) (h_a h)) with (already h).
      destruct (already h) eqn:Ea.
      + pose proof (already_bound h Ea) as Hb. pose proof (ordered_tail_a h hs Hord) as Ht.
        destruct (IH (h_a h + length (h_new h))%nat Hb F2 (proj2 Hord) Ht) as (out & e & E & He & Eo).
        exists (sub target n (h_a h + length (h_new h)) ++ out), e. split; [|split; [assumption|]].
        * apply (emits_bind _ _ _ (Z.of_nat (h_a h + length (h_new h)))); [|exact E]. unfold byte_already_applied_into.
          eapply emits_lift_bind.
          -- unfold fits_bytes, zlen in *. cbn [negb bc_side byte_of_hunk bc_after sn_items sn_start].
             rewrite uadd_ok by (consts; lia). reflexivity.
          -- unfold zlen. cbn [negb bc_side byte_of_hunk bc_after sn_items sn_start]. rewrite <- Nat2Z.inj_add.
             apply (emits_write_into_upto write_all id emits_write_bytes dbg target n (h_a h + length (h_new h))); try reflexivity; lia.
        * rewrite <- app_assoc, Eo. apply sub_skipn. lia.
      + destruct (IH n Hlen F2 (proj2 Hord) N2) as (out & e & E & He & Eo). exists out, e. split; [|split; assumption].
        rewrite <- (app_nil_l out). eapply emits_bind; [apply emits_ret|exact E].
  Qed.
  Lemma byte_apply_none hs : ordered hs -> Forall (fun h => applies h = false) hs ->
    emits (byte_apply_into dbg (map byte_of_hunk hs) target false) target (Done tt).
  Proof.
    intros Hord HF. destruct (byte_clumps_again hs 0) as (out & e & E & He & Eo); [lia|assumption|assumption|apply Forall_forall; intros; lia|].
    cbn [skipn] in Eo. rewrite <- Eo at 2. unfold byte_apply_into. eapply emits_bind; [exact E|]. rewrite <- (app_nil_r (skipn e target)).
    eapply emits_bind; [|apply emits_ret]. now apply (emits_write_remainder write_all id emits_write_bytes).
  Qed.
End OtherBytes.

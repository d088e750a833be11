(* Proof_Fuzzy.v - applying a text patch to an arbitrary text (C27, C28, C50). *)
From Coq Require Import ZifyBool.
From Verif Require Import Base Model_Seq Model_Changes Model_IO Model_Text Model_Bytes Spec
  Proof_Seq Proof_Lcs Proof_Changes Proof_Clumps Proof_IO Proof_Diff Proof_Arith Proof_Text Proof_Nearby Proof_Apply.
Local Open Scope Z_scope.

(* one step of the loop split into a decision without output and its rendering *)
Inductive class := CApply (fuzzy : bool) (o : Z) (w : will) | CAlready (fuzzy : bool) (o : Z) (w : will) | CFail.

Section Classify.
  Variable dbg : bool.
  Variable target : list line.

  Definition is_fuzzy (w : will) : bool := match w with Cleanly => false | _ => true end.
  Definition classify (c : text_clump) (next : option text_clump) (n o : Z) : res class :=
    let! w := will_apply dbg c target o false in
    match w with
    | Some w => Ok (CApply (is_fuzzy w) o w)
    | None =>
    let! x := will_apply_nearby dbg c target n next o false in
    match x with
    | Some (d, w) => let! o' := iadd dbg o d in Ok (CApply true o' w)
    | None =>
    let! w := will_apply dbg c target o true in
    match w with
    | Some w => Ok (CAlready (is_fuzzy w) o w)
    | None =>
    let! x := will_apply_nearby dbg c target n next o true in
    match x with
    | Some (d, w) => let! o' := iadd dbg o d in Ok (CAlready true o' w)
    | None => Ok CFail
    end end end end.
  Definition render (c : text_clump) (n o : Z) (st : statistics) (k : class) : io (Z * Z * statistics) :=
    match k with
    | CApply f o' w => do! n' := clump_apply_into dbg c target n o' (reductions_of w) false in
                       ret (n', o', if f then add_fuzzy st else add_clean st)
    | CAlready f o' w => do! n' := already_applied_into dbg c target n o' (reductions_of w) false in
                         ret (n', o', if f then add_already_fuzzy st else add_already st)
    | CFail => do! _ := write_failure_data_into dbg c false in ret (n, o, add_failed st)
    end.
  Lemma apply_step_classify c next n o st w :
    apply_step dbg target false c next n o st w = iobind (lift (classify c next n o)) (render c n o st) w.
  Proof.
    unfold apply_step, classify, is_already_applied, is_already_applied_nearby, iobind, lift. cbn [negb].
    destruct (will_apply dbg c target o false) as [[[|q]|]| |]; cbn [bind]; try reflexivity.
    destruct (will_apply_nearby dbg c target n next o false) as [[[d x]|]| |]; cbn [bind]; try reflexivity.
    - destruct (iadd dbg o d); reflexivity.
    - destruct (will_apply dbg c target o true) as [[[|q]|]| |]; cbn [bind]; try reflexivity.
      destruct (will_apply_nearby dbg c target n next o true) as [[[d x]|]| |]; cbn [bind]; try reflexivity.
      destruct (iadd dbg o d); reflexivity.
  Qed.
End Classify.

Definition limit_ok (h : hunk line) (target : list line) (next : option (hunk line)) (o : Z) : Prop :=
  match next with Some x => Z.of_nat (h_b x) + o + Z.of_nat (h_lead h) < 0 | None => False end \/
  0 <= search_limit h target next o.

Lemma next_ok_swap next : next_ok next -> next_ok (option_map swap_hunk next).
Proof. destruct next; cbn; [apply hunk_ok_swap|auto]. Qed.

Section General.
  Variable dbg : bool.
  Variable target : list line.
  Hypothesis Ft : fits_lines target.

  Lemma nearby_cases h n next o : hunk_ok h -> next_ok next -> - two61 <= o < two61 - 255 -> 0 <= n < two61 ->
    (exists x, will_apply_nearby dbg (text_of_hunk h) target n (option_map text_of_hunk next) o false = Ok x /\
       nearest h target (Z.of_nat (h_b h) + o) n (search_limit h target next o) x) \/
    (dbg = true /\ ~ limit_ok h target next o /\ will_apply_nearby dbg (text_of_hunk h) target n (option_map text_of_hunk next) o false = Panic).
  Proof.
    intros Hok Hx Ho Hn. destruct (bool_dec dbg true) as [Hd|Hd].
    - destruct (Z_lt_dec (search_limit h target next o) 0) as [L|L];
        [destruct (Z_lt_dec (match next with Some x => Z.of_nat (h_b x) + o + Z.of_nat (h_lead h) | None => 0 end) 0) as [M|M]|].
      + left. apply will_apply_nearby_spec; auto. intros _. left. destruct next; [assumption|lia].
      + right. split; [assumption|]. split.
        * intros [H|H]; [|lia]. destruct next; [lia|assumption].
        * unfold will_apply_nearby. rewrite nearby_not_after_panic; auto; try lia. destruct next; [lia|trivial].
      + left. apply will_apply_nearby_spec; auto. intros _. right. lia.
    - left. apply will_apply_nearby_spec; auto. intros E. congruence.
  Qed.
  Lemma nearby_cases_rev h n next o : hunk_ok h -> next_ok next -> - two61 <= o < two61 - 255 -> 0 <= n < two61 ->
    (exists x, will_apply_nearby dbg (text_of_hunk h) target n (option_map text_of_hunk next) o true = Ok x /\
       nearest (swap_hunk h) target (Z.of_nat (h_a h) + o) n (search_limit (swap_hunk h) target (option_map swap_hunk next) o) x) \/
    (dbg = true /\ ~ limit_ok (swap_hunk h) target (option_map swap_hunk next) o /\
       will_apply_nearby dbg (text_of_hunk h) target n (option_map text_of_hunk next) o true = Panic).
  Proof.
    intros Hok Hx Ho Hn.
    pose proof (nearby_cases (swap_hunk h) n (option_map swap_hunk next) o (hunk_ok_swap _ Hok) (next_ok_swap _ Hx) Ho Hn) as H.
    rewrite <- swap_clump_hunk in H.
    replace (option_map text_of_hunk (option_map swap_hunk next)) with (option_map swap_clump (option_map text_of_hunk next)) in H
      by (destruct next; reflexivity).
    rewrite will_apply_nearby_swap in H. exact H.
  Qed.
  Lemma will_apply_rev h o : hunk_ok h -> - (2 * two61) <= o <= 2 * two61 ->
    exists x, will_apply dbg (text_of_hunk h) target o true = Ok x /\ decision (swap_hunk h) target (Z.of_nat (h_a h) + o) x.
  Proof.
    intros Hok Ho. destruct (will_apply_spec dbg (swap_hunk h) (hunk_ok_swap _ Hok) target o) as (x & E & D); [lia..|].
    rewrite <- swap_clump_hunk, will_apply_swap in E. exists x. split; assumption.
  Qed.

  Definition class_ok (h : hunk line) (n o : Z) (k : class) : Prop :=
    match k with
    | CApply f o' w => decision h target (Z.of_nat (h_b h) + o') (Some w) /\ n <= Z.of_nat (h_b h) + o'
                       /\ (f = false -> w = Cleanly /\ o' = o)
    | CAlready f o' w => decision (swap_hunk h) target (Z.of_nat (h_a h) + o') (Some w) 
    | CFail => decision h target (Z.of_nat (h_b h) + o) None /\ decision (swap_hunk h) target (Z.of_nat (h_a h) + o) None
    end.

  Lemma decision_place h pos w : hunk_ok h -> decision h target pos (Some w) ->
    exists k p, admissible h k /\ reductions_of w = match k with O => None | _ => Some (Z.of_nat (Nat.min k (h_lead h)), Z.of_nat (Nat.min k (h_trail h))) end /\
      pos + Z.of_nat (Nat.min k (h_lead h)) = Z.of_nat p /\ (p + length (trimmed h k) <= length target)%nat /\
      sub target p (p + length (trimmed h k)) = trimmed h k.
  Proof.
    intros Hok D. inversion D as [(p & Hp & Hl & Hs)|k N K1 K2 (p & Hp & Hl & Hs) K3|]; subst.
    - exists 0%nat, p. rewrite trimmed_0. split; [now left|]. split; [reflexivity|]. split; [simpl; lia|]. auto.
    - exists k, p. split; [now right|]. split; [destruct k; [lia|reflexivity]|]. auto.
  Qed.

  (* nearby displacements keep the offset within bounds *)
  Lemma decision_offset h o w : hunk_ok h -> decision h target (Z.of_nat (h_b h) + o) (Some w) -> - two61 < o + 255 /\ o <= zlen target.
  Proof.
    intros Hok D. destruct (decision_place _ _ _ Hok D) as (k & p & _ & _ & Hp & Hl & _).
    pose proof (s_bound h Hok). pose proof (target_bound target Ft). destruct Hok as (_ & _ & O3 & _). unfold zlen in *. lia.
  Qed.

  Lemma classify_cases h next n o : hunk_ok h -> next_ok next -> - two61 <= o <= zlen target -> 0 <= n <= zlen target ->
    n <= Z.of_nat (h_b h) + o ->
    (exists k, classify dbg target (text_of_hunk h) (option_map text_of_hunk next) n o = Ok k /\ class_ok h n o k) \/
    (dbg = true /\ (~ limit_ok h target next o \/ ~ limit_ok (swap_hunk h) target (option_map swap_hunk next) o) /\
      classify dbg target (text_of_hunk h) (option_map text_of_hunk next) n o = Panic).
  Proof.
    intros Hok Hx Ho Hn Hpos. pose proof (target_bound target Ft) as Bt. assert (Bt2 : zlen target < two61 - 255).
    { revert Ft. unfold fits_lines. consts. lia. }
    unfold classify.
    destruct (will_apply_spec dbg h Hok target o) as (x & E & D); [lia..|]. rewrite E. cbn [bind]. clear E.
    destruct x as [w|].
    { left. eexists. split; [reflexivity|]. split; [assumption|]. split; [assumption|]. destruct w; [auto|discriminate]. }
    destruct (nearby_cases h n next o) as [(x & E & Hnear)|(Hd & Hl & E)]; auto; try lia; rewrite E; cbn [bind]; clear E; [|right; auto].
    destruct x as [[d w]|].
    { left. inversion Hnear as [? ? W1 W2 W3|]; subst.
      assert (B : - two61 < (o + d) + 255 /\ o + d <= zlen target).
      { apply (decision_offset h _ w Hok). now rewrite Z.add_assoc. }
      rewrite iadd_ok by (consts; lia). cbn [bind]. eexists. split; [reflexivity|]. rewrite <- Z.add_assoc in W2.
      split; [assumption|]. split; [destruct W1 as [W1|W1]; lia|discriminate]. }
    destruct (will_apply_rev h o Hok) as (x & E & D2); [lia|]. rewrite E. cbn [bind]. clear E.
    destruct x as [w|].
    { left. eexists. split; [reflexivity|]. exact D2. }
    destruct (nearby_cases_rev h n next o) as [(x & E & Hnear2)|(Hd & Hl & E)]; auto; try lia; rewrite E; cbn [bind]; clear E; [|right; auto].
    destruct x as [[d w]|].
    { left. inversion Hnear2 as [? ? W1 W2 W3|]; subst. rewrite <- Z.add_assoc in W2.
      pose proof (decision_offset (swap_hunk h) _ w (hunk_ok_swap _ Hok) W2) as B.
      rewrite iadd_ok by (consts; lia). cbn [bind]. eexists. split; [reflexivity|]. exact W2. }
    left. eexists. split; [reflexivity|]. split; assumption.
  Qed.

  (* inverting a run *)
  Lemma emits_bind_inv {A B} (m : io A) (k : A -> io B) o1 r1 out x :
    emits m o1 r1 -> (forall a, emitting (k a)) -> emits (iobind m k) out (Done x) ->
    exists a o2, r1 = Done a /\ emits (k a) o2 (Done x) /\ out = o1 ++ o2.
  Proof.
    intros H1 Hk H2. destruct r1 as [a| | |].
    - destruct (Hk a) as (o2 & r2 & E2). pose proof (emits_bind _ _ _ _ _ _ H1 E2) as E3.
      destruct (emits_unique _ _ _ _ _ H2 E3) as [-> <-]. eauto.
    - destruct H1. congruence.
    - pose proof (emits_bind_stop _ k _ _ H1 ltac:(discriminate)) as E3. destruct (emits_unique _ _ _ _ _ H2 E3). discriminate.
    - pose proof (emits_bind_stop _ k _ _ H1 ltac:(discriminate)) as E3. destruct (emits_unique _ _ _ _ _ H2 E3). discriminate.
  Qed.

  (* the counters of already applied hunks never decrease *)
  Lemma step_already_mono p r c nx n o st w n' o' st' w' :
    apply_step dbg p r c nx n o st w = (Done (n', o', st'), w') ->
    (st_already st <= st_already st' /\ st_already_fuzzy st <= st_already_fuzzy st')%nat.
  Proof.
    unfold apply_step. intros H.
    repeat match goal with
      | H : iobind _ _ _ = (Done _, _) |- _ => apply iobind_done in H as (? & ? & ? & H)
      | H : match ?x with _ => _ end _ = (Done _, _) |- _ => destruct x
      | H : ret _ _ = _ |- _ => injection H as _ _ <- _
      end; cbn; lia.
  Qed.
  Lemma clumps_already_mono p r cs : forall n o st w n' st' w',
    apply_clumps dbg p r cs n o st w = (Done (n', st'), w') ->
    (st_already st <= st_already st' /\ st_already_fuzzy st <= st_already_fuzzy st')%nat.
  Proof.
    induction cs as [|c cs IH]; intros n o st w n' st' w' H; cbn [apply_clumps] in H.
    - injection H as _ <- _. lia.
    - apply iobind_done in H as ([[n1 o1] st1] & w1 & E & H). apply step_already_mono in E. apply IH in H. lia.
  Qed.

  Definition start_ok (n : nat) (o : Z) (hs : list (hunk line)) : Prop :=
    match hs with [] => True | h :: _ => Z.of_nat n <= Z.of_nat (h_b h) + o end.

  (* what rendering an applied hunk does *)
  Lemma render_apply h n o o' f w st : hunk_ok h -> (n <= length target)%nat ->
    class_ok h (Z.of_nat n) o (CApply f o' w) ->
    exists k p, admissible h k /\ (n <= p)%nat /\ (p + length (trimmed h k) <= length target)%nat /\
      sub target p (p + length (trimmed h k)) = trimmed h k /\
      Z.of_nat (p + length (trimmed h k)) <= Z.of_nat (h_b h + length (h_old h)) + o' /\
      let good := (k =? 0)%nat || (h_a h <=? Nat.min k (h_trail h))%nat in
      emits (render dbg target (text_of_hunk h) (Z.of_nat n) o st (CApply f o' w))
        (concat (sub target n p) ++ if good then concat (shown_window h k) else [])
        (if good then Done (Z.of_nat (p + length (trimmed h k)), o', if f then add_fuzzy st else add_clean st) else Panicked).
  Proof.
    intros Hok Hn (D & Hge & _). destruct (decision_place _ _ _ Hok D) as (k & p & K1 & K2 & K3 & K4 & K5).
    exists k, p. split; [assumption|]. split; [lia|]. split; [assumption|]. split; [assumption|].
    pose proof (trimmed_length h k Hok) as TL. pose proof Hok as (O1 & O2 & _).
    split; [lia|]. cbv zeta. unfold render. rewrite K2. destruct k as [|k].
    - cbn [Nat.eqb orb]. rewrite trimmed_0 in *. rewrite <- (app_nil_r (_ ++ _)). eapply emits_bind; [|apply emits_ret].
      apply (emits_apply_clean dbg h Hok target Ft n o' p); [lia|assumption|simpl in K3; lia].
    - cbn [Nat.eqb orb].
      assert (Hq : exists q, Z.of_nat (h_b h) + o' = Z.of_nat q) by (exists (Z.to_nat (Z.of_nat (h_b h) + o')); lia).
      destruct Hq as (q & Hq).
      pose proof (emits_apply_reduced dbg h Hok target Ft n o' q (S k)) as EA.
      replace (q + Nat.min (S k) (h_lead h))%nat with p in EA by lia.
      specialize (EA ltac:(lia) ltac:(lia) ltac:(lia) Hq).
      replace (q + length (h_old h) - Nat.min (S k) (h_trail h))%nat with (p + length (trimmed h (S k)))%nat in EA by lia.
      destruct (h_a h <=? Nat.min (S k) (h_trail h))%nat.
      + rewrite <- (app_nil_r (_ ++ _)). eapply emits_bind; [exact EA|apply emits_ret].
      + change (@Panicked (Z * Z * statistics)) with (@recast Z (Z * Z * statistics) Panicked).
        eapply emits_bind_stop; [exact EA|discriminate].
  Qed.
  Lemma render_fail h n o st : emits (render dbg target (text_of_hunk h) n o st CFail) (conflict_block h) (Done (n, o, add_failed st)).
  Proof.
    unfold render. rewrite <- (app_nil_r (conflict_block h)). eapply emits_bind; [apply emits_failure|apply emits_ret].
  Qed.
  Lemma emitting_render c n o st k : emitting (render dbg target c n o st k).
  Proof.
    destruct k; unfold render; apply emitting_bind; try (intros; apply emitting_ret).
    - apply emitting_clump_apply_into.
    - apply emitting_already_applied_into.
    - apply emitting_write_failure.
  Qed.

  (* the offset after applying keeps the invariant *)
  Lemma start_ok_next h hs m o' : ordered (h :: hs) -> Z.of_nat m <= Z.of_nat (h_b h + length (h_old h)) + o' -> start_ok m o' hs.
  Proof. intros [H1 H2] Hm. destruct hs as [|x hs]; cbn; [trivial|]. lia. Qed.
  Lemma start_ok_skip h hs n o : ordered (h :: hs) -> start_ok n o (h :: hs) -> start_ok n o hs.
  Proof. intros [H1 H2] Hm. cbn in Hm. destruct hs as [|x hs]; cbn; [trivial|]. lia. Qed.
  Lemma hd_next_ok hs : Forall hunk_ok hs -> next_ok (hd_error hs).
  Proof. destruct 1; cbn; auto. Qed.

  (* C28, invariant form *)
  Lemma rendered_run hs : forall n o st out m st', Forall hunk_ok hs -> ordered hs -> (n <= length target)%nat ->
    - two61 <= o <= zlen target -> start_ok n o hs ->
    emits (apply_clumps dbg target false (map text_of_hunk hs) (Z.of_nat n) o st) out (Done (m, st')) ->
    st_already st' = st_already st -> st_already_fuzzy st' = st_already_fuzzy st ->
    exists e, m = Z.of_nat e /\ (e <= length target)%nat /\ rendered shown_window target n hs (out ++ concat (skipn e target)).
  Proof.
    induction hs as [|h hs IH]; intros n o st out m st' Hok Hord Hn Ho Hst HE S1 S2.
    - cbn [map apply_clumps] in HE. destruct (emits_unique _ _ _ _ _ HE (emits_ret _)) as [-> E]. injection E as -> ->.
      exists n. split; [reflexivity|]. split; [assumption|]. now constructor.
    - inversion Hok as [|? ? O1 O2]; subst. cbn [map apply_clumps] in HE. cbn [start_ok] in Hst.
      pose proof (hd_next_ok _ O2) as Hnx. pose proof (target_bound target Ft) as Bt.
      assert (Hnl : 0 <= Z.of_nat n <= zlen target) by (unfold zlen; lia).
      assert (Hk : forall a, emitting ((fun '(consumed', offset', stats') => apply_clumps dbg target false (map text_of_hunk hs) consumed' offset' stats') a)).
      { intros [[x y] z]. apply emitting_apply_clumps. }
      eapply emits_ext in HE; [|apply iobind_ext; [intros w; apply apply_step_classify|reflexivity]].
      rewrite hd_error_map in HE.
      destruct (classify_cases h (hd_error hs) (Z.of_nat n) o O1 Hnx Ho Hnl Hst) as [(k & Ek & Hk2)|(_ & _ & Ek)]; rewrite Ek in HE.
      2:{ exfalso. eapply emits_bind_inv in HE; [|apply (emits_bind_stop _ _ [] Panicked); [apply (emits_lift Panic)|discriminate]|exact Hk].
          destruct HE as (? & ? & ? & _). discriminate. }
      destruct k as [f o' w|f o' w|].
      + destruct (render_apply h n o o' f w st O1 Hn Hk2) as (k & p & K1 & K2 & K3 & K4 & K5 & K6). cbv zeta in K6.
        eapply emits_bind_inv in HE; [|eapply emits_lift_bind; [reflexivity|exact K6]|exact Hk].
        destruct HE as (x & o2 & Ex & HE & ->). destruct ((k =? 0)%nat || (h_a h <=? Nat.min k (h_trail h))%nat); [|discriminate].
        injection Ex as <-. cbv beta iota in HE. pose proof (decision_offset h o' w O1 (proj1 Hk2)) as Bo.
        assert (Bo2 : - two61 <= o' <= zlen target) by (destruct Hk2 as (_ & Hge & _); pose proof (s_bound h O1); lia).
        assert (Hst' : start_ok (p + length (trimmed h k)) o' hs) by (apply (start_ok_next h); assumption).
        pose proof (emits_run _ _ _ HE) as HR.
        apply (IH _ _ _ _ _ _ O2 (proj2 Hord) K3 Bo2 Hst') in HE; [|destruct f; exact S1|destruct f; exact S2].
        destruct HE as (e & -> & He & Hr). exists e. split; [reflexivity|]. split; [assumption|].
        rewrite <- !app_assoc. econstructor; eauto.
      + exfalso.
        destruct (emitting_render (text_of_hunk h) (Z.of_nat n) o st (CAlready f o' w)) as (o1 & r1 & E1).
        assert (E1' := E1).
        eapply emits_bind_inv in HE; [|eapply emits_lift_bind; [reflexivity|exact E1]|exact Hk].
        destruct HE as ([[n1 oo] st1] & o2 & -> & HE & _). apply emits_run in HE. apply clumps_already_mono in HE.
        apply emits_run in E1'. unfold render in E1'. apply iobind_done in E1' as (? & ? & _ & E1').
        injection E1' as _ _ <- _. destruct f; cbn in HE; lia.
      + eapply emits_bind_inv in HE; [|eapply emits_lift_bind; [reflexivity|apply render_fail]|exact Hk].
        destruct HE as (x & o2 & Ex & HE & ->). injection Ex as <-. cbv beta iota in HE.
        apply (IH _ _ _ _ _ _ O2 (proj2 Hord) Hn Ho) in HE; [|apply (start_ok_skip h); assumption|exact S1|exact S2].
        destruct HE as (e & -> & He & Hr). exists e. split; [reflexivity|]. split; [assumption|].
        rewrite <- !app_assoc. now constructor.
  Qed.

  Lemma text_apply_rendered hs out st : Forall hunk_ok hs -> ordered hs ->
    text_apply_into dbg (map text_of_hunk hs) target false (Writer [] None) = (Done st, Writer out None) ->
    st_already st = 0%nat -> st_already_fuzzy st = 0%nat ->
    rendered shown_window target 0 hs out.
  Proof.
    intros Hok Hord HE S1 S2. apply emits_of_run in HE; [|apply emitting_text_apply].
    unfold text_apply_into in HE.
    destruct (emitting_apply_clumps dbg target false (map text_of_hunk hs) 0 0 stats0) as (o1 & r1 & E1).
    eapply emits_bind_inv in HE; [|exact E1|].
    2:{ intros [x y]. apply emitting_bind; [|intros; apply emitting_ret]. apply (emitting_write_remainder _ (@concat byte) emits_write_lines). }
    destruct HE as ([m st'] & o2 & -> & HE & ->). pose proof (target_bound target Ft) as Bt.
    assert (st' = st).
    { apply emits_run in HE. apply iobind_done in HE as (? & ? & _ & HE). now injection HE as ->. }
    subst st'.
    destruct (rendered_run hs 0 0 stats0 o1 m st Hok Hord ltac:(lia) ltac:(consts; lia)) as (e & -> & He & Hr); auto.
    { destruct hs; cbn; [trivial|lia]. }
    assert (E2 : emits (do! _ := write_remainder write_lines dbg target (Z.of_nat e) in ret st) (concat (skipn e target) ++ []) (Done st)).
    { eapply emits_bind; [now apply (emits_write_remainder write_lines (@concat byte) emits_write_lines)|apply emits_ret]. }
    destruct (emits_unique _ _ _ _ _ HE E2) as [-> _]. now rewrite app_nil_r.
  Qed.

  (* C27: no panic *)
  Notation quiet := (calm dbg target).

  Lemma decision_fits h pos w : decision h target pos (Some w) -> fits_somewhere h target.
  Proof.
    intros D. inversion D as [Ho|k N K1 K2 Ho K3|]; subst.
    - exists pos, 0%nat. split; [now left|]. unfold occurs_trimmed. simpl. now rewrite trimmed_0, Z.add_0_r.
    - exists pos, k. split; [now right|assumption].
  Qed.
  Lemma limit_ok_first h hs n o : hunk_ok h -> ordered (h :: hs) -> start_ok n o (h :: hs) -> core_length h <= zlen target ->
    limit_ok h target (hd_error hs) o.
  Proof.
    intros Hok [H1 _] Hs Hc. right. destruct hs as [|x hs]; cbn [hd_error search_limit]; [lia|]. cbn in Hs.
    destruct Hok as (O1 & _). unfold core_length, zlen in *. lia.
  Qed.
  Lemma limit_ok_second h hs n o : hunk_ok h -> ordered (h :: hs) -> start_ok n o (h :: hs) -> (h_b h <= h_a h)%nat ->
    core_length (swap_hunk h) <= zlen target -> limit_ok (swap_hunk h) target (option_map swap_hunk (hd_error hs)) o.
  Proof.
    intros Hok [H1 _] Hs Hba Hc. right. destruct hs as [|x hs]; cbn [hd_error search_limit option_map]; [lia|]. cbn in Hs.
    destruct Hok as (_ & O1 & _). unfold core_length, zlen in *. cbn in *. lia.
  Qed.

  Lemma quiet_run hs : forall n o st, Forall hunk_ok hs -> ordered hs -> (n <= length target)%nat ->
    - two61 <= o <= zlen target -> start_ok n o hs -> Forall quiet hs ->
    exists out e st', emits (apply_clumps dbg target false (map text_of_hunk hs) (Z.of_nat n) o st) out (Done (Z.of_nat e, st')) /\
      (e <= length target)%nat /\ st_already st' = st_already st /\ st_already_fuzzy st' = st_already_fuzzy st.
  Proof.
    induction hs as [|h hs IH]; intros n o st Hok Hord Hn Ho Hst Hq.
    - exists [], n, st. cbn [map apply_clumps]. split; [apply emits_ret|]. auto.
    - inversion Hok as [|? ? O1 O2]; subst. inversion Hq as [|? ? (Q1 & Q2 & Q3) Q4]; subst. pose proof Hst as Hst0. cbn [start_ok] in Hst.
      pose proof (hd_next_ok _ O2) as Hnx. pose proof (target_bound target Ft) as Bt.
      assert (Hnl : 0 <= Z.of_nat n <= zlen target) by (unfold zlen; lia).
      destruct (classify_cases h (hd_error hs) (Z.of_nat n) o O1 Hnx Ho Hnl Hst) as [(k & Ek & Hk2)|(Hd & Hl & Ek)].
      2:{ exfalso. destruct (Q3 Hd) as (B1 & B2 & B3). destruct Hl as [Hl|Hl]; apply Hl.
          - eapply limit_ok_first; eauto.
          - eapply limit_ok_second; eauto. }
      assert (Hstep : forall out n' o' st', emits (render dbg target (text_of_hunk h) (Z.of_nat n) o st k) out (Done (n', o', st')) ->
        emits (apply_step dbg target false (text_of_hunk h) (hd_error (map text_of_hunk hs)) (Z.of_nat n) o st) out (Done (n', o', st'))).
      { intros out n' o' st' E. eapply emits_ext; [intros w; symmetry; apply apply_step_classify|]. rewrite hd_error_map.
        eapply emits_lift_bind; [exact Ek|exact E]. }
      destruct k as [f o' w|f o' w|].
      + destruct (render_apply h n o o' f w st O1 Hn Hk2) as (k & p & K1 & K2 & K3 & K4 & K5 & K6). cbv zeta in K6.
        assert (Hg : (k =? 0)%nat || (h_a h <=? Nat.min k (h_trail h))%nat = true).
        { destruct k as [|k]; [reflexivity|]. cbn [Nat.eqb orb]. apply Nat.leb_le.
          apply (Q1 (Z.of_nat p - Z.of_nat (Nat.min (S k) (h_lead h))) (S k)); [lia|assumption|].
          exists p. split; [lia|]. split; assumption. }
        rewrite Hg in K6. apply Hstep in K6. pose proof (decision_offset h o' w O1 (proj1 Hk2)) as Bo.
        assert (Bo2 : - two61 <= o' <= zlen target) by (destruct Hk2 as (_ & Hge & _); pose proof (s_bound h O1); lia).
        assert (Hst' : start_ok (p + length (trimmed h k)) o' hs) by (apply (start_ok_next h); assumption).
        destruct (IH _ _ (if f then add_fuzzy st else add_clean st) O2 (proj2 Hord) K3 Bo2 Hst' Q4) as (out & e & st' & E & He & S1 & S2).
        eexists _, e, st'. split; [cbn [map apply_clumps]; eapply emits_bind; [exact K6|exact E]|].
        split; [assumption|]. destruct f; split; assumption.
      + exfalso. apply Q2. eapply decision_fits. exact Hk2.
      + pose proof (Hstep _ _ _ _ (render_fail h (Z.of_nat n) o st)) as K6.
        destruct (IH _ _ (add_failed st) O2 (proj2 Hord) Hn Ho (start_ok_skip _ _ _ _ Hord Hst0) Q4) as (out & e & st' & E & He & S1 & S2).
        eexists _, e, st'. split; [cbn [map apply_clumps]; eapply emits_bind; [exact K6|exact E]|]. auto.
  Qed.

  Lemma text_apply_quiet hs : Forall hunk_ok hs -> ordered hs -> Forall quiet hs ->
    exists out st, text_apply_into dbg (map text_of_hunk hs) target false (Writer [] None) = (Done st, Writer out None) /\
      st_already st = 0%nat /\ st_already_fuzzy st = 0%nat.
  Proof.
    intros Hok Hord Hq. pose proof (target_bound target Ft) as Bt.
    destruct (quiet_run hs 0 0 stats0 Hok Hord ltac:(lia) ltac:(consts; lia)) as (out & e & st & E & He & S1 & S2); auto.
    { destruct hs; cbn; [trivial|lia]. }
    eexists _, st. split; [|auto]. apply emits_run. unfold text_apply_into. eapply emits_bind; [exact E|].
    eapply emits_bind; [now apply (emits_write_remainder write_lines (@concat byte) emits_write_lines)|apply emits_ret].
  Qed.

  (* nothing fits *)
  Lemma nomatch_run hs : forall n o st, Forall hunk_ok hs -> ordered hs -> (n <= length target)%nat ->
    - two61 <= o <= zlen target -> start_ok n o hs -> Forall quiet hs -> Forall (fun h => ~ fits_somewhere h target) hs ->
    emits (apply_clumps dbg target false (map text_of_hunk hs) (Z.of_nat n) o st) (concat (map conflict_block hs))
      (Done (Z.of_nat n, Stats (st_clean st) (st_fuzzy st) (st_already st) (st_already_fuzzy st) (st_failed st + length hs))).
  Proof.
    induction hs as [|h hs IH]; intros n o st Hok Hord Hn Ho Hst Hq Hnm.
    - cbn [map apply_clumps concat length]. rewrite Nat.add_0_r. destruct st. apply emits_ret.
    - inversion Hok as [|? ? O1 O2]; subst. inversion Hq as [|? ? (Q1 & Q2 & Q3) Q4]; subst. pose proof Hst as Hst0. cbn [start_ok] in Hst.
      inversion Hnm as [|? ? N1 N2]; subst.
      pose proof (hd_next_ok _ O2) as Hnx. pose proof (target_bound target Ft) as Bt.
      assert (Hnl : 0 <= Z.of_nat n <= zlen target) by (unfold zlen; lia).
      destruct (classify_cases h (hd_error hs) (Z.of_nat n) o O1 Hnx Ho Hnl Hst) as [(k & Ek & Hk2)|(Hd & Hl & Ek)].
      2:{ exfalso. destruct (Q3 Hd) as (B1 & B2 & B3). destruct Hl as [Hl|Hl]; apply Hl.
          - eapply limit_ok_first; eauto.
          - eapply limit_ok_second; eauto. }
      destruct k as [f o' w|f o' w|].
      + exfalso. apply N1. eapply decision_fits. exact (proj1 Hk2).
      + exfalso. apply Q2. eapply decision_fits. exact Hk2.
      + cbn [map apply_clumps concat].
        apply (emits_bind _ _ _ (Z.of_nat n, o, add_failed st)).
        * eapply emits_ext; [intros w; symmetry; apply apply_step_classify|]. rewrite hd_error_map.
          eapply emits_lift_bind; [exact Ek|]. apply render_fail.
        * pose proof (IH n o (add_failed st) O2 (proj2 Hord) Hn Ho (start_ok_skip _ _ _ _ Hord Hst0) Q4 N2) as E.
          cbn [add_failed st_clean st_fuzzy st_already st_already_fuzzy st_failed] in E. cbn [length].
          rewrite Nat.add_succ_r. exact E.
  Qed.
  Lemma text_apply_nomatch hs : Forall hunk_ok hs -> ordered hs -> Forall quiet hs -> Forall (fun h => ~ fits_somewhere h target) hs ->
    text_apply_into dbg (map text_of_hunk hs) target false (Writer [] None) =
      (Done (Stats 0 0 0 0 (length hs)), Writer (concat (map conflict_block hs) ++ concat target) None).
  Proof.
    intros Hok Hord Hq Hnm. pose proof (target_bound target Ft) as Bt.
    apply emits_run. unfold text_apply_into. 
    eapply emits_bind; [apply (nomatch_run hs 0 0 stats0); auto; [lia|consts; lia|destruct hs; cbn; [trivial|lia]]|].
    cbn beta iota. rewrite <- (app_nil_r (concat target)).
    eapply emits_bind; [apply (emits_write_remainder write_lines (@concat byte) emits_write_lines dbg target 0); lia|apply emits_ret].
  Qed.
End General.

(* rendering with the right lines *)
Lemma shown_window_right h k : hunk_ok h -> admissible h k -> (Nat.max (h_lead h) (h_trail h) <= 1 \/ h_a h = 0)%nat ->
  shown_window h k = trimmed_new h k.
Proof.
  intros Hok Hk H. unfold shown_window, trimmed_new. destruct k as [|k]; [now rewrite trimmed_0|].
  destruct H as [H|H]; [unfold admissible in Hk; lia|]. rewrite H. unfold trimmed, swap_hunk. cbn [h_old h_lead h_trail]. reflexivity.
Qed.
Lemma rendered_right target from hs out : Forall hunk_ok hs -> Forall (fun h => Nat.max (h_lead h) (h_trail h) <= 1 \/ h_a h = 0)%nat hs ->
  rendered shown_window target from hs out -> rendered trimmed_new target from hs out.
Proof.
  intros Hok Hr H. induction H; [now constructor| |]; inversion Hok; inversion Hr; subst.
  - rewrite shown_window_right by assumption. econstructor; eauto.
  - constructor; auto.
Qed.

(* C50 *)
Section Displaced.
  Variable dbg : bool.
  Lemma text_apply_displaced context g (b a : list line) (prefix : list line) h :
    fits_lines (prefix ++ b) -> hunk_ok h -> cover context g b a 0 0 [h] -> prefix <> [] ->
    Z.of_nat (h_b h) + core_length h < zlen b ->
    (forall pos k, admissible h k -> occurs_trimmed h (prefix ++ b) pos k -> pos = Z.of_nat (length prefix + h_b h)) ->
    emits (text_apply_into dbg [text_of_hunk h] (prefix ++ b) false) (concat (prefix ++ patched b 0 [h])) (Done (Stats 0 1 0 0 0)).
  Proof.
    intros Ft Hok Hc Hp Hcore Huniq. pose proof (target_bound _ Ft) as Bt. unfold zlen in Bt. rewrite app_length in Bt.
    assert (Lp : (0 < length prefix)%nat) by (destruct prefix; [contradiction|cbn; lia]).
    destruct (cover_in_b _ _ _ _ _ _ _ h Hc (or_introl eq_refl)) as [B1 B2].
    pose proof (s_bound h Hok) as Bs. pose proof (core_bound h Hok) as Bc. unfold zlen in Hcore.
    set (t := prefix ++ b) in *. set (q := (length prefix + h_b h)%nat) in *.
    assert (Lt : length t = (length prefix + length b)%nat) by (unfold t; now rewrite app_length).
    assert (Hskip : forall x, skipn (length prefix + x) t = skipn x b).
    { intros x. unfold t. rewrite skipn_app, skipn_all2 by lia. simpl. f_equal. lia. }
    assert (Hocc : occurs_at t (h_old h) (Z.of_nat q)).
    { exists q. split; [reflexivity|]. split; [lia|]. rewrite <- B2 at 2. unfold sub, q. rewrite Hskip. f_equal. lia. }
    assert (Hdec : forall pos, pos <> Z.of_nat q -> decision h t pos None).
    { intros pos Hne. apply decide_none.
      - intros Ho. apply Hne. apply (Huniq pos 0%nat); [now left|]. unfold occurs_trimmed. simpl. now rewrite trimmed_0, Z.add_0_r.
      - intros k K1 K2 Ho. apply Hne. apply (Huniq pos k); [now right|assumption]. }
    unfold text_apply_into. cbn [patched].
    assert (Eo : concat (prefix ++ sub b 0 (h_b h) ++ h_new h ++ skipn (h_b h + length (h_old h)) b) =
      ((concat (sub t 0 q) ++ concat (h_new h)) ++ []) ++ concat (skipn (q + length (h_old h)) t) ++ []).
    { rewrite !app_nil_r, <- !concat_app, <- app_assoc. f_equal. unfold q. rewrite <- Nat.add_assoc, Hskip, app_assoc. f_equal.
      unfold sub, t. simpl. rewrite !Nat.sub_0_r, firstn_app, (firstn_all2 prefix) by lia. f_equal. f_equal. lia. }
    rewrite Eo. clear Eo.
    apply (emits_bind _ _ _ (Z.of_nat (q + length (h_old h)), Stats 0 1 0 0 0)).
    - cbn [apply_clumps hd_error]. rewrite <- (app_nil_r ((concat _ ++ _) ++ [])).
      apply (emits_bind _ _ _ (Z.of_nat (q + length (h_old h)), Z.of_nat (length prefix), Stats 0 1 0 0 0)).
      + unfold apply_step. eapply emits_lift_bind.
        { destruct (will_apply_spec dbg h Hok t 0) as (x & E & D); [consts; lia..|].
          rewrite E. f_equal. apply (decision_unique _ _ _ _ _ D). apply Hdec. unfold q. lia. }
        cbv beta iota. eapply emits_lift_bind.
        { destruct (will_apply_nearby_spec dbg h Hok t Ft 0 None 0) as (x & E & D); [exact I|consts; lia..| |].
          - intros _. right. cbn [search_limit]. unfold zlen. rewrite Lt. lia.
          - cbn [option_map] in E. rewrite E. f_equal. apply (nearest_unique _ _ _ _ _ _ _ D).
            apply (nearest_found _ _ _ _ _ (Z.of_nat (length prefix)) Cleanly).
            + right. cbn [search_limit]. unfold zlen. rewrite Lt. lia.
            + replace (Z.of_nat (h_b h) + 0 + Z.of_nat (length prefix)) with (Z.of_nat q) by (unfold q; lia). now constructor.
            + intros e He Hlt. apply Hdec. unfold q. destruct Hlt; lia. }
        cbv beta iota. eapply emits_lift_bind; [apply iadd_ok; consts; lia|].
        rewrite Z.add_0_l. eapply emits_bind; [|apply emits_ret]. change (reductions_of Cleanly) with (@None (Z * Z)).
        change 0 with (Z.of_nat 0). apply (emits_apply_clean dbg h Hok t Ft 0 _ q); unfold q; lia.
      + apply emits_ret.
    - cbv beta iota. eapply emits_bind; [apply (emits_write_remainder write_lines (@concat byte) emits_write_lines); lia|apply emits_ret].
  Qed.
End Displaced.

(* Proof_Clumps.v - clump iteration (changes.rs:357-562). *)
From Verif Require Import Base Model_Seq Model_Changes Model_IO Model_Text Model_Bytes Spec Proof_Seq Proof_Lcs Proof_Changes.

Lemma starts_trimmed_spec m k : starts_trimmed m k = last_items k m.
Proof. unfold starts_trimmed, last_items. f_equal; lia. Qed.
Lemma ends_trimmed_spec m k : ends_trimmed m k = first_items k m.
Proof. unfold ends_trimmed, first_items. f_equal. lia. Qed.
Lemma split_spec m k : split m k = if 2 * k <=? cs_n m then Some (first_items k m, last_items k m) else None.
Proof. unfold split. rewrite Nat.mul_comm. now rewrite starts_trimmed_spec, ends_trimmed_spec. Qed.

Lemma alternating_tl c cs : alternating (c :: cs) -> alternating cs.
Proof. intros H pre x y post E. apply (H (c :: pre) x y post). now rewrite E. Qed.
Lemma alternating_hd x y cs : alternating (x :: y :: cs) -> real x <> real y.
Proof. intros H. apply (H [] x y cs eq_refl). Qed.

(* what the inner loop does once it has collected something *)
Lemma clump_loop_spec context iter : forall acc, acc <> [] -> alternating iter ->
  exists body q iter',
    clump_loop context iter acc =
      (acc ++ body ++ trail context q, iter',
       match iter' with [] => None | _ => match q with Some m => Some (last_items context m) | None => None end end) /\
    iter = body ++ match q with Some m => NoChange m :: iter' | None => iter' end /\
    (q = None -> iter' = []) /\
    (iter' <> [] -> match q with Some m => 2 * context <= cs_n m | None => False end) /\
    (forall m, In (NoChange m) body -> cs_n m < 2 * context) /\
    (body = [] \/ exists init c, body = init ++ [c] /\ real c = true).
Proof.
  induction iter as [|ch iter IH]; intros acc Hacc Halt.
  - exists [], None, []. simpl. rewrite app_nil_r. repeat split; auto. intros m [].
  - assert (Hreal : real ch = true -> clump_loop context (ch :: iter) acc = clump_loop context iter (acc ++ [ch])).
    { destruct ch; simpl; [discriminate|auto..]. }
    destruct (real ch) eqn:Er.
    + rewrite Hreal by reflexivity.
      destruct (IH (acc ++ [ch])) as (body & q & iter' & E1 & E2 & E3 & E4 & E5 & E6).
      { destruct acc; discriminate. } { eapply alternating_tl; eauto. }
      exists (ch :: body), q, iter'. rewrite E1, E2. rewrite <- app_assoc. split; [reflexivity|].
      split; [reflexivity|]. split; [assumption|]. split; [assumption|]. split.
      * intros m [->|Hm]; [discriminate|]. auto.
      * right. destruct E6 as [->|(init & c & -> & Hc)].
        -- exists [], ch. now split.
        -- exists (ch :: init), c. now split.
    + destruct ch as [m| | |]; try discriminate. cbn [clump_loop].
      destruct acc as [|a acc]; [congruence|].
      destruct iter as [|c2 iter].
      * exists [], (Some m), []. rewrite ends_trimmed_spec. repeat split; auto; try congruence. intros m0 [].
      * rewrite split_spec. destruct (2 * context <=? cs_n m) eqn:El.
        -- apply Nat.leb_le in El. exists [], (Some m), (c2 :: iter). repeat split; auto; try congruence. intros m0 [].
        -- apply Nat.leb_gt in El.
           destruct (IH ((a :: acc) ++ [NoChange m])) as (body & q & iter' & E1 & E2 & E3 & E4 & E5 & E6).
           { destruct acc; discriminate. } { eapply alternating_tl; eauto. }
           exists (NoChange m :: body), q, iter'. rewrite E1, E2, <- app_assoc. split; [reflexivity|].
           split; [reflexivity|]. split; [assumption|]. split; [assumption|]. split.
           ++ intros m0 [[= ->]|Hm]; [assumption|]. auto.
           ++ right. destruct E6 as [->|(init & c & -> & Hc)].
              ** exfalso. simpl in E2. apply alternating_hd in Halt. destruct q as [m'|].
                 --- injection E2 as -> _. apply Halt. reflexivity.
                 --- rewrite (E3 eq_refl) in E2. discriminate.
              ** exists (NoChange m :: init), c. now split.
Qed.

Definition starts_real (cs : list change) : Prop := match cs with c :: _ => real c = true | [] => True end.

Lemma clump_loop_first context c iter : real c = true -> 
  clump_loop context (c :: iter) [] = clump_loop context iter [c].
Proof. destruct c; [discriminate|reflexivity..]. Qed.

Lemma collect_spec context : forall n fuel cs p, length cs <= n -> n < fuel -> alternating cs -> starts_real cs ->
  (cs = [] -> p = None) ->
  exists clumps, clumps_collect fuel context cs (option_map (last_items context) p) = Ok clumps /\
    clumping context p cs clumps.
Proof.
  induction n as [n IH] using lt_wf_ind. intros fuel cs p Hn Hf Halt Hs Hp.
  destruct fuel as [|fuel]; [lia|]. cbn [clumps_collect]. unfold clump_next. cbv zeta.
  destruct cs as [|c cs].
  - rewrite Hp by reflexivity. simpl. exists []. split; [reflexivity|constructor].
  - simpl in Hs.
    assert (HL : exists body q iter',
      clump_loop context (c :: cs) match option_map (last_items context) p with Some s => [NoChange s] | None => [] end =
        (lead context p ++ body ++ trail context q, iter',
         match iter' with [] => None | _ => match q with Some m => Some (last_items context m) | None => None end end) /\
      c :: cs = body ++ match q with Some m => NoChange m :: iter' | None => iter' end /\
      (q = None -> iter' = []) /\
      (iter' <> [] -> match q with Some m => 2 * context <= cs_n m | None => False end) /\
      close_run context body).
    { destruct p as [s|]; simpl option_map; cbv iota beta.
      - destruct (clump_loop_spec context (c :: cs) [NoChange (last_items context s)]) as (body & q & iter' & E1 & E2 & E3 & E4 & E5 & E6); [discriminate|assumption|].
        exists body, q, iter'. rewrite E1. split; [reflexivity|]. split; [assumption|]. split; [assumption|]. split; [assumption|].
        destruct E6 as [->|E6].
        + exfalso. simpl in E2. destruct q as [m|]; [injection E2 as -> _; discriminate|]. rewrite E3 in E2 by reflexivity. discriminate.
        + split; [|split; auto]. destruct body as [|b body]; [destruct E6 as ([|] & ? & ? & _); discriminate|].
          simpl in E2. injection E2 as -> _. eauto.
      - rewrite clump_loop_first by assumption.
        destruct (clump_loop_spec context cs [c]) as (body & q & iter' & E1 & E2 & E3 & E4 & E5 & E6); [discriminate|eapply alternating_tl; eauto|].
        exists (c :: body), q, iter'. rewrite E1. split; [reflexivity|]. split; [now rewrite E2|]. split; [assumption|]. split; [assumption|].
        split; [eauto|]. split.
        + destruct E6 as [->|(init & d & -> & Hd)]; [exists [], c|exists (c :: init), d]; now split.
        + intros m [->|Hm]; [discriminate|auto]. }
    destruct HL as (body & q & iter' & E1 & E2 & E3 & E4 & Hcl). unfold clump in E1 |- *. rewrite E1.
    destruct (lead context p ++ body ++ trail context q) as [|x1 xs1] eqn:Enz.
    { exfalso. destruct Hcl as ((b & tl & -> & _) & _). destruct (lead context p); discriminate. }
    rewrite <- Enz. clear E1 Enz x1 xs1.
    destruct iter' as [|c2 iter'].
    + destruct fuel as [|fuel]; [simpl in Hn; lia|]. cbn [clumps_collect bind]. simpl.
      exists [lead context p ++ body ++ trail context q]. split; [reflexivity|].
      rewrite E2. destruct q as [m|]; [apply (clumping_last context p body (Some m)); assumption|].
      apply (clumping_last context p body None); assumption.
    + destruct q as [m|]; [|destruct E4; discriminate]. specialize (E4 ltac:(discriminate)).
      assert (Hlen : length (c2 :: iter') < n).
      { assert (El : length (c :: cs) = length (body ++ NoChange m :: c2 :: iter')) by now rewrite E2.
        rewrite app_length in El. simpl in *. lia. }
      assert (Halt2 : alternating (NoChange m :: c2 :: iter')).
      { intros pre x y post E. apply (Halt (body ++ pre) x y post). rewrite E2, E. now rewrite <- app_assoc. }
      destruct (IH (length (c2 :: iter')) Hlen fuel (c2 :: iter') (Some m)) as (clumps & C1 & C2); auto; try lia; try discriminate.
      * eapply alternating_tl; eauto.
      * simpl. apply alternating_hd in Halt2. destruct (real c2); [reflexivity|]. now elim Halt2.
      * simpl option_map in C1. rewrite C1. cbn [bind]. exists ((lead context p ++ body ++ trail context (Some m)) :: clumps).
        split; [reflexivity|]. rewrite E2. now constructor.
Qed.

Lemma clump_next_skip context m c cs : 
  clump_next context (NoChange m :: c :: cs) None = clump_next context (c :: cs) (Some (last_items context m)).
Proof. unfold clump_next. cbn [clump_loop]. now rewrite starts_trimmed_spec. Qed.

Lemma change_clumps_spec context cs : alternating cs ->
  exists clumps, change_clumps context cs = Ok clumps /\ clumps_of context cs clumps.
Proof.
  intros Halt. unfold change_clumps. destruct cs as [|c cs].
  - exists []. split; [reflexivity|]. constructor.
  - destruct (real c) eqn:Er.
    + destruct (collect_spec context (length (c :: cs)) (length (c :: cs) + 2) (c :: cs) None) as (clumps & C1 & C2); auto; try lia.
      exists clumps. split; [exact C1|]. destruct c; [discriminate|assumption..].
    + destruct c as [m| | |]; try discriminate. destruct cs as [|c2 cs].
      * exists []. split; [reflexivity|]. constructor.
      * pose proof (alternating_hd _ _ _ Halt) as Hne.
        destruct (collect_spec context (length (c2 :: cs)) (length (NoChange m :: c2 :: cs) + 2) (c2 :: cs) (Some m)) as (clumps & C1 & C2); auto; try (simpl; lia); try discriminate.
        { eapply alternating_tl; eauto. }
        { simpl. destruct (real c2); [reflexivity|]. now elim Hne. }
        exists clumps. split; [|exact C2]. rewrite <- C1.
        change (length (NoChange m :: c2 :: cs) + 2) with (S (length (c2 :: cs) + 2)). cbn [clumps_collect].
        rewrite clump_next_skip. reflexivity.
Qed.

(* ---------------- consequences ---------------- *)
Lemma filter_lead context p : filter real (lead context p) = [].
Proof. destruct p; reflexivity. Qed.
Lemma filter_trail context p : filter real (trail context p) = [].
Proof. destruct p; reflexivity. Qed.

Lemma clumping_reals context p cs clumps : clumping context p cs clumps ->
  filter real (concat clumps) = filter real cs.
Proof.
  induction 1 as [p|p body q Hb|p body m rest clumps Hb Hr Hm H IH]; [reflexivity|..]; cbn [concat].
  - rewrite app_nil_r, !filter_app, filter_lead, filter_trail. simpl. destruct q; simpl; now rewrite app_nil_r.
  - rewrite !filter_app, filter_lead, filter_trail, IH. simpl. now rewrite app_nil_r.
Qed.

Lemma clumping_has_real context p cs clumps c : clumping context p cs clumps -> In c clumps -> exists x, In x c /\ real x = true.
Proof.
  assert (W : forall body p q, close_run context body -> exists x, In x (lead context p ++ body ++ trail context q) /\ real x = true).
  { intros body p' q ((x & tl & -> & Hx) & _). exists x. split; [|assumption]. apply in_or_app. right. apply in_or_app. left. now left. }
  induction 1 as [p|p body q Hb|p body m rest clumps Hb Hr Hm H IH]; intros Hin; [destruct Hin|..].
  - destruct Hin as [<-|[]]. now apply W.
  - destruct Hin as [<-|Hin]; [now apply W|auto].
Qed.

Lemma tiles_app_inv l1 : forall l2 i j n m, tiles i j (l1 ++ l2) n m -> exists x y, tiles i j l1 x y /\ tiles x y l2 n m.
Proof.
  induction l1 as [|c l1 IH]; intros l2 i j n m H; [exists i, j; split; [constructor|assumption]|].
  simpl in H. inversion H as [|? ? ? ? ? ? H1 H2 H3]; subst. destruct (IH _ _ _ _ _ H3) as (x & y & X1 & X2).
  exists x, y. split; [now constructor|assumption].
Qed.

Lemma unchanged_incl cs cs' i j d : (forall x, In x cs -> In x cs') -> unchanged cs i j d -> unchanged cs' i j d.
Proof. intros H [->|(m & p & H1 & H2)]; [now left|right]. exists m, p. auto. Qed.

Lemma last_items_end k m : cs_b (last_items k m) + cs_n (last_items k m) = cs_b m + cs_n m /\ cs_a (last_items k m) + cs_n (last_items k m) = cs_a m + cs_n m.
Proof. unfold last_items. simpl. lia. Qed.

(* [spread] with the shape of each clump *)
Inductive spreadc (context : nat) (all : list change) (n m : nat) : nat -> nat -> list clump -> Prop :=
| spreadc_nil i j d : unchanged all i j d -> i + d = n -> j + d = m -> spreadc context all n m i j []
| spreadc_cons i j d p body q i' j' rest :
    unchanged all i j d -> close_run context body ->
    tiles (i + d) (j + d) (lead context p ++ body ++ trail context q) i' j' ->
    match p with Some b => In (NoChange b) all | None => i + d = 0 /\ j + d = 0 end ->
    match q with Some b => In (NoChange b) all | None => i' = n /\ j' = m end ->
    (forall x, In x body -> In x all) ->
    spreadc context all n m i' j' rest ->
    spreadc context all n m i j ((lead context p ++ body ++ trail context q) :: rest).

Lemma spreadc_spread context all n m i j clumps : spreadc context all n m i j clumps -> spread all i j clumps n m.
Proof.
  induction 1 as [i j d Hu H1 H2|i j d p body q i' j' rest Hu Hb Ht Hp Hq Hx H IH].
  - subst. now constructor.
  - eapply spread_cons; eauto. destruct Hb as ((x & tl & -> & _) & _). destruct (lead context p); discriminate.
Qed.

(* position from which the clumps of [cs] after the unchanged block [p] start: anywhere in
   p's block not beyond its lead *)
Lemma clumping_spread context all p cs clumps n m : clumping context p cs clumps ->
  (forall x, In x cs -> In x all) ->
  forall i0 j0, tiles i0 j0 cs n m ->
  forall i j d, (match p with
             | Some b => In (NoChange b) all /\ exists q, i = cs_b b + q /\ j = cs_a b + q /\ q + d = cs_n b /\
                         (cs <> [] -> q <= cs_n b - context)
             | None => d = 0 /\ i = 0 /\ j = 0 end) -> i + d = i0 -> j + d = j0 ->
  spreadc context all n m i j clumps.
Proof.
  intros H. revert n m.
  (* the first gap and lead *)
  assert (W : forall p (body : list change) (i0 j0 i j d : nat),
     (match p with
             | Some b => In (NoChange b) all /\ exists q, i = cs_b b + q /\ j = cs_a b + q /\ q + d = cs_n b /\
                         q <= cs_n b - context
             | None => d = 0 /\ i = 0 /\ j = 0 end) -> i + d = i0 -> j + d = j0 ->
     exists d', unchanged all i j d' /\ match p with Some b => In (NoChange b) all | None => i + d' = 0 /\ j + d' = 0 end /\
       forall x y, tiles i0 j0 body x y -> tiles (i + d') (j + d') (lead context p ++ body) x y).
  { clear. intros [b|] body i0 j0 i j d Hp Hi Hj; simpl.
    - destruct Hp as (Hin & q & -> & -> & Hq & Hc). exists (cs_n b - context - q). split; [|split; [assumption|]].
      + right. exists b, q. repeat split; auto. lia.
      + intros x y Ht. constructor; simpl; try lia.
        unfold last_items; simpl. replace (cs_b b + (cs_n b - context) + Nat.min context (cs_n b)) with i0 by lia.
        replace (cs_a b + (cs_n b - context) + Nat.min context (cs_n b)) with j0 by lia. assumption.
    - destruct Hp as (-> & -> & ->). simpl in *. exists 0. split; [now left|]. split; [split; reflexivity|]. intros x y Ht. subst. assumption. }
  induction H as [p|p body q Hb|p body b rest clumps Hb Hr Hm H IH]; intros n m Hall i0 j0 Ht i j d Hp Hi Hj.
  - inversion Ht; subst. apply spreadc_nil with (d := d); auto. destruct p as [b|].
    + destruct Hp as (Hin & q & -> & -> & Hq & _). right. exists b, q. repeat split; auto. lia.
    + now left.
  - assert (Hbne : body <> []) by (destruct Hb as ((x & tl & -> & _) & _); discriminate).
    destruct (W p body i0 j0 i j d) as (d' & Hu & Hp' & Hlead); auto.
    { destruct p as [b|]; [|assumption]. destruct Hp as (Hin & q0 & Q1 & Q2 & Q3 & Q4). split; [assumption|]. exists q0. repeat split; auto.
      apply Q4. destruct body; [congruence|discriminate]. }
    apply tiles_app_inv in Ht as (x & y & T1 & T2). specialize (Hlead _ _ T1).
    destruct q as [b|].
    + inversion T2 as [|? ? ? ? ? ? A1 A2 A3]; subst. inversion A3; subst. simpl in *.
      assert (Hbin : In (NoChange b) all) by (apply Hall; apply in_or_app; right; now left).
      apply (spreadc_cons context all _ _ i j d' p body (Some b) (cs_b b + Nat.min context (cs_n b)) (cs_a b + Nat.min context (cs_n b))); auto.
      * rewrite app_assoc. eapply tiles_app; [exact Hlead|]. constructor; [reflexivity|reflexivity|]. constructor.
      * intros z Hz. apply Hall. apply in_or_app. now left.
      * apply spreadc_nil with (d := cs_n b - Nat.min context (cs_n b)); try lia.
        right. exists b, (Nat.min context (cs_n b)). repeat split; auto; lia.
    + inversion T2; subst. simpl.
      apply (spreadc_cons context all _ _ i j d' p body None n m); auto.
      * simpl. now rewrite app_nil_r.
      * intros z Hz. apply Hall. apply in_or_app. now left.
      * apply spreadc_nil with (d := 0); try lia. now left.
  - assert (Hbne : body <> []) by (destruct Hb as ((x & tl & -> & _) & _); discriminate).
    destruct (W p body i0 j0 i j d) as (d' & Hu & Hp' & Hlead); auto.
    { destruct p as [b0|]; [|assumption]. destruct Hp as (Hin & q0 & Q1 & Q2 & Q3 & Q4). split; [assumption|]. exists q0. repeat split; auto.
      apply Q4. destruct body; [congruence|discriminate]. }
    apply tiles_app_inv in Ht as (x & y & T1 & T2). specialize (Hlead _ _ T1).
    inversion T2 as [|? ? ? ? ? ? A1 A2 A3]; subst. simpl in *.
    assert (Hbin : In (NoChange b) all) by (apply Hall; apply in_or_app; right; now left).
    apply (spreadc_cons context all _ _ i j d' p body (Some b) (cs_b b + Nat.min context (cs_n b)) (cs_a b + Nat.min context (cs_n b))); auto.
    + rewrite app_assoc. eapply tiles_app; [exact Hlead|]. constructor; [reflexivity|reflexivity|]. constructor.
    + intros z Hz. apply Hall. apply in_or_app. now left.
    + eapply (IH n m) with (d := cs_n b - Nat.min context (cs_n b)); [|exact A3| |lia|lia].
      * intros z Hz. apply Hall. apply in_or_app. right. now right.
      * split; [assumption|]. exists (Nat.min context (cs_n b)). repeat split; lia.
Qed.

Lemma clumps_of_spreadc context cs clumps n m : clumps_of context cs clumps -> tiles 0 0 cs n m -> spreadc context cs n m 0 0 clumps.
Proof.
  intros Hc Ht. destruct cs as [|c cs].
  - eapply clumping_spread with (d := 0); [exact Hc|auto|exact Ht|repeat split|reflexivity|reflexivity].
  - destruct c as [b| | |].
    + inversion Ht as [|? ? ? ? ? ? A1 A2 A3]; subst. simpl in *.
      eapply clumping_spread with (d := cs_n b); [exact Hc| |exact A3| |lia|lia]; [now right|].
      split; [now left|]. exists 0. rewrite A1, A2. repeat split; lia.
    + eapply clumping_spread with (d := 0); [exact Hc|auto|exact Ht|repeat split|reflexivity|reflexivity].
    + eapply clumping_spread with (d := 0); [exact Hc|auto|exact Ht|repeat split|reflexivity|reflexivity].
    + eapply clumping_spread with (d := 0); [exact Hc|auto|exact Ht|repeat split|reflexivity|reflexivity].
Qed.
Lemma clumps_of_spread context cs clumps n m : clumps_of context cs clumps -> tiles 0 0 cs n m -> spread cs 0 0 clumps n m.
Proof. intros H1 H2. eapply spreadc_spread, clumps_of_spreadc; eauto. Qed.

(* start and end positions of a clump *)
Lemma clump_starts_tiles i j c n m : c <> [] -> tiles i j c n m -> clump_starts c = (i, j).
Proof. intros Hne H. inversion H as [|? ? x ? ? ? H1 H2 H3]; subst; [congruence|]. destruct x; reflexivity. Qed.

Lemma last_change_snoc c x : last_change (c ++ [x]) = Some x.
Proof. unfold last_change. rewrite map_app. simpl. apply last_last. Qed.

Lemma clump_ends_tiles i j c n m : c <> [] -> tiles i j c n m -> clump_ends c = (n, m).
Proof.
  intros Hne H. destruct (exists_last Hne) as (init & x & ->).
  apply tiles_app_inv in H as (a & b & _ & H). inversion H as [|? ? ? ? ? ? H1 H2 H3]; subst. inversion H3; subst.
  unfold clump_ends. rewrite last_change_snoc. destruct x; reflexivity.
Qed.
Lemma clump_ranges_tiles i j c n m : c <> [] -> tiles i j c n m -> clump_ranges c = (Range i n, Range j m).
Proof. intros Hne H. unfold clump_ranges. now rewrite (clump_starts_tiles _ _ _ _ _ Hne H), (clump_ends_tiles _ _ _ _ _ Hne H). Qed.

Lemma b_from_to c : non_empty c -> b_from c <= b_to c /\ a_from c <= a_to c.
Proof. destruct c; simpl; lia. Qed.

(* ordered changes: extents never run backwards *)
Definition forward (c : change) : Prop := b_from c <= b_to c /\ a_from c <= a_to c.
Lemma tiles_le i j c n m : Forall forward c -> tiles i j c n m -> i <= n /\ j <= m.
Proof.
  intros Hf H. induction H as [|i j x c n m H1 H2 H3 IH]; [auto|]. inversion Hf as [|? ? [F1 F2] F3]; subst.
  specialize (IH F3). lia.
Qed.

Lemma clump_context_lengths_shape context p body q : context <= 255 -> close_run context body ->
  clump_context_lengths (lead context p ++ body ++ trail context q) =
    (match p with Some b => Nat.min context (cs_n b) | None => 0 end,
     match q with Some b => Nat.min context (cs_n b) | None => 0 end).
Proof.
  intros Hc ((x & tl & Ex & Hx) & (init & y & Ey & Hy) & _). unfold clump_context_lengths. f_equal.
  - destruct p as [b|]; cbn [lead app].
    + unfold last_items. cbn [cs_n]. apply Nat.mod_small. lia.
    + rewrite Ex. cbn [app]. destruct x; [discriminate|reflexivity..].
  - destruct q as [b|]; cbn [trail].
    + rewrite app_assoc, last_change_snoc. unfold first_items. cbn [cs_n]. rewrite Nat.mod_small; lia.
    + rewrite app_nil_r, Ey, app_assoc, last_change_snoc. destruct y; [discriminate|reflexivity..].
Qed.

Lemma spreadc_forward context all n m i j clumps : Forall non_empty all -> spreadc context all n m i j clumps -> Forall (Forall forward) clumps.
Proof.
  intros Hall. assert (L : forall p, Forall forward (lead context p)) by (intros [b|]; simpl; repeat constructor; simpl; lia).
  assert (R : forall p, Forall forward (trail context p)) by (intros [b|]; simpl; repeat constructor; simpl; lia).
  rewrite Forall_forall in Hall.
  induction 1 as [i j d Hu H1 H2|i j d p body q i' j' rest Hu Hb Ht Hp Hq Hx H IH]; constructor; [|assumption].
  apply Forall_app. split; [apply L|]. apply Forall_app. split; [|apply R]. apply Forall_forall. intros x Hin.
  apply b_from_to. auto.
Qed.

(* Proof_Fewer.v - the windows of clumps with fewer context items lie in those with more (for C118). *)
From Verif Require Import Base Model_Seq Model_Changes Model_IO Model_Text Model_Bytes Spec Spec_Shape Proof_Seq Proof_Lcs Proof_Changes Proof_Clumps Proof_Diff Proof_Shape Proof_Context.

Lemma sub_same {T} (s s' : list T) i j i' j' : j - i = j' - i' -> (forall k, k < j - i -> nth_error s (i + k) = nth_error s' (i' + k)) -> sub s i j = sub s' i' j'.
Proof.
  intros E H. apply nth_error_ext. intros k. rewrite !sub_nth, <- E. destruct (Nat.ltb_spec k (j - i)); [now apply H|reflexivity].
Qed.
Lemma sub_rest {T} (s : list T) i n : i <= n -> sub s i n ++ skipn n s = skipn i s.
Proof.
  intros H. unfold sub. rewrite <- (firstn_skipn (n - i) (skipn i s)) at 2. f_equal. rewrite skipn_skipn. f_equal. lia.
Qed.
Lemma map_res_in {A B} (f : A -> res B) l ys y : map_res f l = Ok ys -> In y ys -> exists x, In x l /\ f x = Ok y.
Proof.
  revert ys. induction l as [|x l IH]; intros ys E H; cbn [map_res] in E; [injection E as <-; destruct H|].
  destruct (f x) as [z| |] eqn:Ez; try discriminate. cbn [bind] in E. destruct (map_res f l) as [zs| |] eqn:El; try discriminate. cbn [bind] in E. injection E as <-.
  destruct H as [->|H]; [exists x; split; [now left|assumption]|]. destruct (IH zs eq_refl H) as (x' & H1 & H2). exists x'. split; [now right|assumption].
Qed.
Lemma map_res_in_conv {A B} (f : A -> res B) l ys x : map_res f l = Ok ys -> In x l -> exists y, In y ys /\ f x = Ok y.
Proof.
  revert ys. induction l as [|z l IH]; intros ys E H; [destruct H|]. cbn [map_res] in E.
  destruct (f z) as [y| |] eqn:Ez; try discriminate. cbn [bind] in E. destruct (map_res f l) as [zs| |] eqn:El; try discriminate. cbn [bind] in E. injection E as <-.
  destruct H as [->|H]; [exists y; split; [now left|assumption]|]. destruct (IH zs eq_refl H) as (y' & H1 & H2). exists y'. split; [now right|assumption].
Qed.

(* item i is less than [context] items away from the change [c] *)
Definition close_to (context : nat) (c : change) (i : nat) : Prop := b_from c <= i + context /\ i < b_to c + context.

Lemma body_close context : forall body i0 j0 x y, Forall non_empty body -> alternating body -> tiles i0 j0 body x y ->
  (forall m, In (NoChange m) body -> cs_n m < 2 * context) ->
  (exists init c, body = init ++ [c] /\ real c = true) ->
  forall i, i0 <= i < x -> (exists c, In c body /\ real c = true /\ close_to context c i) \/ (exists m rest, body = NoChange m :: rest /\ i + context < b_to (NoChange m)).
Proof.
  induction body as [|c body IH]; intros i0 j0 x y Hn Ha Ht Hm (init & z & E & Hz) i Hi; [destruct init; discriminate|].
  inversion Ht as [|? ? ? ? ? ? A1 A2 A3]; subst. inversion Hn as [|? ? N1 N2]; subst. pose proof (b_from_to _ N1) as [C1 C2].
  destruct (Nat.lt_ge_cases i (b_to c)) as [L|L].
  - destruct (real c) eqn:Er; [left; exists c; split; [now left|]; split; [assumption|]; unfold close_to; lia|].
    destruct c as [m| | |]; try discriminate. destruct (Nat.lt_ge_cases (i + context) (b_to (NoChange m))) as [L2|L2]; [right; eauto|left].
    destruct body as [|d body]; [destruct init as [|? [|]]; cbn in E; try discriminate; injection E as <-; discriminate|].
    assert (Hd : real d = true) by (pose proof (Ha [] _ _ _ eq_refl) as K; cbn [real] in K; destruct (real d); congruence).
    exists d. split; [right; now left|]. split; [assumption|]. inversion A3; subst. inversion N2 as [|? ? M1 M2]; subst. pose proof (b_from_to _ M1). unfold close_to. lia.
  - destruct init as [|c' init]; cbn [app] in E; injection E as <- ->; [inversion A3; subst; lia|].
    assert (Ha' : alternating (init ++ [z])) by (intros pre u v post Ep; apply (Ha (c :: pre) u v post); now rewrite Ep).
    assert (Hm' : forall m, In (NoChange m) (init ++ [z]) -> cs_n m < 2 * context) by (intros m Hin; apply Hm; now right).
    destruct (IH _ _ _ _ N2 Ha' A3 Hm' (ex_intro _ init (ex_intro _ z (conj eq_refl Hz))) i) as [(d & D1 & D2)|(m & rest & D1 & D2)]; [lia|..].
    + left. exists d. split; [now right|assumption].
    + destruct (real c) eqn:Er.
      * left. exists c. split; [now left|]. split; [assumption|]. rewrite D1 in A3. inversion A3 as [|? ? ? ? ? ? B1 B2 B3]; subst.
        assert (K : cs_n m < 2 * context) by (apply Hm; right; rewrite D1; now left). cbn [b_from b_to] in *. unfold close_to. lia.
      * exfalso. rewrite D1 in Ha. pose proof (Ha [] c (NoChange m) rest eq_refl) as K. now rewrite Er in K.
Qed.

(* how many context items are taken from an unchanged block *)
Definition lead_len (context : nat) (p : option common) : nat := match p with Some m => Nat.min context (cs_n m) | None => 0 end.

Section Windows.
  Context {T : Type}.
  Variables b a : list T.
  Variable context : nat.
  Hypothesis Hctx : context <= 255.
  Local Notation lead_of := (lead_len context).

  Lemma one_window p body q i0 j0 x y : close_run context body -> Forall non_empty body -> tiles i0 j0 body x y ->
    match p with Some m => cs_b m + cs_n m = i0 /\ cs_a m + cs_n m = j0 | None => True end ->
    match q with Some m => cs_b m = x /\ cs_a m = y /\ x + cs_n m <= length b /\ y + cs_n m <= length a | None => x <= length b /\ y <= length a end ->
    hunk_from b a (lead context p ++ body ++ trail context q) =
      Ok (Hunk (lead_of p) (lead_of q) (i0 - lead_of p) (sub b (i0 - lead_of p) (x + lead_of q)) (j0 - lead_of p) (sub a (j0 - lead_of p) (y + lead_of q))).
  Proof.
    intros Hb Hn Ht Hp Hq. set (l := lead_of p). set (t := lead_of q).
    assert (Ht2 : tiles (i0 - l) (j0 - l) (lead context p ++ body ++ trail context q) (x + t) (y + t)).
    { apply tiles_app with (x := i0) (y := j0).
      - destruct p as [m|]; cbn [lead].
        + destruct Hp as (P1 & P2). unfold l, lead_len. constructor; cbn; try lia.
          replace (cs_b m + (cs_n m - context) + Nat.min context (cs_n m)) with i0 by lia. replace (cs_a m + (cs_n m - context) + Nat.min context (cs_n m)) with j0 by lia. constructor.
        + unfold l, lead_len. rewrite !Nat.sub_0_r. constructor.
      - apply tiles_app with (x := x) (y := y); [assumption|]. destruct q as [m|]; cbn [trail].
        + destruct Hq as (<- & <- & _). unfold t. constructor; [reflexivity|reflexivity|]. cbn. constructor.
        + unfold t, lead_len. rewrite !Nat.add_0_r. constructor. }
    assert (Hf : Forall forward body) by (eapply Forall_impl; [|exact Hn]; intros; now apply b_from_to).
    pose proof (tiles_le _ _ _ _ _ Hf Ht) as [B1 B2].
    assert (Hne : lead context p ++ body ++ trail context q <> []) by (destruct Hb as ((z & tl & -> & _) & _); destruct (lead context p); discriminate).
    assert (X : x + t <= length b /\ y + t <= length a) by (unfold t, lead_len; destruct q; lia).
    unfold hunk_from. rewrite (clump_ranges_tiles _ _ _ _ _ Hne Ht2), clump_context_lengths_shape by assumption. fold l t. rewrite !extract_snippet_ok by lia. reflexivity.
  Qed.

  (* every window is around a change, and each of its items is close to one; and every change and what
     is close to it is in a window *)
  Lemma clumping_windows p cs clumps : clumping context p cs clumps -> Forall non_empty cs -> alternating cs -> forall i0 j0,
    tiles i0 j0 cs (length b) (length a) ->
    match p with Some m => cs_b m + cs_n m = i0 /\ cs_a m + cs_n m = j0 | None => True end ->
    forall hs, map_res (hunk_from b a) clumps = Ok hs ->
    (forall h, In h hs -> h_old h = sub b (h_b h) (h_b h + length (h_old h)) /\ h_b h + length (h_old h) <= length b /\
       (exists c, In c cs /\ real c = true /\ h_b h <= b_from c /\ b_from c <= h_b h + length (h_old h)) /\
       forall i, h_b h <= i < h_b h + length (h_old h) -> exists c, In c cs /\ real c = true /\ close_to context c i) /\
    (forall c, In c cs -> real c = true -> exists h, In h hs /\ h_b h <= b_from c /\ b_to c <= h_b h + length (h_old h)) /\
    (forall c i, In c cs -> real c = true -> close_to context c i -> i0 - lead_of p <= i < length b -> exists h, In h hs /\ h_b h <= i < h_b h + length (h_old h)).
  Proof.
    assert (W : forall p body q i0 j0 x y, close_run context body -> Forall non_empty body -> alternating body -> tiles i0 j0 body x y ->
      match q with Some m => x + cs_n m <= length b | None => x <= length b end ->
      let h := Hunk (lead_of p) (lead_of q) (i0 - lead_of p) (sub b (i0 - lead_of p) (x + lead_of q)) (j0 - lead_of p) (sub a (j0 - lead_of p) (y + lead_of q)) in
      h_b h + length (h_old h) = x + lead_of q /\ x + lead_of q <= length b /\ i0 <= x /\
      h_old h = sub b (h_b h) (h_b h + length (h_old h)) /\
      (exists c, In c body /\ real c = true /\ h_b h <= b_from c /\ b_from c <= h_b h + length (h_old h)) /\
      (forall i, h_b h <= i < h_b h + length (h_old h) -> exists c, In c body /\ real c = true /\ close_to context c i) /\
      (forall c, In c body -> i0 <= b_from c /\ b_to c <= x)).
    { clear. intros p body q i0 j0 x y ((z & tl & Eb & Hz) & Hl & Hm) Hn Ha Ht Hq h.
      assert (Hf : Forall forward body) by (eapply Forall_impl; [|exact Hn]; intros; now apply b_from_to).
      pose proof (tiles_le _ _ _ _ _ Hf Ht) as [B1 B2].
      assert (X : x + lead_of q <= length b) by (unfold lead_len; destruct q; lia).
      assert (Lh : h_b h + length (h_old h) = x + lead_of q) by (cbn; rewrite sub_length by assumption; lia).
      assert (Hz0 : b_from z = i0) by (rewrite Eb in Ht; now inversion Ht).
      split; [exact Lh|]. split; [exact X|]. split; [lia|]. split; [now rewrite Lh|]. split; [|split].
      - exists z. split; [rewrite Eb; now left|]. split; [assumption|]. rewrite Lh. cbn. lia.
      - intros i Hi. rewrite Lh in Hi. cbn in Hi. destruct (Nat.lt_ge_cases i i0) as [L|L].
        + exists z. split; [rewrite Eb; now left|]. split; [assumption|]. assert (forward z) as [F _] by (rewrite Eb in Hf; now inversion Hf).
          unfold close_to. assert (lead_of p <= context) by (unfold lead_len; destruct p; lia). lia.
        + destruct (Nat.lt_ge_cases i x) as [L2|L2].
          * destruct (body_close context body i0 j0 x y Hn Ha Ht Hm Hl i) as [K|(m & rest & K & _)]; [lia|assumption|]. rewrite K in Eb. injection Eb as <- _. discriminate.
          * destruct Hl as (init & d & Ed & Hd). exists d. split; [rewrite Ed; apply in_or_app; right; now left|]. split; [assumption|].
            rewrite Ed in Ht, Hf. apply tiles_forward_app in Ht as (u & v & T1 & T2 & _); [|assumption]. inversion T2 as [|? ? ? ? ? ? D1 D2 D3]; subst. inversion D3; subst.
            apply Forall_app in Hf as [_ Hf]. inversion Hf as [|? ? [F _] _]; subst. unfold close_to. assert (lead_of q <= context) by (unfold lead_len; destruct q; lia). lia.
      - intros c Hc. apply in_split in Hc as (l1 & l2 & El). rewrite El in Ht, Hf. pose proof Hf as Hf'. apply tiles_forward_app in Ht as (u & v & T1 & T2 & U & _); [|assumption].
        inversion T2 as [|? ? ? ? ? ? D1 D2 D3]; subst u v. apply Forall_app in Hf' as [_ Hf']. inversion Hf' as [|? ? _ F]; subst. pose proof (tiles_le _ _ _ _ _ F D3). lia. }
    induction 1 as [p|p body q Hb|p body m rest clumps Hb Hr Hm H IH]; intros Hn Ha i0 j0 Ht Hp hs E.
    - cbn in E. injection E as <-. split; [|split]; [intros h []|intros c []|intros c i []].
    - assert (Hf : Forall forward (body ++ match q with Some m => [NoChange m] | None => [] end)) by (eapply Forall_impl; [|exact Hn]; intros; now apply b_from_to).
      apply tiles_forward_app in Ht as (x & y & T1 & T2 & X1 & X2); [|assumption]. apply Forall_app in Hn as [N1 N2].
      assert (Ha1 : alternating body) by (intros pre u v post ->; apply (Ha pre u v (post ++ match q with Some m => [NoChange m] | None => [] end)); now rewrite <- app_assoc).
      assert (Hq : match q with Some m => cs_b m = x /\ cs_a m = y /\ x + cs_n m = length b /\ y + cs_n m = length a | None => x = length b /\ y = length a end).
      { destruct q as [m|]; [|now inversion T2]. inversion T2 as [|? ? ? ? ? ? A1 A2 A3]; subst. inversion A3; subst. cbn in *. lia. }
      cbn [map_res] in E. rewrite (one_window p body q i0 j0 x y Hb N1 T1 Hp) in E by (destruct q; lia). cbn [bind] in E. injection E as <-.
      destruct (W p body q i0 j0 x y Hb N1 Ha1 T1) as (L1 & L2 & L3 & L4 & L5 & L6 & L7); [destruct q; lia|].
      set (h := Hunk _ _ _ _ _ _) in *.
      assert (Hreal : forall c, In c (body ++ match q with Some m => [NoChange m] | None => [] end) -> real c = true -> In c body).
      { intros c Hc Hr. apply in_app_or in Hc as [Hc|Hc]; [assumption|]. destruct q; [destruct Hc as [<-|[]]; discriminate|destruct Hc]. }
      split; [|split].
      + intros h' [<-|[]]. split; [exact L4|]. split; [lia|]. split.
        * destruct L5 as (c & C1 & C2). exists c. split; [apply in_or_app; now left|assumption].
        * intros i Hi. destruct (L6 i Hi) as (c & C1 & C2). exists c. split; [apply in_or_app; now left|assumption].
      + intros c Hc Hrc. exists h. split; [now left|]. specialize (L7 c (Hreal c Hc Hrc)). rewrite L1. cbn [h_b h]. lia.
      + intros c i Hc Hrc [K1 K2] Hi. exists h. split; [now left|]. specialize (L7 c (Hreal c Hc Hrc)). rewrite L1. cbn [h_b h].
        split; [lia|]. unfold lead_len in *. destruct q as [m|]; lia.
    - assert (Hf : Forall forward (body ++ NoChange m :: rest)) by (eapply Forall_impl; [|exact Hn]; intros; now apply b_from_to).
      apply tiles_forward_app in Ht as (x & y & T1 & T2 & X1 & X2); [|assumption]. apply Forall_app in Hn as [N1 N2].
      apply Forall_app in Hf as [_ Hf]. inversion Hf as [|? ? _ Hf']; subst. inversion N2 as [|? ? _ N3]; subst.
      inversion T2 as [|? ? ? ? ? ? A1 A2 A3]; subst. pose proof (tiles_le _ _ _ _ _ Hf' A3) as [B1 B2]. cbn [a_from a_to b_from b_to] in *.
      assert (Ha1 : alternating body) by (intros pre u v post ->; apply (Ha pre u v (post ++ NoChange m :: rest)); now rewrite <- app_assoc).
      assert (Ha2 : alternating rest) by (intros pre u v post ->; apply (Ha (body ++ NoChange m :: pre) u v post); now rewrite <- app_assoc).
      cbn [map_res] in E. rewrite (one_window p body (Some m) i0 j0 (cs_b m) (cs_a m) Hb N1 T1 Hp) in E by lia. cbn [bind] in E.
      destruct (map_res (hunk_from b a) clumps) as [hs'| |] eqn:Ec; try discriminate. cbn [bind] in E. injection E as <-.
      destruct (W p body (Some m) i0 j0 (cs_b m) (cs_a m) Hb N1 Ha1 T1) as (L1 & L2 & L3 & L4 & L5 & L6 & L7); [lia|].
      destruct (IH N3 Ha2 _ _ A3 (conj eq_refl eq_refl) hs' eq_refl) as (I1 & I2 & I3).
      set (h := Hunk _ _ _ _ _ _) in *.
      assert (Hin : forall c, In c rest -> In c (body ++ NoChange m :: rest)) by (intros c Hc; apply in_or_app; right; now right).
      assert (Hreal : forall c, In c (body ++ NoChange m :: rest) -> real c = true -> In c body \/ In c rest).
      { intros c Hc Hrc. apply in_app_or in Hc as [Hc|[<-|Hc]]; [now left|discriminate|now right]. }
      split; [|split].
      + intros h' [<-|Hh].
        * split; [exact L4|]. split; [lia|]. split.
          -- destruct L5 as (c & C1 & C2). exists c. split; [apply in_or_app; now left|assumption].
          -- intros i Hi. destruct (L6 i Hi) as (c & C1 & C2). exists c. split; [apply in_or_app; now left|assumption].
        * destruct (I1 h' Hh) as (J1 & J2 & (c & J3 & J4) & J5). split; [assumption|]. split; [assumption|]. split; [exists c; auto|].
          intros i Hi. destruct (J5 i Hi) as (c' & C1 & C2). exists c'. auto.
      + intros c Hc Hrc. destruct (Hreal c Hc Hrc) as [K|K].
        * exists h. split; [now left|]. specialize (L7 c K). rewrite L1. cbn [h_b h]. lia.
        * destruct (I2 c K Hrc) as (h' & H1 & H2). exists h'. split; [now right|assumption].
      + intros c i Hc Hrc [K1 K2] Hi. destruct (Hreal c Hc Hrc) as [K|K].
        * destruct (Nat.lt_ge_cases i (cs_b m + lead_of (Some m))) as [L|L].
          -- exists h. split; [now left|]. rewrite L1. cbn [h_b h]. lia.
          -- specialize (L7 c K). unfold lead_len in L. lia.
        * destruct (I3 c i K Hrc (conj K1 K2)) as (h' & H1 & H2); [|exists h'; split; [now right|assumption]].
          split; [|lia]. assert (b_from c >= cs_b m + cs_n m); [|unfold lead_len; lia].
          apply in_split in K as (l1 & l2 & El). rewrite El in A3, Hf'. apply tiles_forward_app in A3 as (u & v & _ & T4 & U & _); [|assumption]. inversion T4; subst. lia.
  Qed.

  Lemma clump_windows cs clumps hs : proper (length b) (length a) cs -> clumps_of context cs clumps -> map_res (hunk_from b a) clumps = Ok hs ->
    (forall h, In h hs -> h_old h = sub b (h_b h) (h_b h + length (h_old h)) /\ h_b h + length (h_old h) <= length b /\
       (exists c, In c cs /\ real c = true /\ h_b h <= b_from c /\ b_from c <= h_b h + length (h_old h)) /\
       forall i, h_b h <= i < h_b h + length (h_old h) -> exists c, In c cs /\ real c = true /\ close_to context c i) /\
    (forall c, In c cs -> real c = true -> exists h, In h hs /\ h_b h <= b_from c /\ b_to c <= h_b h + length (h_old h)) /\
    (forall c i, In c cs -> real c = true -> close_to context c i -> i < length b -> exists h, In h hs /\ h_b h <= i < h_b h + length (h_old h)).
  Proof.
    intros (Ht & Ha & Hn) Hc E.
    assert (G : forall p cs, clumping context p cs clumps -> Forall non_empty cs -> alternating cs -> forall i0 j0, tiles i0 j0 cs (length b) (length a) ->
      match p with Some m => cs_b m = 0 /\ cs_b m + cs_n m = i0 /\ cs_a m + cs_n m = j0 | None => i0 = 0 end ->
      (forall h, In h hs -> h_old h = sub b (h_b h) (h_b h + length (h_old h)) /\ h_b h + length (h_old h) <= length b /\
         (exists c, In c cs /\ real c = true /\ h_b h <= b_from c /\ b_from c <= h_b h + length (h_old h)) /\
         forall i, h_b h <= i < h_b h + length (h_old h) -> exists c, In c cs /\ real c = true /\ close_to context c i) /\
      (forall c, In c cs -> real c = true -> exists h, In h hs /\ h_b h <= b_from c /\ b_to c <= h_b h + length (h_old h)) /\
      (forall c i, In c cs -> real c = true -> close_to context c i -> i < length b -> exists h, In h hs /\ h_b h <= i < h_b h + length (h_old h))).
    { clear cs Ht Ha Hn Hc. intros p cs Hc Hn Ha i0 j0 Ht Hp. destruct (clumping_windows p cs clumps Hc Hn Ha i0 j0 Ht) with (hs := hs) as (W1 & W2 & W3); [destruct p; tauto|assumption|].
      split; [assumption|]. split; [assumption|]. intros c i H1 H2 H3 H4. apply (W3 c i H1 H2 H3). split; [|assumption].
      assert (i0 <= b_from c).
      { assert (Hf : Forall forward cs) by (eapply Forall_impl; [|exact Hn]; intros; now apply b_from_to).
        apply in_split in H1 as (l1 & l2 & El). rewrite El in Ht, Hf. apply tiles_forward_app in Ht as (u & v & _ & T4 & U & _); [|assumption]. inversion T4; subst. lia. }
      destruct H3 as [H3 _]. unfold lead_len. destruct p; lia. }
    destruct cs as [|c cs].
    - now apply (G None [] Hc Hn Ha 0 0).
    - destruct (real c) eqn:Er.
      + assert (Hc' : clumping context None (c :: cs) clumps) by (destruct c; [discriminate|assumption..]). now apply (G None (c :: cs) Hc' Hn Ha 0 0).
      + destruct c as [m| | |]; try discriminate. inversion Ht as [|? ? ? ? ? ? A1 A2 A3]; subst. inversion Hn as [|? ? N1 N2]; subst.
        assert (Ha2 : alternating cs) by (intros pre u v post ->; now apply (Ha (NoChange m :: pre) u v post)).
        destruct (G (Some m) cs Hc N2 Ha2 _ _ A3) as (W1 & W2 & W3); [cbn; repeat split; assumption|]. split; [|split].
        * intros h Hh. destruct (W1 h Hh) as (J1 & J2 & (d & J3 & J4) & J5). split; [assumption|]. split; [assumption|]. split; [exists d; split; [now right|assumption]|].
          intros i Hi. destruct (J5 i Hi) as (d' & D1 & D2). exists d'. split; [now right|assumption].
        * intros d [<-|Hd] Hr; [discriminate|]. now apply W2.
        * intros d i [<-|Hd] Hr; [discriminate|]. now apply W3.
  Qed.
End Windows.

(* the hunk's old items are at its own place *)
Definition in_place {T} (t : list T) (h : hunk T) : Prop := h_b h + length (h_old h) <= length t /\ sub t (h_b h) (h_b h + length (h_old h)) = h_old h.

Section Fewer.
  Context {T : Type}.
  Variables b a t : list T.
  Variables context context' : nat.
  Hypothesis Hle : context <= context' <= 255.
  Variable cs : list change.
  Hypothesis Hp : proper (length b) (length a) cs.

  (* what is close to a change is in the target as it is in [b] *)
  Lemma close_same clumps hs : clumps_of context' cs clumps -> map_res (hunk_from b a) clumps = Ok hs -> Forall (in_place t) hs ->
    (forall c i, In c cs -> real c = true -> close_to context' c i -> i < length b -> i < length t /\ nth_error t i = nth_error b i) /\
    (forall c, In c cs -> real c = true -> b_to c <= length t).
  Proof.
    intros Hc E HF. destruct (clump_windows b a context' (proj2 Hle) cs clumps hs Hp Hc E) as (W1 & W2 & W3). rewrite Forall_forall in HF. split.
    - intros c i H1 H2 H3 H4. destruct (W3 c i H1 H2 H3 H4) as (h & Hh & Hi). destruct (HF h Hh) as (P1 & P2). destruct (W1 h Hh) as (Q1 & _ & _).
      split; [lia|]. pose proof (eq_trans P2 Q1) as P3. assert (K : nth_error (sub t (h_b h) (h_b h + length (h_old h))) (i - h_b h) = nth_error (sub b (h_b h) (h_b h + length (h_old h))) (i - h_b h)) by now rewrite P3.
      rewrite !sub_nth in K. rewrite (proj2 (Nat.ltb_lt _ _)) in K by lia. now replace (h_b h + (i - h_b h)) with i in K by lia.
    - intros c H1 H2. destruct (W2 c H1 H2) as (h & Hh & Hi). destruct (HF h Hh) as (P1 & _). lia.
  Qed.

  Lemma fewer_places clumps hs clumps' hs' : clumps_of context cs clumps -> map_res (hunk_from b a) clumps = Ok hs ->
    clumps_of context' cs clumps' -> map_res (hunk_from b a) clumps' = Ok hs' -> Forall (in_place t) hs' -> Forall (in_place t) hs.
  Proof.
    intros Hc E Hc' E' HF. destruct (close_same clumps' hs' Hc' E' HF) as (S1 & S2).
    destruct (clump_windows b a context ltac:(lia) cs clumps hs Hp Hc E) as (W1 & _ & _). apply Forall_forall. intros h Hh.
    destruct (W1 h Hh) as (Q1 & Q2 & (c & C1 & C2 & C3 & C4) & Q4).
    assert (Q : forall i, h_b h <= i < h_b h + length (h_old h) -> i < length t /\ nth_error t i = nth_error b i).
    { intros i Hi. destruct (Q4 i Hi) as (d & D1 & D2 & D3). apply (S1 d i D1 D2); [unfold close_to in *; lia|lia]. }
    split.
    - destruct (length (h_old h)) as [|n] eqn:El.
      + specialize (S2 c C1 C2). destruct Hp as (Ht & _ & Hn). rewrite Forall_forall in Hn. pose proof (b_from_to _ (Hn c C1)). lia.
      + destruct (Q (h_b h + n)) as [K _]; [lia|lia].
    - etransitivity; [|symmetry; exact Q1]. apply sub_same; [lia|]. intros k Hk. apply Q. lia.
  Qed.
End Fewer.

(* ---------------- the result ---------------- *)
Section Patched.
  Context {T : Type}.
  Variables b a t : list T.
  Variable context : nat.
  Hypothesis Hctx : context <= 255.
  Local Notation lead_of := (lead_len context).
  Let rb := rebuilt t a context.

  Lemma clumping_patched p cs clumps : clumping context p cs clumps -> Forall non_empty cs ->
    forall i0 j0 i, tiles i0 j0 cs (length b) (length a) -> i <= i0 ->
    match p with
    | Some m => cs_b m + cs_n m = i0 /\ cs_a m + cs_n m = j0 /\ (cs <> [] -> i + Nat.min context (cs_n m) <= i0)
    | None => i = i0 end ->
    forall hs, map_res (hunk_from b a) clumps = Ok hs ->
      patched t i hs = match p, cs with
                       | Some m, _ :: _ => sub t i (i0 - Nat.min context (cs_n m)) ++ sub a (j0 - Nat.min context (cs_n m)) j0 ++ rb true cs
                       | _, _ => sub t i i0 ++ rb true cs
                       end ++ skipn (length b) t.
  Proof.
    assert (W : forall p body q i0 j0 i x y, Forall non_empty body -> tiles i0 j0 body x y -> i <= i0 ->
      match q with Some m => x + cs_n m <= length b | None => x <= length b end ->
      let h := Hunk (lead_of p) (lead_of q) (i0 - lead_of p) (sub b (i0 - lead_of p) (x + lead_of q)) (j0 - lead_of p) (sub a (j0 - lead_of p) (y + lead_of q)) in
      h_b h + length (h_old h) = x + lead_of q).
    { clear. intros p body q i0 j0 i x y Hn Ht Hi Hq h.
      assert (Hf : Forall forward body) by (eapply Forall_impl; [|exact Hn]; intros; now apply b_from_to). pose proof (tiles_le _ _ _ _ _ Hf Ht) as [B1 B2].
      cbn. rewrite sub_length by (unfold lead_len; destruct q; lia). lia. }
    induction 1 as [p|p body q Hb|p body m rest clumps Hb Hr Hm H IH]; intros Hn i0 j0 i Ht Hi Hp hs E.
    - inversion Ht; subst. cbn in E. injection E as <-. cbn [patched rb rebuilt]. rewrite app_nil_r. destruct p; cbn [app]; now rewrite sub_rest.
    - assert (Hf : Forall forward (body ++ match q with Some m => [NoChange m] | None => [] end)) by (eapply Forall_impl; [|exact Hn]; intros; now apply b_from_to).
      apply tiles_forward_app in Ht as (x & y & T1 & T2 & X1 & X2); [|assumption]. apply Forall_app in Hn as [N1 N2].
      pose proof Hb as ((z & tl & Eb & Hz) & Hl & Hsm).
      assert (Hq : match q with Some m => cs_b m = x /\ cs_a m = y /\ x + cs_n m = length b /\ y + cs_n m = length a | None => x = length b /\ y = length a end).
      { destruct q as [m|]; [|now inversion T2]. inversion T2 as [|? ? ? ? ? ? A1 A2 A3]; subst. inversion A3; subst. cbn in *. lia. }
      cbn [map_res] in E. rewrite (one_window b a context Hctx p body q i0 j0 x y Hb N1 T1) in E by (destruct p, q; lia). cbn [bind] in E. injection E as <-.
      pose proof (W p body q i0 j0 i x y N1 T1 Hi ltac:(destruct q; lia)) as L1. cbv zeta in L1. cbn [patched]. rewrite L1. cbn [h_b h_new].
      assert (Er : rb true (body ++ match q with Some m => [NoChange m] | None => [] end) =
        sub a j0 y ++ rb true match q with Some m => [NoChange m] | None => [] end).
      { apply rebuilt_body with (i := i0) (x := x); auto. now rewrite Eb. }
      assert (Et : sub a j0 y ++ rb true match q with Some m => [NoChange m] | None => [] end ++ skipn (length b) t =
        sub a j0 (y + lead_of q) ++ skipn (x + lead_of q) t).
      { unfold lead_len. destruct q as [m|].
        - destruct Hq as (<- & <- & Q1 & Q2). unfold rb. cbn [rebuilt nonnil]. rewrite app_nil_r. unfold block_lines.
          rewrite Nat.add_0_r. destruct (Nat.leb_spec (cs_n m) (Nat.min context (cs_n m))) as [Hle|Hle].
          + replace (Nat.min context (cs_n m)) with (cs_n m) by lia. rewrite Q1, app_assoc. rewrite sub_app by lia. reflexivity.
          + rewrite !Nat.sub_0_r, sub_none, app_nil_r, <- app_assoc, Q1, sub_rest by lia. rewrite app_assoc, sub_app by lia. reflexivity.
        - destruct Hq as [-> ->]. unfold rb. cbn [rebuilt app]. rewrite !Nat.add_0_r. reflexivity. }
      destruct p as [m|].
      + destruct Hp as (P1 & P2 & P3). rewrite Eb in *. cbn [app] in *. specialize (P3 ltac:(discriminate)).
        rewrite Er. rewrite <- !app_assoc. rewrite Et. cbn [lead_len]. f_equal. rewrite app_assoc, sub_app by lia. reflexivity.
      + subst i. rewrite Er, <- !app_assoc, Et. cbn [lead_len]. rewrite !Nat.sub_0_r. reflexivity.
    - assert (Hf : Forall forward (body ++ NoChange m :: rest)) by (eapply Forall_impl; [|exact Hn]; intros; now apply b_from_to).
      apply tiles_forward_app in Ht as (x & y & T1 & T2 & X1 & X2); [|assumption]. apply Forall_app in Hn as [N1 N2].
      apply Forall_app in Hf as [_ Hf]. inversion Hf as [|? ? _ Hf']; subst. inversion N2 as [|? ? _ N3]; subst.
      inversion T2 as [|? ? ? ? ? ? A1 A2 A3]; subst. pose proof (tiles_le _ _ _ _ _ Hf' A3) as [B1 B2]. cbn [a_from a_to b_from b_to] in *.
      pose proof Hb as ((z & tl & Eb & Hz) & Hl & Hsm).
      cbn [map_res] in E. rewrite (one_window b a context Hctx p body (Some m) i0 j0 (cs_b m) (cs_a m) Hb N1 T1) in E by (destruct p; lia). cbn [bind] in E.
      destruct (map_res (hunk_from b a) clumps) as [hs'| |] eqn:Ec; try discriminate. cbn [bind] in E. injection E as <-.
      pose proof (W p body (Some m) i0 j0 i (cs_b m) (cs_a m) N1 T1 Hi ltac:(cbn; lia)) as L1. cbv zeta in L1. cbn [lead_len] in L1. cbn [patched]. rewrite L1. cbn [h_b h_new].
      rewrite (IH N3 _ _ (cs_b m + Nat.min context (cs_n m)) A3 ltac:(lia) ltac:(repeat split; lia) hs' eq_refl).
      destruct rest as [|r rest]; [congruence|].
      assert (Er : rb true (body ++ NoChange m :: r :: rest) = sub a j0 (cs_a m) ++ rb true (NoChange m :: r :: rest)) by (apply rebuilt_body with (i := i0) (x := cs_b m); auto; now rewrite Eb).
      assert (Em : rb true (NoChange m :: r :: rest) = sub a (cs_a m) (cs_a m + Nat.min context (cs_n m)) ++
        sub t (cs_b m + Nat.min context (cs_n m)) (cs_b m + cs_n m - Nat.min context (cs_n m)) ++
        sub a (cs_a m + cs_n m - Nat.min context (cs_n m)) (cs_a m + cs_n m) ++ rb true (r :: rest)).
      { change (rb true (NoChange m :: r :: rest)) with (block_lines t a context true true m ++ rb true (r :: rest)). unfold block_lines.
        replace (Nat.min context (cs_n m)) with context by lia. destruct (Nat.leb_spec (cs_n m) (context + context)) as [Hle|Hle].
        - replace (cs_n m) with (context + context) by lia. replace (cs_b m + (context + context) - context) with (cs_b m + context) by lia.
          replace (cs_a m + (context + context) - context) with (cs_a m + context) by lia. rewrite sub_none. cbn [app].
          rewrite app_assoc, sub_app by lia. reflexivity.
        - now rewrite <- !app_assoc. }
      pose proof (tiles_le i0 j0 body _ _ ltac:(eapply Forall_impl; [|exact N1]; intros; now apply b_from_to) T1).
      destruct p as [m'|].
      + destruct Hp as (P1 & P2 & P3). rewrite Eb in *. cbn [app] in *. specialize (P3 ltac:(discriminate)).
        rewrite Er, Em, <- !app_assoc. f_equal. cbn [lead_len]. rewrite (app_assoc (sub a _ j0)), sub_app by lia. rewrite (app_assoc (sub a _ (cs_a m))), sub_app by lia. reflexivity.
      + subst i. rewrite Er, Em, <- !app_assoc. f_equal; [cbn [lead_len]; now rewrite Nat.sub_0_r|]. cbn [lead_len]. rewrite Nat.sub_0_r. rewrite (app_assoc (sub a j0 (cs_a m))), sub_app by lia. reflexivity.
  Qed.

  Lemma clumps_patched cs clumps hs : proper (length b) (length a) cs -> clumps_of context cs clumps -> map_res (hunk_from b a) clumps = Ok hs ->
    patched t 0 hs = rb false cs ++ skipn (length b) t.
  Proof.
    intros (Ht & _ & Hn) Hc E. destruct cs as [|c cs].
    - rewrite (clumping_patched None [] clumps Hc Hn 0 0 0 Ht (le_n _) eq_refl hs E), sub_none. reflexivity.
    - destruct (real c) eqn:Er.
      + assert (Hc' : clumping context None (c :: cs) clumps) by (destruct c; [discriminate|assumption..]).
        rewrite (clumping_patched None (c :: cs) clumps Hc' Hn 0 0 0 Ht (le_n _) eq_refl hs E), sub_none. unfold rb. rewrite !rebuilt_real by assumption. reflexivity.
      + destruct c as [m| | |]; try discriminate. inversion Ht as [|? ? ? ? ? ? A1 A2 A3]; subst. inversion Hn as [|? ? N1 N2]; subst. cbn [a_from a_to b_from b_to] in *.
        rewrite (clumping_patched (Some m) cs clumps Hc N2 _ _ 0 A3) with (hs := hs); [|lia|repeat split; lia|assumption].
        cbn in N1. f_equal. destruct cs as [|c cs].
        * unfold rb. cbn [rebuilt nonnil]. unfold block_lines. rewrite (proj2 (Nat.leb_gt _ _)) by lia. rewrite A1, A2, !Nat.sub_0_r. cbn [Nat.add]. rewrite !app_nil_r. rewrite !sub_none, app_nil_r. reflexivity.
        * change (rb false (NoChange m :: c :: cs)) with (block_lines t a context false true m ++ rb true (c :: cs)). unfold block_lines. cbn [Nat.add].
          destruct (Nat.leb_spec (cs_n m) (Nat.min context (cs_n m))) as [Hle|Hle].
          -- replace (Nat.min context (cs_n m)) with (cs_n m) by lia. rewrite A1, A2. cbn [Nat.add]. rewrite !Nat.sub_diag, sub_none. reflexivity.
          -- rewrite A1, A2, !Nat.add_0_r. cbn [Nat.add]. rewrite sub_none. cbn [app]. now rewrite <- app_assoc.
  Qed.
End Patched.

Section SameResult.
  Context {T : Type}.
  Variables a t : list T.
  Variables context context' : nat.
  Hypothesis Hle : context <= context'.

  Lemma block_same f nx m :
    (forall p, p < cs_n m -> (f = false \/ context <= p) -> (nx = false \/ p + context < cs_n m) ->
      ((f = true /\ p < context') \/ (nx = true /\ cs_n m <= p + context')) -> nth_error t (cs_b m + p) = nth_error a (cs_a m + p)) ->
    block_lines t a context f nx m = block_lines t a context' f nx m.
  Proof.
    intros H. unfold block_lines.
    set (l := if f then Nat.min context (cs_n m) else 0). set (r := if nx then Nat.min context (cs_n m) else 0).
    set (l' := if f then Nat.min context' (cs_n m) else 0). set (r' := if nx then Nat.min context' (cs_n m) else 0).
    assert (Hl : l <= l' /\ l' <= cs_n m) by (subst l l'; destruct f; lia). assert (Hr : r <= r' /\ r' <= cs_n m) by (subst r r'; destruct nx; lia).
    assert (K : forall p, l <= p -> p < cs_n m - r -> p < l' \/ cs_n m - r' <= p -> nth_error t (cs_b m + p) = nth_error a (cs_a m + p)).
    { intros p P1 P2 P3. apply H; [lia|subst l l'; destruct f; [right|left]; [|reflexivity]; lia|subst r r'; destruct nx; [right; lia|now left]|].
      destruct P3; [left; subst l l'; destruct f; [split; [reflexivity|lia]|lia]|right; subst r r'; destruct nx; [split; [reflexivity|lia]|lia]]. }
    destruct (Nat.leb_spec (cs_n m) (l + r)) as [L1|L1].
    - now rewrite (proj2 (Nat.leb_le _ _)) by lia.
    - destruct (Nat.leb_spec (cs_n m) (l' + r')) as [L2|L2].
      + rewrite (sub_same t a (cs_b m + l) (cs_b m + cs_n m - r) (cs_a m + l) (cs_a m + cs_n m - r)).
        * rewrite !sub_app by lia. reflexivity.
        * lia.
        * intros k Hk. rewrite <- !Nat.add_assoc. apply K; lia.
      + rewrite <- (sub_app t (cs_b m + l) (cs_b m + l') (cs_b m + cs_n m - r)) by lia. rewrite <- (sub_app t (cs_b m + l') (cs_b m + cs_n m - r') (cs_b m + cs_n m - r)) by lia.
        rewrite (sub_same t a (cs_b m + l) (cs_b m + l') (cs_a m + l) (cs_a m + l')); [|lia|intros k Hk; rewrite <- !Nat.add_assoc; apply K; lia].
        rewrite (sub_same t a (cs_b m + cs_n m - r') (cs_b m + cs_n m - r) (cs_a m + cs_n m - r') (cs_a m + cs_n m - r)).
        * rewrite <- !app_assoc. rewrite (app_assoc (sub a _ _) (sub a _ _)), sub_app by lia. do 2 f_equal. rewrite sub_app by lia. reflexivity.
        * lia.
        * intros k Hk. replace (cs_b m + cs_n m - r' + k) with (cs_b m + (cs_n m - r' + k)) by lia. replace (cs_a m + cs_n m - r' + k) with (cs_a m + (cs_n m - r' + k)) by lia. apply K; lia.
  Qed.

  Lemma rebuilt_same cs : forall f,
    (forall i j, beyondf context f cs i j -> ~ beyondf context' f cs i j -> nth_error t i = nth_error a j) ->
    Forall non_empty cs -> (exists x y n m, tiles x y cs n m) ->
    rebuilt t a context f cs = rebuilt t a context' f cs.
  Proof.
    induction cs as [|c cs IH]; intros f H Hn (x & y & n & m0 & Ht); [reflexivity|]. inversion Hn as [|? ? N1 N2]; subst. inversion Ht as [|? ? ? ? ? ? A1 A2 A3]; subst.
    assert (E : rebuilt t a context true cs = rebuilt t a context' true cs).
    { apply IH; [|assumption|eauto]. intros i j H1 H2. apply H; [apply beyondf_cons; now right|]. intros K. apply beyondf_cons in K as [(m & p & -> & K1 & -> & -> & _)|K]; [|contradiction].
      pose proof (beyondf_range _ _ _ _ _ _ _ _ _ N2 A3 H1) as [R _]. cbn in R. lia. }
    destruct c as [m| | |]; cbn [rebuilt]; rewrite E; try reflexivity. f_equal. apply block_same. intros p P1 P2 P3 P4. apply H.
    - apply beyondf_cons. left. exists m, p. repeat (split; [reflexivity || assumption|]). destruct P3 as [P3|P3]; [left; now destruct cs|now right].
    - intros K. apply beyondf_cons in K as [(m' & p' & Em & K1 & K2 & _ & K3 & K4)|K].
      + injection Em as <-. assert (p' = p) by lia. subst p'. destruct P4 as [[-> P4]|[P4 P5]]; [destruct K3; [discriminate|lia]|]. destruct K4 as [->|K4]; [discriminate|lia].
      + pose proof (beyondf_range _ _ _ _ _ _ _ _ _ N2 A3 K) as [R _]. cbn in R. lia.
  Qed.
End SameResult.

Lemma not_beyond_close {T} context' (b a : list T) cs i j : proper (length b) (length a) cs -> 
  beyond_context 0 cs i j -> ~ beyond_context context' cs i j -> i < length b /\ exists c, In c cs /\ real c = true /\ close_to context' c i.
Proof.
  intros (Ht & Ha & Hn) (pre & m & post & p & E & H1 & H2 & H3 & _) H.
  assert (Hf : Forall forward cs) by (eapply Forall_impl; [|exact Hn]; intros; now apply b_from_to).
  rewrite E in Ht, Hf. pose proof Ht as Ht0. apply tiles_forward_app in Ht as (u & v & T1 & T2 & U & _); [|assumption]. inversion T2 as [|? ? ? ? ? ? A1 A2 A3]; subst u v.
  pose proof Hf as Hf2. apply Forall_app in Hf2 as [F1 F2]. inversion F2 as [|? ? _ F3]; subst. pose proof (tiles_le _ _ _ _ _ F3 A3) as [B1 _]. cbn [b_from b_to a_from a_to] in *.
  split; [lia|].
  assert (D : (pre <> [] /\ p < context') \/ (post <> [] /\ cs_n m <= p + context')).
  { destruct (Nat.lt_ge_cases p context') as [L|L], (Nat.lt_ge_cases (p + context') (cs_n m)) as [L2|L2].
    - left. split; [|assumption]. intros ->. apply H. exists [], m, post, p. repeat (split; [reflexivity || assumption|]). split; [now left|now right].
    - destruct pre as [|? ?]; [|left; split; [discriminate|assumption]]. right. split; [|assumption]. intros ->. apply H. exists [], m, [], p. repeat (split; [reflexivity || assumption|]). split; now left.
    - exfalso. apply H. exists pre, m, post, p. repeat (split; [reflexivity || assumption|]). split; now right.
    - right. split; [|assumption]. intros ->. apply H. exists pre, m, [], p. repeat (split; [reflexivity || assumption|]). split; [now right|now left]. }
  destruct D as [[D1 D2]|[D1 D2]].
  - destruct (exists_last D1) as (l & c & ->). exists c. split; [apply in_or_app; left; apply in_or_app; right; now left|].
    assert (real c = true) by (pose proof (Ha l c (NoChange m) post ltac:(now rewrite <- app_assoc)) as K; cbn in K; destruct (real c); congruence). split; [assumption|].
    apply tiles_forward_app in T1 as (u & v & _ & T4 & _); [|assumption]. inversion T4 as [|? ? ? ? ? ? B2 B3 B4]; subst. inversion B4; subst.
    apply Forall_app in F1 as [_ F1]. inversion F1 as [|? ? [K _] _]; subst. unfold close_to. lia.
  - destruct post as [|c post]; [congruence|]. exists c. split; [apply in_or_app; right; right; now left|].
    assert (real c = true) by (pose proof (Ha pre (NoChange m) c post eq_refl) as K; cbn in K; destruct (real c); congruence). split; [assumption|].
    inversion A3 as [|? ? ? ? ? ? B2 B3 B4]; subst. inversion F3 as [|? ? [K _] _]; subst. unfold close_to. lia.
Qed.

Lemma beyond_less c c' cs i j : c <= c' -> beyond_context c' cs i j -> beyond_context c cs i j.
Proof. intros H (pre & m & post & p & -> & H1 & H2 & H3 & H4 & H5). exists pre, m, post, p. repeat (split; [assumption || reflexivity|]). split; [destruct H4; [now left|right; lia]|destruct H5; [now left|right; lia]]. Qed.

Lemma fewer_result {T} (b a t : list T) context context' cs clumps hs clumps' hs' : context <= context' <= 255 -> proper (length b) (length a) cs ->
  clumps_of context cs clumps -> map_res (hunk_from b a) clumps = Ok hs ->
  clumps_of context' cs clumps' -> map_res (hunk_from b a) clumps' = Ok hs' -> Forall (in_place t) hs' ->
  (forall i j, beyond_context context cs i j -> beyond_context context' cs i j \/ nth_error b i = nth_error a j) ->
  patched t 0 hs = patched t 0 hs'.
Proof.
  intros Hle Hp Hc E Hc' E' HF H. rewrite (clumps_patched b a t context ltac:(lia) cs clumps hs Hp Hc E), (clumps_patched b a t context' ltac:(lia) cs clumps' hs' Hp Hc' E'). f_equal.
  destruct (close_same b a t context context' Hle cs Hp clumps' hs' Hc' E' HF) as (S1 & _).
  apply rebuilt_same; [lia| |exact (proj2 (proj2 Hp))|exists 0, 0, (length b), (length a); exact (proj1 Hp)].
  intros i j H1 H2. apply beyondf_false in H1. assert (H2' : ~ beyond_context context' cs i j) by (intros K; apply H2; now apply beyondf_false).
  destruct (H i j H1) as [K|K]; [contradiction|]. rewrite <- K.
  destruct (not_beyond_close context' b a cs i j Hp (beyond_less 0 context cs i j ltac:(lia) H1) H2') as (L & c & C1 & C2 & C3). now apply (S1 c).
Qed.

(* Proof_Nearly.v - what a patch makes of its own text, and undoing it. *)
From Verif Require Import Base Model_Seq Model_Changes Spec Spec_Nearly Proof_Seq Proof_Diff Proof_Apply.

Lemma skipn_cover {T} context g (b a : list T) i j hs : cover context g b a i j hs -> length (patched b i hs) = length a - j.
Proof.
  induction 1 as [i j d Hg H1 H2|i j d i' j' l t rest Hg H1 H2 H3 H4 H5 H6 H7 H8 H9 H IH]; cbn [patched].
  - rewrite skipn_length. lia.
  - cbn [h_b h_old h_new]. rewrite !app_length, !sub_length by lia. replace (i + d + (i' - (i + d))) with i' by lia. rewrite IH. lia.
Qed.
(* the clumps cover the text and what they make of it, with nothing overlooked *)
Lemma cover_patched {T} context g (b a : list T) i j hs pre : cover context g b a i j hs -> length pre = j ->
  cover context (equal_gap b (pre ++ patched b i hs)) b (pre ++ patched b i hs) i j hs.
Proof.
  intros H. revert pre.
  induction H as [i j d Hg H1 H2|i j d i' j' l t rest Hg H1 H2 H3 H4 H5 H6 H7 H8 H9 H IH]; intros pre Hp; cbn [patched].
  - assert (length (pre ++ skipn i b) = j + d) by (rewrite app_length, skipn_length; lia).
    econstructor; [|eassumption|lia]. unfold equal_gap. rewrite H1. replace (j + d) with (length (pre ++ skipn i b)) by lia.
    rewrite !sub_all, skipn_app, Hp, Nat.sub_diag, (skipn_all2 pre) by lia. reflexivity.
  - cbn [h_b h_old h_new]. rewrite sub_length by lia. replace (i + d + (i' - (i + d))) with i' by lia.
    specialize (IH (pre ++ sub b i (i + d) ++ sub a (j + d) j')).
    rewrite <- !app_assoc in IH. rewrite !app_length, !sub_length in IH by lia. specialize (IH ltac:(lia)).
    set (out := pre ++ sub b i (i + d) ++ sub a (j + d) j' ++ patched b i' rest) in *.
    assert (Lo : length out = length a).
    { unfold out. rewrite !app_length, !sub_length, (skipn_cover _ _ _ _ _ _ _ H) by lia. lia. }
    assert (N1 : sub b i (i + d) = sub out j (j + d)).
    { unfold sub at 2, out. rewrite skipn_app, Hp, Nat.sub_diag, skipn_all2 by lia. cbn [skipn app].
      rewrite firstn_app, sub_length by lia. replace (j + d - j - (i + d - i)) with 0 by lia. rewrite firstn_O, app_nil_r.
      rewrite firstn_all2; [reflexivity|rewrite sub_length; lia]. }
    assert (N2 : sub a (j + d) j' = sub out (j + d) j').
    { unfold sub at 2, out. rewrite app_assoc, skipn_app, app_length, Hp, sub_length by lia. replace (j + d - (j + (i + d - i))) with 0 by lia.
      rewrite skipn_all2 by (rewrite app_length, sub_length by lia; lia). cbn [skipn app].
      rewrite firstn_app, sub_length, Nat.sub_diag by lia. rewrite firstn_O, app_nil_r.
      rewrite firstn_all2; [reflexivity|rewrite sub_length; lia]. }
    rewrite N2. apply cover_cons; try assumption; try lia.
Qed.
Lemma patched_equal {T} context (b a : list T) i j hs : cover context (equal_gap b a) b a i j hs -> patched b i hs = skipn j a.
Proof.
  induction 1 as [i j d Hg H1 H2|i j d i' j' l t rest Hg H1 H2 H3 H4 H5 H6 H7 H8 H9 H IH]; cbn [patched].
  - unfold equal_gap in Hg. rewrite H1, H2, !sub_all in Hg. assumption.
  - unfold equal_gap in Hg. cbn [h_b h_new h_old]. rewrite Hg, sub_length by lia.
    replace (i + d + (i' - (i + d)))%nat with i' by lia. rewrite IH.
    rewrite sub_skipn by lia. apply sub_skipn. lia.
Qed.
(* undoing the patch on what it made *)
Lemma undo_cover {T} context g (b a : list T) hs : cover context g b a 0 0 hs ->
  cover context (fun y x d => equal_gap b (patched b 0 hs) x y d) (patched b 0 hs) b 0 0 (map swap_hunk hs) /\
  patched (patched b 0 hs) 0 (map swap_hunk hs) = b.
Proof.
  intros H. pose proof (cover_patched _ _ _ _ _ _ _ [] H eq_refl) as Hc. cbn [app] in Hc. apply cover_swap in Hc. split; [exact Hc|].
  apply (patched_equal context (patched b 0 hs) b 0 0). eapply cover_mono; [|exact Hc]. intros x y d He. now apply equal_gap_sym.
Qed.

(* ---------------- what the patch makes ---------------- *)
Definition near_gap {T} (b a : list T) (i j d : nat) : Prop :=
  forall t, t < d -> same_at b a (i + t) (j + t) \/ exists x y, i + t = S x /\ j + t = S y /\ isolated b a x y.
Lemma unchanged_near {T} (b a : list T) cs : (forall m, In (NoChange m) cs -> nearly_common b a (cs_b m) (cs_a m) (cs_n m)) ->
  forall i j d, unchanged cs i j d -> near_gap b a i j d.
Proof.
  intros H i j d [->|(m & p & Hm & -> & -> & Hp)] t Ht; [lia|].
  rewrite <- !Nat.add_assoc. destruct (H m Hm (p + t) ltac:(lia)) as [E|(E1 & E2 & E3 & E4)]; [now left|]. right.
  destruct (p + t) as [|q]; [lia|]. exists (cs_b m + q), (cs_a m + q). rewrite !Nat.add_succ_r in *.
  cbn [Nat.sub] in E3. rewrite Nat.sub_0_r in E3. repeat split; assumption.
Qed.
Lemma nth_error_firstn_lt {T} (l : list T) n k : k < n -> nth_error (firstn n l) k = nth_error l k.
Proof. revert l k. induction n as [|n IH]; intros [|x l] [|k] H; try lia; cbn; auto. apply IH. lia. Qed.
Lemma patched_nearly {T} context (b a : list T) i j hs : cover context (near_gap b a) b a i j hs ->
  forall k, j + k < length a -> nth_error (patched b i hs) k = nth_error a (j + k) \/
    exists x y, j + k = S y /\ isolated b a x y /\ nth_error (patched b i hs) k = nth_error b (S x).
Proof.
  assert (G : forall i j d (rest : list T), near_gap b a i j d -> i + d <= length b -> forall k, k < d ->
    nth_error (sub b i (i + d) ++ rest) k = nth_error a (j + k) \/
    exists x y, j + k = S y /\ isolated b a x y /\ nth_error (sub b i (i + d) ++ rest) k = nth_error b (S x)).
  { intros i0 j0 d0 rest Hg Hb k Hk.
    assert (E : nth_error (sub b i0 (i0 + d0) ++ rest) k = nth_error b (i0 + k)).
    { rewrite nth_error_app1 by (rewrite sub_length; lia). rewrite sub_nth. replace (i0 + d0 - i0) with d0 by lia.
      assert (Hl : (k <? d0) = true) by now apply Nat.ltb_lt. now rewrite Hl. }
    rewrite E. destruct (Hg k Hk) as [(v & V1 & V2)|(x & y & X & Y & I)]; [left; congruence|].
    right. exists x, y. rewrite X. auto. }
  induction 1 as [i j d Hg H1 H2|i j d i' j' l t rest Hg H1 H2 H3 H4 H5 H6 H7 H8 H9 H IH]; intros k Hk; cbn [patched].
  - rewrite <- (sub_all b i), <- H1, <- (app_nil_r (sub b i (i + d))). apply G; auto; lia.
  - cbn [h_b h_old h_new]. rewrite sub_length by lia. replace (i + d + (i' - (i + d))) with i' by lia.
    destruct (Nat.lt_ge_cases k d) as [L|L]; [apply G; auto; lia|].
    rewrite nth_error_app2 by (rewrite sub_length; lia). rewrite sub_length by lia. replace (k - (i + d - i)) with (k - d) by lia.
    destruct (Nat.lt_ge_cases (j + k) j') as [L2|L2].
    + left. rewrite nth_error_app1 by (rewrite sub_length; lia). rewrite sub_nth.
      assert (Hl : (k - d <? j' - (j + d)) = true) by (apply Nat.ltb_lt; lia). rewrite Hl. f_equal. lia.
    + rewrite nth_error_app2 by (rewrite sub_length; lia). rewrite sub_length by lia.
      destruct (IH (k - d - (j' - (j + d))) ltac:(lia)) as [E|(x & y & E1 & E2 & E3)].
      * left. rewrite E. f_equal. lia.
      * right. exists x, y. split; [lia|]. auto.
Qed.
Lemma patched_is_nearly {T} context cs (b a : list T) hs :
  (forall m, In (NoChange m) cs -> nearly_common b a (cs_b m) (cs_a m) (cs_n m)) -> cover context (unchanged cs) b a 0 0 hs ->
  nearly b a (patched b 0 hs).
Proof.
  intros Hn Hc. split; [rewrite (skipn_cover _ _ _ _ _ _ _ Hc); lia|]. intros k Hk.
  apply (patched_nearly context b a 0 0 hs); [|exact Hk]. eapply cover_mono; [|exact Hc]. exact (unchanged_near b a cs Hn).
Qed.
Lemma isolated_swap {T} (b a : list T) x y : isolated b a x y -> isolated a b y x.
Proof.
  intros ((u & U1 & U2) & (v & v' & V1 & V2 & V3) & (w & W1 & W2)).
  split; [exists u; auto|]. split; [exists v', v; auto|exists w; auto].
Qed.
Lemma patched_is_nearly_rev {T} context cs (b a : list T) hs :
  (forall m, In (NoChange m) cs -> nearly_common b a (cs_b m) (cs_a m) (cs_n m)) -> cover context (unchanged cs) b a 0 0 hs ->
  nearly a b (patched a 0 (map swap_hunk hs)).
Proof.
  intros Hn Hc. apply cover_swap in Hc. split; [rewrite (skipn_cover _ _ _ _ _ _ _ Hc); lia|]. intros k Hk.
  apply (patched_nearly context a b 0 0); [|exact Hk]. eapply cover_mono; [|exact Hc]. intros x y d Hu t Ht. cbn in Hu.
  destruct (unchanged_near b a cs Hn y x d Hu t Ht) as [(v & V1 & V2)|(x' & y' & E1 & E2 & E3)]; [left; exists v; auto|].
  right. exists y', x'. split; [exact E2|]. split; [exact E1|]. now apply isolated_swap.
Qed.

(* ---------------- the lines of the result ---------------- *)
Lemma nearly_lines b a out tb ta : lines_of tb b -> lines_of ta a -> nearly b a out -> lines_of (concat out) out.
Proof.
  intros (_ & Lb & Nb) (_ & La & Na) (Hl & Hn). split; [reflexivity|].
  assert (Inner : forall (s : list line) k v, (forall pre l post, s = pre ++ l :: post -> post <> [] -> ends_in_newline l) ->
    nth_error s k = Some v -> S k < length s -> ends_in_newline v).
  { intros s k v Hs Hv Hk. destruct (nth_error_split s k Hv) as (pre & post & -> & Hp). apply (Hs pre v post eq_refl).
    intros ->. rewrite app_length in Hk. cbn in Hk. lia. }
  assert (Each : forall k v, nth_error out k = Some v -> is_line v /\ (S k < length out -> ends_in_newline v)).
  { intros k v Hv. assert (Hk : k < length a) by (rewrite <- Hl; apply nth_error_Some; congruence).
    destruct (Hn k Hk) as [E|(x & y & E1 & (_ & _ & (w & W & _)) & E2)].
    - rewrite Hv in E. symmetry in E. split; [rewrite Forall_forall in La; apply La; eapply nth_error_In; eauto|].
      intros HS. eapply Inner; [exact Na|exact E|lia].
    - rewrite Hv in E2. symmetry in E2. split; [rewrite Forall_forall in Lb; apply Lb; eapply nth_error_In; eauto|].
      intros _. eapply Inner; [exact Nb|exact E2|]. apply nth_error_Some. congruence. }
  split.
  - apply Forall_forall. intros v Hv. apply In_nth_error in Hv as (k & Hk). now apply (Each k).
  - intros pre l post -> Hp. apply (Each (length pre) l).
    + rewrite nth_error_app2, Nat.sub_diag by lia. reflexivity.
    + rewrite app_length. destruct post; [contradiction|cbn; lia].
Qed.
Lemma nearly_all {T} (P : T -> Prop) b a out : Forall P b -> Forall P a -> nearly b a out -> Forall P out.
Proof.
  intros Hb Ha (Hl & Hn). rewrite Forall_forall in *. intros v Hv. apply In_nth_error in Hv as (k & Hk).
  assert (Hk' : k < length a) by (rewrite <- Hl; apply nth_error_Some; congruence).
  destruct (Hn k Hk') as [E|(x & y & E1 & _ & E2)].
  - apply Ha. rewrite Hk in E. eapply nth_error_In. symmetry. exact E.
  - apply Hb. rewrite Hk in E2. eapply nth_error_In. symmetry. exact E2.
Qed.
Lemma list_ext {T} (u v : list T) : length u = length v -> (forall k, k < length v -> nth_error u k = nth_error v k) -> u = v.
Proof.
  revert v. induction u as [|x u IH]; intros [|y v] Hl H; try discriminate; [reflexivity|].
  pose proof (H 0 ltac:(cbn; lia)) as E. cbn in E. injection E as ->. f_equal. apply IH; [now injection Hl|].
  intros k Hk. exact (H (S k) ltac:(cbn; lia)).
Qed.
Lemma nearly_equal {T} (b a out : list T) : no_isolated_mismatch b a -> nearly b a out -> out = a.
Proof.
  intros Hno (Hl & Hn). apply list_ext; [assumption|]. intros k Hk.
  destruct (Hn k Hk) as [E|(x & y & _ & I & _)]; [assumption|]. destruct (Hno x y I).
Qed.

(* Proof_Regex.v - the backtracking matcher agrees with the relational meaning of regular
   expressions; greedy runs of a character class. *)
From Verif Require Import Base Model_Seq Model_Regex Spec Proof_Seq Proof_Utf8.

Section Meaning.
  Context {C : Type}.
  Implicit Types (s : list C) (c : @caps C).

  Inductive mt (total : nat) : re C -> list C -> list C -> @caps C -> @caps C -> Prop :=
  | mt_eps s c : mt total Eps s s c c
  | mt_cls p x s c : p x = true -> mt total (Cls p) (x :: s) s c c
  | mt_cat r1 r2 s s1 s2 c c1 c2 : mt total r1 s s1 c c1 -> mt total r2 s1 s2 c1 c2 -> mt total (Cat r1 r2) s s2 c c2
  | mt_alt1 r1 r2 s s' c c' : mt total r1 s s' c c' -> mt total (Alt r1 r2) s s' c c'
  | mt_alt2 r1 r2 s s' c c' : mt total r2 s s' c c' -> mt total (Alt r1 r2) s s' c c'
  | mt_star0 r s c : mt total (Star r) s s c c
  | mt_star1 r s s1 s2 c c1 c2 : mt total r s s1 c c1 -> length s1 < length s -> mt total (Star r) s1 s2 c1 c2 ->
      mt total (Star r) s s2 c c2
  | mt_grp n r s s' c c' : mt total r s s' c c' ->
      mt total (Grp n r) s s' c ((n, firstn (length s - length s') s) :: c')
  | mt_bol s c : length s = total -> mt total Bol s s c c
  | mt_eol c : mt total Eol [] [] c c.

  Lemma bt_sound total r : forall s c k x, bt total r s c k = Some x ->
    exists s' c', mt total r s s' c c' /\ k s' c' = Some x.
  Proof.
    induction r as [|p|r1 IH1 r2 IH2|r1 IH1 r2 IH2|r IH|n r IH| |]; intros s c k x H; cbn [bt] in H.
    - exists s, c. split; [constructor|assumption].
    - destruct s as [|y s]; [discriminate|]. destruct (p y) eqn:E; [|discriminate]. exists s, c. split; [now constructor|assumption].
    - apply IH1 in H. destruct H as (s1 & c1 & H1 & H). apply IH2 in H. destruct H as (s2 & c2 & H2 & H).
      exists s2, c2. split; [econstructor; eassumption|assumption].
    - destruct (bt total r1 s c k) as [y|] eqn:E.
      + injection H as ->. apply IH1 in E. destruct E as (s1 & c1 & H1 & E). exists s1, c1. split; [now apply mt_alt1|assumption].
      + apply IH2 in H. destruct H as (s1 & c1 & H1 & H). exists s1, c1. split; [now apply mt_alt2|assumption].
    - remember (length s) as m eqn:Em. clear Em. revert s c H. induction m as [|m IHm]; intros s c H.
      + exists s, c. split; [constructor|assumption].
      + match type of H with match ?b with _ => _ end = _ => destruct b as [y|] eqn:E end.
        * injection H as ->. apply IH in E. destruct E as (s1 & c1 & H1 & E).
          destruct (length s1 <? length s) eqn:L; [|discriminate]. apply Nat.ltb_lt in L.
          apply IHm in E. destruct E as (s2 & c2 & H2 & E). exists s2, c2. split; [eapply mt_star1; eassumption|assumption].
        * exists s, c. split; [constructor|assumption].
    - apply IH in H. destruct H as (s1 & c1 & H1 & H). eexists _, _. split; [constructor; eassumption|assumption].
    - destruct (length s =? total) eqn:E; [|discriminate]. apply Nat.eqb_eq in E. exists s, c. split; [now constructor|assumption].
    - destruct s; [|discriminate]. exists [], c. split; [constructor|assumption].
  Qed.

  Lemma mt_length total r s s' c c' : mt total r s s' c c' -> length s' <= length s.
  Proof. induction 1; cbn [length]; lia. Qed.

  Lemma bt_complete total r : forall s s' c c', mt total r s s' c c' -> forall k, k s' c' <> None -> bt total r s c k <> None.
  Proof.
    induction r as [|p|r1 IH1 r2 IH2|r1 IH1 r2 IH2|r IH|n r IH| |]; intros s s' c c' H k K; cbn [bt].
    - now inversion H; subst.
    - inversion H as [|? ? ? ? E| | | | | | | |]; subst. now rewrite E.
    - inversion H as [| |? ? ? s1 ? ? c1 ? H1 H2| | | | | | |]; subst. eapply IH1; [eassumption|]. eapply IH2; eassumption.
    - inversion H as [| | |? ? ? ? ? ? H1|? ? ? ? ? ? H1| | | | |]; subst.
      + specialize (IH1 _ _ _ _ H1 _ K). destruct (bt total r1 s c k); congruence.
      + specialize (IH2 _ _ _ _ H1 _ K). destruct (bt total r1 s c k); congruence.
    - remember (length s) as n eqn:En. assert (Hn : length s <= n) by lia. clear En. revert s c H Hn.
      induction n as [|n IHn]; intros s c H Hn.
      + destruct s; [|cbn in Hn; lia]. inversion H as [| | | | | |? ? s1 ? ? c1 ? H1 L H2| | |]; subst; [assumption|cbn in L; lia].
      + match goal with |- match ?b with _ => _ end <> None => destruct b eqn:E end; [discriminate|].
        inversion H as [| | | | | |? ? s1 ? ? c1 ? H1 L H2| | |]; subst; [assumption|].
        exfalso. revert E. eapply IH; [exact H1|]. rewrite (proj2 (Nat.ltb_lt _ _) L). apply IHn; [assumption|lia].
    - inversion H as [| | | | | | |? ? ? ? ? c1 H1| |]; subst. eapply IH; [exact H1|]. assumption.
    - inversion H as [| | | | | | | |? ? E|]; subst. now rewrite Nat.eqb_refl.
    - now inversion H; subst.
  Qed.

  (* a run of a class *)
  Definition run (p : C -> bool) (t : list C) : Prop := Forall (fun x => p x = true) t.
  Definition stops (p : C -> bool) (s : list C) : Prop := match s with x :: _ => p x = false | [] => True end.

  Lemma mt_star_cls total p s s' c c' : mt total (Star (Cls p)) s s' c c' <-> c' = c /\ exists t, run p t /\ s = t ++ s'.
  Proof.
    split.
    - remember (Star (Cls p)) as R eqn:E. intros H. induction H; try discriminate; inversion E; subst.
      + split; [reflexivity|]. exists []. split; [constructor|reflexivity].
      + destruct (IHmt2 eq_refl) as (-> & t & Ht & ->). inversion H; subst. split; [reflexivity|].
        match goal with Hp : p ?x = true |- _ => exists (x :: t) end. split; [now constructor|reflexivity].
    - intros (-> & t & Ht & ->). induction Ht as [|x t Hx Ht IH]; [constructor|].
      apply mt_star1 with (s1 := t ++ s') (c1 := c); [now apply mt_cls|cbn; lia|exact IH].
  Qed.
  Lemma mt_plus_cls total p s s' c c' : mt total (Plus (Cls p)) s s' c c' <-> c' = c /\ exists t, t <> [] /\ run p t /\ s = t ++ s'.
  Proof.
    split.
    - intros H. inversion H as [| |? ? ? s1 ? ? c1 ? H1 H2| | | | | | |]; subst. apply mt_star_cls in H2. destruct H2 as (-> & t & Ht & ->).
      inversion H1 as [|? x ? ? Hx| | | | | | | |]; subst. split; [reflexivity|]. exists (x :: t). split; [discriminate|]. split; [now constructor|reflexivity].
    - intros (-> & t & Hne & Ht & ->). destruct t as [|x t]; [congruence|]. inversion Ht; subst.
      eapply mt_cat; [now apply mt_cls|]. apply mt_star_cls. split; [reflexivity|]. now exists t.
  Qed.
  Lemma mt_cls_inv total p s s' c c' : mt total (Cls p) s s' c c' <-> c' = c /\ exists x, p x = true /\ s = x :: s'.
  Proof.
    split; [intros H; inversion H; subst; split; [reflexivity|]; eexists; split; [eassumption|reflexivity]|].
    intros (-> & x & Hx & ->). now constructor.
  Qed.
  Lemma mt_cat_inv total r1 r2 s s' c c' : mt total (Cat r1 r2) s s' c c' <-> exists s1 c1, mt total r1 s s1 c c1 /\ mt total r2 s1 s' c1 c'.
  Proof.
    split; [intros H; inversion H; subst; eexists _, _; split; eassumption|].
    intros (s1 & c1 & H1 & H2). econstructor; eassumption.
  Qed.
  Lemma mt_eps_inv total s s' c c' : mt total Eps s s' c c' <-> c' = c /\ s = s'.
  Proof. split; [intros H; now inversion H|]. intros (-> & ->). constructor. Qed.
  Lemma mt_opt_inv total r s s' c c' : mt total (Opt r) s s' c c' <-> mt total r s s' c c' \/ (c' = c /\ s = s').
  Proof.
    split; [intros H; inversion H as [| | |? ? ? ? ? ? H1|? ? ? ? ? ? H1| | | | |]; subst; [now left|right; now apply mt_eps_inv in H1]|].
    intros [H|(-> & ->)]; [now apply mt_alt1|apply mt_alt2; constructor].
  Qed.
  Lemma mt_grp_inv total n r s s' c c' : mt total (Grp n r) s s' c c' <->
    exists c1, mt total r s s' c c1 /\ c' = (n, firstn (length s - length s') s) :: c1.
  Proof.
    split; [intros H; inversion H; subst; eexists; split; [eassumption|reflexivity]|].
    intros (c1 & H & ->). now constructor.
  Qed.
  Lemma mt_eol_inv total s s' c c' : mt total Eol s s' c c' <-> c' = c /\ s = [] /\ s' = [].
  Proof. split; [intros H; now inversion H|]. intros (-> & -> & ->). constructor. Qed.
  Lemma firstn_app_length (t s : list C) : firstn (length (t ++ s) - length s) (t ++ s) = t.
  Proof. rewrite app_length. replace (length t + length s - length s) with (length t + 0) by lia. rewrite firstn_app_2. cbn. apply app_nil_r. Qed.

  Lemma search_bol total r s : length s < total -> search total (Cat Bol r) s = None.
  Proof.
    induction s as [|x s IH]; intros H; cbn [search bt]; cbn [length] in *.
    - destruct (Nat.eqb_spec 0 total); [lia|reflexivity].
    - destruct (Nat.eqb_spec (S (length s)) total); [lia|]. apply IH. lia.
  Qed.
  Lemma captures_bol r s : captures (Cat Bol r) s = bt (length s) r s [] (fun _ c => Some c).
  Proof.
    unfold captures. destruct s as [|x s]; cbn [search].
    - cbn [bt length]. rewrite Nat.eqb_refl. now destruct bt.
    - assert (E : bt (length (x :: s)) (Cat Bol r) (x :: s) [] (fun _ c => Some c) = bt (length (x :: s)) r (x :: s) [] (fun _ c => Some c)).
      { cbn [bt]. now rewrite Nat.eqb_refl. }
      rewrite E. destruct (bt (length (x :: s)) r (x :: s) [] (fun _ c => Some c)); [reflexivity|]. apply search_bol. cbn. lia.
  Qed.
  Lemma captures_mt r s c : captures (Cat Bol r) s = Some c -> exists s', mt (length s) r s s' [] c.
  Proof. rewrite captures_bol. intros H. apply bt_sound in H. destruct H as (s' & c' & H & E). injection E as <-. now exists s'. Qed.
  Lemma captures_some r s s' c : mt (length s) r s s' [] c -> captures (Cat Bol r) s <> None.
  Proof. rewrite captures_bol. intros H. eapply bt_complete; [exact H|]. discriminate. Qed.

  (* greedy runs, as the matcher sees them *)
  Lemma bt_star_run total p t : forall s c k, run p t -> stops p s ->
    bt total (Star (Cls p)) (t ++ s) c k =
    match k s c with
    | Some x => Some x
    | None => bt total (Star (Cls p)) (t ++ s) c (fun s' c' => if length s' =? length s then None else k s' c')
    end.
  Proof.
    intros s c k Ht Hs. cbn [bt]. remember (length (t ++ s)) as n eqn:En.
    assert (Hn : length (t ++ s) <= n) by lia. clear En. revert n Hn.
    induction Ht as [|x t Hx Ht IH]; intros n Hn.
    - cbn [app] in *. destruct n as [|n].
      + rewrite Nat.eqb_refl. now destruct (k s c).
      + destruct s as [|y s]; cbn [stops] in Hs; [|rewrite Hs]; rewrite Nat.eqb_refl; now destruct (k _ c).
    - cbn [app length] in *. destruct n as [|n]; [lia|]. rewrite Hx.
      assert (L : (length (t ++ s) <? length (x :: t ++ s)) = true) by (apply Nat.ltb_lt; cbn; lia). rewrite L.
      rewrite IH by lia. destruct (k s c) as [z|]; [reflexivity|].
      destruct (Nat.eqb_spec (length (x :: t ++ s)) (length s)) as [E|E]; [cbn in E; rewrite app_length in E; lia|]. reflexivity.
  Qed.
  (* the longest run leads to success *)
  Lemma bt_star_greedy total p t s c k x : run p t -> stops p s -> k s c = Some x ->
    bt total (Star (Cls p)) (t ++ s) c k = Some x.
  Proof. intros Ht Hs K. rewrite bt_star_run by assumption. now rewrite K. Qed.
  (* shorter runs lead nowhere *)
  Lemma bt_star_only total p t s c k : run p t -> stops p s ->
    (forall x s', p x = true -> k (x :: s') c = None) ->
    bt total (Star (Cls p)) (t ++ s) c k = k s c.
  Proof.
    intros Ht Hs K. destruct (bt total (Star (Cls p)) (t ++ s) c k) as [x|] eqn:E.
    - apply bt_sound in E. destruct E as (s' & c' & M & E). apply mt_star_cls in M. destruct M as (-> & t' & Ht' & Hts).
      rewrite <- E. f_equal.
      destruct s' as [|y s'].
      { destruct s as [|z s]; [reflexivity|]. exfalso. rewrite app_nil_r in Hts. subst t'.
        unfold run in Ht'. rewrite Forall_app in Ht'. destruct Ht' as [_ Ht']. inversion Ht'; subst. cbn in Hs. congruence. }
      destruct (p y) eqn:Py; [rewrite K in E by assumption; discriminate|].
      clear -Ht Hs Ht' Hts Py. revert t' Ht' Hts. induction Ht as [|a t Ha Ht IH]; intros t' Ht' Hts.
      + cbn in Hts. destruct Ht' as [|b t' Hb Ht']; [now cbn in Hts|]. cbn in Hts. subst s. cbn in Hs. congruence.
      + destruct Ht' as [|b t' Hb Ht']; cbn in Hts; injection Hts as <- Hts; [congruence|]. now apply (IH t').
    - symmetry. destruct (k s c) as [x|] eqn:K'; [|reflexivity].
      rewrite <- E. symmetry. now apply bt_star_greedy.
  Qed.
End Meaning.

(* splitting off a maximal run is unique *)
Lemma run_split {C} (p : C -> bool) s : exists t s', s = t ++ s' /\ run p t /\ stops p s'.
Proof.
  induction s as [|x s (t & s' & -> & Ht & Hs)].
  - exists [], []. repeat split. constructor.
  - destruct (p x) eqn:E.
    + exists (x :: t), s'. split; [reflexivity|]. split; [now constructor|assumption].
    + exists [], (x :: t ++ s'). split; [reflexivity|]. split; [constructor|exact E].
Qed.
Lemma run_unique {C} (p : C -> bool) t1 : forall t2 s1 s2, t1 ++ s1 = t2 ++ s2 -> run p t1 -> run p t2 -> stops p s1 -> stops p s2 ->
  t1 = t2 /\ s1 = s2.
Proof.
  induction t1 as [|x t1 IH]; intros t2 s1 s2 E H1 H2 S1 S2; destruct t2 as [|y t2]; cbn in E.
  - auto.
  - subst s1. inversion H2; subst. cbn in S1. congruence.
  - subst s2. inversion H1; subst. cbn in S2. congruence.
  - injection E as <- E. inversion H1; inversion H2; subst. destruct (IH _ _ _ E) as [-> ->]; auto.
Qed.

(* ---------------- characters ---------------- *)
Lemma chars_concat s : concat (chars s) = s.
Proof.
  induction s as [|b s IH]; [reflexivity|]. cbn [chars]. destruct (chars s) as [|[|b1 c] cs]; cbn in *; [now rewrite <- IH|now rewrite <- IH|].
  destruct (is_cont b1); cbn; now rewrite <- IH.
Qed.
Lemma chars_nil s : chars s = [] -> s = [].
Proof. intros H. now rewrite <- (chars_concat s), H. Qed.
Definition no_cont (s : list byte) : Prop := match s with b :: _ => is_cont b = false | [] => True end.
Lemma chars_head b s : exists c cs, chars (b :: s) = (b :: c) :: cs.
Proof. cbn [chars]. destruct (chars s) as [|[|b1 c] cs]; [eexists _, _; reflexivity..|]. destruct (is_cont b1); eexists _, _; reflexivity. Qed.
Lemma chars_app s1 s2 : no_cont s2 -> chars (s1 ++ s2) = chars s1 ++ chars s2.
Proof.
  intros H. induction s1 as [|b s1 IH]; [reflexivity|]. cbn [app chars]. rewrite IH.
  destruct s1 as [|b1 s1].
  - cbn [chars app]. destruct s2 as [|b2 s2]; [reflexivity|]. destruct (chars_head b2 s2) as (c & cs & ->). cbn in H. now rewrite H.
  - destruct (chars_head b1 s1) as (c & cs & ->). cbn [app]. now destruct (is_cont b1).
Qed.
(* the bytes of one character: its first byte starts it, the others continue it *)
Definition one_char (c : char) : Prop := match c with b :: r => is_cont b = false /\ Forall (fun x => is_cont x = true) r | [] => False end.
Lemma chars_one c : one_char c -> chars c = [c].
Proof.
  destruct c as [|b r]; [contradiction|]. intros [_ H]. revert b. induction H as [|x r Hx Hr IH]; intros b; [reflexivity|].
  cbn [chars] in *. specialize (IH x). rewrite IH. now rewrite Hx.
Qed.
Lemma one_char_no_cont c s : one_char c -> no_cont (c ++ s).
Proof. destruct c; [contradiction|]. now intros [H _]. Qed.
Lemma chars_of cs : Forall one_char cs -> chars (concat cs) = cs.
Proof.
  induction 1 as [|c cs Hc Hcs IH]; [reflexivity|]. cbn [concat]. rewrite chars_app, chars_one, IH; [reflexivity|assumption|].
  destruct Hcs; cbn; [exact I|now apply one_char_no_cont].
Qed.

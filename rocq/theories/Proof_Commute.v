(* Proof_Commute.v - lemmas for C95. *)
From Verif Require Import Base Model_Seq Model_Changes Model_IO Model_Text Spec Spec_Outcome Spec_Merge Spec_Commute Proof_Arith Proof_Seq Proof_Diff Proof_Text Proof_Nearby Proof_Apply Proof_Fuzzy Proof_IO Proof_Outcome Proof_Merge.

(* the old lines of a hunk are at its place in the text *)
Definition sits (base : list line) (h : hunk line) : Prop :=
  h_b h + length (h_old h) <= length base /\ sub base (h_b h) (h_b h + length (h_old h)) = h_old h.

Lemma cover_sits context g (b a : list line) i j hs : cover context g b a i j hs -> Forall (sits b) hs.
Proof.
  induction 1 as [|i j d i' j' l t rest Hg H1 H2 H3 H4 H5 H6 H7 H8 H9 H IH]; constructor; [|assumption].
  unfold sits. cbn [h_b h_old]. rewrite sub_length by lia. replace (i + d + (i' - (i + d))) with i' by lia. split; [lia|reflexivity].
Qed.
Lemma part_cons t t' h rest : part t ((t', h) :: rest) = if Bool.eqb t' t then h :: part t rest else part t rest.
Proof. unfold part. cbn [filter fst]. destruct (Bool.eqb t' t); reflexivity. Qed.
Lemma apart_lift from both : apart from both -> forall from', from' <= from -> apart from' both.
Proof. destruct both as [|[t h] rest]; [trivial|]. intros [H1 H2] from' H. split; [lia|assumption]. Qed.
Lemma apart_part_ge t : forall both from, apart from both -> match part t both with [] => True | h :: _ => from <= h_b h end.
Proof.
  induction both as [|[t' h] rest IH]; intros from; [trivial|]. intros [H1 H2]. rewrite part_cons. destruct (Bool.eqb t' t); [assumption|].
  specialize (IH _ H2). destruct (part t rest); [trivial|lia].
Qed.
(* what lies in front of the first hunk is kept *)
Lemma patched_front (base : list line) hs from m : from <= m -> m <= length base ->
  match hs with [] => True | h :: _ => m <= h_b h end -> patched base from hs = sub base from m ++ patched base m hs.
Proof.
  intros H1 H2 H3. destruct hs as [|h rest]; cbn [patched].
  - now rewrite sub_skipn.
  - rewrite (app_assoc (sub base from m)), sub_app by lia. reflexivity.
Qed.

(* the hunks of patch t on the text already patched with the others *)
Lemma merged_both t base B : forall both from pre mid off added,
  Forall (fun x => sits base (snd x)) both -> Forall (fun x => hunk_ok (snd x)) both -> apart from both -> little t added both -> from <= length base ->
  Forall (fun h => fits_once h B) (part t both) ->
  B = pre ++ mid ++ patched base from (part (negb t) both) ->
  (Z.of_nat (length pre + length mid) - Z.of_nat from = off + added)%Z ->
  exists moved, merged within_reach B (length pre) off (part t both) moved (mid ++ patched base from (map snd both)).
Proof.
  induction both as [|[t' h] rest IH]; intros from pre mid off added Hs Hok Ha Hl Hf Hu HB Ho.
  - exists 0. cbn [part filter map patched] in *.
    replace (mid ++ skipn from base) with (skipn (length pre) B) by (rewrite HB, skipn_app, skipn_all, Nat.sub_diag; reflexivity).
    apply merged_end. rewrite HB, app_length. lia.
  - inversion Hs as [|? ? [S1 S2] Hs']; subst x l. inversion Hok as [|? ? Ok1 Hok']; subst x l. cbn [snd] in *.
    destruct Ha as [A1 A2]. cbn [little] in Hl. rewrite part_cons in Hu |- *. rewrite part_cons in HB. cbn [map snd patched].
    set (e := h_b h + length (h_old h)) in *.
    destruct (Bool.eqb t' t) eqn:Et.
    + apply Bool.eqb_prop in Et. subst t'. replace (Bool.eqb t (negb t)) with false in HB by (destruct t; reflexivity).
      inversion Hu as [|? ? Hu1 Hu2]; subst x l. destruct Hl as [Hr Hl].
      rewrite (patched_front base _ from e) in HB; [|lia|lia|apply (apart_part_ge (negb t) rest e A2)].
      rewrite <- (sub_app base from (h_b h) e) in HB by lia. rewrite S2 in HB.
      set (gap := sub base from (h_b h)) in *. assert (Lg : length gap = h_b h - from) by (unfold gap; rewrite sub_length; lia).
      set (p := length pre + length mid + length gap).
      assert (Hocc : occurs_at B (h_old h) (Z.of_nat p)).
      { exists p. split; [reflexivity|]. rewrite HB. unfold p. rewrite !app_length. split; [lia|].
        replace (pre ++ mid ++ (gap ++ h_old h) ++ patched base e (part (negb t) rest))
          with ((pre ++ mid ++ gap) ++ h_old h ++ patched base e (part (negb t) rest)) by (now rewrite <- !app_assoc).
        replace (length pre + length mid + length gap) with (length (pre ++ mid ++ gap)) by (rewrite !app_length; lia). apply sub_app_mid. }
      destruct (IH e (pre ++ mid ++ gap ++ h_old h) [] (off + added)%Z 0%Z Hs' Hok' A2 Hl S1 Hu2) as (moved & Hm).
      { rewrite HB. cbn [app]. now rewrite <- !app_assoc. }
      { rewrite !app_length. cbn [length]. unfold e. lia. }
      eexists. replace (mid ++ gap ++ h_new h ++ patched base e (map snd rest)) with (sub B (length pre) p ++ h_new h ++ ([] ++ patched base e (map snd rest))).
      2:{ cbn [app]. rewrite (app_assoc mid gap). f_equal. rewrite HB. rewrite <- !app_assoc, (app_assoc mid gap).
          replace p with (length pre + length (mid ++ gap)) by (unfold p; rewrite app_length; lia). apply sub_app_mid. }
      apply merged_hunk.
      * unfold p. lia.
      * now apply best_of_once.
      * unfold within_reach. unfold core_length, zlen in *. destruct Hr as [Hr|Hr]; [left; unfold p; lia|right].
        destruct (part t rest) as [|n ns] eqn:En; cbn [hd_error].
        -- destruct Ok1 as (O1 & _). rewrite HB, !app_length. unfold p. lia.
        -- unfold p. lia.
      * replace (p + length (h_old h)) with (length (pre ++ mid ++ gap ++ h_old h)) by (rewrite !app_length; unfold p; lia).
        replace (Z.of_nat p - Z.of_nat (h_b h))%Z with (off + added)%Z by (unfold p; lia). exact Hm.
    + replace (Bool.eqb t' (negb t)) with true in HB by (destruct t', t; cbn in *; congruence). cbn [patched] in HB. fold e in HB.
      destruct (IH e pre (mid ++ sub base from (h_b h) ++ h_new h) off _ Hs' Hok' A2 Hl S1 Hu) as (moved & Hm).
      { rewrite HB. now rewrite <- !app_assoc. }
      { rewrite !app_length, sub_length by lia. unfold zlen, e. lia. }
      exists moved. now rewrite <- !app_assoc in Hm.
Qed.

(* a patch on the text it was made from: every hunk is exactly where expected *)
Lemma merged_self base : forall hs from, Forall (sits base) hs -> from <= length base ->
  match hs with [] => True | h :: _ => from <= h_b h end -> ordered hs ->
  merged within_reach base from 0 hs 0 (patched base from hs).
Proof.
  induction hs as [|h rest IH]; intros from Hs Hf H1 Hord; cbn [patched].
  - now apply merged_end.
  - inversion Hs as [|? ? [S1 S2] Hs']; subst x l. destruct Hord as [O1 O2].
    apply (merged_at _ _ _ _ _ _ (h_b h) _ 0 (patched base (h_b h + length (h_old h)) rest)).
    + rewrite Z.add_0_r, Z.eqb_refl. reflexivity.
    + reflexivity.
    + assumption.
    + split; [exists (h_b h); auto|]. intros pos k _ _. lia.
    + left. lia.
    + rewrite Z.sub_diag. apply IH; auto. destruct rest as [|n ns]; [trivial|apply O1].
Qed.

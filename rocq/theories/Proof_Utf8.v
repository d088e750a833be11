(* Proof_Utf8.v - the validator used for reading text accepts exactly the UTF-8 encodings
   of sequences of Unicode scalar values. *)
From Verif Require Import Base Model_Seq Spec.
From Coq Require Import Lia ZifyBool ZifyN.
Local Ltac Zify.zify_post_hook ::= Z.div_mod_to_equations.
Local Open Scope N_scope.

Lemma enc1 c : c < 128 -> utf8_encode c = [c].
Proof. intros H. unfold utf8_encode. destruct (N.ltb_spec c 128); [reflexivity|lia]. Qed.
Lemma enc2 x y : 194 <= x <= 223 -> 128 <= y <= 191 ->
  utf8_encode ((x - 192) * 64 + (y - 128)) = [x; y].
Proof.
  intros Hx Hy. unfold utf8_encode. set (c := (x - 192) * 64 + (y - 128)).
  assert (c / 64 = x - 192) by (unfold c; lia). assert (c mod 64 = y - 128) by (unfold c; lia).
  destruct (N.ltb_spec c 128); [unfold c in *; lia|]. destruct (N.ltb_spec c 2048); [|unfold c in *; lia].
  repeat f_equal; lia.
Qed.
Lemma enc3 x y z : 224 <= x <= 239 -> (x = 224 -> 160 <= y) -> 128 <= y <= 191 -> 128 <= z <= 191 ->
  utf8_encode ((x - 224) * 4096 + (y - 128) * 64 + (z - 128)) = [x; y; z].
Proof.
  intros Hx Hxy Hy Hz. unfold utf8_encode. set (c := (x - 224) * 4096 + (y - 128) * 64 + (z - 128)).
  assert (c / 4096 = x - 224) by (unfold c; lia). assert (c / 64 mod 64 = y - 128) by (unfold c; lia).
  assert (c mod 64 = z - 128) by (unfold c; lia). assert (2048 <= c < 65536) by (unfold c; lia).
  destruct (N.ltb_spec c 128); [lia|]. destruct (N.ltb_spec c 2048); [lia|]. destruct (N.ltb_spec c 65536); [|lia].
  repeat f_equal; lia.
Qed.
Lemma enc4 x y z t : 240 <= x <= 244 -> (x = 240 -> 144 <= y) -> 128 <= y <= 191 -> 128 <= z <= 191 -> 128 <= t <= 191 ->
  utf8_encode ((x - 240) * 262144 + (y - 128) * 4096 + (z - 128) * 64 + (t - 128)) = [x; y; z; t].
Proof.
  intros Hx Hxy Hy Hz Ht. unfold utf8_encode.
  set (c := (x - 240) * 262144 + (y - 128) * 4096 + (z - 128) * 64 + (t - 128)).
  assert (c / 262144 = x - 240) by (unfold c; lia). assert (c / 4096 mod 64 = y - 128) by (unfold c; lia).
  assert (c / 64 mod 64 = z - 128) by (unfold c; lia).
  assert (c mod 64 = t - 128) by (unfold c; lia). assert (65536 <= c) by (unfold c; lia).
  destruct (N.ltb_spec c 128); [lia|]. destruct (N.ltb_spec c 2048); [lia|]. destruct (N.ltb_spec c 65536); [lia|].
  repeat f_equal; lia.
Qed.

Lemma byte_in_spec lo hi b : byte_in lo hi b = true <-> lo <= Byte.to_N b <= hi.
Proof. unfold byte_in. rewrite andb_true_iff, !N.leb_le. tauto. Qed.
Lemma byte_in_false lo hi b : byte_in lo hi b = false <-> ~ (lo <= Byte.to_N b <= hi).
Proof. rewrite <- byte_in_spec. destruct (byte_in lo hi b); intuition congruence. Qed.
Lemma to_N_255 b : Byte.to_N b <= 255.
Proof. destruct b; vm_compute; discriminate. Qed.

Lemma is_utf8_cons c s r : scalar c -> map Byte.to_N s = utf8_encode c -> is_utf8 r -> is_utf8 (s ++ r).
Proof.
  intros Hc Hs (cs & Hcs & He). exists (c :: cs). split; [now constructor|].
  rewrite map_app, Hs, He. reflexivity.
Qed.

Ltac bi := repeat match goal with
  | H : byte_in _ _ _ = true |- _ => apply byte_in_spec in H
  | H : byte_in _ _ _ = false |- _ => apply byte_in_false in H
  | H : is_cont _ = true |- _ => apply byte_in_spec in H
  | H : (_ && _)%bool = true |- _ => apply andb_true_iff in H; destruct H
  end.

Lemma utf8_valid_sound : forall n s, (length s <= n)%nat -> utf8_valid s = true -> is_utf8 s.
Proof.
  induction n as [|n IH]; intros s Hn Hv.
  { destruct s; [|cbn in Hn; lia]. exists []. split; [constructor|reflexivity]. }
  destruct s as [|b0 r0]; [exists []; split; [constructor|reflexivity]|].
  cbn [utf8_valid] in Hv. cbn [length] in Hn.
  destruct (byte_in 0 127 b0) eqn:H0.
  { bi. change (b0 :: r0) with ([b0] ++ r0). apply (is_utf8_cons (Byte.to_N b0)).
    - left. lia.
    - rewrite enc1 by lia. reflexivity.
    - apply IH; [lia|exact Hv]. }
  destruct (byte_in 194 223 b0) eqn:H1.
  { destruct r0 as [|b1 r1]; [discriminate|]. bi. cbn [length] in Hn.
    change (b0 :: b1 :: r1) with ([b0; b1] ++ r1).
    eapply is_utf8_cons; [|symmetry; apply enc2; eassumption|apply IH; [lia|assumption]].
    left. lia. }
  destruct (byte_in 224 239 b0) eqn:H2.
  { destruct r0 as [|b1 [|b2 r2]]; try discriminate. bi. cbn [length] in Hn.
    change (b0 :: b1 :: b2 :: r2) with ([b0; b1; b2] ++ r2).
    assert (Hb : (Byte.to_N b0 = 224 -> 160 <= Byte.to_N b1) /\ (Byte.to_N b0 = 237 -> Byte.to_N b1 <= 159) /\ 128 <= Byte.to_N b1 <= 191).
    { destruct (byte_in 224 224 b0) eqn:?; [bi; lia|]. destruct (byte_in 237 237 b0) eqn:?; bi; lia. }
    eapply is_utf8_cons; [|symmetry; apply enc3; (eassumption || tauto)|apply IH; [lia|assumption]].
    unfold scalar. lia. }
  destruct (byte_in 240 244 b0) eqn:H3; [|discriminate].
  destruct r0 as [|b1 [|b2 [|b3 r3]]]; try discriminate. bi. cbn [length] in Hn.
  change (b0 :: b1 :: b2 :: b3 :: r3) with ([b0; b1; b2; b3] ++ r3).
  assert (Hb : (Byte.to_N b0 = 240 -> 144 <= Byte.to_N b1) /\ (Byte.to_N b0 = 244 -> Byte.to_N b1 <= 143) /\ 128 <= Byte.to_N b1 <= 191).
  { destruct (byte_in 240 240 b0) eqn:?; [bi; lia|]. destruct (byte_in 244 244 b0) eqn:?; bi; lia. }
  eapply is_utf8_cons; [|symmetry; apply enc4; (eassumption || tauto)|apply IH; [lia|assumption]].
  unfold scalar. lia.
Qed.

Ltac test lo hi b := 
  let H := fresh in destruct (byte_in lo hi b) eqn:H; bi; try lia.

Lemma cons_eq {A} (x y : A) l m : x :: l = y :: m -> x = y /\ l = m.
Proof. intros H. split; congruence. Qed.
Ltac heads := repeat match goal with H : _ :: _ = _ :: _ |- _ => apply cons_eq in H; destruct H end.

Lemma utf8_valid_complete cs : Forall scalar cs -> forall s, map Byte.to_N s = concat (map utf8_encode cs) -> utf8_valid s = true.
Proof.
  induction 1 as [|c cs Hc Hcs IH]; intros s Hs.
  { destruct s; [reflexivity|discriminate]. }
  cbn [map concat] in Hs. unfold utf8_encode in Hs. unfold scalar in Hc.
  destruct (N.ltb_spec c 128).
  { cbn in Hs. destruct s as [|b0 r0]; [discriminate|]. cbn in Hs. apply cons_eq in Hs; destruct Hs as [E0 Hs].
    cbn [utf8_valid]. test 0 127 b0. apply IH, Hs. }
  destruct (N.ltb_spec c 2048).
  { cbn [app] in Hs. destruct s as [|b0 [|b1 r1]]; try (cbn [map] in Hs; heads; discriminate). cbn [map] in Hs. apply cons_eq in Hs; destruct Hs as [E0 Hs]. apply cons_eq in Hs; destruct Hs as [E1 Hs].
    cbn [utf8_valid]. test 0 127 b0. test 194 223 b0. unfold is_cont. test 128 191 b1. apply IH, Hs. }
  destruct (N.ltb_spec c 65536).
  { cbn [app] in Hs. destruct s as [|b0 [|b1 [|b2 r2]]]; try (cbn [map] in Hs; heads; discriminate).
    cbn [map] in Hs. apply cons_eq in Hs; destruct Hs as [E0 Hs]. apply cons_eq in Hs; destruct Hs as [E1 Hs]. apply cons_eq in Hs; destruct Hs as [E2 Hs].
    cbn [utf8_valid]. test 0 127 b0. test 194 223 b0. test 224 239 b0. unfold is_cont. test 128 191 b2.
    rewrite (IH _ Hs), !andb_true_r.
    test 224 224 b0; [test 160 191 b1|]; [test 237 237 b0; [test 128 159 b1|]; test 128 191 b1]. }
  { cbn [app] in Hs. destruct s as [|b0 [|b1 [|b2 [|b3 r3]]]]; try (cbn [map] in Hs; heads; discriminate).
    cbn [map] in Hs. apply cons_eq in Hs; destruct Hs as [E0 Hs]. apply cons_eq in Hs; destruct Hs as [E1 Hs]. apply cons_eq in Hs; destruct Hs as [E2 Hs]. apply cons_eq in Hs; destruct Hs as [E3 Hs].
    cbn [utf8_valid]. test 0 127 b0. test 194 223 b0. test 224 239 b0. test 240 244 b0.
    unfold is_cont. test 128 191 b2. test 128 191 b3.
    rewrite (IH _ Hs), !andb_true_r.
    test 240 240 b0; [test 144 191 b1|]; [test 244 244 b0; [test 128 143 b1|]; test 128 191 b1]. }
Qed.

Lemma utf8_valid_spec s : utf8_valid s = true <-> is_utf8 s.
Proof.
  split; [apply (utf8_valid_sound (length s)); apply Nat.le_refl|].
  intros (cs & Hcs & Hs). exact (utf8_valid_complete cs Hcs s Hs).
Qed.

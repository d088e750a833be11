(* Proof_Arith.v - machine arithmetic without overflow is exact in both builds. *)
From Verif Require Import Base Model_Seq Model_Changes Model_IO Model_Text Model_Bytes Spec.
Local Open Scope Z_scope.

Lemma in_usize_true z : 0 <= z -> z < two64 -> in_usize z = true.
Proof. intros. unfold in_usize. apply andb_true_iff. split; [now apply Z.leb_le|now apply Z.ltb_lt]. Qed.
Lemma in_isize_true z : - two63 <= z -> z < two63 -> in_isize z = true.
Proof. intros. unfold in_isize. apply andb_true_iff. split; [now apply Z.leb_le|now apply Z.ltb_lt]. Qed.
Lemma uadd_ok dbg a b : 0 <= a + b -> a + b < two64 -> uadd dbg a b = Ok (a + b).
Proof. intros. unfold uadd, arith_usize. now rewrite in_usize_true. Qed.
Lemma usubz_ok dbg a b : 0 <= a - b -> a - b < two64 -> usubz dbg a b = Ok (a - b).
Proof. intros. unfold usubz, arith_usize. now rewrite in_usize_true. Qed.
Lemma iadd_ok dbg a b : - two63 <= a + b -> a + b < two63 -> iadd dbg a b = Ok (a + b).
Proof. intros. unfold iadd, arith_isize. now rewrite in_isize_true. Qed.
Lemma isubz_ok dbg a b : - two63 <= a - b -> a - b < two63 -> isubz dbg a b = Ok (a - b).
Proof. intros. unfold isubz, arith_isize. now rewrite in_isize_true. Qed.

Lemma as_usize_id z : 0 <= z -> z < two64 -> as_usize z = z.
Proof. intros. unfold as_usize, wrap_usize. apply Z.mod_small. auto. Qed.
Lemma as_isize_id z : - two63 <= z -> z < two63 -> as_isize z = z.
Proof. intros. unfold as_isize, wrap_isize. rewrite Z.mod_small; unfold two63, two64 in *; lia. Qed.
(* a small negative isize seen as usize and back *)
Lemma as_usize_neg z : - two63 <= z -> z < 0 -> as_usize z = z + two64.
Proof. intros. unfold as_usize, wrap_usize. rewrite <- (Z.mod_add z 1 two64) by (unfold two64; lia).
  rewrite Z.mod_small; unfold two63, two64 in *; lia. Qed.
Lemma as_isize_big z : two63 <= z -> z < two64 -> as_isize z = z - two64.
Proof.
  intros. unfold as_isize, wrap_isize. replace (z + two63) with (z - two63 + 1 * two64) by (unfold two63, two64; lia).
  rewrite Z.mod_add by (unfold two64; lia). rewrite Z.mod_small; unfold two63, two64 in *; lia.
Qed.
(* the release build wraps a slightly negative difference; read as isize it is exact *)
Lemma usubz_wrap_as_isize a b r : - two63 <= a - b -> a - b < two63 -> usubz false a b = Ok r -> as_isize r = a - b.
Proof.
  intros H1 H2. unfold usubz, arith_usize. destruct (in_usize (a - b)) eqn:E; intros [= <-].
  - apply andb_true_iff in E as [E1 E2]. apply Z.leb_le in E1. apply as_isize_id; lia.
  - assert (a - b < 0). { unfold in_usize in E. apply andb_false_iff in E as [E|E]; [now apply Z.leb_gt in E|].
      apply Z.ltb_ge in E. unfold two63, two64 in *. lia. }
    change (wrap_usize (a - b)) with (as_usize (a - b)). rewrite as_usize_neg by lia.
    rewrite as_isize_big; unfold two63, two64 in *; lia.
Qed.
Lemma usubz_release a b : exists r, usubz false a b = Ok r.
Proof. unfold usubz, arith_usize. destruct (in_usize (a - b)); eauto. Qed.

Lemma zlen_nonneg {T} (l : list T) : 0 <= zlen l.
Proof. unfold zlen. lia. Qed.

Ltac consts := unfold two61, two63, two64 in *.

(* Proof_Builds.v - debug and release builds compute the same unless the debug build panics. *)
From Verif Require Import Base Model_Seq Model_Changes Model_IO Model_Text Model_Bytes Model_Json Model_Files Model_Log Model_Regex Model_Unified.
Local Open Scope Z_scope.

Definition rle {A} (d r : res A) : Prop := d = Panic \/ d = r.
Definition ile {A} (d r : io A) : Prop := forall w, fst (d w) = Panicked \/ d w = r w.

Lemma rle_refl {A} (m : res A) : rle m m.
Proof. right. reflexivity. Qed.
Lemma rle_bind {A B} (m m' : res A) (k k' : A -> res B) :
  rle m m' -> (forall a, rle (k a) (k' a)) -> rle (bind m k) (bind m' k').
Proof.
  intros [H|H] K; subst; [left; reflexivity|].
  destruct m' as [a| |]; cbn [bind]; [apply K|left; reflexivity|right; reflexivity].
Qed.
Lemma ile_refl {A} (m : io A) : ile m m.
Proof. intros w. right. reflexivity. Qed.
Lemma ile_bind {A B} (m m' : io A) (k k' : A -> io B) :
  ile m m' -> (forall a, ile (k a) (k' a)) -> ile (iobind m k) (iobind m' k').
Proof.
  intros H K w. unfold iobind. destruct (H w) as [E|E].
  - left. destruct (m w) as [x w']. cbn [fst] in E. subst x. reflexivity.
  - rewrite E. destruct (m' w) as [[a| | |] w']; [apply K|right; reflexivity..].
Qed.
Lemma ile_lift {A} (m m' : res A) : rle m m' -> ile (lift m) (lift m').
Proof. intros [H|H] w; subst; [left; reflexivity|right; reflexivity]. Qed.

Lemma arith_usize_b z : rle (arith_usize true z) (arith_usize false z).
Proof. unfold arith_usize. destruct (in_usize z); [right|left]; reflexivity. Qed.
Lemma arith_isize_b z : rle (arith_isize true z) (arith_isize false z).
Proof. unfold arith_isize. destruct (in_isize z); [right|left]; reflexivity. Qed.
Lemma uadd_b a b : rle (uadd true a b) (uadd false a b).
Proof. apply arith_usize_b. Qed.
Lemma usubz_b a b : rle (usubz true a b) (usubz false a b).
Proof. apply arith_usize_b. Qed.
Lemma iadd_b a b : rle (iadd true a b) (iadd false a b).
Proof. apply arith_isize_b. Qed.
Lemma isubz_b a b : rle (isubz true a b) (isubz false a b).
Proof. apply arith_isize_b. Qed.
Lemma debug_assert_b c : rle (debug_assert true c) (debug_assert false c).
Proof. destruct c; [right|left]; reflexivity. Qed.

Create HintDb builds.
#[local] Hint Resolve rle_refl ile_refl uadd_b usubz_b iadd_b isubz_b debug_assert_b : builds.
Ltac branch :=
  match goal with
  | |- rle (match ?x with _ => _ end) (match ?x with _ => _ end) => destruct x
  | |- ile (match ?x with _ => _ end) (match ?x with _ => _ end) => destruct x
  end.
Ltac agree := repeat (first [solve [auto with builds] | apply rle_bind | apply ile_bind | apply ile_lift | branch | intro]).

Lemma before_end_b c rv : rle (before_end true c rv) (before_end false c rv).
Proof. unfold before_end. agree. Qed.
#[local] Hint Resolve before_end_b : builds.
Lemma before_length_b c rv : rle (before_length true c rv) (before_length false c rv).
Proof. unfold before_length. agree. Qed.
#[local] Hint Resolve before_length_b : builds.
Lemma before_range_b c rd rv : rle (before_range true c rd rv) (before_range false c rd rv).
Proof. unfold before_range. agree. Qed.
#[local] Hint Resolve before_range_b : builds.
Lemma my_before_range_b c rd rv : rle (my_before_range true c rd rv) (my_before_range false c rd rv).
Proof. unfold my_before_range. agree. Qed.
#[local] Hint Resolve my_before_range_b : builds.
Lemma snippet_items_b {T} (s : snippet T) r : rle (snippet_items true s r) (snippet_items false s r).
Proof.
  unfold snippet_items. destruct r as [[a b]|]; [|agree].
  apply rle_bind; [|agree].
  destruct (uadd true (zlen (sn_items s)) (sn_start s)) as [m| |] eqn:H; cbn [bind]; [|left; reflexivity|].
  - apply debug_assert_b.
  - unfold uadd, arith_usize in H. destruct (in_usize _); discriminate H.
Qed.
#[local] Hint Resolve snippet_items_b : builds.
Lemma before_lines_b c r rv : rle (before_lines true c r rv) (before_lines false c r rv).
Proof. unfold before_lines. agree. Qed.
#[local] Hint Resolve before_lines_b : builds.
Lemma before_adjusted_start_b c o rd rv : rle (before_adjusted_start true c o rd rv) (before_adjusted_start false c o rd rv).
Proof. unfold before_adjusted_start. agree. Qed.
#[local] Hint Resolve before_adjusted_start_b : builds.
Lemma before_adjusted_length_b c rd rv : rle (before_adjusted_length true c rd rv) (before_adjusted_length false c rd rv).
Proof. unfold before_adjusted_length. agree. Qed.
#[local] Hint Resolve before_adjusted_length_b : builds.
Lemma before_is_subsequence_b c t p rd rv :
  rle (before_is_subsequence_in_at true c t p rd rv) (before_is_subsequence_in_at false c t p rd rv).
Proof. unfold before_is_subsequence_in_at. agree. Qed.
#[local] Hint Resolve before_is_subsequence_b : builds.
Lemma before_write_b c rd rv : ile (before_write_into true c rd rv) (before_write_into false c rd rv).
Proof. unfold before_write_into. agree. Qed.
#[local] Hint Resolve before_write_b : builds.
Lemma after_write_b c rd rv : ile (after_write_into true c rd rv) (after_write_into false c rd rv).
Proof. unfold after_write_into. agree. Qed.
#[local] Hint Resolve after_write_b : builds.
Lemma will_apply_loop_b c t s rv ns : rle (will_apply_loop true c t s rv ns) (will_apply_loop false c t s rv ns).
Proof. induction ns as [|n ns IH]; cbn [will_apply_loop]; agree. Qed.
#[local] Hint Resolve will_apply_loop_b : builds.
Lemma will_apply_b c t o rv : rle (will_apply true c t o rv) (will_apply false c t o rv).
Proof. unfold will_apply. agree. Qed.
#[local] Hint Resolve will_apply_b : builds.
Lemma is_already_applied_b c t o rv : rle (is_already_applied true c t o rv) (is_already_applied false c t o rv).
Proof. apply will_apply_b. Qed.
#[local] Hint Resolve is_already_applied_b : builds.
Lemma seq_write_b {T} (wr : list T -> io unit) t s e : ile (seq_write_into wr true t s e) (seq_write_into wr false t s e).
Proof. unfold seq_write_into. agree. Qed.
#[local] Hint Resolve seq_write_b : builds.
Lemma write_upto_b {T} (wr : list T -> io unit) t k e : ile (write_into_upto wr true t k e) (write_into_upto wr false t k e).
Proof. unfold write_into_upto. agree. Qed.
#[local] Hint Resolve write_upto_b : builds.
Lemma write_remainder_b {T} (wr : list T -> io unit) t k : ile (write_remainder wr true t k) (write_remainder wr false t k).
Proof. unfold write_remainder. agree. Qed.
#[local] Hint Resolve write_remainder_b : builds.
Lemma advance_b k n : rle (advance_consumed_by true k n) (advance_consumed_by false k n).
Proof. apply uadd_b. Qed.
#[local] Hint Resolve advance_b : builds.
Lemma clump_apply_b c t k o rd rv : ile (clump_apply_into true c t k o rd rv) (clump_apply_into false c t k o rd rv).
Proof. unfold clump_apply_into. agree. Qed.
#[local] Hint Resolve clump_apply_b : builds.
Lemma already_into_b c t k o rd rv : ile (already_applied_into true c t k o rd rv) (already_applied_into false c t k o rd rv).
Proof. unfold already_applied_into. agree. Qed.
#[local] Hint Resolve already_into_b : builds.
Lemma nearby_loop_b c t k na o rv fuel : forall i b f,
  rle (nearby_loop true fuel c t k na o rv i b f) (nearby_loop false fuel c t k na o rv i b f).
Proof. induction fuel as [|fuel IH]; intros i b f; cbn [nearby_loop]; agree. Qed.
#[local] Hint Resolve nearby_loop_b : builds.
Lemma nearby_not_after_b c t n o rv : rle (nearby_not_after true c t n o rv) (nearby_not_after false c t n o rv).
Proof. unfold nearby_not_after. agree. Qed.
#[local] Hint Resolve nearby_not_after_b : builds.
Lemma will_apply_nearby_b c t k n o rv : rle (will_apply_nearby true c t k n o rv) (will_apply_nearby false c t k n o rv).
Proof. unfold will_apply_nearby. agree. Qed.
#[local] Hint Resolve will_apply_nearby_b : builds.
Lemma already_nearby_b c t k n o rv : rle (is_already_applied_nearby true c t k n o rv) (is_already_applied_nearby false c t k n o rv).
Proof. apply will_apply_nearby_b. Qed.
#[local] Hint Resolve already_nearby_b : builds.
Lemma failure_b c rv : ile (write_failure_data_into true c rv) (write_failure_data_into false c rv).
Proof. unfold write_failure_data_into. agree. Qed.
#[local] Hint Resolve failure_b : builds.
Lemma apply_step_b t rv c n k o st : ile (apply_step true t rv c n k o st) (apply_step false t rv c n k o st).
Proof. unfold apply_step. agree. Qed.
#[local] Hint Resolve apply_step_b : builds.
Lemma apply_clumps_b t rv cs : forall k o st, ile (apply_clumps true t rv cs k o st) (apply_clumps false t rv cs k o st).
Proof. induction cs as [|c cs IH]; intros k o st; cbn [apply_clumps]; agree. Qed.
#[local] Hint Resolve apply_clumps_b : builds.
Lemma text_apply_b cs t rv : ile (text_apply_into true cs t rv) (text_apply_into false cs t rv).
Proof. unfold text_apply_into. agree. Qed.
Lemma text_query_b cs t rv : rle (text_is_already_applied true cs t rv) (text_is_already_applied false cs t rv).
Proof.
  unfold text_is_already_applied. generalize 0.
  induction cs as [|c cs IH]; intros o; cbn [text_already_applied_loop]; agree.
Qed.

Lemma byte_clump_apply_b c t k rv : ile (byte_clump_apply_into true c t k rv) (byte_clump_apply_into false c t k rv).
Proof. unfold byte_clump_apply_into. agree. Qed.
#[local] Hint Resolve byte_clump_apply_b : builds.
Lemma byte_already_b c t k rv : ile (byte_already_applied_into true c t k rv) (byte_already_applied_into false c t k rv).
Proof. unfold byte_already_applied_into. agree. Qed.
#[local] Hint Resolve byte_already_b : builds.
Lemma byte_apply_clumps_b t rv cs : forall k, ile (byte_apply_clumps true t rv cs k) (byte_apply_clumps false t rv cs k).
Proof. induction cs as [|c cs IH]; intros k; cbn [byte_apply_clumps]; agree. Qed.
#[local] Hint Resolve byte_apply_clumps_b : builds.
Lemma byte_apply_b cs t rv : ile (byte_apply_into true cs t rv) (byte_apply_into false cs t rv).
Proof. unfold byte_apply_into. agree. Qed.

(* ---------------- unified diffs ---------------- *)
Lemma u8_incr_b n : rle (u8_incr true n) (u8_incr false n).
Proof. unfold u8_incr. destruct (n <? 255); [right|left]; reflexivity. Qed.
#[local] Hint Resolve u8_incr_b : builds.
Lemma take_line_b i st l : rle (take_line true i st l) (take_line false i st l).
Proof. unfold take_line. agree. Qed.
#[local] Hint Resolve take_line_b : builds.
Lemma take_lines_b h i ls : forall st, rle (take_lines true h i st ls) (take_lines false h i st ls).
Proof. induction ls as [|l ls IH]; intros st; cbn [take_lines]; agree. Qed.
#[local] Hint Resolve take_lines_b : builds.
Lemma get_from_at_b nd ls i : rle (get_from_at nd true ls i) (get_from_at nd false ls i).
Proof. unfold get_from_at. agree. Qed.
Lemma uc_before_end_b c rv : rle (uc_before_end true c rv) (uc_before_end false c rv).
Proof. unfold uc_before_end. agree. Qed.

(* ---------------- with messages, and the programs ---------------- *)
Definition lle {A} (d r : lio A) : Prop := forall w, fst (snd (d w)) = Panicked \/ d w = r w.
Definition ple {A} (d r : lprog A) : Prop := forall w, fst (snd (d w)) = Abort \/ d w = r w.
Lemma lle_refl {A} (m : lio A) : lle m m.
Proof. intros w. right. reflexivity. Qed.
Lemma lle_mute {A} (m m' : io A) : ile m m' -> lle (mute m) (mute m').
Proof. intros H w. unfold mute. destruct (H w) as [E|E]; [left; exact E|right; rewrite E; reflexivity]. Qed.
Lemma lle_bind {A B} (m m' : lio A) (k k' : A -> lio B) :
  lle m m' -> (forall a, lle (k a) (k' a)) -> lle (lbind m k) (lbind m' k').
Proof.
  intros H K w. unfold lbind. destruct (H w) as [E|E].
  - left. destruct (m w) as [ev [x w']]. cbn [fst snd] in E. subst x. reflexivity.
  - rewrite E. destruct (m' w) as [ev [[a| | |] w']]; [|right; reflexivity..].
    destruct (K a w') as [F|F].
    + left. destruct (k a w') as [ev' x]. exact F.
    + right. rewrite F. reflexivity.
Qed.
Lemma ple_refl {A} (m : lprog A) : ple m m.
Proof. intros w. right. reflexivity. Qed.
Lemma ple_bind {A B} (m m' : lprog A) (k k' : A -> lprog B) :
  ple m m' -> (forall a, ple (k a) (k' a)) -> ple (lpbind m k) (lpbind m' k').
Proof.
  intros H K w. unfold lpbind. destruct (H w) as [E|E].
  - left. destruct (m w) as [ev [x w']]. cbn [fst snd] in E. subst x. reflexivity.
  - rewrite E. destruct (m' w) as [ev [[a| | |] w']]; [|right; reflexivity..].
    destruct (K a w') as [F|F].
    + left. destruct (k a w') as [ev' x]. exact F.
    + right. rewrite F. reflexivity.
Qed.
#[local] Hint Resolve lle_refl ple_refl lle_mute text_apply_b byte_apply_b : builds.
Ltac branch_l :=
  match goal with
  | |- lle (match ?x with _ => _ end) (match ?x with _ => _ end) => destruct x
  | |- ple (match ?x with _ => _ end) (match ?x with _ => _ end) => destruct x
  end.
Ltac agree_l := repeat (first [solve [auto with builds] | apply lle_bind | apply ple_bind | apply lle_mute | apply ile_lift | branch_l | intro]).

Lemma apply_step_logged_b t rv c n i k o st :
  lle (apply_step_logged true t rv c n i k o st) (apply_step_logged false t rv c n i k o st).
Proof. unfold apply_step_logged. agree_l. Qed.
#[local] Hint Resolve apply_step_logged_b : builds.
Lemma apply_clumps_logged_b t rv cs : forall i k o st,
  lle (apply_clumps_logged true t rv cs i k o st) (apply_clumps_logged false t rv cs i k o st).
Proof. induction cs as [|c cs IH]; intros i k o st; cbn [apply_clumps_logged]; agree_l. Qed.
#[local] Hint Resolve apply_clumps_logged_b : builds.
Lemma text_apply_logged_b cs t rv : lle (text_apply_logged true cs t rv) (text_apply_logged false cs t rv).
Proof. unfold text_apply_logged. agree_l. Qed.
Lemma byte_clumps_logged_b t rv cs : forall i k, lle (byte_clumps_logged true t rv cs i k) (byte_clumps_logged false t rv cs i k).
Proof. induction cs as [|c cs IH]; intros i k; cbn [byte_clumps_logged]; agree_l. Qed.
#[local] Hint Resolve byte_clumps_logged_b : builds.
Lemma byte_apply_logged_b cs t rv : lle (byte_apply_logged true cs t rv) (byte_apply_logged false cs t rv).
Proof. unfold byte_apply_logged. agree_l. Qed.

Section Programs.
  Variables (tmp : path) (mode : N) (flt : nat -> fault) (so : option nat).
  Definition env_of (dbg : bool) : env := Env dbg tmp mode flt so.

  (* the part of patch_change_logged from the writing on *)
  Lemma write_b {B} (p : path) (m m' : lio B) (k : ores B -> lprog unit) :
    lle m m' -> (forall w, fst (snd (k Panicked w)) = Abort) ->
    ple (lpbind (write_file_logged (env_of true) p m) k) (lpbind (write_file_logged (env_of false) p m') k).
  Proof.
    intros H K w. unfold write_file_logged, write_file, op, lpbind. cbn [env_of e_fault].
    destruct (w_fs w p) as [[md d|]|] eqn:P; [|right; reflexivity..].
    set (wr := Writer [] _). destruct (H wr) as [X|X].
    - left. destruct (m wr) as [ev [x wr']]. cbn [fst snd] in X. subst x. cbn [fst snd].
      match goal with |- context [k Panicked ?w'] => specialize (K w'); destruct (k Panicked w') as [ev' y] end.
      exact K.
    - right. rewrite X. reflexivity.
  Qed.
  Lemma patch_change_b {A B} target items (ap ap' : A -> lio B) report :
    (forall x, lle (ap x) (ap' x)) ->
    ple (patch_change_logged (env_of true) target items ap report) (patch_change_logged (env_of false) target items ap' report).
  Proof.
    intros H. unfold patch_change_logged. apply ple_bind; [apply ple_refl|intros [|]; [|apply ple_refl]].
    apply ple_bind; [apply ple_refl|intros [d|]; [|apply ple_refl]].
    apply ple_bind; [apply ple_refl|intros [x|]; [|apply ple_refl]].
    apply ple_bind; [apply ple_refl|intros [|]; [|apply ple_refl]].
    apply ple_bind; [apply ple_refl|intros [|]; [|apply ple_refl]].
    apply (write_b (e_tmp (env_of true)) (ap x) (ap' x)); [apply H|].
    intros w. cbv beta delta [silent pbnd drop_temp remove_file op pret]. cbn [fst snd env_of e_fault e_tmp w_fs w_ops]. destruct (flt (w_ops w)), (w_fs w tmp) as [[? ?|]|]; reflexivity.
  Qed.
  Lemma patch_logged_b patch rv : ple (patch_main_logged (env_of true) patch rv) (patch_main_logged (env_of false) patch rv).
  Proof.
    unfold patch_main_logged.
    apply ple_bind; [apply ple_refl|intros [|]; [|apply ple_refl]].
    apply ple_bind; [apply ple_refl|intros [d|]; [|apply ple_refl]].
    apply ple_bind; [apply ple_refl|intros [x|]; [|apply ple_refl]].
    destruct x as [x|x|x|x|x|x]; cbn [patch_diff_logged]; try apply ple_refl.
    - apply patch_change_b. intros ls. apply text_apply_logged_b.
    - apply patch_change_b. intros ls. apply byte_apply_logged_b.
  Qed.
End Programs.

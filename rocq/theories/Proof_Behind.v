(* Proof_Behind.v - lines and bytes added behind a text or data to which a patch applies (used by C134). *)
From Verif Require Import Base Model_Seq Model_Changes Model_IO Model_Text Model_Bytes Spec Spec_Result Proof_Seq Proof_IO Proof_Bytes.
Local Open Scope Z_scope.

Lemma zlen_app {T} (l m : list T) : zlen (l ++ m) = zlen l + zlen m.
Proof. unfold zlen. rewrite app_length. lia. Qed.
Lemma zlen_pos {T} (l : list T) : 0 <= zlen l.
Proof. unfold zlen. lia. Qed.

(* what lies within the list is the same after adding to it *)
Lemma zslice_behind {T} (l m : list T) a b x : zslice l a b = Ok x -> zslice (l ++ m) a b = Ok x.
Proof.
  unfold zslice. destruct ((0 <=? a) && (a <=? b) && (b <=? zlen l)) eqn:E; [|discriminate]. intros [= <-].
  apply andb_true_iff in E as [E E3]. apply andb_true_iff in E as [E1 E2]. rewrite zlen_app. pose proof (zlen_pos m).
  replace ((0 <=? a) && (a <=? b) && (b <=? zlen l + zlen m)) with true by lia. f_equal.
  unfold zlen in *. rewrite skipn_app, firstn_app, skipn_length.
  replace (Z.to_nat (b - a) - (length l - Z.to_nat a))%nat with 0%nat by lia. cbn [firstn]. now rewrite app_nil_r.
Qed.
Lemma zslice_rest {T} (l m : list T) a x : zslice l a (zlen l) = Ok x -> zslice (l ++ m) a (zlen (l ++ m)) = Ok (x ++ m).
Proof.
  unfold zslice. destruct ((0 <=? a) && (a <=? zlen l) && (zlen l <=? zlen l)) eqn:E; [|discriminate]. intros [= <-].
  apply andb_true_iff in E as [E E3]. apply andb_true_iff in E as [E1 E2]. rewrite zlen_app. pose proof (zlen_pos m).
  replace ((0 <=? a) && (a <=? zlen l + zlen m) && (zlen l + zlen m <=? zlen l + zlen m)) with true by lia. f_equal.
  unfold zlen in *. rewrite !firstn_all2; rewrite ?skipn_length, ?app_length; [|lia..].
  rewrite skipn_app. f_equal. replace (Z.to_nat a - length l)%nat with 0%nat by lia. reflexivity.
Qed.
Lemma assert_behind {T} dbg p (l m : list T) b : debug_assert dbg (p && (b <=? zlen l)) = Ok tt -> debug_assert dbg (p && (b <=? zlen (l ++ m))) = Ok tt.
Proof.
  unfold debug_assert. destruct dbg, p; cbn [andb negb]; auto. rewrite zlen_app. pose proof (zlen_pos m).
  destruct (Z.leb_spec b (zlen l)); [|discriminate]. now replace (b <=? zlen l + zlen m) with true by lia.
Qed.

(* [grows m m']: wherever [m] comes to an end, [m'] does the same *)
Definition grows {A} (m m' : io A) : Prop := forall w a w', m w = (Done a, w') -> m' w = (Done a, w').
Lemma grows_refl {A} (m : io A) : grows m m.
Proof. intros w a w' H. exact H. Qed.
Lemma grows_bind {A B} (m m' : io A) (k k' : A -> io B) : grows m m' -> (forall a, grows (k a) (k' a)) -> grows (iobind m k) (iobind m' k').
Proof.
  intros Hm Hk w b w' H. unfold iobind in H. destruct (m w) as [[a| | |] w1] eqn:E; try discriminate H.
  unfold iobind. rewrite (Hm _ _ _ E). now apply Hk.
Qed.
Lemma grows_lift {A} (x y : res A) : (forall a, x = Ok a -> y = Ok a) -> grows (lift x) (lift y).
Proof. intros H w a w' E. destruct x as [a'| |]; try discriminate E. injection E as -> ->. now rewrite (H a eq_refl). Qed.

Section Behind.
  Context {T : Type} (write_items : list T -> io unit).
  Variable dbg : bool.
  Variables l m : list T.
  Lemma grows_write s e : grows (seq_write_into write_items dbg l s e) (seq_write_into write_items dbg (l ++ m) s e).
  Proof.
    apply grows_bind; [apply grows_lift; intros []; apply assert_behind|]. intros _.
    apply grows_bind; [apply grows_lift; intros x; apply zslice_behind|]. intros x. apply grows_refl.
  Qed.
  Lemma grows_upto consumed upto : grows (write_into_upto write_items dbg l consumed upto) (write_into_upto write_items dbg (l ++ m) consumed upto).
  Proof.
    apply grows_bind; [apply grows_lift; intros []; apply (assert_behind dbg true)|]. intros _.
    destruct (consumed <? upto); [|apply grows_refl]. apply grows_bind; [apply grows_write|]. intros []. apply grows_refl.
  Qed.
  Variable flat : list T -> list byte.
  Hypothesis flat_app : forall x y, flat (x ++ y) = flat x ++ flat y.
  Hypothesis writes : forall x, emits (write_items x) (flat x) (Done tt).
  Lemma remainder_behind consumed out out' n : write_remainder write_items dbg l consumed (Writer out None) = (Done n, Writer out' None) ->
    write_remainder write_items dbg (l ++ m) consumed (Writer out None) = (Done (zlen (l ++ m)), Writer (out' ++ flat m) None).
  Proof.
    unfold write_remainder, seq_write_into, iobind, lift. destruct (debug_assert dbg ((consumed <=? zlen l) && (zlen l <=? zlen l))) as [[]| |] eqn:E1; try discriminate.
    destruct (zslice l consumed (zlen l)) as [x| |] eqn:E2; try discriminate. pose proof (zlen_pos m) as Hm.
    replace (debug_assert dbg ((consumed <=? zlen (l ++ m)) && (zlen (l ++ m) <=? zlen (l ++ m)))) with (Ok tt : res unit).
    2:{ revert E1. unfold debug_assert. destruct dbg; [|reflexivity]. cbn [andb]. rewrite zlen_app.
        destruct (Z.leb_spec consumed (zlen l)); [|discriminate]. intros _. now replace ((consumed <=? zlen l + zlen m) && (zlen l + zlen m <=? zlen l + zlen m)) with true by lia. }
    rewrite (zslice_rest _ m _ _ E2). destruct (writes x) as [_ W]. destruct (writes (x ++ m)) as [_ W']. rewrite W, W'. unfold run_emit. cbn [w_room w_out].
    intros [= <- <-]. unfold ret. now rewrite flat_app, app_assoc.
  Qed.
End Behind.

Section TextBehind.
  Variable dbg : bool.
  Variables target more : list line.
  Variable reverse : bool.

  Lemma found_behind c at_ reductions : before_is_subsequence_in_at dbg c target at_ reductions reverse = Ok true ->
    before_is_subsequence_in_at dbg c (target ++ more) at_ reductions reverse = Ok true.
  Proof.
    unfold before_is_subsequence_in_at. destruct (my_before_range dbg c reductions reverse) as [r| |]; try discriminate. cbn [bind].
    destruct (uadd dbg at_ (zrange_len r)) as [e| |]; try discriminate. cbn [bind]. rewrite zlen_app. pose proof (zlen_pos more).
    destruct (Z.ltb_spec (zlen target) e); [discriminate|]. replace (zlen target + zlen more <? e) with false by lia.
    destruct (before_lines dbg c (Some r) reverse) as [mine| |]; try discriminate. cbn [bind].
    destruct (zslice target at_ e) as [theirs| |] eqn:E; try discriminate. now rewrite (zslice_behind _ more _ _ _ E).
  Qed.
  Lemma loop_not_clean c start redns : will_apply_loop dbg c target start reverse redns <> Ok (Some Cleanly).
  Proof.
    induction redns as [|n redns IH]; [discriminate|]. cbn [will_apply_loop].
    destruct (iadd dbg start _) as [s| |]; try discriminate. cbn [bind]. destruct (if 0 <=? s then _ else _) as [[]| |]; try discriminate. exact IH.
  Qed.
  Lemma clean_behind c offset : will_apply dbg c target offset reverse = Ok (Some Cleanly) -> will_apply dbg c (target ++ more) offset reverse = Ok (Some Cleanly).
  Proof.
    unfold will_apply. destruct (before_adjusted_start dbg c offset None reverse) as [s| |]; try discriminate. cbn [bind]. destruct (0 <=? s).
    - destruct (before_is_subsequence_in_at dbg c target (as_usize s) None reverse) as [[]| |] eqn:E; try discriminate.
      + now rewrite (found_behind _ _ _ E).
      + cbn [bind]. intros H. now apply loop_not_clean in H.
    - cbn [bind]. intros H. now apply loop_not_clean in H.
  Qed.

  Lemma iobind_inv {A B} (m : io A) (k : A -> io B) w b w' : iobind m k w = (Done b, w') -> exists a w1, m w = (Done a, w1) /\ k a w1 = (Done b, w').
  Proof. unfold iobind. destruct (m w) as [[a| | |] w1]; try discriminate. eauto. Qed.

  (* a step counts its clump once, and as clean only if it is found where it is expected *)
  Lemma step_counts c next n o st w n' o' st' w' : apply_step dbg target reverse c next n o st w = (Done (n', o', st'), w') ->
    (st_clean st' <= S (st_clean st))%nat /\ (st_clean st' = S (st_clean st) ->
      apply_step dbg (target ++ more) reverse c next n o st w = (Done (n', o', st'), w')).
  Proof.
    intros H. unfold apply_step in H. apply iobind_inv in H as (f & w1 & Ef & H). unfold lift in Ef.
    destruct (will_apply dbg c target o reverse) as [f'| |] eqn:E; try discriminate Ef. injection Ef as -> ->.
    destruct f as [[|r]|].
    - split; [apply iobind_inv in H as (? & ? & _ & H); injection H as _ _ <- _; cbn; lia|]. intros _.
      unfold apply_step. rewrite (clean_behind _ _ E). unfold iobind at 1, lift at 1. revert H. apply grows_bind; [|intros; apply grows_refl].
      unfold clump_apply_into. apply grows_bind; [apply grows_refl|]. intros e. apply grows_bind; [apply grows_upto|]. intros x. apply grows_refl.
    - apply iobind_inv in H as (? & ? & _ & H). injection H as _ _ <- _. cbn. split; lia.
    - cut (st_clean st' = st_clean st); [intros ->; split; lia|].
      repeat match goal with
      | H : iobind _ _ _ = (Done _, _) |- _ => apply iobind_inv in H as (? & ? & _ & H)
      | H : match ?x with _ => _ end _ = (Done _, _) |- _ => destruct x
      | H : ret _ _ = _ |- _ => injection H as _ _ <- _
      end; reflexivity.
  Qed.
  Lemma clumps_count cs : forall n o st w n' st' w', apply_clumps dbg target reverse cs n o st w = (Done (n', st'), w') -> (st_clean st' <= length cs + st_clean st)%nat.
  Proof.
    induction cs as [|c cs IH]; intros n o st w n' st' w' H; cbn [apply_clumps] in H; [injection H as _ <- _; cbn; lia|].
    apply iobind_inv in H as ([[n1 o1] st1] & w1 & E & H). apply step_counts in E as [E _]. apply IH in H. cbn [length]. lia.
  Qed.
  Lemma clumps_behind cs : forall n o st w n' st' w', apply_clumps dbg target reverse cs n o st w = (Done (n', st'), w') ->
    st_clean st' = (length cs + st_clean st)%nat -> apply_clumps dbg (target ++ more) reverse cs n o st w = (Done (n', st'), w').
  Proof.
    induction cs as [|c cs IH]; intros n o st w n' st' w' H Hc; cbn [apply_clumps] in *; [exact H|].
    apply iobind_inv in H as ([[n1 o1] st1] & w1 & E & H). apply step_counts in E as [E1 E2]. pose proof (clumps_count _ _ _ _ _ _ _ _ H) as C. cbn [length] in Hc.
    unfold iobind at 1. rewrite E2 by lia. apply IH; [exact H|lia].
  Qed.
  Lemma text_behind cs st out : text_apply_into dbg cs target reverse (Writer [] None) = (Done st, Writer out None) -> st_clean st = length cs ->
    text_apply_into dbg cs (target ++ more) reverse (Writer [] None) = (Done st, Writer (out ++ concat more) None).
  Proof.
    unfold text_apply_into. intros H Hc. apply iobind_inv in H as ([n st1] & w1 & E & H). apply iobind_inv in H as (k & w2 & E2 & H). injection H as -> ->.
    apply clumps_behind in E; [|cbn [st_clean stats0]; lia]. unfold iobind at 1. rewrite E.
    assert (R : exists o, w1 = Writer o None).
    { destruct w1 as [o [r|]]; [|eauto]. exfalso. revert E2. unfold write_remainder, seq_write_into, iobind, lift.
      destruct (debug_assert _ _) as [[]| |]; try discriminate. destruct (zslice _ _ _) as [x| |]; try discriminate.
      destruct (emits_write_lines x) as [_ W]. rewrite W. unfold run_emit. cbn [w_room w_out]. destruct (_ <=? _)%nat; discriminate. }
    destruct R as [o ->]. unfold iobind. now rewrite (remainder_behind write_lines dbg target more (@concat byte) (@concat_app byte) emits_write_lines _ _ _ _ E2).
  Qed.
End TextBehind.

Section BytesBehind.
  Variable dbg : bool.
  Variables data more : list byte.
  Variable reverse : bool.
  Lemma has_behind items at_ : 0 <= at_ -> has_subsequence_at_z Byte.eqb data items at_ = true -> has_subsequence_at_z Byte.eqb (data ++ more) items at_ = true.
  Proof.
    intros H0 H. apply has_subsequence_spec in H as [H1 (p & -> & H2 & H3)]; [|exact byte_eqb_lawful|assumption].
    apply has_subsequence_spec; [exact byte_eqb_lawful|assumption|]. rewrite zlen_app. pose proof (zlen_pos more). split; [lia|].
    exists p. split; [reflexivity|]. rewrite app_length. split; [lia|]. rewrite <- H3 at 2. unfold sub. rewrite skipn_app, firstn_app, skipn_length.
    replace (p + length items - p - (length data - p))%nat with 0%nat by lia. cbn [firstn]. apply app_nil_r.
  Qed.
  Lemma has_nonempty items at_ : items <> [] -> occurs_at data items at_ -> has_subsequence_at_z Byte.eqb data items at_ = true.
  Proof.
    intros Hn (p & -> & H2 & H3). apply has_subsequence_spec; [exact byte_eqb_lawful|lia|]. split; [|exists p; auto].
    destruct items; [congruence|]. cbn [length] in H2. unfold zlen. lia.
  Qed.
  Lemma byte_clumps_behind cs : Forall (fun c => 0 <= sn_start (bc_side c reverse) /\ byte_will_apply c data reverse = true) cs -> forall n,
    grows (byte_apply_clumps dbg data reverse cs n) (byte_apply_clumps dbg (data ++ more) reverse cs n).
  Proof.
    induction 1 as [|c cs [H0 H] _ IH]; intros n; cbn [byte_apply_clumps]; [apply grows_refl|].
    apply grows_bind; [|exact IH]. rewrite H. replace (byte_will_apply c (data ++ more) reverse) with true by (symmetry; now apply has_behind).
    unfold byte_clump_apply_into. apply grows_bind; [apply grows_upto|]. intros x. apply grows_refl.
  Qed.
  Lemma byte_behind cs out : Forall (fun c => 0 <= sn_start (bc_side c reverse) /\ byte_will_apply c data reverse = true) cs ->
    byte_apply_into dbg cs data reverse (Writer [] None) = (Done tt, Writer out None) ->
    byte_apply_into dbg cs (data ++ more) reverse (Writer [] None) = (Done tt, Writer (out ++ more) None).
  Proof.
    unfold byte_apply_into. intros F H. apply iobind_inv in H as (n & w1 & E & H). apply iobind_inv in H as (k & w2 & E2 & H). injection H as ->.
    apply (byte_clumps_behind _ F) in E. unfold iobind at 1. rewrite E.
    assert (R : exists o, w1 = Writer o None).
    { destruct w1 as [o [r|]]; [|eauto]. exfalso. revert E2. unfold write_remainder, seq_write_into, iobind, lift.
      destruct (debug_assert _ _) as [[]| |]; try discriminate. destruct (zslice _ _ _) as [x| |]; try discriminate.
      destruct (emits_write_all x) as [_ W]. rewrite W. unfold run_emit. cbn [w_room w_out]. destruct (_ <=? _)%nat; discriminate. }
    destruct R as [o ->]. unfold iobind. now rewrite (remainder_behind write_all dbg data more (fun x => x) (fun x y => eq_refl) emits_write_all _ _ _ _ E2).
  Qed.
  Lemma byte_query_behind cs : Forall (fun c => 0 <= sn_start (bc_side c (negb reverse))) cs ->
    byte_already_applied cs data reverse = true -> byte_already_applied cs (data ++ more) reverse = true.
  Proof.
    unfold byte_already_applied. rewrite !forallb_forall, Forall_forall. intros F H c Hc. now apply has_behind; [apply F|apply H].
  Qed.
End BytesBehind.

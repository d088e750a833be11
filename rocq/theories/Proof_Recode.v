(* Proof_Recode.v - the code treats all lines and bytes alike (C132). *)
From Verif Require Import Base Model_Seq Model_Changes Model_IO Model_Text Model_Bytes Spec Spec_Outcome Spec_Result Spec_Recode Proof_Seq Proof_IO.

(* ------------------------------------------------------------------ sequences *)
Definition map_ok {A B} (f : A -> B) (r : res A) : res B := match r with Ok a => Ok (f a) | Panic => Panic | OutOfFuel => OutOfFuel end.
Lemma zlen_map {A B} (f : A -> B) l : zlen (map f l) = zlen l.
Proof. unfold zlen. now rewrite map_length. Qed.
Lemma zslice_map {A B} (f : A -> B) l a b : zslice (map f l) a b = map_ok (map f) (zslice l a b).
Proof. unfold zslice. rewrite zlen_map. destruct ((0 <=? a) && (a <=? b) && (b <=? zlen l))%Z; [|reflexivity]. cbn. now rewrite skipn_map, firstn_map. Qed.
Lemma zslice_in {A} (l : list A) a b s x : zslice l a b = Ok s -> In x s -> In x l.
Proof.
  unfold zslice. destruct ((0 <=? a) && (a <=? b) && (b <=? zlen l))%Z; [|discriminate]. intros [= <-] H.
  rewrite <- (firstn_skipn (Z.to_nat a) l). apply in_or_app. right. rewrite <- (firstn_skipn (Z.to_nat (b - a)) (skipn (Z.to_nat a) l)). apply in_or_app. now left.
Qed.
Lemma zip_map {T} (eqb : T -> T -> bool) (H : lawful eqb) (f : T -> T) l r : (forall x y, In x l -> In y r -> f x = f y -> x = y) ->
  zip_all_eq eqb (map f l) (map f r) = zip_all_eq eqb l r.
Proof.
  revert r. induction l as [|x l IH]; intros [|y r] Hf; try reflexivity. cbn [map zip_all_eq].
  rewrite IH by (intros; apply Hf; (now right) || assumption). f_equal.
  destruct (eqb y x) eqn:E1, (eqb (f y) (f x)) eqn:E2; try reflexivity.
  - apply H in E1 as ->. rewrite (proj2 (H (f x) (f x)) eq_refl) in E2. discriminate.
  - apply H in E2. rewrite (Hf x y) in E1 by (try (now left); congruence). rewrite (proj2 (H y y) eq_refl) in E1. discriminate.
Qed.

(* ------------------------------------------------------------------ what is written *)
Section Text.
  Variable f : line -> line.
  Variable src : line -> Prop. (* the lines that may be written *)

  Definition alike {A} (m m' : io A) (R : list piece -> ores A -> Prop) : Prop :=
    exists ps r, emits m (pieces_as (fun l => l) ps) r /\ emits m' (pieces_as f ps) r /\ R ps r.
  Definition good (p : piece) : Prop := match p with Whole l => src l | Marker m => In m marks end.
  Definition all_good (ps : list piece) : Prop := forall p, In p ps -> good p.
  Definition all_whole (ps : list piece) : Prop := all_good ps /\ forall m, ~ In (Marker m) ps.
  Definition whole {A} (ps : list piece) (r : ores A) : Prop := all_whole ps.
  Lemma pieces_app g ps qs : pieces_as g (ps ++ qs) = pieces_as g ps ++ pieces_as g qs.
  Proof. unfold pieces_as. now rewrite map_app, concat_app. Qed.
  Lemma good_app ps qs : all_good ps -> all_good qs -> all_good (ps ++ qs).
  Proof. intros H1 H2 p H. apply in_app_or in H as [H|H]; auto. Qed.
  Lemma whole_app ps qs : all_whole ps -> all_whole qs -> all_whole (ps ++ qs).
  Proof. intros [G1 H1] [G2 H2]. split; [now apply good_app|]. intros m H. apply in_app_or in H as [H|H]; [now apply (H1 m)|now apply (H2 m)]. Qed.

  Lemma alike_weaken {A} (m m' : io A) (R R' : list piece -> ores A -> Prop) : (forall ps r, R ps r -> R' ps r) -> alike m m' R -> alike m m' R'.
  Proof. intros H (ps & r & H1 & H2 & H3). exists ps, r. auto. Qed.
  Lemma alike_ret {A} (a : A) : alike (ret a) (ret a) (fun ps r => ps = [] /\ r = Done a).
  Proof. exists [], (Done a). split; [apply emits_ret|]. split; [apply emits_ret|auto]. Qed.
  Lemma alike_lift {A} (m m' : res A) : m' = m -> alike (lift m) (lift m') (fun ps r => ps = [] /\ r = ores_of m).
  Proof. intros ->. exists [], (ores_of m). split; [apply emits_lift|]. split; [apply emits_lift|auto]. Qed.
  Lemma alike_bind {A B} (m m' : io A) (k k' : A -> io B) R1 (R2 : A -> list piece -> ores B -> Prop) (R : list piece -> ores B -> Prop) :
    alike m m' R1 -> (forall a, alike (k a) (k' a) (R2 a)) ->
    (forall ps a qs r, R1 ps (Done a) -> R2 a qs r -> R (ps ++ qs) r) ->
    (forall ps r, R1 ps r -> (forall a, r <> Done a) -> R ps (recast r)) ->
    alike (iobind m k) (iobind m' k') R.
  Proof.
    intros (ps & r & E1 & E2 & H) Hk K1 K2.
    assert (Stop : (forall a, r <> Done a) -> alike (iobind m k) (iobind m' k') R).
    { intros N. exists ps, (recast r). split; [now apply emits_bind_stop|]. split; [now apply emits_bind_stop|auto]. }
    destruct r as [a| | |]; try (apply Stop; discriminate).
    destruct (Hk a) as (qs & r2 & F1 & F2 & H'). exists (ps ++ qs), r2. rewrite !pieces_app.
    split; [eapply emits_bind; eassumption|]. split; [eapply emits_bind; eassumption|eauto].
  Qed.
  Lemma alike_bind_lift {A B} (m m' : res A) (k k' : A -> io B) R : m' = m -> (forall a, m = Ok a -> alike (k a) (k' a) R) ->
    (forall r : ores B, (forall b, r <> Done b) -> R [] r) -> alike (iobind (lift m) k) (iobind (lift m') k') R.
  Proof.
    intros -> Hk HR.
    assert (Stop : (forall a, ores_of m <> Done a) -> alike (iobind (lift m) k) (iobind (lift m) k') R).
    { intros N. exists [], (recast (ores_of m)). split; [apply emits_bind_stop; [apply emits_lift|assumption]|]. split; [apply emits_bind_stop; [apply emits_lift|assumption]|].
      apply HR. destruct m; discriminate. }
    destruct m as [a| |]; try (apply Stop; discriminate).
    destruct (Hk a eq_refl) as (ps & r & H1 & H2 & H3). exists ps, r. split; [eapply emits_lift_bind; [reflexivity|exact H1]|]. split; [eapply emits_lift_bind; [reflexivity|exact H2]|assumption].
  Qed.
  Lemma alike_bind_whole {A B} (m m' : io A) (k k' : A -> io B) : alike m m' whole -> (forall a, alike (k a) (k' a) whole) -> alike (iobind m k) (iobind m' k') whole.
  Proof. intros H1 H2. eapply alike_bind; [exact H1|exact H2| |]; unfold whole; intros; [now apply whole_app|assumption]. Qed.
  Lemma whole_nil {A} (r : ores A) : whole [] r.
  Proof. split; intros m []. Qed.
  Lemma alike_ret_whole {A} (a : A) : alike (ret a) (ret a) whole.
  Proof. eapply alike_weaken; [|apply alike_ret]. intros ps r [-> _]. apply whole_nil. Qed.
  Lemma alike_lift_whole {A} (m m' : res A) : m' = m -> alike (lift m) (lift m') whole.
  Proof. intros H. eapply alike_weaken; [|now apply alike_lift]. intros ps r [-> _]. apply whole_nil. Qed.
  Lemma alike_lines ls : (forall l, In l ls -> src l) -> alike (write_lines ls) (write_lines (map f ls)) whole.
  Proof.
    intros Hs. exists (map Whole ls), (Done tt). unfold pieces_as. rewrite !map_map. cbn [piece_as]. rewrite map_id. split; [apply emits_write_lines|]. split; [apply emits_write_lines|].
    split; intros m H; apply in_map_iff in H as (x & Hx & Hi); [subst m; now apply Hs|discriminate].
  Qed.
  Lemma alike_mark m : alike (write_all m) (write_all m) (fun ps r => ps = [Marker m] /\ r = Done tt).
  Proof.
    exists [Marker m], (Done tt). cbn [pieces_as map piece_as]. unfold pieces_as. cbn [map concat piece_as]. rewrite app_nil_r. split; [apply emits_write_all|]. split; [apply emits_write_all|auto].
  Qed.

  Lemma alike_lift_map {B} (m : res (list line)) (k : list line -> io B) (R : list piece -> ores B -> Prop) :
    (forall ls, m = Ok ls -> alike (k ls) (k (map f ls)) R) -> (forall r : ores B, (forall b, r <> Done b) -> R [] r) ->
    alike (do! ls := lift m in k ls) (do! ls := lift (map_ok (map f) m) in k ls) R.
  Proof.
    intros Hk HR. destruct m as [ls| |]; cbn [map_ok].
    - destruct (Hk ls eq_refl) as (ps & r & H1 & H2 & H3). exists ps, r. split; [eapply emits_lift_bind; [reflexivity|exact H1]|]. split; [eapply emits_lift_bind; [reflexivity|exact H2]|assumption].
    - exists [], Panicked. split; [exact (emits_bind_stop (lift Panic) k [] Panicked (emits_lift Panic) ltac:(discriminate))|]. split; [exact (emits_bind_stop (lift Panic) k [] Panicked (emits_lift Panic) ltac:(discriminate))|apply HR; discriminate].
    - exists [], NoFuel. split; [exact (emits_bind_stop (lift OutOfFuel) k [] NoFuel (emits_lift OutOfFuel) ltac:(discriminate))|]. split; [exact (emits_bind_stop (lift OutOfFuel) k [] NoFuel (emits_lift OutOfFuel) ltac:(discriminate))|apply HR; discriminate].
  Qed.

  Variable dbg : bool.
  Variable target : list line.
  Let target' := map f target.
  Hypothesis src_target : forall l, In l target -> src l.
  Definition from_src (c : text_clump) : Prop := forall l, In l (sn_items (tc_before c)) \/ In l (sn_items (tc_after c)) -> src l.

  Lemma alike_seq s e : alike (seq_write_into write_lines dbg target s e) (seq_write_into write_lines dbg target' s e) whole.
  Proof.
    unfold seq_write_into, target'. rewrite zlen_map, zslice_map. apply alike_bind_whole; [now apply alike_lift_whole|]. intros _.
    apply alike_lift_map; [|intros r _; apply whole_nil]. intros ls E. apply alike_lines. intros l Hl. apply src_target. now apply (zslice_in _ _ _ _ _ E).
  Qed.
  Lemma alike_upto c u : alike (write_into_upto write_lines dbg target c u) (write_into_upto write_lines dbg target' c u) whole.
  Proof.
    unfold write_into_upto. rewrite (zlen_map f target : zlen target' = zlen target). apply alike_bind_whole; [now apply alike_lift_whole|]. intros _.
    destruct (c <? u)%Z; [|apply alike_ret_whole]. apply alike_bind_whole; [apply alike_seq|]. intros _. apply alike_ret_whole.
  Qed.
  Lemma alike_rest c : alike (write_remainder write_lines dbg target c) (write_remainder write_lines dbg target' c) whole.
  Proof.
    unfold write_remainder. rewrite (zlen_map f target : zlen target' = zlen target). apply alike_bind_whole; [apply alike_seq|]. intros _. apply alike_ret_whole.
  Qed.

  (* ---------------- one clump ---------------- *)
  Lemma side_recode c reverse : tc_side (recode_text f c) reverse = recode_snippet f (tc_side c reverse).
  Proof. now destruct reverse. Qed.
  Lemma start_recode c reverse : before_start (recode_text f c) reverse = before_start c reverse.
  Proof. unfold before_start. now rewrite side_recode. Qed.
  Lemma end_recode c reverse : before_end dbg (recode_text f c) reverse = before_end dbg c reverse.
  Proof. unfold before_end. rewrite side_recode. cbn [recode_snippet sn_start sn_items]. now rewrite zlen_map. Qed.
  Lemma length_recode c reverse : before_length dbg (recode_text f c) reverse = before_length dbg c reverse.
  Proof. unfold before_length. now rewrite start_recode, end_recode. Qed.
  Lemma range_recode c red reverse : before_range dbg (recode_text f c) red reverse = before_range dbg c red reverse.
  Proof. unfold before_range. now rewrite start_recode, end_recode. Qed.
  Lemma my_range_recode c red reverse : my_before_range dbg (recode_text f c) red reverse = my_before_range dbg c red reverse.
  Proof. unfold my_before_range. now rewrite length_recode. Qed.
  Lemma lines_recode c r reverse : before_lines dbg (recode_text f c) r reverse = map_ok (map f) (before_lines dbg c r reverse).
  Proof.
    unfold before_lines, snippet_items. rewrite side_recode. cbn [recode_snippet sn_start sn_items]. destruct r as [[a b]|]; [|reflexivity].
    rewrite zlen_map, zslice_map. destruct (if dbg then _ else _) as [[]| |]; reflexivity.
  Qed.
  Lemma adj_start_recode c o red reverse : before_adjusted_start dbg (recode_text f c) o red reverse = before_adjusted_start dbg c o red reverse.
  Proof. unfold before_adjusted_start. now rewrite start_recode. Qed.
  Lemma adj_length_recode c red reverse : before_adjusted_length dbg (recode_text f c) red reverse = before_adjusted_length dbg c red reverse.
  Proof. unfold before_adjusted_length. now rewrite length_recode. Qed.
  Lemma lines_in c r reverse ls l : before_lines dbg c r reverse = Ok ls -> In l ls -> In l (sn_items (tc_before c)) \/ In l (sn_items (tc_after c)).
  Proof.
    unfold before_lines, snippet_items. intros E Hl. assert (K : In l (sn_items (tc_side c reverse))); [|unfold tc_side in K; destruct reverse; auto].
    destruct r as [[a b]|]; [|now injection E as <-]. destruct (if dbg then _ else _) as [[]| |]; [|discriminate..]. cbn [bind] in E. now apply (zslice_in _ _ _ _ _ E).
  Qed.
  Lemma alike_write c red reverse : from_src c -> alike (before_write_into dbg c red reverse) (before_write_into dbg (recode_text f c) red reverse) whole.
  Proof.
    intros Hc. assert (K : forall r, alike (do! ls := lift (before_lines dbg c r reverse) in write_lines ls) (do! ls := lift (before_lines dbg (recode_text f c) r reverse) in write_lines ls) whole).
    { intros r. rewrite lines_recode. apply alike_lift_map; [|intros x _; apply whole_nil]. intros ls E. apply alike_lines. intros l Hl. apply Hc. now apply (lines_in _ _ _ _ _ E). }
    unfold before_write_into. destruct red as [red|]; [|apply K]. rewrite range_recode. apply alike_bind_whole; [now apply alike_lift_whole|]. intros r. apply K.
  Qed.
  Lemma alike_place c consumed o red reverse : from_src c -> alike (clump_apply_into dbg c target consumed o red reverse) (clump_apply_into dbg (recode_text f c) target' consumed o red reverse) whole.
  Proof.
    intros Hc. unfold clump_apply_into. rewrite adj_start_recode, adj_length_recode. apply alike_bind_whole; [now apply alike_lift_whole|]. intros e.
    apply alike_bind_whole; [apply alike_upto|]. intros c1. apply alike_bind_whole; [now apply alike_write|]. intros _. apply alike_bind_whole; [now apply alike_lift_whole|]. intros l. now apply alike_lift_whole.
  Qed.
  Lemma alike_seen c consumed o red reverse : alike (already_applied_into dbg c target consumed o red reverse) (already_applied_into dbg (recode_text f c) target' consumed o red reverse) whole.
  Proof.
    unfold already_applied_into. rewrite adj_start_recode, adj_length_recode. apply alike_bind_whole; [now apply alike_lift_whole|]. intros e.
    apply alike_bind_whole; [now apply alike_lift_whole|]. intros l. apply alike_bind_whole; [now apply alike_lift_whole|]. intros u. apply alike_upto.
  Qed.
  Lemma alike_conflict c reverse : from_src c -> alike (write_failure_data_into dbg c reverse) (write_failure_data_into dbg (recode_text f c) reverse) (fun ps r => all_good ps).
  Proof.
    intros Hc. assert (M : forall m, In m marks -> alike (write_all m) (write_all m) (fun ps (r : ores unit) => all_good ps)).
    { intros m Hm. eapply alike_weaken; [|apply alike_mark]. intros ps r [-> _] x [<-|[]]. exact Hm. }
    assert (J : forall A B (m m' : io A) (k k' : A -> io B), alike m m' (fun ps r => all_good ps) ->
      (forall a, alike (k a) (k' a) (fun ps r => all_good ps)) -> alike (iobind m k) (iobind m' k') (fun ps r => all_good ps)).
    { intros A B m m' k k' H1 H2. eapply alike_bind; [exact H1|exact H2| |]; cbn beta; intros; [now apply good_app|assumption]. }
    assert (W : forall red rev, alike (before_write_into dbg c red rev) (before_write_into dbg (recode_text f c) red rev) (fun ps r => all_good ps)).
    { intros red rv. eapply alike_weaken; [|now apply alike_write]. intros ps r H. apply H. }
    unfold write_failure_data_into. apply J; [apply M; now left|]. intros _. apply J; [apply W|]. intros _. apply J; [apply M; right; now left|]. intros _. apply J; [apply W|]. intros _. apply M. right; right; now left.
  Qed.

  (* ---------------- the decisions ---------------- *)
  Definition apart1 (c : text_clump) : Prop := forall x y, In x (sn_items (tc_before c)) \/ In x (sn_items (tc_after c)) -> In y target -> f x = f y -> x = y.
  Lemma at_recode c at_ red reverse : apart1 c -> before_is_subsequence_in_at dbg (recode_text f c) target' at_ red reverse = before_is_subsequence_in_at dbg c target at_ red reverse.
  Proof.
    intros Ha. unfold before_is_subsequence_in_at. rewrite my_range_recode. destruct (my_before_range dbg c red reverse) as [r| |]; [|reflexivity..]. cbn [bind].
    destruct (uadd dbg at_ (zrange_len r)) as [e| |]; [|reflexivity..]. cbn [bind]. unfold target'. rewrite zlen_map. destruct (zlen target <? e)%Z; [reflexivity|].
    rewrite lines_recode, zslice_map. destruct (before_lines dbg c (Some r) reverse) as [mine| |] eqn:E1; [|reflexivity..]. cbn [bind map_ok].
    destruct (zslice target at_ e) as [theirs| |] eqn:E2; [|reflexivity..]. cbn [bind map_ok]. f_equal. apply zip_map; [apply line_eqb_lawful|].
    intros x y Hx Hy. apply Ha; [|eapply zslice_in; eassumption].
    now apply (lines_in _ _ _ _ _ E1).
  Qed.
  Lemma will_loop_recode c start reverse redns : apart1 c -> will_apply_loop dbg (recode_text f c) target' start reverse redns = will_apply_loop dbg c target start reverse redns.
  Proof.
    intros Ha. induction redns as [|k redns IH]; [reflexivity|]. cbn [will_apply_loop recode_text tc_context]. fold (recode_text f c). rewrite IH.
    destruct (iadd dbg start _) as [s| |]; [|reflexivity..]. cbn [bind]. destruct (0 <=? s)%Z; [|reflexivity]. now rewrite at_recode.
  Qed.
  Lemma will_recode c o reverse : apart1 c -> will_apply dbg (recode_text f c) target' o reverse = will_apply dbg c target o reverse.
  Proof.
    intros Ha. unfold will_apply. rewrite adj_start_recode. destruct (before_adjusted_start dbg c o None reverse) as [s| |]; [|reflexivity..]. cbn [bind].
    cbn [recode_text tc_context]. fold (recode_text f c). rewrite will_loop_recode, at_recode by assumption. reflexivity.
  Qed.
  Lemma nearby_loop_recode fuel c consumed na o reverse : apart1 c -> forall i bd fd,
    nearby_loop dbg fuel (recode_text f c) target' consumed na o reverse i bd fd = nearby_loop dbg fuel c target consumed na o reverse i bd fd.
  Proof.
    intros Ha. induction fuel as [|n IH]; intros i bd fd; [reflexivity|]. cbn [nearby_loop].
    assert (B : forall b, (if bd then Ok (None, true) else let! adjusted_offset := isubz dbg o i in let! s := before_adjusted_start dbg (recode_text f c) adjusted_offset None reverse in
                 if s <? b then Ok (None, true) else let! w := will_apply dbg (recode_text f c) target' adjusted_offset reverse in Ok (w, false))%Z =
                (if bd then Ok (None, true) else let! adjusted_offset := isubz dbg o i in let! s := before_adjusted_start dbg c adjusted_offset None reverse in
                 if s <? b then Ok (None, true) else let! w := will_apply dbg c target adjusted_offset reverse in Ok (w, false))%Z).
    { intros b. destruct bd; [reflexivity|]. destruct (isubz dbg o i) as [x| |]; [|reflexivity..]. cbn [bind]. now rewrite adj_start_recode, will_recode. }
    rewrite B. match goal with |- bind ?e _ = _ => destruct e as [[[w|] bd']| |]; [reflexivity| |reflexivity..] end. cbn [bind].
    assert (F : forall b, (if fd then Ok (None, true) else let! adjusted_offset := iadd dbg o i in let! s := before_adjusted_start dbg (recode_text f c) adjusted_offset None reverse in
                 if s <? b then let! w := will_apply dbg (recode_text f c) target' adjusted_offset reverse in Ok (w, false) else Ok (None, true))%Z =
                (if fd then Ok (None, true) else let! adjusted_offset := iadd dbg o i in let! s := before_adjusted_start dbg c adjusted_offset None reverse in
                 if s <? b then let! w := will_apply dbg c target adjusted_offset reverse in Ok (w, false) else Ok (None, true))%Z).
    { intros b. destruct fd; [reflexivity|]. destruct (iadd dbg o i) as [x| |]; [|reflexivity..]. cbn [bind]. now rewrite adj_start_recode, will_recode. }
    rewrite F. match goal with |- bind ?e _ = _ => destruct e as [[[w|] fd']| |]; [reflexivity| |reflexivity..] end. cbn [bind]. now rewrite IH.
  Qed.
  Lemma nearby_recode c consumed next o reverse : apart1 c ->
    will_apply_nearby dbg (recode_text f c) target' consumed (option_map (recode_text f) next) o reverse = will_apply_nearby dbg c target consumed next o reverse.
  Proof.
    intros Ha. unfold will_apply_nearby.
    assert (N : nearby_not_after dbg (recode_text f c) target' (option_map (recode_text f) next) o reverse = nearby_not_after dbg c target next o reverse).
    { unfold nearby_not_after, target'. rewrite zlen_map. destruct next as [n|]; cbn [option_map]; rewrite ?adj_start_recode, adj_length_recode; reflexivity. }
    rewrite N. destruct (nearby_not_after dbg c target next o reverse) as [na| |]; [|reflexivity..]. cbn [bind].
    replace (nearby_fuel (recode_text f c) consumed na o reverse) with (nearby_fuel c consumed na o reverse) by (unfold nearby_fuel; now rewrite start_recode).
    now apply nearby_loop_recode.
  Qed.

  (* ---------------- the loop over the clumps ---------------- *)
  Definition marks_counted (st : statistics) (ps : list piece) (st' : statistics) : Prop :=
    all_good ps /\ st_failed st <= st_failed st' /\ (st_failed st' = st_failed st -> all_whole ps).
  Definition step_post (st : statistics) (ps : list piece) (r : ores (Z * Z * statistics)) : Prop :=
    all_good ps /\ forall c o st', r = Done (c, o, st') -> marks_counted st ps st'.
  Lemma whole_marks ps : all_whole ps -> all_good ps.
  Proof. intros H. apply H. Qed.
  Lemma whole_step {A} (m m' : io Z) (k : Z -> A) : alike m m' whole -> forall st (g : Z -> Z * Z * statistics), (forall c, st_failed (snd (g c)) = st_failed st) ->
    alike (do! c := m in ret (g c)) (do! c := m' in ret (g c)) (step_post st).
  Proof.
    intros H st g Hg. eapply alike_bind; [exact H|intros a; apply alike_ret| |].
    - cbn. intros ps a qs r H1 [-> ->]. rewrite app_nil_r. split; [now apply whole_marks|]. intros c o st' E. injection E as E. split; [now apply whole_marks|]. specialize (Hg a). rewrite E in Hg. cbn in Hg. split; [lia|auto].
    - intros ps r H1 H2. split; [now apply whole_marks|]. intros c o st' E. destruct r; discriminate.
  Qed.
  Lemma post_nil st (r : ores (Z * Z * statistics)) : (forall b, r <> Done b) -> step_post st [] r.
  Proof. intros H. split; [intros m []|]. intros c o st' E. destruct (H _ E). Qed.
  Lemma alike_step reverse c next consumed o st : apart1 c -> from_src c ->
    alike (apply_step dbg target reverse c next consumed o st) (apply_step dbg target' reverse (recode_text f c) (option_map (recode_text f) next) consumed o st) (step_post st).
  Proof.
    intros Ha Hs. unfold apply_step, is_already_applied, is_already_applied_nearby.
    apply alike_bind_lift; [now apply will_recode| |apply post_nil]. intros [[|red]|] _.
    - apply (whole_step (A := unit)) with (g := fun x => (x, o, add_clean st)); [exact (fun _ => tt)|now apply alike_place|reflexivity].
    - apply (whole_step (A := unit)) with (g := fun x => (x, o, add_fuzzy st)); [exact (fun _ => tt)|now apply alike_place|reflexivity].
    - apply alike_bind_lift; [now apply nearby_recode| |apply post_nil]. intros [[adj w]|] _.
      + apply alike_bind_lift; [reflexivity| |apply post_nil]. intros o' _.
        apply (whole_step (A := unit)) with (g := fun x => (x, o', add_fuzzy st)); [exact (fun _ => tt)|now apply alike_place|reflexivity].
      + apply alike_bind_lift; [now apply will_recode| |apply post_nil]. intros [[|red]|] _.
        * apply (whole_step (A := unit)) with (g := fun x => (x, o, add_already st)); [exact (fun _ => tt)|apply alike_seen|reflexivity].
        * apply (whole_step (A := unit)) with (g := fun x => (x, o, add_already_fuzzy st)); [exact (fun _ => tt)|apply alike_seen|reflexivity].
        * apply alike_bind_lift; [now apply nearby_recode| |apply post_nil]. intros [[adj w]|] _.
          -- apply alike_bind_lift; [reflexivity| |apply post_nil]. intros o' _.
             apply (whole_step (A := unit)) with (g := fun x => (x, o', add_already_fuzzy st)); [exact (fun _ => tt)|apply alike_seen|reflexivity].
          -- eapply alike_bind; [now apply alike_conflict|intros a; apply alike_ret| |].
             ++ cbn. intros ps a qs r H1 [-> ->]. rewrite app_nil_r. split; [assumption|]. intros c' o' st' E. injection E as _ _ <-. split; [assumption|]. cbn [add_failed st_failed]. split; [lia|intros E; lia].
             ++ intros ps r H1 H2. split; [assumption|]. intros c' o' st' E. destruct r; discriminate.
  Qed.
  Definition loop_post (st : statistics) (ps : list piece) (r : ores (Z * statistics)) : Prop :=
    all_good ps /\ forall c st', r = Done (c, st') -> marks_counted st ps st'.
  Lemma alike_clumps reverse clumps : (forall c, In c clumps -> apart1 c /\ from_src c) -> forall consumed o st,
    alike (apply_clumps dbg target reverse clumps consumed o st) (apply_clumps dbg target' reverse (map (recode_text f) clumps) consumed o st) (loop_post st).
  Proof.
    induction clumps as [|c rest IH]; intros Ha consumed o st; cbn [map apply_clumps].
    - eapply alike_weaken; [|apply alike_ret]. intros ps r [-> ->]. split; [intros m []|]. intros x st' E. injection E as _ <-. split; [intros m []|]. split; [lia|intros _; split; intros m []].
    - replace (hd_error (map (recode_text f) rest)) with (option_map (recode_text f) (hd_error rest)) by now destruct rest.
      eapply (alike_bind _ _ _ _ _ (fun x => loop_post (snd x))); [apply alike_step; apply Ha; now left| | |].
      + intros [[consumed' o'] st']. apply IH. intros x Hx. apply Ha. now right.
      + cbn [snd]. intros ps [[c1 o1] st1] qs r [H1 H2] [H3 H4]. cbn [snd] in *. destruct (H2 _ _ _ eq_refl) as (_ & K1 & K2). split.
        * now apply good_app.
        * intros c' st' E. destruct (H4 _ _ E) as (_ & K3 & K4). split; [|split; [lia|]].
          -- now apply good_app.
          -- intros E'. apply whole_app; [apply K2; lia|apply K4; lia].
      + intros ps r [H1 _] H2. split; [assumption|]. intros c' st' E. destruct r; discriminate.
  Qed.
  Lemma alike_apply reverse clumps : (forall c, In c clumps -> apart1 c /\ from_src c) ->
    alike (text_apply_into dbg clumps target reverse) (text_apply_into dbg (map (recode_text f) clumps) target' reverse)
      (fun ps r => all_good ps /\ forall st, r = Done st -> st_failed st = 0 -> all_whole ps).
  Proof.
    intros Ha. unfold text_apply_into.
    eapply (alike_bind _ _ _ _ _ (fun x ps r => all_whole ps /\ forall st', r = Done st' -> st' = snd x)); [now apply alike_clumps| | |].
    - intros [c st]. eapply (alike_bind _ _ _ _ _ (fun _ ps r => ps = [] /\ r = Done st) (fun ps r => all_whole ps /\ forall st', r = Done st' -> st' = st)); [apply alike_rest|intros a; apply alike_ret| |].
      + cbn. intros ps a qs r H [-> ->]. rewrite app_nil_r. split; [exact H|]. intros st' E. now injection E as <-.
      + intros ps r H N. split; [exact H|]. intros st' E. destruct r; discriminate.
    - intros ps [c st] qs r [H1 H2] [H3 H4]. cbn [snd] in H4. destruct (H2 _ _ eq_refl) as (_ & _ & K). split.
      + apply good_app; [assumption|apply H3].
      + intros st' E Hf. apply H4 in E as ->. apply whole_app; [apply K; exact Hf|assumption].
    - intros ps r [H1 _] N. split; [assumption|]. intros st E. destruct r; discriminate.
  Qed.
  Lemma query_recode reverse clumps : (forall c, In c clumps -> apart1 c) -> forall o,
    text_already_applied_loop dbg (map (recode_text f) clumps) target' reverse o = text_already_applied_loop dbg clumps target reverse o.
  Proof.
    induction clumps as [|c rest IH]; intros Ha o; [reflexivity|]. cbn [map text_already_applied_loop]. unfold is_already_applied, is_already_applied_nearby.
    assert (Hc : apart1 c) by (apply Ha; now left). assert (Hr : forall x, In x rest -> apart1 x) by (intros x Hx; apply Ha; now right).
    rewrite will_recode by assumption. destruct (will_apply dbg c target o (negb reverse)) as [[w|]| |]; [|cbn [bind]|reflexivity..]; [cbn [bind]; now apply IH|].
    replace (hd_error (map (recode_text f) rest)) with (option_map (recode_text f) (hd_error rest)) by now destruct rest.
    rewrite nearby_recode by assumption. destruct (will_apply_nearby dbg c target 0 (hd_error rest) o (negb reverse)) as [[[adj w]|]| |]; [|reflexivity..]. cbn [bind].
    destruct (iadd dbg o adj) as [o'| |]; [|reflexivity..]. cbn [bind]. now apply IH.
  Qed.
End Text.

(* ------------------------------------------------------------------ bytes *)
Section Bytes.
  Variable f : byte -> byte.
  Definition balike {A} (m m' : io A) : Prop := exists o r, emits m o r /\ emits m' (map f o) r.
  Lemma balike_ret {A} (a : A) : balike (ret a) (ret a).
  Proof. exists [], (Done a). split; apply emits_ret. Qed.
  Lemma balike_lift {A} (m : res A) : balike (lift m) (lift m).
  Proof. exists [], (ores_of m). split; apply emits_lift. Qed.
  Lemma balike_write o : balike (write_all o) (write_all (map f o)).
  Proof. exists o, (Done tt). split; apply emits_write_all. Qed.
  Lemma balike_bind {A B} (m m' : io A) (k k' : A -> io B) : balike m m' -> (forall a, balike (k a) (k' a)) -> balike (iobind m k) (iobind m' k').
  Proof.
    intros (o & r & E1 & E2) Hk.
    assert (Stop : (forall a, r <> Done a) -> balike (iobind m k) (iobind m' k')).
    { intros N. exists o, (recast r). split; now apply emits_bind_stop. }
    destruct r as [a| | |]; try (apply Stop; discriminate).
    destruct (Hk a) as (o2 & r2 & F1 & F2). exists (o ++ o2), r2. rewrite map_app. split; eapply emits_bind; eassumption.
  Qed.
  Variable dbg : bool.
  Variable data : list byte.
  Lemma balike_seq s e : balike (seq_write_into write_all dbg data s e) (seq_write_into write_all dbg (map f data) s e).
  Proof.
    unfold seq_write_into. rewrite zlen_map, zslice_map. apply balike_bind; [apply balike_lift|]. intros _. destruct (zslice data s e) as [o| |]; cbn [map_ok].
    - exists o, (Done tt). split; (eapply emits_lift_bind; [reflexivity|apply emits_write_all]).
    - exists [], Panicked. split; exact (emits_bind_stop (lift Panic) write_all [] Panicked (emits_lift Panic) ltac:(discriminate)).
    - exists [], NoFuel. split; exact (emits_bind_stop (lift OutOfFuel) write_all [] NoFuel (emits_lift OutOfFuel) ltac:(discriminate)).
  Qed.
  Lemma balike_upto c u : balike (write_into_upto write_all dbg data c u) (write_into_upto write_all dbg (map f data) c u).
  Proof. unfold write_into_upto. rewrite zlen_map. apply balike_bind; [apply balike_lift|]. intros _. destruct (c <? u)%Z; [|apply balike_ret]. apply balike_bind; [apply balike_seq|]. intros _. apply balike_ret. Qed.
  Lemma balike_rest c : balike (write_remainder write_all dbg data c) (write_remainder write_all dbg (map f data) c).
  Proof. unfold write_remainder. rewrite zlen_map. apply balike_bind; [apply balike_seq|]. intros _. apply balike_ret. Qed.
  Lemma bside_recode c reverse : bc_side (recode_bytes f c) reverse = recode_snippet f (bc_side c reverse).
  Proof. now destruct reverse. Qed.
  Hypothesis Hf : forall x y, f x = f y -> x = y.
  Lemma has_recode sub at_ : has_subsequence_at_z Byte.eqb (map f data) (map f sub) at_ = has_subsequence_at_z Byte.eqb data sub at_.
  Proof. unfold has_subsequence_at_z. rewrite !zlen_map, skipn_map, (zip_map Byte.eqb byte_eqb_lawful); [reflexivity|]. intros x y _ _. apply Hf. Qed.
  Lemma bwill_recode c reverse : byte_will_apply (recode_bytes f c) (map f data) reverse = byte_will_apply c data reverse.
  Proof. unfold byte_will_apply. rewrite bside_recode. apply has_recode. Qed.
  Lemma bseen_recode c reverse : byte_is_already_applied (recode_bytes f c) (map f data) reverse = byte_is_already_applied c data reverse.
  Proof. unfold byte_is_already_applied. rewrite bside_recode. apply has_recode. Qed.
  Lemma balike_clumps reverse clumps : forall consumed, balike (byte_apply_clumps dbg data reverse clumps consumed) (byte_apply_clumps dbg (map f data) reverse (map (recode_bytes f) clumps) consumed).
  Proof.
    induction clumps as [|c rest IH]; intros consumed; [apply balike_ret|]. cbn [map byte_apply_clumps]. rewrite bwill_recode, bseen_recode. apply balike_bind; [|exact IH].
    destruct (byte_will_apply c data reverse); [|destruct (byte_is_already_applied c data reverse); [|apply balike_ret]].
    - unfold byte_clump_apply_into. rewrite !bside_recode. cbn [recode_snippet sn_start sn_items]. rewrite zlen_map. apply balike_bind; [apply balike_upto|]. intros x. apply balike_bind; [apply balike_write|]. intros _. apply balike_lift.
    - unfold byte_already_applied_into. rewrite bside_recode. cbn [recode_snippet sn_start sn_items]. rewrite zlen_map. apply balike_bind; [apply balike_lift|]. intros x. apply balike_upto.
  Qed.
  Lemma balike_apply reverse clumps : balike (byte_apply_into dbg clumps data reverse) (byte_apply_into dbg (map (recode_bytes f) clumps) (map f data) reverse).
  Proof. unfold byte_apply_into. apply balike_bind; [apply balike_clumps|]. intros c. apply balike_bind; [apply balike_rest|]. intros _. apply balike_ret. Qed.
  Lemma bquery_recode reverse clumps : byte_already_applied (map (recode_bytes f) clumps) (map f data) reverse = byte_already_applied clumps data reverse.
  Proof. unfold byte_already_applied. induction clumps as [|c rest IH]; [reflexivity|]. cbn [map forallb]. now rewrite bseen_recode, IH. Qed.
End Bytes.

(* ------------------------------------------------------------------ the diff *)
Lemma extract_recode {T} (f : T -> T) (s : list T) r : extract_snippet (map f s) r = map_ok (recode_snippet f) (extract_snippet s r).
Proof.
  unfold extract_snippet, slice. rewrite map_length.
  destruct ((r_start r <=? r_end r) && (r_end r <=? length s)); [|reflexivity]. cbn. now rewrite skipn_map, firstn_map.
Qed.
Lemma text_from_recode f b a c : text_clump_from (map f b) (map f a) c = map_ok (recode_text f) (text_clump_from b a c).
Proof.
  unfold text_clump_from. destruct (clump_ranges c) as [br ar]. destruct (clump_context_lengths c) as [cs ce]. rewrite !extract_recode.
  destruct (extract_snippet b br) as [x| |]; [|reflexivity..]. cbn [map_ok bind]. destruct (extract_snippet a ar) as [y| |]; reflexivity.
Qed.
Lemma byte_from_recode f b a c : byte_clump_from (map f b) (map f a) c = map_ok (recode_bytes f) (byte_clump_from b a c).
Proof.
  unfold byte_clump_from. destruct (clump_ranges c) as [br ar]. destruct (clump_context_lengths c) as [cs ce]. rewrite !extract_recode.
  destruct (extract_snippet b br) as [x| |]; [|reflexivity..]. cbn [map_ok bind]. destruct (extract_snippet a ar) as [y| |]; reflexivity.
Qed.
Lemma map_res_recode {A B C} (h : B -> C) (g : A -> res B) (g' : A -> res C) l : (forall x, g' x = map_ok h (g x)) -> map_res g' l = map_ok (map h) (map_res g l).
Proof.
  intros H. induction l as [|x l IH]; [reflexivity|]. cbn [map_res]. rewrite H, IH. destruct (g x) as [y| |]; [|reflexivity..]. cbn [map_ok bind]. destruct (map_res g l) as [ys| |]; reflexivity.
Qed.

(* ------------------------------------------------------------------ line ends *)
Lemma crlf_app x y : crlf (x ++ y) = crlf x ++ crlf y.
Proof. apply flat_map_app. Qed.
Lemma crlf_concat ls : crlf (concat ls) = concat (map crlf ls).
Proof. induction ls as [|l ls IH]; [reflexivity|]. cbn [concat map]. now rewrite crlf_app, IH. Qed.
Lemma crlf_no_head x y : crlf x <> newline :: y.
Proof. destruct x as [|c x]; [discriminate|]. cbn [crlf flat_map]. destruct (Byte.eqb c newline) eqn:E; [discriminate|]. intros H. injection H as H _. subst. discriminate. Qed.
Lemma crlf_inj x : forall y, crlf x = crlf y -> x = y.
Proof.
  induction x as [|c x IH]; intros [|d y] H; [reflexivity| | |].
  - cbn [crlf flat_map] in H. destruct (Byte.eqb d newline); discriminate.
  - cbn [crlf flat_map] in H. destruct (Byte.eqb c newline); discriminate.
  - change (crlf (c :: x)) with ((if Byte.eqb c newline then [x0d; newline] else [c]) ++ crlf x) in H.
    change (crlf (d :: y)) with ((if Byte.eqb d newline then [x0d; newline] else [d]) ++ crlf y) in H.
    destruct (Byte.eqb c newline) eqn:E1, (Byte.eqb d newline) eqn:E2; cbn [app] in H; injection H as H1.
    + apply byte_eqb_lawful in E1, E2. subst. f_equal. now apply IH.
    + exfalso. symmetry in H. now apply crlf_no_head in H.
    + exfalso. now apply crlf_no_head in H.
    + subst. f_equal. now apply IH.
Qed.
Lemma crlf_body body : ~ In newline body -> crlf body = body.
Proof.
  induction body as [|c body IH]; intros H; [reflexivity|]. cbn [crlf flat_map]. destruct (Byte.eqb c newline) eqn:E; [apply byte_eqb_lawful in E as ->; destruct H; now left|].
  cbn [app]. f_equal. apply IH. intros K. apply H. now right.
Qed.
Lemma crlf_full body : crlf (body ++ [newline]) = (crlf body ++ [x0d]) ++ [newline].
Proof. rewrite crlf_app, <- app_assoc. reflexivity. Qed.
Lemma crlf_lines content ls : lines_of content ls -> lines_of (crlf content) (map crlf ls).
Proof.
  intros (<- & H1 & H2). split; [now rewrite crlf_concat|]. split.
  - apply Forall_map. eapply Forall_impl; [|exact H1]. intros l (body & Hb & [->|[-> Hn]]).
    + exists (body ++ [x0d]). rewrite crlf_full, (crlf_body body Hb). split; [|now left]. intros K. apply in_app_or in K as [K|[K|[]]]; [auto|discriminate].
    + exists body. rewrite (crlf_body body Hb). auto.
  - intros pre l post E Hp. apply map_eq_app in E as (p1 & p2 & -> & <- & E). apply map_eq_cons in E as (l0 & p3 & -> & <- & <-).
    destruct (H2 p1 l0 p3 eq_refl) as [body ->]; [intros ->; now apply Hp|]. exists (crlf body ++ [x0d]). apply crlf_full.
Qed.

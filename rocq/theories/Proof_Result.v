(* Proof_Result.v - what a patched file is made of, and how large it can be (C112, C113). *)
From Verif Require Import Base Model_Seq Model_Changes Model_IO Model_Text Model_Bytes Spec Spec_Result Proof_Arith Proof_IO Proof_Apply.

(* ---------------- what a computation writes ---------------- *)
(* [m] writes something of which [P] holds, and if it ends with a value, [Q] holds of both *)
Definition ends {A} (m : io A) (P : list byte -> Prop) (Q : list byte -> A -> Prop) : Prop :=
  exists o r, emits m o r /\ P o /\ forall a, r = Done a -> Q o a.

Lemma ends_ret {A} (a : A) (P : list byte -> Prop) (Q : list byte -> A -> Prop) : P [] -> Q [] a -> ends (ret a) P Q.
Proof. intros HP HQ. exists [], (Done a). split; [apply emits_ret|]. split; [assumption|]. now intros b [= <-]. Qed.
Lemma ends_lift {A} (m : res A) (P : list byte -> Prop) (Q : list byte -> A -> Prop) : P [] -> (forall a, m = Ok a -> Q [] a) -> ends (lift m) P Q.
Proof.
  intros HP HQ. exists [], (ores_of m). split; [apply emits_lift|]. split; [assumption|].
  intros a E. apply HQ. destruct m; simpl in E; congruence.
Qed.
Lemma ends_write_all bs (P : list byte -> Prop) (Q : list byte -> unit -> Prop) : P bs -> Q bs tt -> ends (write_all bs) P Q.
Proof. intros HP HQ. exists bs, (Done tt). split; [apply emits_write_all|]. split; [assumption|]. now intros [] _. Qed.
Lemma ends_write_lines ls (P : list byte -> Prop) (Q : list byte -> unit -> Prop) : P (concat ls) -> Q (concat ls) tt -> ends (write_lines ls) P Q.
Proof. intros HP HQ. exists (concat ls), (Done tt). split; [apply emits_write_lines|]. split; [assumption|]. now intros [] _. Qed.
Lemma ends_bind {A B} (m : io A) (k : A -> io B) (P1 P : list byte -> Prop) (Q1 : list byte -> A -> Prop) (Q : list byte -> B -> Prop) :
  ends m P1 Q1 -> (forall o, P1 o -> P o) ->
  (forall o a, P1 o -> Q1 o a -> ends (k a) (fun o' => P (o ++ o')) (fun o' b => Q (o ++ o') b)) -> ends (iobind m k) P Q.
Proof.
  intros (o & r & H & HP & HQ) H1 H2. destruct r as [a| | |].
  - destruct (H2 o a HP (HQ a eq_refl)) as (o2 & r2 & E2 & HP2 & HQ2). exists (o ++ o2), r2.
    split; [eapply emits_bind; eassumption|]. split; assumption.
  - destruct H; congruence.
  - exists o, Panicked. split; [apply (emits_bind_stop _ k) in H; [exact H|discriminate]|]. split; [auto|discriminate].
  - exists o, NoFuel. split; [apply (emits_bind_stop _ k) in H; [exact H|discriminate]|]. split; [auto|discriminate].
Qed.
Lemma ends_lift_bind {A B} (m : res A) (k : A -> io B) (P : list byte -> Prop) (Q : list byte -> B -> Prop) :
  P [] -> (forall a, m = Ok a -> ends (k a) P Q) -> ends (iobind (lift m) k) P Q.
Proof.
  intros HP H. apply (ends_bind _ _ (fun o => o = []) _ (fun o a => o = [] /\ m = Ok a)).
  - apply ends_lift; auto.
  - now intros o ->.
  - intros o a _ [-> E]. exact (H a E).
Qed.
Lemma ends_weaken {A} (m : io A) (P P' : list byte -> Prop) (Q Q' : list byte -> A -> Prop) :
  ends m P Q -> (forall o, P o -> P' o) -> (forall o a, P o -> Q o a -> Q' o a) -> ends m P' Q'.
Proof. intros (o & r & H & HP & HQ) H1 H2. exists o, r. split; [assumption|]. split; auto. Qed.
Lemma ends_run {A} (m : io A) P Q r out : ends m P Q -> m (Writer [] None) = (r, Writer out None) -> P out /\ forall a, r = Done a -> Q out a.
Proof.
  intros (o & r' & H & HP & HQ) E. rewrite (emits_run _ _ _ H) in E. injection E as -> ->. auto.
Qed.

Lemma zslice_inv {T} (l : list T) a b x : zslice l a b = Ok x ->
  (0 <= a <= b /\ b <= zlen l)%Z /\ x = sub l (Z.to_nat a) (Z.to_nat b).
Proof.
  unfold zslice. destruct ((0 <=? a)%Z && (a <=? b)%Z && (b <=? zlen l)%Z) eqn:E; [|discriminate].
  rewrite !andb_true_iff, !Z.leb_le in E. intros [= <-]. split; [lia|]. unfold sub. f_equal. lia.
Qed.
Lemma in_sub {T} (l : list T) a b x : In x (sub l a b) -> In x l.
Proof. unfold sub. intros H. rewrite <- (firstn_skipn a l). apply in_or_app. right. rewrite <- (firstn_skipn (b - a) (skipn a l)). apply in_or_app. now left. Qed.

(* ---------------- pieces ---------------- *)
Lemma made_of_nil P : made_of P [].
Proof. now exists []. Qed.
Lemma made_of_app P x y : made_of P x -> made_of P y -> made_of P (x ++ y).
Proof. intros (p & -> & H1) (q & -> & H2). exists (p ++ q). rewrite concat_app. split; [reflexivity|]. now apply Forall_app. Qed.
Lemma made_of_weaken (P P' : list byte -> Prop) x : (forall l, P l -> P' l) -> made_of P x -> made_of P' x.
Proof. intros H (p & -> & H1). exists p. split; [reflexivity|]. eapply Forall_impl; eassumption. Qed.
Lemma made_of_lines (P : list byte -> Prop) ls : (forall l, In l ls -> P l) -> made_of P (concat ls).
Proof. intros H. exists ls. split; [reflexivity|]. now apply Forall_forall. Qed.
Lemma made_of_one (P : list byte -> Prop) l : P l -> made_of P l.
Proof. intros H. exists [l]. simpl. rewrite app_nil_r. auto. Qed.
Lemma utf8_pieces x : made_of is_utf8 x -> is_utf8 x.
Proof.
  intros (p & -> & H). induction H as [|l p (cs & H1 & H2) _ IH].
  - exists []. split; [constructor|reflexivity].
  - destruct IH as (ds & H3 & H4). exists (cs ++ ds). split; [now apply Forall_app|].
    simpl. now rewrite map_app, H2, H4, map_app, concat_app.
Qed.

(* [m] writes pieces as described, whatever becomes of it *)
Definition writes {A} (P : list byte -> Prop) (m : io A) : Prop := ends m (made_of P) (fun o _ => made_of P o).
Section Writes.
  Variable P : list byte -> Prop.
  Lemma writes_ret {A} (a : A) : writes P (ret a).
  Proof. apply ends_ret; apply made_of_nil. Qed.
  Lemma writes_lift {A} (m : res A) : writes P (lift m).
  Proof. apply ends_lift; intros; apply made_of_nil. Qed.
  Lemma writes_bind {A B} (m : io A) (k : A -> io B) : writes P m -> (forall a, writes P (k a)) -> writes P (iobind m k).
  Proof.
    intros H1 H2. eapply ends_bind; [exact H1|auto|]. intros o a _ Ho.
    eapply ends_weaken; [exact (H2 a)| |]; cbv beta; intros; now apply made_of_app.
  Qed.
  Lemma writes_lift_bind {A B} (m : res A) (k : A -> io B) : (forall a, m = Ok a -> writes P (k a)) -> writes P (iobind (lift m) k).
  Proof. intros H. apply ends_lift_bind; [apply made_of_nil|exact H]. Qed.
  Lemma writes_lines ls : (forall l, In l ls -> P l) -> writes P (write_lines ls).
  Proof. intros H. apply ends_write_lines; now apply made_of_lines. Qed.
  Lemma writes_all l : P l -> writes P (write_all l).
  Proof. intros H. apply ends_write_all; now apply made_of_one. Qed.

  Section Seq.
    Context {T : Type} (write_items : list T -> io unit) (dbg : bool) (s : list T).
    Hypothesis Hw : forall a b, writes P (write_items (sub s a b)).
    Lemma writes_seq a b : writes P (seq_write_into write_items dbg s a b).
    Proof.
      unfold seq_write_into. apply writes_lift_bind. intros _ _. apply writes_lift_bind. intros x E.
      apply zslice_inv in E as [_ ->]. apply Hw.
    Qed.
    Lemma writes_upto c u : writes P (write_into_upto write_items dbg s c u).
    Proof.
      unfold write_into_upto. apply writes_lift_bind. intros _ _. destruct (c <? u)%Z; [|apply writes_ret].
      apply writes_bind; [apply writes_seq|intros; apply writes_ret].
    Qed.
    Lemma writes_remainder c : writes P (write_remainder write_items dbg s c).
    Proof. unfold write_remainder. apply writes_bind; [apply writes_seq|intros; apply writes_ret]. Qed.
  End Seq.
End Writes.
Lemma writes_weaken {A} (P P' : list byte -> Prop) (m : io A) : (forall l, P l -> P' l) -> writes P m -> writes P' m.
Proof. intros H H1. eapply ends_weaken; [exact H1| |]; cbv beta; intros; now apply (made_of_weaken P). Qed.

(* ---------------- where the lines of a patched text come from ---------------- *)
Section TextPieces.
  Variable dbg : bool.
  Variable target : list line.
  Variable reverse : bool.
  Definition placed_piece (cs : list text_clump) (l : line) : Prop := In l target \/ exists c, In c cs /\ In l (new_lines reverse c).
  Definition any_piece (cs : list text_clump) (l : line) : Prop :=
    In l target \/ (exists c, In c cs /\ (In l (old_lines reverse c) \/ In l (new_lines reverse c))) \/ In l marks.
  Lemma placed_any cs l : placed_piece cs l -> any_piece cs l.
  Proof. intros [H|(c & H1 & H2)]; [now left|right; left; eauto]. Qed.

  Lemma writes_target (P : list byte -> Prop) a b : (forall l, In l target -> P l) -> writes P (write_lines (sub target a b)).
  Proof. intros H. apply writes_lines. intros l Hl. apply H. eapply in_sub; eassumption. Qed.

  (* lines of one side of the clump *)
  Lemma before_lines_in c r rev ls l : before_lines dbg c r rev = Ok ls -> In l ls -> In l (sn_items (tc_side c rev)).
  Proof.
    unfold before_lines, snippet_items. destruct r as [[a b]|]; [|intros [= <-]; auto].
    set (g := if dbg then _ else _). destruct g; cbn [bind]; try discriminate.
    intros E. apply zslice_inv in E as [_ ->]. apply in_sub.
  Qed.
  Lemma writes_before (P : list byte -> Prop) c r rev : (forall l, In l (sn_items (tc_side c rev)) -> P l) -> writes P (before_write_into dbg c r rev).
  Proof.
    intros H. unfold before_write_into. destruct r as [r|].
    - apply writes_lift_bind. intros rg _. apply writes_lift_bind. intros ls E. apply writes_lines. intros l Hl. apply H. eapply before_lines_in; eassumption.
    - apply writes_lift_bind. intros ls E. apply writes_lines. intros l Hl. apply H. eapply before_lines_in; eassumption.
  Qed.
  Lemma side_old c : sn_items (tc_side c reverse) = old_lines reverse c.
  Proof. reflexivity. Qed.
  Lemma side_new c : sn_items (tc_side c (negb reverse)) = new_lines reverse c.
  Proof. unfold tc_side, new_lines. now destruct reverse. Qed.

  Lemma writes_apply cs c n o r : In c cs -> writes (placed_piece cs) (clump_apply_into dbg c target n o r reverse).
  Proof.
    intros Hc. unfold clump_apply_into. apply writes_lift_bind. intros e _.
    apply writes_bind; [apply writes_upto; intros; apply writes_target; now left|]. intros n1.
    apply writes_bind; [|intros; apply writes_lift_bind; intros; apply writes_lift].
    unfold after_write_into. apply writes_before. rewrite side_new. intros l Hl. right. eauto.
  Qed.
  Lemma writes_already cs c n o r : In c cs -> writes (placed_piece cs) (already_applied_into dbg c target n o r reverse).
  Proof.
    intros Hc. unfold already_applied_into. apply writes_lift_bind. intros s _. apply writes_lift_bind. intros l _.
    apply writes_lift_bind. intros e _. apply writes_upto. intros. apply writes_target. now left.
  Qed.
  Lemma writes_failure cs c : In c cs -> writes (any_piece cs) (write_failure_data_into dbg c reverse).
  Proof.
    intros Hc. unfold write_failure_data_into.
    assert (M : forall m, In m marks -> any_piece cs m) by (intros; now right; right).
    apply writes_bind; [apply writes_all, M; now left|]. intros _.
    apply writes_bind; [apply writes_before; rewrite side_old; intros l Hl; right; left; eauto|]. intros _.
    apply writes_bind; [apply writes_all, M; right; now left|]. intros _.
    apply writes_bind; [unfold after_write_into; apply writes_before; rewrite side_new; intros l Hl; right; left; eauto|]. intros _.
    apply writes_all, M. right; right; now left.
  Qed.

  (* a value is returned and the number of failures with it *)
  Definition sorted {A} (cs : list text_clump) (failed : A -> nat) (n : nat) (m : io A) : Prop :=
    ends m (made_of (any_piece cs)) (fun o a => n <= failed a /\ (failed a = n -> made_of (placed_piece cs) o)).
  Lemma sorted_placed {A B} cs (failed : B -> nat) n (m : io A) (k : A -> B) : (forall a, failed (k a) = n) ->
    writes (placed_piece cs) m -> sorted cs failed n (do! a := m in ret (k a)).
  Proof.
    intros Hk H. eapply ends_bind; [exact H| |].
    - intros o. apply made_of_weaken, placed_any.
    - intros o a _ Ho. apply ends_ret; rewrite app_nil_r; [apply (made_of_weaken _ _ _ (placed_any cs) Ho)|]. rewrite Hk. split; [lia|auto].
  Qed.
  Lemma sorted_lift {A B} cs (failed : B -> nat) n (m : res A) (k : A -> io B) :
    (forall a, m = Ok a -> sorted cs failed n (k a)) -> sorted cs failed n (iobind (lift m) k).
  Proof. intros H. apply ends_lift_bind; [apply made_of_nil|exact H]. Qed.

  Definition failed3 (x : Z * Z * statistics) : nat := st_failed (snd x).
  Lemma sorted_step cs c next n o st : In c cs -> sorted cs failed3 (st_failed st) (apply_step dbg target reverse c next n o st).
  Proof.
    intros Hc. unfold apply_step.
    apply sorted_lift. intros [[|r]|] _; [apply sorted_placed; [reflexivity|now apply writes_apply]|apply sorted_placed; [reflexivity|now apply writes_apply]|].
    apply sorted_lift. intros [[d w]|] _; [apply sorted_lift; intros o' _; apply sorted_placed; [reflexivity|now apply writes_apply]|].
    apply sorted_lift. intros [[|r]|] _; [apply sorted_placed; [reflexivity|now apply writes_already]|apply sorted_placed; [reflexivity|now apply writes_already]|].
    apply sorted_lift. intros [[d w]|] _; [apply sorted_lift; intros o' _; apply sorted_placed; [reflexivity|now apply writes_already]|].
    eapply ends_bind; [exact (writes_failure cs c Hc)|auto|]. intros x a _ Hx. apply ends_ret; rewrite app_nil_r; [assumption|].
    cbn. split; [lia|]. intros E. exfalso. lia.
  Qed.
  Lemma sorted_clumps cs : forall todo n o st, incl todo cs -> sorted cs (fun x => st_failed (snd x)) (st_failed st) (apply_clumps dbg target reverse todo n o st).
  Proof.
    induction todo as [|c todo IH]; intros n o st Hi; cbn [apply_clumps].
    - apply ends_ret; [apply made_of_nil|]. cbn. split; [lia|]. intros _. apply made_of_nil.
    - eapply ends_bind; [apply (sorted_step cs); apply Hi; now left|auto|].
      intros x [[n' o'] st'] Hx [H1 H2]. change (failed3 (n', o', st')) with (st_failed st') in H1, H2.
      eapply ends_weaken; [apply (IH n' o' st'); intros z Hz; apply Hi; now right| |]; cbv beta.
      + intros y. now apply made_of_app.
      + intros y a _ [H3 H4]. split; [lia|]. intros E. apply made_of_app; [apply H2|apply H4]; lia.
  Qed.
  Lemma sorted_text cs : sorted cs st_failed 0 (text_apply_into dbg cs target reverse).
  Proof.
    unfold text_apply_into. eapply ends_bind; [apply (sorted_clumps cs); apply incl_refl|auto|].
    intros x [n st] Hx [H1 H2]. cbn [snd] in H1, H2.
    eapply ends_bind; [apply (writes_remainder (placed_piece cs)); intros; apply writes_target; now left| |].
    - intros y Hy. apply made_of_app; [assumption|]. now apply (made_of_weaken _ _ _ (placed_any cs)).
    - intros y a _ Hy. apply ends_ret; rewrite app_nil_r; [apply made_of_app; [assumption|now apply (made_of_weaken _ _ _ (placed_any cs))]|].
      split; [assumption|]. intros E. apply made_of_app; [apply H2; exact E|exact Hy].
  Qed.
End TextPieces.

(* ---------------- where the bytes come from ---------------- *)
Section BytePieces.
  Variable dbg : bool.
  Variable data : list byte.
  Variable reverse : bool.
  Definition byte_piece (cs : list byte_clump) (p : list byte) : Prop :=
    (exists i j, p = sub data i j) \/ exists c, In c cs /\ p = new_bytes reverse c.
  Lemma bside_old c : sn_items (bc_side c reverse) = old_bytes reverse c.
  Proof. reflexivity. Qed.
  Lemma bside_new c : sn_items (bc_side c (negb reverse)) = new_bytes reverse c.
  Proof. unfold bc_side, new_bytes. now destruct reverse. Qed.
  Lemma writes_data cs a b : writes (byte_piece cs) (write_all (sub data a b)).
  Proof. apply writes_all. left. eauto. Qed.
  Lemma writes_byte_clumps cs : forall todo n, incl todo cs -> writes (byte_piece cs) (byte_apply_clumps dbg data reverse todo n).
  Proof.
    induction todo as [|c todo IH]; intros n Hi; cbn [byte_apply_clumps]; [apply writes_ret|].
    apply writes_bind; [|intros; apply IH; intros z Hz; apply Hi; now right].
    destruct (byte_will_apply c data reverse); [|destruct (byte_is_already_applied c data reverse); [|apply writes_ret]].
    - unfold byte_clump_apply_into. apply writes_bind; [apply writes_upto, writes_data|]. intros n1.
      apply writes_bind; [|intros; apply writes_lift]. rewrite bside_new. apply writes_all. right. exists c. split; [apply Hi; now left|reflexivity].
    - unfold byte_already_applied_into. apply writes_lift_bind. intros e _. apply writes_upto, writes_data.
  Qed.
  Lemma writes_bytes cs : writes (byte_piece cs) (byte_apply_into dbg cs data reverse).
  Proof.
    unfold byte_apply_into. apply writes_bind; [apply writes_byte_clumps, incl_refl|]. intros n.
    apply writes_bind; [apply writes_remainder, writes_data|intros; apply writes_ret].
  Qed.
End BytePieces.

(* ---------------- how much is written ---------------- *)
Lemma text_size_app x y : text_size (x ++ y) = text_size x + text_size y.
Proof. unfold text_size. rewrite concat_app. apply app_length. Qed.
Lemma text_size_sub (l : list line) a b : text_size (sub l a b) <= text_size l.
Proof.
  rewrite <- (firstn_skipn a l) at 2. rewrite text_size_app. unfold sub.
  rewrite <- (firstn_skipn (b - a) (skipn a l)) at 2. rewrite text_size_app. lia.
Qed.
Lemma skipn_step {T} (l : list T) a b : a <= b -> skipn a l = sub l a b ++ skipn b l.
Proof. intros H. symmetry. now apply sub_skipn. Qed.

Section Amount.
  (* [T = u8] or [T = String] *)
  Context {T : Type} (write_items : list T -> io unit) (bytes_of : list T -> list byte).
  Hypothesis Hw : forall l, emits (write_items l) (bytes_of l) (Done tt).
  Hypothesis bytes_app : forall x y, bytes_of (x ++ y) = bytes_of x ++ bytes_of y.
  Variable dbg : bool.
  Variable s : list T.
  Definition rest_size (c : Z) : nat := length (bytes_of (skipn (Z.to_nat c) s)).
  Lemma rest_step c u : (0 <= c <= u)%Z -> length (bytes_of (sub s (Z.to_nat c) (Z.to_nat u))) + rest_size u = rest_size c.
  Proof. intros H. unfold rest_size. rewrite (skipn_step s (Z.to_nat c) (Z.to_nat u)) by lia. now rewrite bytes_app, app_length. Qed.
  Lemma rest_mono c u : (0 <= c <= u)%Z -> rest_size u <= rest_size c.
  Proof. intros H. pose proof (rest_step c u H). lia. Qed.
  Lemma amount_seq c u : (0 <= c)%Z ->
    ends (seq_write_into write_items dbg s c u) (fun o => length o <= rest_size c)
      (fun o _ => (c <= u <= zlen s)%Z /\ length o + rest_size u = rest_size c).
  Proof.
    intros Hc. unfold seq_write_into. apply ends_lift_bind; [simpl; lia|]. intros _ _.
    apply ends_lift_bind; [simpl; lia|]. intros x E. apply zslice_inv in E as [H1 ->].
    eexists; eexists; split; [apply Hw|]. pose proof (rest_step c u ltac:(lia)). split; [lia|]. intros; lia.
  Qed.
  Lemma amount_upto c u : (0 <= c)%Z ->
    ends (write_into_upto write_items dbg s c u) (fun o => length o <= rest_size c)
      (fun o c' => (c <= c' <= Z.max c (zlen s))%Z /\ length o + rest_size c' = rest_size c).
  Proof.
    intros Hc. unfold write_into_upto. apply ends_lift_bind; [simpl; lia|]. intros _ _.
    destruct (Z.ltb_spec c u) as [H|H].
    - eapply ends_bind; [apply amount_seq; assumption|auto|]. cbv beta. intros o a _ [H1 H2].
      apply ends_ret; rewrite app_nil_r; [lia|]. split; lia.
    - apply ends_ret; simpl; [lia|]. split; lia.
  Qed.
  Lemma amount_remainder c : (0 <= c)%Z ->
    ends (write_remainder write_items dbg s c) (fun o => length o <= rest_size c) (fun o _ => length o <= rest_size c).
  Proof.
    intros Hc. unfold write_remainder. eapply ends_bind; [apply amount_seq; assumption|auto|]. cbv beta. intros o a _ [H1 H2].
    apply ends_ret; rewrite app_nil_r; lia.
  Qed.
End Amount.

Local Open Scope Z_scope.
Lemma arith_mod dbg z r : arith_usize dbg z = Ok r -> r = z mod two64.
Proof.
  unfold arith_usize. destruct (in_usize z) eqn:E.
  - intros [= <-]. unfold in_usize in E. rewrite andb_true_iff, Z.leb_le, Z.ltb_lt in E. symmetry. now apply Z.mod_small.
  - destruct dbg; [discriminate|]. now intros [= <-].
Qed.

Definition side_fits (c : text_clump) : Prop :=
  0 <= fst (tc_context c) <= 255 /\ 0 <= snd (tc_context c) <= 255 /\
  zlen (sn_items (tc_before c)) < two63 /\ zlen (sn_items (tc_after c)) < two63.

Section TextAmount.
  Variable dbg : bool.
  Variable target : list line.

  Lemma side_len c rev : side_fits c -> 0 <= zlen (sn_items (tc_side c rev)) < two63.
  Proof. intros (_ & _ & H1 & H2). unfold zlen in *. destruct rev; cbn [tc_side]; lia. Qed.
  Lemma length_val c rev l : side_fits c -> before_length dbg c rev = Ok l -> l = zlen (sn_items (tc_side c rev)).
  Proof.
    intros Hc. pose proof (side_len c rev Hc) as Hl. unfold before_length, before_end.
    destruct (uadd dbg _ _) as [e| |] eqn:E; cbn [bind]; try discriminate.
    intros E2. apply arith_mod in E, E2. subst. unfold before_start. rewrite Zminus_mod_idemp_l.
    replace (_ + _ - _) with (zlen (sn_items (tc_side c rev))) by lia. apply Z.mod_small. consts. lia.
  Qed.
  (* as much is cut off as there is *)
  Definition cut_fits (c : text_clump) (rev : bool) (r : option (Z * Z)) : Prop :=
    match r with None => True | Some (r0, r1) => 0 <= r0 /\ 0 <= r1 /\ r0 + r1 <= zlen (sn_items (tc_side c rev)) end.
  Lemma subseq_cut c p at_ r rev : side_fits c -> match r with None => True | Some (r0, r1) => 0 <= r0 /\ 0 <= r1 <= 255 end ->
    before_is_subsequence_in_at dbg c p at_ r rev = Ok true -> cut_fits c rev r.
  Proof.
    intros Hc Hr. destruct r as [[r0 r1]|]; [|auto]. pose proof (side_len c rev Hc) as Hl.
    unfold before_is_subsequence_in_at, my_before_range.
    destruct (before_length dbg c rev) as [l| |] eqn:El; cbn [bind]; try discriminate. apply (length_val _ _ _ Hc) in El.
    destruct (usubz dbg l r1) as [e| |] eqn:Ee; cbn [bind]; try discriminate.
    destruct (uadd dbg at_ _) as [en| |]; cbn [bind]; try discriminate.
    destruct (zlen p <? en); [discriminate|].
    unfold before_lines, snippet_items. set (g := if dbg then _ else _). destruct g; cbn [bind]; try discriminate.
    destruct (zslice _ r0 e) as [x| |] eqn:Ez; cbn [bind]; try discriminate. intros _.
    apply zslice_inv in Ez as [H1 _]. apply arith_mod in Ee. subst l. cbn.
    assert (Hs : 0 <= zlen (sn_items (tc_side c rev)) - r1).
    { destruct (Z_lt_le_dec (zlen (sn_items (tc_side c rev)) - r1) 0) as [N|]; [exfalso|assumption].
      rewrite <- (Z.mod_add _ 1 two64) in Ee by (consts; lia). rewrite Z.mod_small in Ee by (consts; lia). consts. lia. }
    rewrite Z.mod_small in Ee by (consts; lia). lia.
  Qed.
  Lemma will_loop_cut c p start rev : side_fits c -> forall redns w, Forall (fun n => (n <= 255)%nat) redns ->
    will_apply_loop dbg c p start rev redns = Ok (Some w) -> cut_fits c rev (reductions_of w).
  Proof.
    intros Hc. induction redns as [|n redns IH]; intros w Hn; cbn [will_apply_loop]; [discriminate|].
    inversion Hn as [|? ? Hn1 Hn2]; subst.
    destruct (iadd dbg start _) as [s| |]; cbn [bind]; try discriminate.
    destruct (0 <=? s).
    - destruct (before_is_subsequence_in_at _ _ _ _ _ _) as [[|]| |] eqn:E; cbn [bind]; try discriminate; [|now apply IH].
      intros [= <-]. cbn [reductions_of]. apply (subseq_cut _ _ _ _ _ Hc) in E; [exact E|].
      destruct Hc as (H1 & H2 & _). lia.
    - cbn [bind]. now apply IH.
  Qed.
  Lemma will_cut c p o rev w : side_fits c -> will_apply dbg c p o rev = Ok (Some w) -> cut_fits c rev (reductions_of w).
  Proof.
    intros Hc. unfold will_apply. destruct (before_adjusted_start _ _ _ _ _) as [s| |]; cbn [bind]; try discriminate.
    destruct (if 0 <=? s then _ else _) as [[|]| |]; cbn [bind]; try discriminate; [now intros [= <-]|].
    apply (will_loop_cut _ _ _ _ Hc). apply Forall_forall. intros n Hn. apply in_seq in Hn.
    destruct Hc as (H1 & H2 & _). lia.
  Qed.
  Lemma nearby_loop_cut c p n na o rev : side_fits c -> forall fuel i b f d w,
    nearby_loop dbg fuel c p n na o rev i b f = Ok (Some (d, w)) -> cut_fits c rev (reductions_of w).
  Proof.
    intros Hc. induction fuel as [|fuel IH]; intros i b f d w; cbn [nearby_loop]; [discriminate|].
    set (B := if b then _ else _).
    destruct B as [[fb b']| |] eqn:EB; cbn [bind]; try discriminate.
    assert (HB : forall w, fb = Some w -> cut_fits c rev (reductions_of w)).
    { subst B. intros w0 ->. destruct b; [discriminate|]. destruct (isubz _ _ _) as [ao| |]; cbn [bind] in EB; try discriminate.
      destruct (before_adjusted_start _ _ _ _ _) as [s| |]; cbn [bind] in EB; try discriminate.
      destruct (s <? _); [discriminate|]. destruct (will_apply _ _ _ _ _) as [w1| |] eqn:E; cbn [bind] in EB; try discriminate.
      injection EB as -> _. eapply will_cut; eassumption. }
    destruct fb as [w0|]; [intros [= <- <-]; now apply HB|]. clear HB.
    set (F := if f then _ else _). destruct F as [[ff f']| |] eqn:EF; cbn [bind]; try discriminate.
    assert (HF : forall w, ff = Some w -> cut_fits c rev (reductions_of w)).
    { subst F. intros w0 ->. destruct f; [discriminate|]. destruct (iadd _ _ _) as [ao| |]; cbn [bind] in EF; try discriminate.
      destruct (before_adjusted_start _ _ _ _ _) as [s| |]; cbn [bind] in EF; try discriminate.
      destruct (s <? _); [|discriminate]. destruct (will_apply _ _ _ _ _) as [w1| |] eqn:E; cbn [bind] in EF; try discriminate.
      injection EF as -> _. eapply will_cut; eassumption. }
    destruct ff as [w0|]; [intros [= <- <-]; now apply HF|].
    destruct (f' && b'); [discriminate|]. apply IH.
  Qed.
  Lemma nearby_cut c p n next o rev d w : side_fits c -> will_apply_nearby dbg c p n next o rev = Ok (Some (d, w)) -> cut_fits c rev (reductions_of w).
  Proof.
    intros Hc. unfold will_apply_nearby. destruct (nearby_not_after _ _ _ _ _ _) as [na| |]; cbn [bind]; try discriminate.
    now apply nearby_loop_cut.
  Qed.
  Lemma adjusted_length_val c r rev l : side_fits c -> cut_fits c rev r -> before_adjusted_length dbg c r rev = Ok l ->
    0 <= l <= zlen (sn_items (tc_side c rev)).
  Proof.
    intros Hc Hr. pose proof (side_len c rev Hc) as Hl. unfold before_adjusted_length.
    destruct (before_length dbg c rev) as [x| |] eqn:E; cbn [bind]; try discriminate. apply (length_val _ _ _ Hc) in E. subst x.
    destruct r as [[r0 r1]|]; [|intros [= <-]; lia]. cbn in Hr.
    rewrite usubz_ok by (consts; lia). cbn [bind]. rewrite usubz_ok by (consts; lia). intros [= <-]. lia.
  Qed.

  Variable reverse : bool.
  Notation rest := (@rest_size line (@concat byte) target).
  Lemma amount_target n u : 0 <= n ->
    ends (write_into_upto write_lines dbg target n u) (fun o => (length o <= rest n)%nat)
      (fun o n' => n <= n' <= Z.max n (zlen target) /\ (length o + rest n' = rest n)%nat).
  Proof. apply amount_upto; [apply emits_write_lines|apply concat_app]. Qed.
  Lemma amount_side c r rev : ends (before_write_into dbg c r rev) (fun o => (length o <= text_size (sn_items (tc_side c rev)))%nat)
      (fun o _ => (length o <= text_size (sn_items (tc_side c rev)))%nat).
  Proof.
    assert (H : forall r ls, before_lines dbg c r rev = Ok ls -> (length (concat ls) <= text_size (sn_items (tc_side c rev)))%nat).
    { intros r' ls. unfold before_lines, snippet_items. destruct r' as [[a b]|]; [|intros [= <-]; unfold text_size; lia].
      set (g := if dbg then _ else _). destruct g; cbn [bind]; try discriminate. intros E. apply zslice_inv in E as [_ ->]. apply text_size_sub. }
    unfold before_write_into. destruct r as [r|].
    - apply ends_lift_bind; [simpl; lia|]. intros rg _. apply ends_lift_bind; [simpl; lia|]. intros ls E. apply H in E. now apply ends_write_lines.
    - apply ends_lift_bind; [simpl; lia|]. intros ls E. apply H in E. now apply ends_write_lines.
  Qed.

  Lemma amount_apply c n o r : side_fits c -> cut_fits c reverse r -> 0 <= n ->
    Z.max n (zlen target) + zlen (old_lines reverse c) < two64 ->
    ends (clump_apply_into dbg c target n o r reverse) (fun out => (length out <= rest n + text_size (new_lines reverse c))%nat)
      (fun out n' => n <= n' <= Z.max n (zlen target) + zlen (old_lines reverse c) /\
                     (length out + rest n' <= rest n + text_size (new_lines reverse c))%nat).
  Proof.
    intros Hc Hr Hn Hf. unfold clump_apply_into. apply ends_lift_bind; [simpl; lia|]. intros e _.
    eapply ends_bind; [apply amount_target; assumption|cbv beta; lia|]. cbv beta. intros x n1 _ [H1 H2].
    eapply ends_bind; [apply amount_side| |].
    - cbv beta. intros y Hy. rewrite side_new in Hy. rewrite app_length. lia.
    - cbv beta. intros y _ _ Hy. rewrite side_new in Hy.
      apply ends_lift_bind; [rewrite !app_length; simpl; lia|]. intros l El.
      apply (adjusted_length_val _ _ _ _ Hc Hr) in El. rewrite side_old in El.
      apply ends_lift; [rewrite !app_length; simpl; lia|]. intros n' En'. unfold advance_consumed_by in En'.
      rewrite uadd_ok in En' by lia. injection En' as <-. rewrite !app_length. cbn [length].
      pose proof (rest_mono (T := line) (@concat byte) (@concat_app byte) target n1 (n1 + l) ltac:(lia)). split; lia.
  Qed.
  Lemma amount_already c n o r : 0 <= n ->
    ends (already_applied_into dbg c target n o r reverse) (fun out => (length out <= rest n)%nat)
      (fun out n' => n <= n' <= Z.max n (zlen target) /\ (length out + rest n' <= rest n)%nat).
  Proof.
    intros Hn. unfold already_applied_into. apply ends_lift_bind; [simpl; lia|]. intros s _. apply ends_lift_bind; [simpl; lia|]. intros l _.
    apply ends_lift_bind; [simpl; lia|]. intros e _. eapply ends_weaken; [apply amount_target; assumption|auto|]. cbv beta. intros; lia.
  Qed.
  Lemma amount_failure c : ends (write_failure_data_into dbg c reverse) (fun out => (length out <= conflict_size reverse c)%nat)
      (fun out _ => (length out <= conflict_size reverse c)%nat).
  Proof.
    unfold write_failure_data_into, conflict_size. eapply ends_bind; [apply (ends_write_all _ (fun o => length o = 8%nat) (fun o _ => length o = 8%nat)); reflexivity|cbv beta; lia|].
    cbv beta. intros x1 _ _ H1. eapply ends_bind; [apply amount_side| |]; cbv beta; rewrite side_old.
    { intros y Hy. rewrite app_length. lia. }
    intros x2 _ _ H2. eapply ends_bind; [apply (ends_write_all _ (fun o => length o = 8%nat) (fun o _ => length o = 8%nat)); reflexivity| |]; cbv beta.
    { intros y Hy. rewrite !app_length. lia. }
    intros x3 _ _ H3. eapply ends_bind; [apply amount_side| |]; cbv beta; rewrite side_new.
    { intros y Hy. rewrite !app_length. lia. }
    intros x4 _ _ H4. apply ends_write_all; rewrite !app_length; simpl; lia.
  Qed.

  (* a step (or several) from [n] that may write at most [k] bytes more than it takes from the target if nothing fails, and [m] otherwise *)
  Definition pays {A} (n : Z) (st : statistics) (old : Z) (k m : nat) (at_ : A -> Z) (failed : A -> nat) (x : io A) : Prop :=
    ends x (fun o => (length o <= rest n + m)%nat)
      (fun o a => n <= at_ a <= Z.max n (zlen target) + old /\ (st_failed st <= failed a)%nat /\
                  (length o + rest (at_ a) <= rest n + m)%nat /\ (failed a = st_failed st -> (length o + rest (at_ a) <= rest n + k)%nat)).
  Lemma pays_lift {A B} n st old k m (at_ : B -> Z) failed (x : res A) (f : A -> io B) :
    (forall a, x = Ok a -> pays n st old k m at_ failed (f a)) -> pays n st old k m at_ failed (iobind (lift x) f).
  Proof. intros H. apply ends_lift_bind; [simpl; lia|exact H]. Qed.

  Definition at3 (x : Z * Z * statistics) : Z := fst (fst x).
  Lemma pays_step c next n o st : side_fits c -> 0 <= n -> Z.max n (zlen target) + zlen (old_lines reverse c) < two64 ->
    pays n st (zlen (old_lines reverse c)) (text_size (new_lines reverse c)) (conflict_size reverse c) at3 failed3 (apply_step dbg target reverse c next n o st).
  Proof.
    intros Hc Hn Hf. assert (Hk : (text_size (new_lines reverse c) <= conflict_size reverse c)%nat) by (unfold conflict_size; lia).
    pose proof (zlen_nonneg (old_lines reverse c)) as Ho.
    assert (A : forall f r (g : statistics -> statistics) o', cut_fits c reverse r -> (forall s, st_failed (g s) = st_failed s) ->
      f = clump_apply_into dbg c target n o' r reverse ->
      pays n st (zlen (old_lines reverse c)) (text_size (new_lines reverse c)) (conflict_size reverse c) at3 failed3
        (do! n' := f in ret (n', o', g st))).
    { intros f r g o' Hr Hg ->. eapply ends_bind; [apply amount_apply; assumption|cbv beta; lia|]. cbv beta. intros x n' _ [H1 H2].
      apply ends_ret; rewrite app_nil_r; [lia|]. unfold at3, failed3. cbn [fst snd]. rewrite Hg. split; [lia|]. split; [lia|]. split; [lia|]. intros _. lia. }
    assert (S : forall r (g : statistics -> statistics) o', (forall s, st_failed (g s) = st_failed s) ->
      pays n st (zlen (old_lines reverse c)) (text_size (new_lines reverse c)) (conflict_size reverse c) at3 failed3
        (do! n' := already_applied_into dbg c target n o' r reverse in ret (n', o', g st))).
    { intros r g o' Hg. eapply ends_bind; [apply amount_already; assumption|cbv beta; lia|]. cbv beta. intros x n' _ [H1 H2].
      apply ends_ret; rewrite app_nil_r; [lia|]. unfold at3, failed3. cbn [fst snd]. rewrite Hg. split; [lia|]. split; [lia|]. split; [lia|]. intros _. lia. }
    unfold apply_step. apply pays_lift. intros [[|r]|] E1.
    { eapply (A _ None add_clean); [exact I|reflexivity|reflexivity]. }
    { apply (will_cut _ _ _ _ _ Hc) in E1. eapply (A _ _ add_fuzzy o E1); reflexivity. }
    apply pays_lift. intros [[d w]|] E2.
    { apply (nearby_cut _ _ _ _ _ _ _ _ Hc) in E2. apply pays_lift. intros o' _. eapply (A _ _ add_fuzzy o' E2); reflexivity. }
    apply pays_lift. intros [[|r]|] _; [now apply (S _ add_already)|now apply (S _ add_already_fuzzy)|].
    apply pays_lift. intros [[d w]|] _; [apply pays_lift; intros o' _; now apply (S _ add_already_fuzzy)|].
    eapply ends_bind; [apply amount_failure|cbv beta; lia|]. cbv beta. intros x _ _ Hx. apply ends_ret; rewrite app_nil_r; [lia|].
    unfold at3, failed3. cbn [fst snd st_failed add_failed]. split; [lia|]. split; [lia|]. split; [lia|]. intros E. exfalso. lia.
  Qed.

  Definition old_total (cs : list text_clump) : Z := Z.of_nat (sum_of (fun c => length (old_lines reverse c)) cs).
  Lemma pays_clumps : forall cs n o st, Forall side_fits cs -> 0 <= n -> Z.max n (zlen target) + old_total cs < two64 ->
    pays n st (old_total cs) (sum_of (fun c => text_size (new_lines reverse c)) cs) (sum_of (conflict_size reverse) cs)
      fst (fun x => st_failed (snd x)) (apply_clumps dbg target reverse cs n o st).
  Proof.
    induction cs as [|c cs IH]; intros n o st Hc Hn Hf; cbn [apply_clumps].
    - apply ends_ret; cbn; [lia|]. split; [lia|]. split; [lia|]. split; [lia|]. intros _. lia.
    - inversion Hc as [|? ? Hc1 Hc2]; subst. unfold old_total in *. cbn [sum_of fold_right] in *. fold (sum_of (fun c => length (old_lines reverse c)) cs) in *.
      fold (sum_of (fun c => text_size (new_lines reverse c)) cs). fold (sum_of (conflict_size reverse) cs).
      eapply ends_bind; [apply (pays_step c); [assumption|assumption|unfold zlen in *; lia]|cbv beta; lia|].
      cbv beta. intros x [[n' o'] st'] Hx (H1 & H2 & H3 & H4). change (at3 (n', o', st')) with n' in *. change (failed3 (n', o', st')) with (st_failed st') in *.
      eapply ends_weaken; [apply (IH n' o' st' Hc2); [lia|unfold zlen in *; lia]| |]; cbv beta.
      + intros y Hy. rewrite app_length. lia.
      + intros y a _ (K1 & K2 & K3 & K4). rewrite !app_length. split; [unfold zlen in *; lia|]. split; [lia|]. split; [lia|]. intros E. specialize (K4 ltac:(lia)). specialize (H4 ltac:(lia)). lia.
  Qed.
  Lemma amount_text cs : Forall side_fits cs -> zlen target + old_total cs < two64 ->
    ends (text_apply_into dbg cs target reverse) (fun o => (length o <= text_size target + sum_of (conflict_size reverse) cs)%nat)
      (fun o st => st_failed st = 0%nat -> (length o <= text_size target + sum_of (fun c => text_size (new_lines reverse c)) cs)%nat).
  Proof.
    intros Hc Hf. unfold text_apply_into. assert (R0 : rest 0 = text_size target) by reflexivity.
    eapply ends_bind; [apply (pays_clumps cs 0 0 stats0 Hc); [lia|unfold zlen in *; lia]|cbv beta; rewrite R0; auto|].
    cbv beta. intros x [n st] Hx (H1 & H2 & H3 & H4). cbn [fst snd] in *. rewrite R0 in *.
    eapply ends_bind; [apply (amount_remainder write_lines (@concat byte) emits_write_lines (@concat_app byte)); lia| |]; cbv beta.
    - intros y Hy. rewrite app_length. lia.
    - intros y a _ Hy. apply ends_ret; rewrite app_nil_r, app_length; [lia|]. intros E. specialize (H4 E). lia.
  Qed.
End TextAmount.

Section ByteAmount.
  Variable dbg : bool.
  Variable data : list byte.
  Variable reverse : bool.
  Notation rest := (@rest_size byte (fun l => l) data).
  Definition old_bytes_total (cs : list byte_clump) : Z := Z.of_nat (sum_of (fun c => length (old_bytes reverse c)) cs).
  Lemma amount_byte_clumps : forall cs n, 0 <= n -> Z.max n (zlen data) + old_bytes_total cs < two64 ->
    ends (byte_apply_clumps dbg data reverse cs n) (fun o => (length o <= rest n + sum_of (fun c => length (new_bytes reverse c)) cs)%nat)
      (fun o n' => n <= n' /\ (length o + rest n' <= rest n + sum_of (fun c => length (new_bytes reverse c)) cs)%nat).
  Proof.
    assert (U : forall n u, 0 <= n -> ends (write_into_upto write_all dbg data n u) (fun o => (length o <= rest n)%nat)
      (fun o n' => n <= n' <= Z.max n (zlen data) /\ (length o + rest n' = rest n)%nat)).
    { intros n u. apply amount_upto; [apply emits_write_all|reflexivity]. }
    induction cs as [|c cs IH]; intros n Hn Hf; cbn [byte_apply_clumps].
    - apply ends_ret; cbn; lia.
    - unfold old_bytes_total in *. cbn [sum_of fold_right] in *. fold (sum_of (fun c => length (old_bytes reverse c)) cs) in *.
      fold (sum_of (fun c => length (new_bytes reverse c)) cs).
      apply ends_bind with (P1 := fun o => (length o <= rest n + length (new_bytes reverse c))%nat)
        (Q1 := fun o n' => n <= n' <= Z.max n (zlen data) + zlen (old_bytes reverse c) /\ (length o + rest n' <= rest n + length (new_bytes reverse c))%nat).
      + destruct (byte_will_apply c data reverse); [|destruct (byte_is_already_applied c data reverse)].
        * unfold byte_clump_apply_into. eapply ends_bind; [apply U; assumption|cbv beta; lia|]. cbv beta. intros x n1 _ [H1 H2].
          rewrite bside_new. eapply ends_bind; [apply (ends_write_all _ (fun o => o = new_bytes reverse c) (fun o _ => o = new_bytes reverse c)); reflexivity| |]; cbv beta.
          { intros y ->. rewrite app_length. lia. }
          intros y _ _ ->. rewrite bside_old. apply ends_lift; [rewrite !app_length; simpl; lia|]. intros n' En'. unfold advance_consumed_by in En'.
          pose proof (zlen_nonneg (old_bytes reverse c)) as Hl.
          rewrite uadd_ok in En' by (unfold zlen in *; lia). injection En' as <-. rewrite !app_length. cbn [length].
          pose proof (rest_mono (fun l => l) (fun x y => eq_refl) data n1 (n1 + zlen (old_bytes reverse c)) ltac:(lia)). split; lia.
        * unfold byte_already_applied_into. apply ends_lift_bind; [simpl; lia|]. intros e _. pose proof (zlen_nonneg (old_bytes reverse c)) as Hl.
          eapply ends_weaken; [apply U; assumption| |]; cbv beta; intros; lia.
        * pose proof (zlen_nonneg (old_bytes reverse c)) as Hl. apply ends_ret; simpl; lia.
      + cbv beta. lia.
      + cbv beta. intros x n' Hx [H1 H2]. eapply ends_weaken; [apply (IH n'); [lia|unfold zlen in *; lia]| |]; cbv beta.
        * intros y Hy. rewrite app_length. lia.
        * intros y a _ [K1 K2]. rewrite app_length. lia.
  Qed.
  Lemma amount_bytes cs : zlen data + old_bytes_total cs < two64 ->
    ends (byte_apply_into dbg cs data reverse) (fun o => (length o <= length data + sum_of (fun c => length (new_bytes reverse c)) cs)%nat) (fun _ _ => True).
  Proof.
    intros Hf. unfold byte_apply_into. assert (R0 : rest 0 = length data) by reflexivity.
    eapply ends_bind; [apply (amount_byte_clumps cs 0); [lia|unfold zlen in *; lia]|cbv beta; rewrite R0; auto|].
    cbv beta. intros x n Hx (H1 & H2). rewrite R0 in *.
    eapply ends_bind; [apply (amount_remainder write_all (fun l => l) emits_write_all (fun x y => eq_refl)); lia| |]; cbv beta.
    - intros y Hy. rewrite app_length. lia.
    - intros y a _ Hy. apply ends_ret; [rewrite app_nil_r, app_length; lia|exact I].
  Qed.
End ByteAmount.

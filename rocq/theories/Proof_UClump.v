(* Proof_UClump.v - printing clumps in unified form and parsing them. *)
From Coq Require Import String.
From Verif Require Import Base Model_Seq Model_Changes Model_Json Model_Regex Model_IO Model_Text Model_Unified Spec Spec_Unified.
From Verif Require Import Proof_Seq Proof_Lcs Proof_Regex Proof_Changes Proof_Clumps Proof_Diff Proof_Unified.

Lemma filter_all {A} (p : A -> bool) l : Forall (fun x => p x = true) l -> filter p l = l.
Proof. induction 1 as [|x l Hx Hl IH]; [reflexivity|]. cbn. now rewrite Hx, IH. Qed.
Lemma filter_none {A} (p : A -> bool) l : Forall (fun x => p x = false) l -> filter p l = [].
Proof. induction 1 as [|x l Hx Hl IH]; [reflexivity|]. cbn. now rewrite Hx. Qed.
Lemma unmark_cons m ls : unmark (map (cons m) ls) = ls.
Proof. unfold unmark. rewrite map_map. cbn. apply map_id. Qed.
Lemma filter_marked p m ls : filter (starts_with p) (map (cons m) ls) = if existsb (Byte.eqb m) p then map (cons m) ls else [].
Proof.
  destruct (existsb (Byte.eqb m) p) eqn:E; [apply filter_all|apply filter_none]; apply Forall_map; apply Forall_forall; intros x _; exact E.
Qed.

Lemma In_firstn {A} n (l : list A) x : In x (firstn n l) -> In x l.
Proof. intros H. rewrite <- (firstn_skipn n l). apply in_or_app. now left. Qed.
Lemma In_skipn {A} n (l : list A) x : In x (skipn n l) -> In x l.
Proof. intros H. rewrite <- (firstn_skipn n l). apply in_or_app. now right. Qed.

Section Print.
  Variables b a : list line.

  Definition change_lines (c : change) : list line :=
    match c with
    | NoChange m => map (cons x20) (sub b (cs_b m) (cs_b m + cs_n m))
    | Delete r _ => map (cons x2d) (sub b (r_start r) (r_end r))
    | Insert _ r => map (cons x2b) (sub a (r_start r) (r_end r))
    | Replace rb ra =>
        if range_len rb <? range_len ra
        then map (cons x2d) (sub b (r_start rb) (r_end rb)) ++ map (cons x2b) (sub a (r_start ra) (r_end ra))
        else map (cons x2b) (sub a (r_start ra) (r_end ra)) ++ map (cons x2d) (sub b (r_start rb) (r_end rb))
    end.
  (* what the lines of a change say about the new text *)
  Definition new_part (c : change) : list line :=
    match c with
    | NoChange m => sub b (cs_b m) (cs_b m + cs_n m)
    | _ => sub a (a_from c) (a_to c)
    end.

  Lemma marked_lines_ok m s r : r_start r <= r_end r -> r_end r <= length s ->
    marked_lines m s r = Ok (map (cons m) (sub s (r_start r) (r_end r))).
  Proof. intros H1 H2. unfold marked_lines, subsequence. rewrite slice_ok by assumption. reflexivity. Qed.
  Lemma unified_change_ok c : forward c -> b_to c <= length b -> a_to c <= length a -> unified_change b a c = Ok (change_lines c).
  Proof.
    intros Hf Hb Ha. unfold forward in Hf. destruct c as [m|r p|p r|rb ra]; cbn [b_from b_to a_from a_to unified_change change_lines] in *.
    - rewrite marked_lines_ok; cbn [cs_before_range r_start r_end]; [reflexivity|lia|lia].
    - apply marked_lines_ok; lia.
    - apply marked_lines_ok; lia.
    - rewrite !marked_lines_ok by lia. destruct (range_len rb <? range_len ra); reflexivity.
  Qed.
  Lemma old_lines_app x y : old_lines (x ++ y) = old_lines x ++ old_lines y.
  Proof. apply filter_app. Qed.
  Lemma new_lines_app x y : new_lines (x ++ y) = new_lines x ++ new_lines y.
  Proof. apply filter_app. Qed.
  Lemma unmark_app x y : unmark (x ++ y) = unmark x ++ unmark y.
  Proof. apply map_app. Qed.
  Lemma change_old c : forward c -> unmark (old_lines (change_lines c)) = sub b (b_from c) (b_to c).
  Proof.
    intros Hf. unfold old_lines. destruct c as [m|r p|p r|rb ra]; cbn [change_lines b_from b_to].
    - rewrite filter_marked. cbn [existsb Byte.eqb]. apply unmark_cons.
    - rewrite filter_marked. cbn [existsb Byte.eqb]. apply unmark_cons.
    - rewrite filter_marked. cbn. unfold sub. now rewrite Nat.sub_diag.
    - destruct (range_len rb <? range_len ra); rewrite filter_app, !filter_marked; cbn [existsb Byte.eqb orb app]; rewrite ?app_nil_r; apply unmark_cons.
  Qed.
  Lemma change_new c : forward c -> unmark (new_lines (change_lines c)) = new_part c.
  Proof.
    intros Hf. unfold new_lines. destruct c as [m|r p|p r|rb ra]; cbn [change_lines new_part a_from a_to].
    - rewrite filter_marked. cbn [existsb Byte.eqb]. apply unmark_cons.
    - rewrite filter_marked. cbn. unfold sub. now rewrite Nat.sub_diag.
    - rewrite filter_marked. cbn [existsb Byte.eqb]. apply unmark_cons.
    - destruct (range_len rb <? range_len ra); rewrite filter_app, !filter_marked; cbn [existsb Byte.eqb orb app]; rewrite ?app_nil_r; apply unmark_cons.
  Qed.
  Lemma new_part_length c : forward c -> b_to c <= length b -> a_to c <= length a -> length (new_part c) = a_to c - a_from c.
  Proof.
    intros Hf Hb Ha. destruct c as [m|r p|p r|rb ra]; cbn [new_part b_to] in *; rewrite sub_length by assumption; [cbn|..]; lia.
  Qed.

  Definition clump_lines (c : clump) : list line := concat (map change_lines c).
  Lemma clump_ok i j c n m : tiles i j c n m -> Forall forward c -> n <= length b -> m <= length a ->
    unified_lines b a c = Ok (clump_lines c) /\
    unmark (old_lines (clump_lines c)) = sub b i n /\
    unmark (new_lines (clump_lines c)) = concat (map new_part c) /\
    length (concat (map new_part c)) = m - j.
  Proof.
    induction 1 as [i j|i j c cs n m H1 H2 H IH]; intros Hf Hn Hm.
    - repeat split; unfold sub; rewrite Nat.sub_diag; reflexivity.
    - inversion Hf as [|? ? F1 F2]; subst. destruct (IH F2 Hn Hm) as (E1 & E2 & E3 & E4). clear IH.
      pose proof (tiles_le _ _ _ _ _ F2 H) as [L1 L2]. pose proof F1 as [L3 L4].
      unfold clump_lines. cbn [unified_lines map concat]. fold (clump_lines cs).
      rewrite unified_change_ok by (try assumption; lia). cbn [bind]. rewrite E1. cbn [bind].
      rewrite old_lines_app, new_lines_app, !unmark_app, change_old, change_new, E2, E3, sub_app, app_length, E4, new_part_length by (try assumption; lia).
      repeat split; lia.
  Qed.
  Lemma clump_new_faithful i j c n m : tiles i j c n m -> Forall forward c ->
    (forall k, In (NoChange k) c -> common_block b a (cs_b k) (cs_a k) (cs_n k)) -> concat (map new_part c) = sub a j m.
  Proof.
    induction 1 as [i j|i j c cs n m H1 H2 H IH]; intros Hf Hc; [unfold sub; now rewrite Nat.sub_diag|].
    inversion Hf as [|? ? F1 F2]; subst. cbn [map concat]. rewrite (IH F2) by (intros k Hk; apply Hc; now right).
    pose proof (tiles_le _ _ _ _ _ F2 H) as [L1 L2]. pose proof F1 as [L3 L4].
    assert (E : new_part c = sub a (a_from c) (a_to c)).
    { destruct c as [k| | |]; try reflexivity. cbn [new_part a_from a_to]. apply common_block_sub. apply Hc. now left. }
    rewrite E. apply sub_app; lia.
  Qed.

  (* shape *)
  Lemma clump_from_texts c : Forall (fun x => exists m l, x = m :: l /\ (In l b \/ In l a)) (clump_lines c).
  Proof.
    assert (C : forall m s i j, (forall l, In l s -> In l b \/ In l a) -> Forall (fun x => exists m l, x = m :: l /\ (In l b \/ In l a)) (map (cons m) (sub s i j))).
    { intros m s i j H. apply Forall_map. apply Forall_forall. intros x Hx. exists m, x. split; [reflexivity|]. apply H.
      unfold sub in Hx. apply (In_skipn i). eapply In_firstn; eauto. }
    unfold clump_lines. apply Forall_concat. apply Forall_map. apply Forall_forall. intros c0 _.
    destruct c0 as [m|r p|p r|rb ra]; cbn [change_lines]; try (apply C; tauto).
    destruct (range_len rb <? range_len ra); apply Forall_app; split; apply C; tauto.
  Qed.
  Lemma change_lines_marked c : Forall (fun x => context_line x = true \/ changed_line x = true) (change_lines c).
  Proof.
    assert (C : forall m ls, In m [x20; x2d; x2b] -> Forall (fun x => context_line x = true \/ changed_line x = true) (map (cons m) ls)).
    { intros m ls Hm. apply Forall_map. apply Forall_forall. intros x _. cbn in Hm. destruct Hm as [<-|[<-|[<-|[]]]]; [now left|now right|now right]. }
    destruct c as [m|r p|p r|rb ra]; cbn [change_lines]; try (apply C; cbn; tauto).
    destruct (range_len rb <? range_len ra); apply Forall_app; split; apply C; cbn; tauto.
  Qed.
  Lemma real_lines c : real c = true -> non_empty c -> b_to c <= length b -> a_to c <= length a ->
    change_lines c <> [] /\ Forall (fun x => changed_line x = true) (change_lines c).
  Proof.
    assert (C : forall m ls, In m [x2d; x2b] -> Forall (fun x => changed_line x = true) (map (cons m) ls)).
    { intros m ls Hm. apply Forall_map. apply Forall_forall. intros x _. cbn in Hm. destruct Hm as [<-|[<-|[]]]; reflexivity. }
    assert (N : forall m (s : list line) x y, x < y -> y <= length s -> map (cons m) (sub s x y) <> []).
    { intros m s x y H1 H2 E. apply map_eq_nil in E. pose proof (sub_length s x y H2). rewrite E in *. cbn in *. lia. }
    destruct c as [m|r p|p r|rb ra]; cbn [real non_empty b_to a_to change_lines]; intros Hr Hn Hb Ha; [discriminate| | |].
    - split; [now apply N|apply C; cbn; tauto].
    - split; [now apply N|apply C; cbn; tauto].
    - destruct Hn as [N1 N2]. pose proof (N x2d b _ _ N1 Hb) as Q.
      destruct (range_len rb <? range_len ra); (split; [|apply Forall_app; split; apply C; cbn; tauto]); intros E; apply app_eq_nil in E; tauto.
  Qed.
  Lemma block_lines m : Forall (fun x => context_line x = true) (change_lines (NoChange m)).
  Proof. apply Forall_map. apply Forall_forall. intros x _. reflexivity. Qed.
  Lemma block_lines_length m : cs_b m + cs_n m <= length b -> length (change_lines (NoChange m)) = cs_n m.
  Proof. intros H. cbn [change_lines]. rewrite map_length, sub_length by assumption. lia. Qed.
End Print.

(* ---------------- runs of context lines ---------------- *)
Lemma context_not_changed l : context_line l = true -> changed_line l = true -> False.
Proof. destruct l as [|x l]; [discriminate|]. destruct x; cbn; discriminate. Qed.
Lemma runs_nil n : context_runs_within n [].
Proof.
  intros x y z E _. assert (H := f_equal (@length _) E). rewrite !app_length in H. cbn in H. lia.
Qed.
Lemma runs_short n ls : length ls <= n -> context_runs_within n ls.
Proof. intros H x y z -> _. rewrite !app_length in H. lia. Qed.
Lemma runs_prefix n x y : context_runs_within n (x ++ y) -> context_runs_within n x.
Proof. intros H p q r -> Hq. apply (H p q (r ++ y)); [rewrite <- !app_assoc; reflexivity|assumption]. Qed.
Lemma app_eq_app {A} (p q r s : list A) : p ++ q = r ++ s ->
  (exists t, p = r ++ t /\ s = t ++ q) \/ (exists t, r = p ++ t /\ q = t ++ s).
Proof.
  revert r. induction p as [|x p IH]; intros r E; cbn in E.
  - right. exists r. now split.
  - destruct r as [|y r]; cbn in E.
    + left. exists (x :: p). now split.
    + injection E as <- E. destruct (IH _ E) as [(t & -> & ->)|(t & -> & ->)]; [left|right]; exists t; now split.
Qed.
Lemma runs_between n u w v : context_runs_within n u -> context_runs_within n v ->
  w <> [] -> Forall (fun x => changed_line x = true) w -> context_runs_within n (u ++ w ++ v).
Proof.
  intros Hu Hv Hne Hw x y z E Hy. rewrite (app_assoc x y z) in E. apply eq_sym in E.
  apply app_eq_app in E as [(t & E1 & E2)|(t & E1 & E2)].
  2:{ apply (Hu x y t); [now rewrite E1, app_assoc|assumption]. }
  apply eq_sym in E1. apply app_eq_app in E1 as [(x' & E3 & E4)|(x' & E3 & E4)].
  - (* u ends inside y *)
    destruct t as [|t0 t].
    + rewrite app_nil_r in E4. subst y. apply (Hu x x' []); [now rewrite app_nil_r|assumption].
    + destruct w as [|w0 w]; [congruence|]. cbn in E2. injection E2 as -> E2. exfalso.
      apply (context_not_changed t0); [|now inversion Hw].
      apply (proj1 (Forall_forall _ _) Hy). rewrite E4. apply in_or_app. right. now left.
  - (* u ends inside x *)
    subst t. rewrite <- app_assoc in E2. apply eq_sym in E2. apply app_eq_app in E2 as [(s & E5 & E6)|(s & E5 & E6)].
    + apply (Hv s y z); [assumption|assumption].
    + destruct s as [|s0 s].
      * cbn in E6. apply (Hv [] y z); [exact (eq_sym E6)|assumption].
      * destruct y as [|y0 y]; [cbn; lia|]. cbn in E6. injection E6 as -> E6. exfalso.
        apply (context_not_changed s0); [now inversion Hy|].
        apply (proj1 (Forall_forall _ _) Hw). rewrite E5. apply in_or_app. right. now left.
Qed.

Section Runs.
  Variables b a : list line.
  Lemma clump_runs n c : alternating c ->
    Forall (fun x => real x = true -> change_lines b a x <> [] /\ Forall (fun l => changed_line l = true) (change_lines b a x)) c ->
    (forall m, In (NoChange m) c -> length (change_lines b a (NoChange m)) <= n) ->
    context_runs_within n (clump_lines b a c).
  Proof.
    intros Ha Hr Hb.
    assert (P : context_runs_within n (clump_lines b a c) /\ context_runs_within n (clump_lines b a (tl c))); [|tauto].
    induction c as [|x c IH]; [split; apply runs_nil|].
    assert (Ha' : alternating c) by (eapply alternating_tl; eauto).
    inversion Hr as [|? ? R1 R2]; subst. destruct IH as [I1 I2]; [assumption|assumption|intros m Hm; apply Hb; now right|].
    split; [|exact I1]. unfold clump_lines. cbn [map concat]. fold (clump_lines b a c).
    destruct (real x) eqn:Er.
    - destruct (R1 eq_refl) as [N1 N2]. apply (runs_between n []); [apply runs_nil|assumption..].
    - destruct x as [m| | |]; try discriminate.
      assert (Hm : context_runs_within n (change_lines b a (NoChange m))) by (apply runs_short; apply Hb; now left).
      destruct c as [|y c]; [unfold clump_lines; cbn [map concat]; now rewrite app_nil_r|].
      assert (Ey : real y = true) by (pose proof (alternating_hd _ _ _ Ha) as Q; cbn in Q; destruct (real y); congruence).
      inversion R2 as [|? ? R3 R4]; subst. destruct (R3 Ey) as [N1 N2].
      unfold clump_lines. cbn [map concat]. now apply runs_between.
  Qed.
End Runs.

Lemma alternating_app x y : alternating x -> alternating y ->
  (forall p u v q, x = p ++ [u] -> y = v :: q -> real u <> real v) -> alternating (x ++ y).
Proof.
  intros Hx Hy Hm p u v q E. apply eq_sym in E. change (u :: v :: q) with ([u] ++ v :: q) in E. rewrite app_assoc in E.
  apply app_eq_app in E as [(t & E1 & E2)|(t & E1 & E2)].
  - destruct t as [|t0 t] using rev_ind.
    + rewrite app_nil_r in E1. apply (Hm p u v q); auto.
    + clear IHt. rewrite app_assoc in E1. apply app_inj_tail in E1 as [E1 ->]. apply (Hy t t0 v q). rewrite E2, <- app_assoc. reflexivity.
  - destruct t as [|t0 t].
    + rewrite app_nil_r in E1. apply (Hm p u v q); auto.
    + cbn in E2. injection E2 as -> E2. apply (Hx p u t0 t). rewrite E1, <- app_assoc. reflexivity.
Qed.
Lemma alternating_infix x y z : alternating (x ++ y ++ z) -> alternating y.
Proof. intros H p u v q ->. apply (H (x ++ p) u v (q ++ z)). rewrite <- !app_assoc. reflexivity. Qed.
Lemma alternating_one x : alternating [x].
Proof. intros p u v q E. destruct p as [|? [|]]; discriminate. Qed.
Lemma alternating_none : alternating [].
Proof. intros p u v q E. destruct p as [|? [|]]; discriminate. Qed.
Lemma clump_alternating context p body q : close_run context body -> alternating body -> alternating (lead context p ++ body ++ trail context q).
Proof.
  intros (H1 & H2 & _) Hb. apply alternating_app.
  - destruct p; [apply alternating_one|apply alternating_none].
  - apply alternating_app; [assumption|destruct q; [apply alternating_one|apply alternating_none]|].
    intros p' u v q' E1 E2. destruct H2 as (i & c & E3 & Hc). rewrite E3 in E1. apply app_inj_tail in E1 as [-> ->].
    destruct q; [|discriminate]. cbn in E2. injection E2 as <- _. rewrite Hc. discriminate.
  - intros p' u v q' E1 E2. destruct H1 as (c & tl & -> & Hc). cbn in E2. injection E2 as <- _.
    destruct p as [m|]; [|destruct p'; discriminate]. cbn in E1. change [NoChange (last_items context m)] with ([] ++ [NoChange (last_items context m)]) in E1.
    apply app_inj_tail in E1 as [_ <-]. rewrite Hc. discriminate.
Qed.
Lemma clumping_alternating context p cs clumps : clumping context p cs clumps -> alternating cs -> Forall alternating clumps.
Proof.
  induction 1 as [p|p body q Hb|p body m rest clumps Hb Hr Hm H IH]; intros Ha; constructor; auto.
  - apply clump_alternating; [assumption|]. destruct q; [apply (alternating_infix [] body _ Ha)|apply (alternating_infix [] body [])]; assumption.
  - apply clump_alternating; [assumption|]. apply (alternating_infix [] body _ Ha).
  - apply IH. intros p' u v q' E. apply (Ha (body ++ NoChange m :: p') u v q'). rewrite E, <- app_assoc. reflexivity.
Qed.
Lemma clumps_alternating context cs clumps : clumps_of context cs clumps -> alternating cs -> Forall alternating clumps.
Proof.
  intros H Ha. destruct cs as [|[m| | |] cs]; cbn in H; eauto using clumping_alternating.
  eapply clumping_alternating; [exact H|]. eapply alternating_tl; eauto.
Qed.

(* ---------------- printing ---------------- *)
Lemma ends_with_newline_iff l : ends_with_newline l = true <-> ends_in_newline l.
Proof.
  unfold ends_with_newline, ends_in_newline. destruct l as [|x l] using rev_ind; cbn.
  - split; [discriminate|]. intros (y & E). destruct y; discriminate.
  - rewrite rev_unit. unfold is_newline. split.
    + intros E. exists l. destruct x; try discriminate. reflexivity.
    + intros (y & E). apply app_inj_tail in E as [_ ->]. reflexivity.
Qed.

Section PrintClump.
  Variables b a : list line.
  Variable context : nat.
  Hypothesis Hctx : context <= 255.
  Variable all : list change.
  Hypothesis Hne : Forall non_empty all.

  (* what is printed for a hunk *)
  Definition printed_as (h : hunk line) (t : unified_text) : Prop := exists body,
    ut_header t = header_text (header_of h) /\ with_marker body (ut_lines t) /\
    marked_as (h_lead h) (h_trail h) body /\
    unmark (old_lines body) = h_old h /\ length (new_lines body) = length (h_new h) /\
    (faithful b a all -> unmark (new_lines body) = h_new h) /\
    context_runs_within (2 * context - 1) body /\
    Forall (fun x => exists m l, x = m :: l /\ (In l b \/ In l a)) body.

  Lemma forward_non_empty c : non_empty c -> forward c.
  Proof. destruct c; cbn; unfold forward; cbn; lia. Qed.

  Lemma clump_text_ok i j p body q i' j' : close_run context body ->
    tiles i j (lead context p ++ body ++ trail context q) i' j' -> i' <= length b -> j' <= length a ->
    Forall forward (lead context p ++ body ++ trail context q) ->
    (forall m, p = Some m -> In (NoChange m) all) -> (forall m, q = Some m -> In (NoChange m) all) ->
    (forall x, In x body -> In x all) -> alternating (lead context p ++ body ++ trail context q) ->
    exists t, unified_clump_text b a (lead context p ++ body ++ trail context q) = Ok t /\
      printed_as (Hunk (match p with Some m => Nat.min context (cs_n m) | None => 0 end)
                       (match q with Some m => Nat.min context (cs_n m) | None => 0 end)
                       i (sub b i i') j (sub a j j')) t.
  Proof.
    intros Hb Ht Bi Bj Hf Hp Hq Hx Halt. set (c := lead context p ++ body ++ trail context q) in *.
    set (l := match p with Some m => Nat.min context (cs_n m) | None => 0 end).
    set (t := match q with Some m => Nat.min context (cs_n m) | None => 0 end).
    assert (Hcne : c <> []).
    { destruct Hb as ((x & tl & -> & _) & _). unfold c. destruct (lead context p); discriminate. }
    pose proof (tiles_le _ _ _ _ _ Hf Ht) as [L1 L2].
    destruct (clump_ok b a _ _ _ _ _ Ht Hf Bi Bj) as (E1 & E2 & E3 & E4).
    assert (SP : clump_lines b a c = clump_lines b a (lead context p) ++ clump_lines b a body ++ clump_lines b a (trail context q)).
    { unfold c, clump_lines. rewrite !map_app, !concat_app. reflexivity. }
    rewrite Forall_forall in Hne.
    (* every change is within the texts *)
    assert (IN : forall x, In x c -> b_to x <= length b /\ a_to x <= length a).
    { intros x Hin. destruct (in_split _ _ Hin) as (u & v & E). rewrite E in Ht, Hf.
      apply tiles_app_inv in Ht as (x1 & y1 & _ & T). inversion T as [|? ? ? ? ? ? A1 A2 A3]; subst.
      apply Forall_app in Hf as [_ Hf]. inversion Hf; subst. match goal with H : Forall forward v |- _ => pose proof (tiles_le _ _ _ _ _ H A3) end. lia. }
    assert (RL : forall x, In x body -> real x = true -> change_lines b a x <> [] /\ Forall (fun l => changed_line l = true) (change_lines b a x)).
    { intros x Hin Hr. destruct (IN x) as [I1 I2]; [unfold c; rewrite !in_app_iff; tauto|]. apply real_lines; auto. }
    assert (ML : length (clump_lines b a (lead context p)) = l /\ Forall (fun x => context_line x = true) (clump_lines b a (lead context p))).
    { destruct p as [m|]; [|split; [reflexivity|constructor]]. unfold clump_lines. cbn [lead map concat]. rewrite app_nil_r.
      split; [|apply block_lines]. rewrite block_lines_length; [reflexivity|].
      destruct (IN (NoChange (last_items context m))) as [I1 _]; [unfold c; cbn; tauto|]. exact I1. }
    assert (MT : length (clump_lines b a (trail context q)) = t /\ Forall (fun x => context_line x = true) (clump_lines b a (trail context q))).
    { destruct q as [m|]; [|split; [reflexivity|constructor]]. unfold clump_lines. cbn [trail map concat]. rewrite app_nil_r.
      split; [|apply block_lines]. rewrite block_lines_length; [reflexivity|].
      destruct (IN (NoChange (first_items context m))) as [I1 _]; [unfold c; rewrite !in_app_iff; cbn; tauto|]. exact I1. }
    assert (MA : marked_as l t (clump_lines b a c)).
    { exists (clump_lines b a (lead context p)), (clump_lines b a body), (clump_lines b a (trail context q)).
      split; [exact SP|]. do 2 (split; [tauto|]). do 2 (split; [tauto|]). split; [|split].
      - destruct Hb as ((x & tl & -> & Hr) & _). destruct (RL x (or_introl eq_refl) Hr) as [N1 N2].
        unfold clump_lines. cbn [map concat]. destruct (change_lines b a x) as [|l0 ls]; [congruence|]. cbn [app].
        do 2 eexists. split; [reflexivity|]. now inversion N2.
      - destruct Hb as (_ & (ini & x & -> & Hr) & _). destruct (RL x ltac:(apply in_or_app; cbn; tauto) Hr) as [N1 N2].
        unfold clump_lines. rewrite map_app, concat_app. cbn [map concat]. rewrite app_nil_r.
        destruct (change_lines b a x) as [|l0 ls] using rev_ind; [congruence|]. clear IHls. rewrite app_assoc.
        do 2 eexists. split; [reflexivity|]. apply Forall_app in N2 as [_ N2]. now inversion N2.
      - unfold clump_lines. apply Forall_concat. apply Forall_map. apply Forall_forall. intros x _. apply change_lines_marked. }
    assert (NE : exists pre z, clump_lines b a c = pre ++ [z]).
    { destruct MA as (u & v & w & -> & _ & _ & _ & _ & (x & more & -> & _) & _).
      assert (Q : u ++ (x :: more) ++ w <> []) by (destruct u; discriminate). destruct (exists_last Q) as (pre & z & ->). eauto. }
    assert (RUNS : context_runs_within (2 * context - 1) (clump_lines b a c)).
    { apply clump_runs; [assumption| |].
      - apply Forall_forall. intros x Hin Hr. unfold c in Hin. rewrite !in_app_iff in Hin. destruct Hin as [Hin|[Hin|Hin]]; [|auto|].
        + destruct p; [|contradiction]. cbn in Hin. destruct Hin as [<-|[]]. discriminate.
        + destruct q; [|contradiction]. cbn in Hin. destruct Hin as [<-|[]]. discriminate.
      - intros m Hin. rewrite block_lines_length by (destruct (IN _ Hin) as [I1 _]; exact I1).
        unfold c in Hin. rewrite !in_app_iff in Hin. destruct Hin as [Hin|[Hin|Hin]].
        + destruct p as [m'|]; [|contradiction]. cbn in Hin. destruct Hin as [E|[]]. injection E as <-. cbn. lia.
        + destruct Hb as (_ & _ & Hb). specialize (Hb _ Hin). lia.
        + destruct q as [m'|]; [|contradiction]. cbn in Hin. destruct Hin as [E|[]]. injection E as <-. cbn. lia. }
    unfold unified_clump_text. rewrite (clump_starts_tiles _ _ _ _ _ Hcne Ht), (clump_ends_tiles _ _ _ _ _ Hcne Ht).
    unfold usub. rewrite !(proj2 (Nat.leb_le _ _)) by lia. cbn [bind]. rewrite E1. cbn [bind].
    destruct NE as (pre & z & NE). rewrite NE, rev_unit.
    eexists. split; [reflexivity|]. exists (clump_lines b a c). cbn [ut_header ut_lines h_lead h_trail h_old h_new].
    split; [unfold header_of; cbn [h_b h_a h_old h_new]; rewrite !sub_length by assumption; reflexivity|].
    split.
    { assert (W : last_has_newline (clump_lines b a c) <-> ends_with_newline z = true).
      { rewrite ends_with_newline_iff. split; [intros (p1 & z1 & Q & Hz)|intros Hz].
        - rewrite NE in Q. apply app_inj_tail in Q as [_ ->]. assumption.
        - exists pre, z. now split. }
      unfold with_marker. rewrite W. destruct (ends_with_newline z); [left; now rewrite NE|right]. split; [discriminate|]. now rewrite NE. }
    split; [assumption|]. split; [assumption|].
    split; [rewrite sub_length, <- E4, <- E3 by assumption; unfold unmark; now rewrite map_length|].
    split; [|split; [assumption|apply clump_from_texts]]. intros Hfa. rewrite E3. apply (clump_new_faithful b a _ _ _ _ _ Ht Hf).
    intros k Hin. unfold c in Hin. rewrite !in_app_iff in Hin. destruct Hin as [Hin|[Hin|Hin]].
    - destruct p as [m'|]; [|contradiction]. cbn in Hin. destruct Hin as [E|[]]. injection E as <-.
      cbn [last_items cs_b cs_a cs_n]. apply block_sub with (n := cs_n m'); [apply Hfa, Hp; reflexivity|lia].
    - apply Hfa. auto.
    - destruct q as [m'|]; [|contradiction]. cbn in Hin. destruct Hin as [E|[]]. injection E as <-.
      cbn [first_items cs_b cs_a cs_n]. replace (cs_b m') with (cs_b m' + 0) by lia. replace (cs_a m') with (cs_a m' + 0) by lia.
      apply block_sub with (n := cs_n m'); [apply Hfa, Hq; reflexivity|lia].
  Qed.

  Lemma spreadc_printed i j clumps : spreadc context all (length b) (length a) i j clumps -> Forall alternating clumps ->
    exists hs ts, map_res (text_clump_from b a) clumps = Ok (map text_of_hunk hs) /\
      cover context (unchanged all) b a i j hs /\ unified_texts b a clumps = Ok ts /\ Forall2 printed_as hs ts.
  Proof.
    intros H Ha. pose proof (spreadc_forward _ _ _ _ _ _ _ Hne H) as Hfw. revert Hfw Ha.
    induction H as [i j d Hu H1 H2|i j d p body q i' j' rest Hu Hb Ht Hp Hq Hx H IH]; intros Hfw Ha.
    - exists [], []. split; [reflexivity|]. split; [econstructor; eauto|]. split; [reflexivity|constructor].
    - inversion Hfw as [|? ? F1 F2]; subst. inversion Ha as [|? ? A1 A2]; subst. destruct (IH F2 A2) as (hs & ts & E1 & C & E2 & P).
      pose proof (spreadc_cons context all _ _ i j d p body q i' j' rest Hu Hb Ht Hp Hq Hx H) as Hs.
      destruct (spreadc_cover text_of_hunk text_clump_from text_clump_from_hunk b a context Hctx all Hne _ _ _ Hs) as (_ & _ & hs' & E3 & C3).
      destruct (spreadc_cover text_of_hunk text_clump_from text_clump_from_hunk b a context Hctx all Hne _ _ _ H) as (B1 & B2 & hs2 & E4 & C4).
      destruct (clump_text_ok _ _ _ _ _ _ _ Hb Ht B1 B2 F1) as (t & T1 & T2); auto.
      { intros m ->. assumption. } { intros m ->. assumption. }
      pose proof (tiles_le _ _ _ _ _ F1 Ht) as [L1 L2].
      match type of T2 with printed_as ?h _ => set (h0 := h) in * end.
      assert (Hcne : lead context p ++ body ++ trail context q <> []).
      { destruct Hb as ((x & tl & -> & _) & _). destruct (lead context p); discriminate. }
      assert (Q : map_res (text_clump_from b a) ((lead context p ++ body ++ trail context q) :: rest) = Ok (map text_of_hunk (h0 :: hs))).
      { cbn [map_res map]. rewrite text_clump_from_hunk, (clump_ranges_tiles _ _ _ _ _ Hcne Ht).
        rewrite clump_context_lengths_shape by assumption.
        rewrite !extract_snippet_ok by lia. cbn [bind r_start sn_items]. rewrite E1. reflexivity. }
      exists (h0 :: hs), (t :: ts). split; [exact Q|]. split; [|split; [|now constructor]].
      + assert (INJ : map text_of_hunk (h0 :: hs) = map text_of_hunk hs') by congruence.
        assert (hs' = h0 :: hs) as <-; [|assumption].
        revert INJ. generalize (h0 :: hs). clear. intros l. revert hs'. induction l as [|x l IH]; intros [|y m] E; try discriminate; [reflexivity|].
        cbn [map] in E. injection E as E E1 E2 E3 E4 E5 E6. rewrite (IH _ E6). f_equal. destruct x, y. cbn in *. f_equal; lia || congruence.
      + cbn [unified_texts]. rewrite T1. cbn [bind]. rewrite E2. reflexivity.
  Qed.
End PrintClump.

Lemma unified_diff_spec b a context : context <= 255 ->
  exists cs hs ts, text_changes b a = Ok cs /\ text_diff_clumps b a context = Ok (map text_of_hunk hs) /\
    cover context (unchanged cs) b a 0 0 hs /\ (no_isolated_mismatch b a -> faithful b a cs) /\
    unified_diff context b a = Ok ts /\ Forall2 (printed_as b a context cs) hs ts.
Proof.
  intros Hc. destruct (text_changes_spec b a) as (cs & E & Ht & Hne & Halt & Hfa).
  destruct (change_clumps_spec context cs Halt) as (clumps & E2 & Hcl).
  pose proof (clumps_of_spreadc _ _ _ _ _ Hcl Ht) as Hs.
  destruct (spreadc_printed b a context Hc cs Hne 0 0 clumps Hs (clumps_alternating _ _ _ Hcl Halt)) as (hs & ts & E3 & C & E4 & P).
  exists cs, hs, ts. split; [assumption|]. split; [unfold text_diff_clumps; rewrite E; cbn [bind]; rewrite E2; cbn [bind]; assumption|].
  split; [assumption|]. split; [assumption|]. split; [|assumption].
  unfold unified_diff. rewrite E. cbn [bind]. rewrite E2. cbn [bind]. assumption.
Qed.

(* ---------------- context lengths ---------------- *)
Notation ctxs := (Forall (fun x => context_line x = true)).
Lemma old_length_app x y : length (old_lines (x ++ y)) = length (old_lines x) + length (old_lines y).
Proof. now rewrite old_lines_app, app_length. Qed.
Lemma new_length_app x y : length (new_lines (x ++ y)) = length (new_lines x) + length (new_lines y).
Proof. now rewrite new_lines_app, app_length. Qed.
Lemma context_lengths_context ls l t x : context_lengths ls l t -> context_line x = true ->
  (ctxs ls /\ context_lengths (ls ++ [x]) (S l) t) \/ (marked_as l t ls /\ context_lengths (ls ++ [x]) l (S t)).
Proof.
  intros [(H & -> & ->)|H] Hx; [left|right]; (split; [assumption|]).
  - left. split; [apply Forall_app; auto|]. rewrite app_length. cbn. split; [lia|reflexivity].
  - right. destruct H as (u & v & w & -> & H1 & H2 & H3 & H4 & H5). exists u, v, (w ++ [x]).
    rewrite <- !app_assoc. split; [reflexivity|]. split; [assumption|]. split; [rewrite app_length; cbn; lia|].
    split; [assumption|]. split; [apply Forall_app; auto|]. assumption.
Qed.
Lemma context_lengths_changed ls l t x : context_lengths ls l t -> changed_line x = true -> context_lengths (ls ++ [x]) l 0.
Proof.
  intros [(H & -> & ->)|H] Hx; right.
  - exists ls, [x], []. rewrite app_nil_r. split; [reflexivity|]. split; [reflexivity|]. split; [reflexivity|]. split; [assumption|]. split; [constructor|].
    split; [exists x, []; now split|]. split; [exists [], x; now split|]. constructor; [now right|constructor].
  - destruct H as (u & v & w & -> & H1 & H2 & H3 & H4 & (y & m & -> & Hy) & H6 & H7). exists u, ((y :: m) ++ w ++ [x]), []. rewrite app_nil_r, <- !app_assoc.
    split; [reflexivity|]. split; [assumption|]. split; [reflexivity|]. split; [assumption|]. split; [constructor|]. split; [cbn; eauto|].
    split; [exists ((y :: m) ++ w), x; rewrite <- app_assoc; now split|].
    rewrite !Forall_app. split; [assumption|]. split; [|constructor; auto]. eapply Forall_impl; [|exact H4]. intros z Hz. now left.
Qed.
Lemma marked_as_not_ctxs l t ls : marked_as l t ls -> ~ ctxs ls.
Proof.
  intros (u & v & w & -> & _ & _ & _ & _ & (x & m & -> & Hx) & _) H. apply Forall_app in H as [_ H]. inversion H; subst.
  eapply context_not_changed; eauto.
Qed.
Lemma ctxs_prefix_unique u x v u' x' v' : ctxs u -> ctxs u' -> changed_line x = true -> changed_line x' = true ->
  u ++ x :: v = u' ++ x' :: v' -> u = u' /\ x :: v = x' :: v'.
Proof.
  intros Hu Hu' Hx Hx' E. apply app_eq_app in E as [(t & -> & E)|(t & -> & E)]; destruct t as [|t0 t]; cbn in E.
  - now rewrite app_nil_r.
  - exfalso. injection E as -> E. apply Forall_app in Hu as [_ Hu]. inversion Hu; subst. eapply context_not_changed; eauto.
  - now rewrite app_nil_r.
  - exfalso. injection E as -> E. apply Forall_app in Hu' as [_ Hu']. inversion Hu'; subst. eapply context_not_changed; eauto.
Qed.
Lemma marked_as_unique l t l' t' ls : marked_as l t ls -> marked_as l' t' ls -> l = l' /\ t = t'.
Proof.
  intros (u & v & w & -> & <- & <- & H3 & H4 & (x & m & -> & Hx) & (n & y & E5 & Hy) & _)
         (u' & v' & w' & E & <- & <- & H3' & H4' & (x' & m' & -> & Hx') & (n' & y' & E5' & Hy') & _).
  cbn [app] in E. apply ctxs_prefix_unique in E as [-> E]; try assumption. split; [reflexivity|].
  change (x :: m ++ w) with ((x :: m) ++ w) in E. change (x' :: m' ++ w') with ((x' :: m') ++ w') in E. rewrite E5, E5', <- !app_assoc in E.
  apply (f_equal (@rev _)) in E. rewrite !rev_app_distr in E. cbn [rev] in E. rewrite <- !app_assoc in E.
  apply ctxs_prefix_unique in E as [E _]; try assumption; try (apply Forall_rev; assumption).
  apply (f_equal (@length _)) in E. now rewrite !rev_length in E.
Qed.

(* ---------------- parsing ---------------- *)
Section Parse.
  Variable dbg : bool.

  Definition count_is (n : nat) (z : Z) : Prop := (z = Z.of_nat n mod 256)%Z /\ (dbg = true -> n <= 255).
  Definition last_type (ls : list line) : line_type :=
    match rev ls with
    | [] => TypeX
    | (x2b :: _) :: _ => TypePlus
    | _ => TypeMinus
    end.
  (* the state after the lines ls *)
  Definition inv (ls : list line) (st : pstate) : Prop := exists l t,
    p_before st = old_lines ls /\ p_after st = new_lines ls /\ p_index st = length ls /\
    (p_front st = true <-> ctxs ls) /\ context_lengths ls l t /\ count_is l (p_start st) /\ count_is t (p_end st) /\
    p_last st = last_type ls /\ Forall marked_line ls.

  Lemma inv_init : inv [] p_init.
  Proof.
    exists 0, 0. repeat (split; [reflexivity|]). split; [split; constructor|]. split; [left; repeat split; constructor|].
    split; [split; [reflexivity|lia]|]. split; [split; [reflexivity|lia]|]. split; [reflexivity|constructor].
  Qed.

  Lemma u8_incr_count n z : count_is n z ->
    (exists z', u8_incr dbg z = Ok z' /\ count_is (S n) z') \/ (u8_incr dbg z = Panic /\ dbg = true /\ n = 255).
  Proof.
    unfold count_is. intros [-> Hd]. unfold u8_incr. pose proof (Z.mod_pos_bound (Z.of_nat n) 256 ltac:(lia)) as B.
    destruct (Z.ltb_spec (Z.of_nat n mod 256) 255) as [L|L].
    - left. eexists. split; [reflexivity|]. split.
      + rewrite <- (Z.mod_small (Z.of_nat n mod 256 + 1) 256) by lia. rewrite Zplus_mod_idemp_l. f_equal. lia.
      + intros D. specialize (Hd D). rewrite Z.mod_small in L by lia. lia.
    - destruct dbg; [right|left].
      + specialize (Hd eq_refl). rewrite Z.mod_small in L by lia. repeat split. lia.
      + eexists. split; [reflexivity|]. split; [|discriminate].
        replace (Z.of_nat (S n)) with (Z.of_nat n + 1)%Z by lia. rewrite <- Zplus_mod_idemp_l. replace (Z.of_nat n mod 256)%Z with 255%Z by lia. reflexivity.
  Qed.

  Lemma run_end n ls x : ctxs x -> n < length x -> forall u, ls = u ++ x -> ~ context_runs_within n ls.
  Proof. intros Hx Hn u -> H. specialize (H u x [] ltac:(now rewrite app_nil_r) Hx). lia. Qed.

  Lemma take_line_spec si ls st l : inv ls st ->
    (marked_line l /\ exists st', take_line dbg si st l = Ok (DOk st') /\ inv (ls ++ [l]) st') \/
    (marked_line l /\ take_line dbg si st l = Panic /\ dbg = true /\ ~ context_runs_within 255 (ls ++ [l])) \/
    (~ marked_line l /\ take_line dbg si st l = Ok (DErr (UnexpectedEndClump (si + length ls + 1)))).
  Proof.
    intros (lc & tc & I1 & I2 & I3 & I4 & I5 & I6 & I7 & I8 & I9).
    assert (CH : changed_line l = true -> last_type (ls ++ [l]) = (if Byte.eqb (hd x00 l) x2b then TypePlus else TypeMinus)).
    { intros H. unfold last_type. rewrite rev_unit. destruct l as [|x l]; [discriminate|]. destruct x; try discriminate H; reflexivity. }
    assert (NOT : ~ marked_line l -> take_line dbg si st l = Ok (DErr (UnexpectedEndClump (si + length ls + 1)))).
    { intros H. unfold take_line. rewrite I3. destruct l as [|x l]; [reflexivity|]. destruct x; try reflexivity; elim H; (left; reflexivity) || (right; reflexivity). }
    destruct (context_line l) eqn:Ec; [|destruct (changed_line l) eqn:Eh].
    - (* context line *)
      assert (El : exists l', l = x20 :: l') by (destruct l as [|x l]; [discriminate|]; destruct x; try discriminate Ec; eauto). destruct El as (l' & El).
      assert (M : marked_line l) by now left.
      assert (O : old_lines (ls ++ [l]) = old_lines ls ++ [l]) by (rewrite El, old_lines_app; reflexivity).
      assert (N : new_lines (ls ++ [l]) = new_lines ls ++ [l]) by (rewrite El, new_lines_app; reflexivity).
      assert (T : last_type (ls ++ [l]) = TypeMinus) by (rewrite El; unfold last_type; now rewrite rev_unit).
      unfold take_line. rewrite El. rewrite <- El. destruct (p_front st) eqn:Ef.
      + destruct (context_lengths_context _ _ _ _ I5 Ec) as [[Hc C]|[Hc _]]; [|exfalso; apply (marked_as_not_ctxs _ _ _ Hc); tauto].
        assert (Q : lc = length ls) by (destruct I5 as [(_ & Q & _)|Q]; [exact Q|exfalso; apply (marked_as_not_ctxs _ _ _ Q); exact Hc]).
        destruct (u8_incr_count _ _ I6) as [(z & -> & Hz)|(-> & Hd & Hn)]; cbn [bind].
        * left. split; [assumption|]. eexists. split; [reflexivity|]. exists (S lc), tc. cbn [p_before p_after p_index p_front p_start p_end p_last].
          rewrite I1, I2, I3, O, N, T, app_length. cbn [length].
          do 2 (split; [reflexivity|]). split; [lia|]. split; [rewrite Forall_app; split; [intros _; split; [assumption|constructor; auto]|reflexivity]|].
          split; [assumption|]. split; [assumption|]. split; [assumption|]. split; [reflexivity|]. apply Forall_app. split; [assumption|]. constructor; auto.
        * right. left. split; [assumption|]. split; [reflexivity|]. split; [assumption|].
          apply (run_end 255 _ (ls ++ [l])) with (u := []); [apply Forall_app; auto|rewrite app_length; cbn; lia|reflexivity].
      + destruct (context_lengths_context _ _ _ _ I5 Ec) as [[Hc _]|[Hc C]]; [apply I4 in Hc; discriminate|].
        destruct (u8_incr_count _ _ I7) as [(z & -> & Hz)|(-> & Hd & Hn)]; cbn [bind].
        * left. split; [assumption|]. eexists. split; [reflexivity|]. exists lc, (S tc). cbn [p_before p_after p_index p_front p_start p_end p_last].
          rewrite I1, I2, I3, O, N, T, app_length. cbn [length].
          do 2 (split; [reflexivity|]). split; [lia|]. split; [rewrite Forall_app; split; [discriminate|intros [Q _]; apply I4 in Q; discriminate]|].
          split; [assumption|]. split; [assumption|]. split; [assumption|]. split; [reflexivity|]. apply Forall_app. split; [assumption|]. constructor; auto.
        * right. left. split; [assumption|]. split; [reflexivity|]. split; [assumption|].
          destruct Hc as (u & v & w & -> & _ & Hw & _ & Hcw & _).
          apply (run_end 255 _ (w ++ [l])) with (u := u ++ v); [apply Forall_app; auto|rewrite app_length; cbn; lia|now rewrite <- !app_assoc].
    - (* changed line *)
      left. assert (M : marked_line l) by now right. split; [assumption|].
      pose proof (context_lengths_changed _ _ _ _ I5 Eh) as C. specialize (CH eq_refl).
      assert (F : false = true <-> ctxs (ls ++ [l])).
      { split; [discriminate|]. intros Q. apply Forall_app in Q as [_ Q]. inversion Q; subst. congruence. }
      assert (FM : Forall marked_line (ls ++ [l])) by (apply Forall_app; split; [assumption|constructor; auto]).
      destruct l as [|x l']; [discriminate|]. destruct x; try discriminate Eh; cbn [take_line]; (eexists; split; [reflexivity|]);
        exists lc, 0; cbn [p_before p_after p_index p_front p_start p_end p_last]; rewrite I1, I2, I3, old_lines_app, new_lines_app, app_length, CH; cbn;
        rewrite ?app_nil_r; (do 2 (split; [reflexivity|])); (split; [lia|]); (split; [assumption|]); (split; [assumption|]); (split; [assumption|]);
        (split; [split; [reflexivity|lia]|]); (split; [reflexivity|assumption]).
    - right. right. assert (M : ~ marked_line l) by (intros [Q|Q]; congruence). split; auto.
  Qed.

  Lemma reaches_dec h ls st : inv ls st ->
    ((zlen (p_before st) <? sl_length (sls_before h)) || (zlen (p_after st) <? sl_length (sls_after h)))%Z = false <-> reaches h ls.
  Proof.
    intros (lc & tc & I1 & I2 & _). rewrite I1, I2. unfold zlen, reaches. rewrite orb_false_iff, !Z.ltb_ge. tauto.
  Qed.

  (* what the loop does, depending on the lines that follow *)
  Inductive loop_result (h : starts_lengths) (si : nat) (acc iter : list line) : res (dres (pstate * list line)) -> Prop :=
  | loop_done ls rest st : iter = ls ++ rest -> Forall marked_line ls -> reaches h (acc ++ ls) ->
      (forall p q, ls = p ++ q -> q <> [] -> ~ reaches h (acc ++ p)) ->
      (dbg = true -> forall l t p q, ls = p ++ q -> context_lengths (acc ++ p) l t -> l <= 255 /\ t <= 255) ->
      inv (acc ++ ls) st -> loop_result h si acc iter (Ok (DOk (st, rest)))
  | loop_short : Forall marked_line iter -> ~ reaches h (acc ++ iter) ->
      (dbg = true -> forall l t p q, iter = p ++ q -> context_lengths (acc ++ p) l t -> l <= 255 /\ t <= 255) ->
      loop_result h si acc iter (Ok (DErr UnexpectedEndOfInput))
  | loop_stray ls l rest : iter = ls ++ l :: rest -> Forall marked_line ls -> ~ marked_line l -> ~ reaches h (acc ++ ls) ->
      (dbg = true -> forall lc t p q, ls = p ++ q -> context_lengths (acc ++ p) lc t -> lc <= 255 /\ t <= 255) ->
      loop_result h si acc iter (Ok (DErr (UnexpectedEndClump (si + length acc + length ls + 1))))
  | loop_overflow ls l rest : iter = ls ++ l :: rest -> Forall marked_line (ls ++ [l]) -> ~ reaches h (acc ++ ls) ->
      dbg = true -> ~ context_runs_within 255 (acc ++ ls ++ [l]) -> loop_result h si acc iter Panic.

  Lemma reaches_app h x y : reaches h x -> reaches h (x ++ y).
  Proof. unfold reaches. rewrite old_length_app, new_length_app. lia. Qed.

  Lemma inv_counts ls st : inv ls st -> dbg = true -> forall l t, context_lengths ls l t -> l <= 255 /\ t <= 255.
  Proof.
    intros (lc & tc & _ & _ & _ & _ & C & (_ & N1) & (_ & N2) & _) D l t C'. specialize (N1 D). specialize (N2 D).
    destruct C as [(H & -> & ->)|C], C' as [(H' & -> & ->)|C'].
    - lia.
    - exfalso. apply (marked_as_not_ctxs _ _ _ C' H).
    - exfalso. apply (marked_as_not_ctxs _ _ _ C H').
    - destruct (marked_as_unique _ _ _ _ _ C C'). lia.
  Qed.

  Lemma take_lines_spec h si : forall iter acc st, inv acc st -> loop_result h si acc iter (take_lines dbg h si st iter).
  Proof.
    induction iter as [|l iter IH]; intros acc st HI; cbn [take_lines];
      (destruct (_ || _)%bool eqn:E; [assert (NR : ~ reaches h acc) by (intros Q; apply (reaches_dec h acc st HI) in Q; congruence)
         |assert (R : reaches h acc) by (apply (reaches_dec h acc st HI); assumption)]).
    - apply loop_short; [constructor|now rewrite app_nil_r|].
      intros D l t p q Q. apply eq_sym, app_eq_nil in Q as [-> ->]. rewrite app_nil_r. apply (inv_counts _ _ HI D).
    - apply loop_done with (ls := []); rewrite ?app_nil_r; auto.
      { intros p q Q Hq. apply eq_sym, app_eq_nil in Q. tauto. }
      intros D l t p q Q. apply eq_sym, app_eq_nil in Q as [-> ->]. rewrite app_nil_r. apply (inv_counts _ _ HI D).
    - destruct (take_line_spec si acc st l HI) as [(M & st' & -> & HI')|[(M & -> & D & O)|(M & ->)]]; cbn [bind].
      + pose proof (IH (acc ++ [l]) st' HI') as L. inversion L as [ls rest st2 X1 X2 X3 X4 X5 X6 X7|X1 X2 X5 X3|ls l2 rest X1 X2 X3 X4 X5 X6|ls l2 rest X1 X2 X3 X4 X5 X6]; subst.
        * rewrite <- app_assoc in *. apply loop_done with (ls := l :: ls); auto.
          -- intros [|p0 p] q Q Hq; [now rewrite app_nil_r|]. cbn in Q. injection Q as <- Q. specialize (X4 p q Q Hq). now rewrite <- app_assoc in X4.
          -- intros D lc tc [|p0 p] q Q; [rewrite app_nil_r; apply (inv_counts _ _ HI D)|].
             cbn in Q. injection Q as <- Q. specialize (X5 D lc tc p q Q). now rewrite <- app_assoc in X5.
        * apply loop_short; [now constructor|now rewrite <- app_assoc in *|].
          intros D lc tc [|p0 p] q Q; [rewrite app_nil_r; apply (inv_counts _ _ HI D)|]. cbn in Q. injection Q as <- Q. specialize (X5 D lc tc p q Q). now rewrite <- app_assoc in X5.
        * replace (si + length (acc ++ [l]) + length ls + 1) with (si + length acc + length (l :: ls) + 1) by (rewrite app_length; cbn; lia).
          apply loop_stray with (l := l2) (rest := rest); auto; [now rewrite <- app_assoc in *|].
          intros D lc tc [|p0 p] q Q; [rewrite app_nil_r; apply (inv_counts _ _ HI D)|]. cbn in Q. injection Q as <- Q. specialize (X5 D lc tc p q Q). now rewrite <- app_assoc in X5.
        * apply loop_overflow with (ls := l :: ls) (l := l2) (rest := rest); auto; [now constructor|now rewrite <- app_assoc in *|now rewrite <- !app_assoc in *].
      + apply loop_overflow with (ls := []) (l := l) (rest := iter); rewrite ?app_nil_r; auto. constructor; auto.
      + replace (si + length acc + 1) with (si + length acc + length (@nil line) + 1) by (cbn; lia).
        apply loop_stray with (l := l) (rest := iter); rewrite ?app_nil_r; auto.
        intros D lc t p q Q. apply eq_sym, app_eq_nil in Q as [-> ->]. rewrite app_nil_r. apply (inv_counts _ _ HI D).
    - apply loop_done with (ls := []); rewrite ?app_nil_r; auto.
      { intros p q Q Hq. apply eq_sym, app_eq_nil in Q. tauto. }
      intros D lc t p q Q. apply eq_sym, app_eq_nil in Q as [-> ->]. rewrite app_nil_r. apply (inv_counts _ _ HI D).
  Qed.
End Parse.

(* ---------------- trimming ---------------- *)
Lemma drop_white_spec cs : exists ws, cs = ws ++ drop_white cs /\ Forall blank ws /\ (forall c more, drop_white cs = c :: more -> ~ blank c).
Proof.
  induction cs as [|c cs (ws & E & H1 & H2)]; [exists []; repeat split; [constructor|discriminate]|]. cbn [drop_white]. destruct (white c) eqn:W.
  - exists (c :: ws). split; [cbn; now rewrite <- E|]. split; [constructor; [now apply white_blank|assumption]|assumption].
  - exists []. split; [reflexivity|]. split; [constructor|]. intros c' more [= <- <-]. now apply white_false.
Qed.
Lemma trim_end_spec l : trimmed l (trim_end l).
Proof.
  unfold trim_end. destruct (drop_white_spec (rev (chars l))) as (ws & E & H1 & H2).
  exists (rev (drop_white (rev (chars l)))), (rev ws). split.
  - apply (f_equal (@rev _)) in E. rewrite rev_involutive, rev_app_distr in E. assumption.
  - split; [reflexivity|]. split; [now apply Forall_rev|]. intros pre c Q. apply (f_equal (@rev _)) in Q. rewrite rev_involutive, rev_unit in Q. eapply H2; eauto.
Qed.
Lemma trimmed_unique l l1 l2 : trimmed l l1 -> trimmed l l2 -> l1 = l2.
Proof.
  intros (c1 & w1 & E1 & -> & B1 & N1) (c2 & w2 & E2 & -> & B2 & N2). f_equal. rewrite E1 in E2.
  assert (G : forall (c1 w1 c2 w2 : list char), c1 ++ w1 = c2 ++ w2 -> Forall blank w2 -> (forall pre c, c1 = pre ++ [c] -> ~ blank c) -> forall t, c1 = c2 ++ t -> t = []).
  { clear. intros c1 w1 c2 w2 E B N t ->. destruct t as [|x t] using rev_ind; [reflexivity|]. clear IHt. exfalso.
    rewrite <- app_assoc in E. apply app_inv_head in E. subst w2. apply Forall_app in B as [B _]. apply Forall_app in B as [_ B]. inversion B; subst.
    eapply N; [|eassumption]. now rewrite app_assoc. }
  destruct (app_eq_app _ _ _ _ E2) as [(t & Q & _)|(t & Q & _)].
  - rewrite (G _ _ _ _ E2 B2 N1 t Q) in Q. now rewrite app_nil_r in Q.
  - rewrite (G _ _ _ _ (eq_sym E2) B1 N2 t Q) in Q. now rewrite app_nil_r in Q.
Qed.
Lemma trim_last_spec ls l : exists ls', trim_last (ls ++ [l]) = Ok ls' /\ trimmed_last (ls ++ [l]) ls'.
Proof.
  unfold trim_last. rewrite rev_unit. eexists. split; [reflexivity|]. cbn [rev]. rewrite rev_involutive. exists ls, l, (trim_end l).
  repeat split. apply trim_end_spec.
Qed.
Lemma trimmed_last_unique ls l1 l2 : trimmed_last ls l1 -> trimmed_last ls l2 -> l1 = l2.
Proof.
  intros (p & l & l' & -> & -> & T) (p2 & k & k' & E & -> & T2). apply app_inj_tail in E as [<- <-]. now rewrite (trimmed_unique _ _ _ T T2).
Qed.

(* ---------------- the whole parser ---------------- *)
Section ParseClump.
  Variable nd : char -> bool.
  Variable dbg : bool.

  Lemma last_type_snoc ls l : marked_line l -> last_type (ls ++ [l]) = if starts_with [x2b] l then TypePlus else TypeMinus.
  Proof.
    intros H. unfold last_type. rewrite rev_unit. destruct l as [|x l]; [destruct H; discriminate|]. destruct H as [H|H]; destruct x; try discriminate H; reflexivity.
  Qed.
  Lemma backslash_dec rest : {backslash_first rest} + {~ backslash_first rest}.
  Proof.
    destruct rest as [|[|x s] more]; [right|right|]; try (intros (s' & m & E); discriminate).
    destruct (Byte.eqb x x5c) eqn:E; [left|right].
    - exists s, more. destruct x; try discriminate E; reflexivity.
    - intros (s' & m & Q). injection Q as -> _ _. discriminate.
  Qed.
  Lemma marker_spec h ls rest st : inv dbg ls st ->
    (backslash_first rest /\ ls = [] /\ no_newline_marker st rest = Panic) \/
    (~ (backslash_first rest /\ ls = []) /\ exists b a n, no_newline_marker st rest = Ok (b, a, n) /\ clump_read h ls rest (UClump h b a (p_start st, p_end st) n)).
  Proof.
    intros (lc & tc & I1 & I2 & I3 & I4 & I5 & I6 & I7 & I8 & I9).
    assert (C : exists l t, context_lengths ls l t /\ (p_start st, p_end st) = (Z.of_nat l mod 256, Z.of_nat t mod 256)%Z).
    { exists lc, tc. split; [assumption|]. destruct I6 as [-> _], I7 as [-> _]. reflexivity. }
    destruct (backslash_dec rest) as [B|B].
    - pose proof B as B0. destruct B as (s & more & ->). destruct ls as [|l ls] using rev_ind; [left|right; clear IHls].
      + split; [assumption|]. split; [reflexivity|]. cbn [no_newline_marker]. rewrite I8, I1. reflexivity.
      + split; [intros [_ Q]; destruct ls; discriminate|].
        assert (M : marked_line l) by (apply Forall_app in I9 as [_ Q]; now inversion Q).
        cbn [no_newline_marker]. rewrite I8, I1, I2, I3, last_type_snoc by assumption.
        destruct (starts_with [x2b] l) eqn:E.
        * assert (Q : new_lines (ls ++ [l]) = new_lines ls ++ [l]) by (rewrite new_lines_app; destruct l as [|x l]; [discriminate|]; destruct x; try discriminate E; reflexivity).
          destruct (trim_last_spec (new_lines ls) l) as (a & Ea & Ta). rewrite <- Q in *. rewrite Ea. cbn [bind].
          do 3 eexists. split; [reflexivity|]. split; [reflexivity|]. split; [exact C|]. right. split; [assumption|]. cbn [uc_consumed uc_before uc_after].
          split; [lia|]. exists ls, l. split; [reflexivity|]. left. auto.
        * assert (Q : old_lines (ls ++ [l]) = old_lines ls ++ [l]).
          { rewrite old_lines_app. destruct l as [|x l]; [destruct M; discriminate|]. destruct M as [M|M]; destruct x; try discriminate M; try discriminate E; reflexivity. }
          destruct (trim_last_spec (old_lines ls) l) as (b & Eb & Tb). rewrite <- Q in *. rewrite Eb. cbn [bind].
          do 3 eexists. split; [reflexivity|]. split; [reflexivity|]. split; [exact C|]. right. split; [assumption|]. cbn [uc_consumed uc_before uc_after].
          split; [lia|]. exists ls, l. split; [reflexivity|]. right. auto.
    - right. split; [tauto|]. exists (old_lines ls), (new_lines ls), (1 + length ls).
      split.
      + unfold no_newline_marker. rewrite I1, I2, I3. destruct rest as [|[|x s] more]; [rewrite Nat.add_comm; reflexivity..|].
        assert (x <> x5c) by (intros ->; apply B; do 2 eexists; reflexivity).
        destruct x; try congruence; rewrite Nat.add_comm; reflexivity.
      + split; [reflexivity|]. split; [exact C|]. left. auto.
  Qed.
  Lemma read_unique h ls rest c1 c2 : clump_read h ls rest c1 -> clump_read h ls rest c2 -> c1 = c2.
  Proof.
    intros (H1 & (l1 & t1 & C1 & E1) & X1) (H2 & (l2 & t2 & C2 & E2) & X2).
    assert (E : l1 = l2 /\ t1 = t2).
    { destruct C1 as [(Q1 & -> & ->)|Q1], C2 as [(Q2 & -> & ->)|Q2]; auto; try (exfalso; eapply marked_as_not_ctxs; eauto; fail). eapply marked_as_unique; eauto. }
    destruct E as [-> ->]. destruct c1, c2. cbn in *. subst.
    destruct X1 as [(B1 & -> & -> & ->)|(B1 & -> & p1 & k1 & E3 & X1)], X2 as [(B2 & -> & -> & ->)|(B2 & -> & p2 & k2 & E4 & X2)]; try tauto.
    subst ls. apply app_inj_tail in E4 as [-> ->].
    destruct X1 as [(S1 & -> & T1)|(S1 & T1 & ->)], X2 as [(S2 & -> & T2)|(S2 & T2 & ->)]; try congruence; f_equal; eapply trimmed_last_unique; eauto.
  Qed.

  Lemma context_lengths_run x y : Forall marked_line x -> ctxs y ->
    exists l t, context_lengths (x ++ y) l t /\ (length y <= l \/ length y <= t).
  Proof.
    intros Hx. assert (EX : exists l t, context_lengths x l t).
    { induction x as [|z x IH] using rev_ind; [exists 0, 0; left; repeat split; constructor|].
      apply Forall_app in Hx as [H1 H2]. inversion H2 as [|? ? M _]; subst. destruct (IH H1) as (l & t & C). destruct M as [M|M].
      - destruct (context_lengths_context _ _ _ _ C M) as [[_ Q]|[_ Q]]; eauto.
      - eauto using context_lengths_changed. }
    induction y as [|z y IH] using rev_ind; intros Hy; [destruct EX as (l & t & C); exists l, t; rewrite app_nil_r; cbn; split; [assumption|lia]|].
    apply Forall_app in Hy as [H1 H2]. inversion H2 as [|? ? M _]; subst. destruct (IH H1) as (l & t & C & L). rewrite app_assoc, app_length. cbn [length].
    destruct (context_lengths_context _ _ _ _ C M) as [[Q1 Q]|[Q1 Q]].
    - exists (S l), t. split; [assumption|]. destruct C as [(_ & -> & ->)|C]; [|exfalso; eapply marked_as_not_ctxs; eauto].
      rewrite app_length. lia.
    - exists l, (S t). split; [assumption|]. destruct L as [L|L]; [|lia]. right.
      (* the run did not begin with the first line *)
      destruct C as [(Q2 & _ & _)|C]; [exfalso; eapply marked_as_not_ctxs; eauto|].
      destruct (marked_as_unique _ _ _ _ _ C Q1) as [_ _].
      destruct C as (u & v & w & E & <- & <- & U1 & U2 & (v0 & v1 & -> & V1) & (v2 & v3 & V2 & V3) & _).
      enough (length y <= length w) by lia. clear - E H1 V2 V3. rewrite V2, <- app_assoc in E. cbn [app] in E.
      rewrite app_assoc in E. apply app_eq_app in E as [(s & E1 & E2)|(s & E1 & E2)].
      + destruct s as [|s0 s]; cbn in E2.
        * subst y. exfalso. inversion H1; subst. eapply context_not_changed; eauto.
        * injection E2 as -> ->. rewrite app_length. lia.
      + subst y. exfalso. apply Forall_app in H1 as [_ H1]. inversion H1; subst. eapply context_not_changed; eauto.
  Qed.
  Lemma runs_of_counts ls : Forall marked_line ls -> (forall l t p q, ls = p ++ q -> context_lengths p l t -> l <= 255 /\ t <= 255) -> context_runs_within 255 ls.
  Proof.
    intros Hm H x y z -> Hy. apply Forall_app in Hm as [Hx _]. destruct (context_lengths_run x y Hx Hy) as (l & t & C & L).
    destruct (H l t (x ++ y) z); [now rewrite <- app_assoc|assumption|]. lia.
  Qed.

  Lemma get_from_at_outcome lines i : outcome nd dbg lines i (get_from_at nd dbg lines i).
  Proof.
    unfold get_from_at, subsequence, range_from. cbn [r_start r_end].
    destruct (Nat.le_gt_cases i (length lines)) as [L|L].
    2:{ unfold slice. rewrite (proj2 (Nat.leb_gt _ _)) by assumption. cbn [andb bind]. now apply outcome_range. }
    rewrite slice_ok by lia. cbn [bind]. fold (sub lines i (length lines)).
    assert (E : lines = firstn i lines ++ sub lines i (length lines)).
    { unfold sub. rewrite (firstn_all2 (skipn i lines)) by (rewrite skipn_length; lia). now rewrite firstn_skipn. }
    assert (LP : length (firstn i lines) = i) by (rewrite firstn_length; lia).
    destruct (sub lines i (length lines)) as [|hl iter]; [apply outcome_end; apply (f_equal (@length _)) in E; rewrite app_nil_r in E; lia|].
    destruct (starts_and_lengths nd hl i) as [[h|]|e] eqn:Eh.
    - pose proof (take_lines_spec dbg h i iter [] p_init (inv_init dbg)) as T.
      assert (CA : forall ls rest, iter = ls ++ rest -> Forall marked_line ls -> clump_at nd lines i h ls rest).
      { intros ls rest Q Hm. exists (firstn i lines), hl. rewrite <- Q. auto. }
      destruct T as [ls rest st X1 X2 X3 X4 X5 X6|X1 X2 X3|ls l rest X1 X2 X3 X4 X5|ls l rest X1 X2 X3 X4 X5]; cbn [app bind] in *.
      + destruct (marker_spec h ls rest st X6) as [(B & -> & ->)|(B & b & a & n & -> & R)]; cbn [bind].
        * eapply outcome_empty; eauto.
        * apply outcome_clump with (h := h) (ls := ls) (rest := rest); [now apply CA|split; [exact X3|exact X4]|exact R|]. intros D. apply runs_of_counts; [assumption|]. exact (X5 D).
      + apply outcome_short with (h := h) (ls := iter); [apply CA; [now rewrite app_nil_r|assumption]|assumption|]. intros D. apply runs_of_counts; [assumption|exact (X3 D)].
      + rewrite Nat.add_0_r. apply outcome_stray with (h := h) (l := l) (rest := rest); auto. intros D. apply runs_of_counts; [assumption|exact (X5 D)].
      + apply outcome_overflow with (h := h) (ls := ls) (l := l) (rest := rest); [apply CA; [rewrite <- app_assoc; exact X1|exact X2]|assumption..].
    - eapply outcome_none; eauto.
    - eapply outcome_header; eauto.
  Qed.

  Lemma clump_at_unique lines i h ls rest h' ls' rest' : clump_at nd lines i h ls rest -> clump_at nd lines i h' ls' rest' ->
    h = h' /\ ls ++ rest = ls' ++ rest'.
  Proof.
    intros (p & hl & E & L & H & _) (p' & hl' & E' & L' & H' & _). rewrite E in E'. 
    assert (Q : p = p') by (apply (f_equal (firstn i)) in E'; rewrite !firstn_app, L, L', Nat.sub_diag, !firstn_O, !app_nil_r, !firstn_all2 in E' by lia; assumption).
    subst p'. apply app_inv_head in E'. injection E' as <- E'. rewrite H in H'. injection H' as <-. now split.
  Qed.
  Lemma just_unique h ls rest ls' rest' : just_reaches h ls -> just_reaches h ls' -> ls ++ rest = ls' ++ rest' -> ls = ls'.
  Proof.
    intros [R1 J1] [R2 J2] E. apply app_eq_app in E as [(t & -> & _)|(t & -> & _)]; destruct t as [|x t]; rewrite ?app_nil_r; auto; exfalso.
    - apply (J1 ls' (x :: t)); auto. discriminate.
    - apply (J2 ls (x :: t)); auto. discriminate.
  Qed.
  Lemma reached_prefix h ls rest ls' rest' : reaches h ls -> ~ reaches h ls' -> ls ++ rest = ls' ++ rest' -> exists x t, ls = ls' ++ x :: t /\ rest' = x :: t ++ rest.
  Proof.
    intros R N E. apply app_eq_app in E as [(t & -> & ->)|(t & -> & _)].
    - destruct t as [|x t]; [exfalso; apply N; now rewrite app_nil_r in R|]. exists x, t. now split.
    - exfalso. apply N. now apply reaches_app.
  Qed.
  Lemma clump_at_marked lines i h ls rest : clump_at nd lines i h ls rest -> Forall marked_line ls.
  Proof. intros (? & ? & _ & _ & _ & H). assumption. Qed.

  (* progress of a clump *)
  Lemma just_empty h : reaches h [] -> just_reaches h [].
  Proof. intros R. split; [assumption|]. intros p q Q Hq. apply eq_sym, app_eq_nil in Q. tauto. Qed.
  Lemma header_at lines i pre hl rest h ls rest' : lines = pre ++ hl :: rest -> length pre = i -> clump_at nd lines i h ls rest' ->
    starts_and_lengths nd hl i = DOk (Some h).
  Proof.
    intros E L (p' & hl' & E' & L' & H' & _). rewrite E in E'.
    assert (Q : pre = p') by (apply (f_equal (firstn i)) in E'; rewrite !firstn_app, L, L', Nat.sub_diag, !firstn_O, !app_nil_r, !firstn_all2 in E' by lia; assumption).
    subst p'. apply app_inv_head in E'. now injection E' as <- E'.
  Qed.
  Lemma clump_at_range lines i h ls rest : clump_at nd lines i h ls rest -> i < length lines.
  Proof. intros (p & hl & -> & <- & _). rewrite app_length. cbn. lia. Qed.

  Lemma reaching_stray lines i h ls rest ls' l rest' : clump_at nd lines i h ls rest -> reaches h ls ->
    clump_at nd lines i h ls' (l :: rest') -> ~ marked_line l -> ~ reaches h ls' -> False.
  Proof.
    intros C R C' M N. destruct (clump_at_unique _ _ _ _ _ _ _ _ C C') as [_ E].
    destruct (reached_prefix _ _ _ _ _ R N E) as (x & t & -> & Q). injection Q as <- _.
    apply clump_at_marked in C. apply Forall_app in C as [_ C]. inversion C; subst. contradiction.
  Qed.
  Lemma reaching_short lines i h ls rest ls' : clump_at nd lines i h ls rest -> reaches h ls ->
    clump_at nd lines i h ls' [] -> ~ reaches h ls' -> False.
  Proof.
    intros C R C' N. destruct (clump_at_unique _ _ _ _ _ _ _ _ C C') as [_ E].
    destruct (reached_prefix _ _ _ _ _ R N E) as (x & t & -> & Q). discriminate.
  Qed.
  (* lines up to an overflow lie in every clump that reads further *)
  Lemma overflow_prefix ls l rest u v : ~ context_runs_within 255 (ls ++ [l]) -> (ls ++ [l]) ++ rest = u ++ v -> context_runs_within 255 u ->
    exists t, ls = u ++ t.
  Proof.
    intros O E R. apply app_eq_app in E as [(t & E1 & E2)|(t & E1 & E2)].
    - destruct t as [|x t] using rev_ind; [rewrite app_nil_r in E1; subst u; contradiction|]. clear IHt. rewrite app_assoc in E1. apply app_inj_tail in E1 as [-> _]. eauto.
    - exfalso. apply O. subst u. eapply runs_prefix; eauto.
  Qed.
  Lemma classic_clump lines i : (exists h ls rest, clump_at nd lines i h ls rest) \/ ~ (exists h ls rest, clump_at nd lines i h ls rest).
  Proof.
    destruct (nth_error lines i) as [hl|] eqn:E.
    - apply nth_error_split in E as (pre & post & -> & L). destruct (starts_and_lengths nd hl i) as [[h|]|e] eqn:H.
      + left. exists h, [], post, pre, hl. repeat split; auto.
      + right. intros (h & ls & rest & C). rewrite (header_at _ _ _ _ _ _ _ _ eq_refl L C) in H. discriminate.
      + right. intros (h & ls & rest & C). rewrite (header_at _ _ _ _ _ _ _ _ eq_refl L C) in H. discriminate.
    - right. intros (h & ls & rest & C). apply clump_at_range in C. apply nth_error_None in E. lia.
  Qed.
  Lemma outcome_functional lines i r1 r2 : outcome nd dbg lines i r1 -> outcome nd dbg lines i r2 -> r1 = r2.
  Proof.
    assert (MAIN : forall r1 r2, outcome nd dbg lines i r1 -> outcome nd dbg lines i r2 -> 
       (exists h ls rest, clump_at nd lines i h ls rest) -> r1 = r2).
    { clear r1 r2. intros r1 r2 O1 O2 (h0 & ls0 & rest0 & C0).
      pose proof (clump_at_range _ _ _ _ _ C0) as RG.
      (* the five outcomes after a header *)
      assert (F : forall r, outcome nd dbg lines i r ->
         (exists ls rest c, r = Ok (DOk (Some c)) /\ clump_at nd lines i h0 ls rest /\ just_reaches h0 ls /\ clump_read h0 ls rest c /\ (dbg = true -> context_runs_within 255 ls)) \/
         (exists rest, r = Panic /\ clump_at nd lines i h0 [] rest /\ reaches h0 [] /\ backslash_first rest) \/
         (exists ls, r = Ok (DErr UnexpectedEndOfInput) /\ clump_at nd lines i h0 ls [] /\ ~ reaches h0 ls /\ (dbg = true -> context_runs_within 255 ls)) \/
         (exists ls l rest, r = Ok (DErr (UnexpectedEndClump (i + length ls + 1))) /\ clump_at nd lines i h0 ls (l :: rest) /\ ~ marked_line l /\ ~ reaches h0 ls /\ (dbg = true -> context_runs_within 255 ls)) \/
         (exists ls l rest, r = Panic /\ clump_at nd lines i h0 (ls ++ [l]) rest /\ ~ reaches h0 ls /\ dbg = true /\ ~ context_runs_within 255 (ls ++ [l]))).
      { intros r O. destruct O as [L|L|pre hl rest E L H|pre hl rest e E L H|h ls rest c C J R D|h rest C R B|h ls C N D|h ls l rest C M N D|h ls l rest C N D O]; try lia;
          try (pose proof (header_at _ _ _ _ _ _ _ _ E L C0); congruence);
          destruct (clump_at_unique _ _ _ _ _ _ _ _ C0 C) as [<- _].
        - left. eauto 10. - right; left. eauto 10. - right; right; left. eauto 10. - right; right; right; left. eauto 10. - right; right; right; right. eauto 10. }
      (* no outcome disagrees with a clump, an empty clump, a short clump or a stray line *)
      assert (G : forall r r', (exists ls rest, clump_at nd lines i h0 ls rest /\ just_reaches h0 ls /\ (dbg = true -> context_runs_within 255 ls) /\
           ((exists c, r = Ok (DOk (Some c)) /\ clump_read h0 ls rest c) \/ (r = Panic /\ ls = [] /\ backslash_first rest))) -> outcome nd dbg lines i r' -> r = r').
      { intros r r' (ls & rest & C & J & D & X) O'. destruct (F _ O') as [(ls' & rest' & c & -> & C' & J' & R' & D')|[(rest' & -> & C' & R' & B')|[(ls' & -> & C' & N' & D')|[(ls' & l & rest' & -> & C' & M' & N' & D')|(ls' & l & rest' & -> & C' & N' & D' & W')]]]].
        - destruct (clump_at_unique _ _ _ _ _ _ _ _ C C') as [_ E]. pose proof (just_unique _ _ _ _ _ J J' E) as <-. apply app_inv_head in E as <-.
          destruct X as [(c0 & -> & R)|(-> & -> & B)]; [now rewrite (read_unique _ _ _ _ _ R R')|].
          exfalso. destruct R' as (_ & _ & [(Q & _)|(_ & _ & p & l & Q & _)]); [contradiction|destruct p; discriminate].
        - destruct (clump_at_unique _ _ _ _ _ _ _ _ C C') as [_ E]. pose proof (just_unique _ _ _ _ _ J (just_empty _ R') E) as ->. apply app_inv_head in E as <-.
          destruct X as [(c0 & -> & R)|(-> & _ & B)]; [|reflexivity].
          exfalso. destruct R as (_ & _ & [(Q & _)|(_ & _ & p & l & Q & _)]); [contradiction|destruct p; discriminate].
        - exfalso. apply (reaching_short _ _ _ _ _ _ C (proj1 J) C' N').
        - exfalso. apply (reaching_stray _ _ _ _ _ _ _ _ C (proj1 J) C' M' N').
        - exfalso. destruct (clump_at_unique _ _ _ _ _ _ _ _ C C') as [_ E].
          destruct (overflow_prefix _ _ _ _ _ W' (eq_sym E) (D D')) as (t & ->). apply N'. apply reaches_app. apply J. }
      destruct (F _ O1) as [(ls & rest & c & E1 & C & J & R & D)|[(rest & E1 & C & R & B)|[(ls & E1 & C & N & D)|[(ls & l & rest & E1 & C & M & N & D)|(ls & l & rest & E1 & C & N & D & W)]]]].
      { apply G; [|assumption]. exists ls, rest. repeat (split; [assumption|]). left. eauto. }
      { apply G; [|assumption]. exists [], rest. split; [assumption|]. split; [now apply just_empty|]. split; [intros _; apply runs_nil|]. right. auto. }
      all: destruct (F _ O2) as [(ls' & rest' & c' & E2 & C' & J' & R' & D')|[(rest' & E2 & C' & R' & B')|[(ls' & E2 & C' & N' & D')|[(ls' & l' & rest' & E2 & C' & M' & N' & D')|(ls' & l' & rest' & E2 & C' & N' & D' & W')]]]];
        try (symmetry; apply G; [|assumption]; exists ls', rest'; (repeat (split; [assumption|])); left; eauto; fail);
        try (symmetry; apply G; [|assumption]; exists [], rest'; (split; [assumption|]); (split; [now apply just_empty|]); (split; [intros _; apply runs_nil|]); right; auto; fail);
        subst r1 r2; try reflexivity; destruct (clump_at_unique _ _ _ _ _ _ _ _ C C') as [_ E].
      - rewrite app_nil_r in E. exfalso. apply M'. apply clump_at_marked in C. rewrite E in C. apply Forall_app in C as [_ C]. now inversion C.
      - exfalso. rewrite <- (app_nil_r ls) in *. destruct (overflow_prefix _ _ _ _ _ W' (eq_sym E)) as (t & Q); [rewrite app_nil_r; rewrite app_nil_r in D; auto|].
        subst ls'. rewrite !app_nil_r in E. apply (f_equal (@length _)) in E. rewrite !app_length in E. cbn in E. lia.
      - rewrite app_nil_r in E. exfalso. apply M. apply clump_at_marked in C'. rewrite <- E in C'. apply Forall_app in C' as [_ C']. now inversion C'.
      - apply app_eq_app in E as [(t & E & Q)|(t & E & Q)]; destruct t as [|x t]; try (rewrite app_nil_r in E; subst; reflexivity); exfalso; cbn in Q; injection Q as -> Q.
        + apply M'. apply clump_at_marked in C. rewrite E in C. apply Forall_app in C as [_ C]. now inversion C.
        + apply M. apply clump_at_marked in C'. rewrite E in C'. apply Forall_app in C' as [_ C']. now inversion C'.
      - exfalso. destruct (overflow_prefix _ _ _ _ _ W' (eq_sym E) (D D')) as (t & ->). rewrite <- !app_assoc in E. apply app_inv_head in E.
        apply clump_at_marked in C'. rewrite <- app_assoc in C'. apply Forall_app in C' as [_ C']. destruct t as [|x t]; cbn in E, C'; injection E as -> E; inversion C'; subst; contradiction.
      - exfalso. rewrite app_nil_r in E. destruct (overflow_prefix ls l rest ls' [] W) as (t & ->); [now rewrite app_nil_r|auto|].
        apply (f_equal (@length _)) in E. rewrite !app_length in E. cbn in E. lia.
      - exfalso. destruct (overflow_prefix _ _ _ _ _ W E (D' D)) as (t & ->). rewrite <- !app_assoc in E. apply app_inv_head in E.
        apply clump_at_marked in C. rewrite <- app_assoc in C. apply Forall_app in C as [_ C]. destruct t as [|x t]; cbn in E, C; injection E as -> E; inversion C; subst; contradiction. }
    intros O1 O2. 
    destruct (classic_clump lines i) as [C|C]; [now apply MAIN|].
    destruct O1 as [L|L|pre hl rest E L H|pre hl rest e E L H|h ls rest c X J R D|h rest X R B|h ls X N D|h ls l rest X M N D|h ls l rest X N D O];
      try (exfalso; apply C; eauto; fail);
    destruct O2 as [L'|L'|pre' hl' rest' E' L' H'|pre' hl' rest' e' E' L' H'|h' ls' rest' c' X' J' R' D'|h' rest' X' R' B'|h' ls' X' N' D'|h' ls' l' rest' X' M' N' D'|h' ls' l' rest' X' N' D' O'];
      try (exfalso; apply C; eauto; fail); try reflexivity; try lia;
      try (subst lines; rewrite app_length in *; cbn in *; lia);
      (assert (Q : hl = hl'); [rewrite E in E'; apply (f_equal (fun l => nth_error l i)) in E'; rewrite !nth_error_app2, L, L', Nat.sub_diag in E' by lia; now injection E'|subst hl'; congruence]).
  Qed.
  Lemma get_from_at_iff lines i r : get_from_at nd dbg lines i = r <-> outcome nd dbg lines i r.
  Proof.
    split; [intros <-; apply get_from_at_outcome|]. intros O. eapply outcome_functional; [apply get_from_at_outcome|exact O].
  Qed.
End ParseClump.

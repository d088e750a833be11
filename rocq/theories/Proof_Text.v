(* Proof_Text.v - applying text patches: decisions, reverse law, accounting. *)
From Coq Require Import ZifyBool.
From Verif Require Import Base Model_Seq Model_Changes Model_IO Model_Text Model_Bytes Spec
  Proof_Seq Proof_Lcs Proof_Changes Proof_Clumps Proof_IO Proof_Diff Proof_Arith.

(* ---------------- the reverse law (C30) ---------------- *)

Section Reverse.
  Variable dbg : bool.
  Lemma tc_side_swap c r : tc_side (swap_clump c) r = tc_side c (negb r).
  Proof. destruct r; reflexivity. Qed.
  Lemma before_start_swap c r : before_start (swap_clump c) r = before_start c (negb r).
  Proof. unfold before_start. now rewrite tc_side_swap. Qed.
  Lemma before_end_swap c r : before_end dbg (swap_clump c) r = before_end dbg c (negb r).
  Proof. unfold before_end. now rewrite tc_side_swap. Qed.
  Lemma before_length_swap c r : before_length dbg (swap_clump c) r = before_length dbg c (negb r).
  Proof. unfold before_length. now rewrite before_end_swap, before_start_swap. Qed.
  Lemma before_range_swap c q r : before_range dbg (swap_clump c) q r = before_range dbg c q (negb r).
  Proof. unfold before_range. now rewrite before_end_swap, before_start_swap. Qed.
  Lemma my_before_range_swap c q r : my_before_range dbg (swap_clump c) q r = my_before_range dbg c q (negb r).
  Proof. unfold my_before_range. now rewrite before_length_swap. Qed.
  Lemma before_lines_swap c q r : before_lines dbg (swap_clump c) q r = before_lines dbg c q (negb r).
  Proof. unfold before_lines. now rewrite tc_side_swap. Qed.
  Lemma before_adjusted_start_swap c o q r : before_adjusted_start dbg (swap_clump c) o q r = before_adjusted_start dbg c o q (negb r).
  Proof. unfold before_adjusted_start. now rewrite before_start_swap. Qed.
  Lemma before_adjusted_length_swap c q r : before_adjusted_length dbg (swap_clump c) q r = before_adjusted_length dbg c q (negb r).
  Proof. unfold before_adjusted_length. now rewrite before_length_swap. Qed.
  Lemma before_is_subsequence_swap c p at_ q r :
    before_is_subsequence_in_at dbg (swap_clump c) p at_ q r = before_is_subsequence_in_at dbg c p at_ q (negb r).
  Proof.
    unfold before_is_subsequence_in_at. rewrite my_before_range_swap. destruct (my_before_range dbg c q (negb r)); [|reflexivity..].
    cbn [bind]. now rewrite before_lines_swap.
  Qed.
  Lemma before_write_into_swap c q r : before_write_into dbg (swap_clump c) q r = before_write_into dbg c q (negb r).
  Proof. unfold before_write_into. destruct q; [rewrite before_range_swap|]; unfold before_lines; now rewrite tc_side_swap. Qed.
  Lemma after_write_into_swap c q r : after_write_into dbg (swap_clump c) q r = after_write_into dbg c q (negb r).
  Proof. unfold after_write_into. now rewrite before_write_into_swap. Qed.
  Lemma will_apply_loop_swap c p s r l : will_apply_loop dbg (swap_clump c) p s r l = will_apply_loop dbg c p s (negb r) l.
  Proof.
    induction l as [|k l IH]; cbn [will_apply_loop]; [reflexivity|]. cbn [swap_clump tc_context].
    destruct (iadd dbg s _); [|reflexivity..]. cbn [bind]. rewrite before_is_subsequence_swap, IH. reflexivity.
  Qed.
  Lemma will_apply_swap c p o r : will_apply dbg (swap_clump c) p o r = will_apply dbg c p o (negb r).
  Proof.
    unfold will_apply. rewrite before_adjusted_start_swap. destruct (before_adjusted_start dbg c o None (negb r)); [|reflexivity..].
    cbn [bind]. rewrite before_is_subsequence_swap, will_apply_loop_swap. reflexivity.
  Qed.
  Lemma clump_apply_into_swap c p n o q r : clump_apply_into dbg (swap_clump c) p n o q r = clump_apply_into dbg c p n o q (negb r).
  Proof. unfold clump_apply_into. now rewrite before_adjusted_start_swap, after_write_into_swap, before_adjusted_length_swap. Qed.
  Lemma nearby_loop_swap fuel : forall c p n na o r i bd fd,
    nearby_loop dbg fuel (swap_clump c) p n na o r i bd fd = nearby_loop dbg fuel c p n na o (negb r) i bd fd.
  Proof.
    induction fuel as [|fuel IH]; intros; cbn [nearby_loop]; [reflexivity|].
    assert (E1 : (if bd then Ok (None, true)
              else let! adjusted_offset := isubz dbg o i in
                   let! s := before_adjusted_start dbg (swap_clump c) adjusted_offset None r in
                   if (s <? as_isize n)%Z then Ok (None, true)
                   else let! w := will_apply dbg (swap_clump c) p adjusted_offset r in Ok (w, false)) =
             (if bd then Ok (None, true)
              else let! adjusted_offset := isubz dbg o i in
                   let! s := before_adjusted_start dbg c adjusted_offset None (negb r) in
                   if (s <? as_isize n)%Z then Ok (None, true)
                   else let! w := will_apply dbg c p adjusted_offset (negb r) in Ok (w, false))).
    { destruct bd; [reflexivity|]. destruct (isubz dbg o i); [|reflexivity..]. cbn [bind].
      now rewrite before_adjusted_start_swap, will_apply_swap. }
    rewrite E1. clear E1.
    match goal with |- bind ?x _ = _ => destruct x as [[fb bd']| |] end; [|reflexivity..]. cbn [bind].
    destruct fb; [reflexivity|].
    assert (E2 : (if fd then Ok (None, true)
              else let! adjusted_offset := iadd dbg o i in
                   let! s := before_adjusted_start dbg (swap_clump c) adjusted_offset None r in
                   if (s <? as_isize na)%Z then let! w := will_apply dbg (swap_clump c) p adjusted_offset r in Ok (w, false)
                   else Ok (None, true)) =
             (if fd then Ok (None, true)
              else let! adjusted_offset := iadd dbg o i in
                   let! s := before_adjusted_start dbg c adjusted_offset None (negb r) in
                   if (s <? as_isize na)%Z then let! w := will_apply dbg c p adjusted_offset (negb r) in Ok (w, false)
                   else Ok (None, true))).
    { destruct fd; [reflexivity|]. destruct (iadd dbg o i); [|reflexivity..]. cbn [bind].
      now rewrite before_adjusted_start_swap, will_apply_swap. }
    rewrite E2. clear E2.
    match goal with |- bind ?x _ = _ => destruct x as [[ff fd']| |] end; [|reflexivity..]. cbn [bind].
    destruct ff; [reflexivity|]. destruct (fd' && bd'); [reflexivity|]. apply IH.
  Qed.
  Lemma nearby_not_after_swap c p nx o r :
    nearby_not_after dbg (swap_clump c) p (option_map swap_clump nx) o r = nearby_not_after dbg c p nx o (negb r).
  Proof.
    unfold nearby_not_after. destruct nx as [nx|]; cbn [option_map].
    - rewrite before_adjusted_start_swap, before_adjusted_length_swap. reflexivity.
    - now rewrite before_adjusted_length_swap.
  Qed.
  Lemma will_apply_nearby_swap c p n nx o r :
    will_apply_nearby dbg (swap_clump c) p n (option_map swap_clump nx) o r = will_apply_nearby dbg c p n nx o (negb r).
  Proof.
    unfold will_apply_nearby. rewrite nearby_not_after_swap. destruct (nearby_not_after dbg c p nx o (negb r)); [|reflexivity..].
    cbn [bind]. rewrite nearby_loop_swap. unfold nearby_fuel. now rewrite before_start_swap.
  Qed.
  Lemma already_applied_into_swap c p n o q r : already_applied_into dbg (swap_clump c) p n o q r = already_applied_into dbg c p n o q (negb r).
  Proof. unfold already_applied_into. now rewrite before_adjusted_start_swap, before_adjusted_length_swap. Qed.
  Lemma write_failure_data_into_swap c r : write_failure_data_into dbg (swap_clump c) r = write_failure_data_into dbg c (negb r).
  Proof. unfold write_failure_data_into. now rewrite before_write_into_swap, after_write_into_swap. Qed.

  Lemma apply_step_swap p r c nx n o st w :
    apply_step dbg p r (swap_clump c) (option_map swap_clump nx) n o st w = apply_step dbg p (negb r) c nx n o st w.
  Proof.
    unfold apply_step. rewrite will_apply_swap. apply iobind_ext; [reflexivity|]. clear w. intros [[|q]|] w.
    - now rewrite clump_apply_into_swap.
    - now rewrite clump_apply_into_swap.
    - rewrite will_apply_nearby_swap. revert w. apply iobind_ext; [reflexivity|]. intros [[d x]|] w.
      + revert w. apply iobind_ext; [reflexivity|]. intros o' w. now rewrite clump_apply_into_swap.
      + unfold is_already_applied. rewrite will_apply_swap. revert w. apply iobind_ext; [reflexivity|]. intros [[|q]|] w.
        * now rewrite already_applied_into_swap.
        * now rewrite already_applied_into_swap.
        * unfold is_already_applied_nearby. rewrite will_apply_nearby_swap. revert w. apply iobind_ext; [reflexivity|]. intros [[d x]|] w.
          -- revert w. apply iobind_ext; [reflexivity|]. intros o' w. now rewrite already_applied_into_swap.
          -- now rewrite write_failure_data_into_swap.
  Qed.
  Lemma hd_error_map {A B} (f : A -> B) l : hd_error (map f l) = option_map f (hd_error l).
  Proof. now destruct l. Qed.
  Lemma apply_clumps_swap p r cs : forall n o st w,
    apply_clumps dbg p r (map swap_clump cs) n o st w = apply_clumps dbg p (negb r) cs n o st w.
  Proof.
    induction cs as [|c cs IH]; intros n o st w; cbn [map apply_clumps]; [reflexivity|].
    revert w. apply iobind_ext.
    - intros w. rewrite hd_error_map. apply apply_step_swap.
    - intros [[n' o'] st'] w. apply IH.
  Qed.
  Lemma text_apply_into_swap p r cs w :
    text_apply_into dbg (map swap_clump cs) p r w = text_apply_into dbg cs p (negb r) w.
  Proof.
    unfold text_apply_into. revert w. apply iobind_ext; [|reflexivity]. intros w. apply apply_clumps_swap.
  Qed.
  Lemma text_already_applied_swap p r cs : forall o,
    text_already_applied_loop dbg (map swap_clump cs) p r o = text_already_applied_loop dbg cs p (negb r) o.
  Proof.
    induction cs as [|c cs IH]; intros o; cbn [map text_already_applied_loop]; [reflexivity|].
    unfold is_already_applied, is_already_applied_nearby. rewrite will_apply_swap.
    destruct (will_apply dbg c p o (negb (negb r))) as [[x|]| |]; [|cbn [bind]|reflexivity..].
    - cbn [bind]. apply IH.
    - rewrite hd_error_map, will_apply_nearby_swap.
      destruct (will_apply_nearby dbg c p 0 (hd_error cs) o (negb (negb r))) as [[[d x]|]| |]; [|reflexivity..].
      cbn [bind]. destruct (iadd dbg o d); [|reflexivity..]. cbn [bind]. apply IH.
  Qed.
End Reverse.

Lemma swap_clump_hunk h : swap_clump (text_of_hunk h) = text_of_hunk (swap_hunk h).
Proof. reflexivity. Qed.
Lemma map_swap_hunk hs : map swap_clump (map text_of_hunk hs) = map text_of_hunk (map swap_hunk hs).
Proof. rewrite !map_map. reflexivity. Qed.

(* ---------------- accounting (C23), write failures (C29) ---------------- *)

Section Account.
  Variable dbg : bool.
  Lemma iobind_done {A B} (m : io A) (k : A -> io B) w b w' :
    iobind m k w = (Done b, w') -> exists a w1, m w = (Done a, w1) /\ k a w1 = (Done b, w').
  Proof. unfold iobind. destruct (m w) as [[a| | |] w1] eqn:E; intros H; try discriminate. eauto. Qed.

  Ltac unbind H := let a := fresh "a" in let w := fresh "w" in let E := fresh "E" in
    apply iobind_done in H; destruct H as (a & w & E & H).

  Lemma apply_step_total p r c nx n o st w n' o' st' w' :
    apply_step dbg p r c nx n o st w = (Done (n', o', st'), w') -> stats_total st' = S (stats_total st).
  Proof.
    unfold apply_step. intros H. unbind H. destruct a as [[|q]|].
    - unbind H. injection H as _ _ <- _. unfold stats_total; simpl; lia.
    - unbind H. injection H as _ _ <- _. unfold stats_total; simpl; lia.
    - unbind H. destruct a as [[d x]|].
      + unbind H. unbind H. injection H as _ _ <- _. unfold stats_total; simpl; lia.
      + unbind H. destruct a as [[|q]|].
        * unbind H. injection H as _ _ <- _. unfold stats_total; simpl; lia.
        * unbind H. injection H as _ _ <- _. unfold stats_total; simpl; lia.
        * unbind H. destruct a as [[d x]|].
          -- unbind H. unbind H. injection H as _ _ <- _. unfold stats_total; simpl; lia.
          -- unbind H. injection H as _ _ <- _. unfold stats_total; simpl; lia.
  Qed.
  Lemma apply_clumps_total p r cs : forall n o st w n' st' w',
    apply_clumps dbg p r cs n o st w = (Done (n', st'), w') -> stats_total st' = stats_total st + length cs.
  Proof.
    induction cs as [|c cs IH]; intros n o st w n' st' w' H; cbn [apply_clumps] in H.
    - injection H as _ <- _. simpl. lia.
    - apply iobind_done in H as ([[n1 o1] st1] & w1 & E & H). apply apply_step_total in E. apply IH in H. simpl. lia.
  Qed.
  Lemma text_apply_total cs p r w st w' :
    text_apply_into dbg cs p r w = (Done st, w') -> stats_total st = length cs.
  Proof.
    unfold text_apply_into. intros H. apply iobind_done in H as ([n st1] & w1 & E & H).
    apply iobind_done in H as (a & w2 & E2 & H). injection H as <- _. apply apply_clumps_total in E. simpl in E. lia.
  Qed.

  Ltac emi := repeat first
    [ apply emitting_ret | apply emitting_lift | apply emitting_write_all | apply emitting_write_lines
    | apply (emitting_write_into_upto _ (@concat byte) emits_write_lines)
    | apply (emitting_write_remainder _ (@concat byte) emits_write_lines)
    | apply emitting_bind; [|intros] ].
  Lemma emitting_before_write_into c q r : emitting (before_write_into dbg c q r).
  Proof. unfold before_write_into. destruct q; emi. Qed.
  Lemma emitting_clump_apply_into c p n o q r : emitting (clump_apply_into dbg c p n o q r).
  Proof. unfold clump_apply_into, after_write_into. emi. apply emitting_before_write_into. Qed.
  Lemma emitting_already_applied_into c p n o q r : emitting (already_applied_into dbg c p n o q r).
  Proof. unfold already_applied_into. emi. Qed.
  Lemma emitting_write_failure c r : emitting (write_failure_data_into dbg c r).
  Proof. unfold write_failure_data_into, after_write_into. emi; apply emitting_before_write_into. Qed.
  Lemma emitting_apply_step p r c nx n o st : emitting (apply_step dbg p r c nx n o st).
  Proof.
    assert (L : forall A B (m : res A) (k : A -> io B), (forall x, emitting (k x)) -> emitting (iobind (lift m) k))
      by (intros; apply emitting_bind; [apply emitting_lift|assumption]).
    assert (R : forall A B (m : io A) (f : A -> B), emitting m -> emitting (iobind m (fun x => ret (f x))))
      by (intros; apply emitting_bind; [assumption|intros; apply emitting_ret]).
    pose proof emitting_clump_apply_into as CA. pose proof emitting_already_applied_into as AA.
    unfold apply_step. apply L. intros [[|q]|].
    - apply (R _ _ _ (fun x => (x, o, add_clean st))), CA.
    - apply (R _ _ _ (fun x => (x, o, add_fuzzy st))), CA.
    - apply L. intros [[d x]|].
      + apply L. intros o'. apply (R _ _ _ (fun x => (x, o', add_fuzzy st))), CA.
      + apply L. intros [[|q]|].
        * apply (R _ _ _ (fun x => (x, o, add_already st))), AA.
        * apply (R _ _ _ (fun x => (x, o, add_already_fuzzy st))), AA.
        * apply L. intros [[d x]|].
          -- apply L. intros o'. apply (R _ _ _ (fun x => (x, o', add_already_fuzzy st))), AA.
          -- apply (R _ _ _ (fun x => (n, o, add_failed st))), emitting_write_failure.
  Qed.
  Lemma emitting_apply_clumps p r cs : forall n o st, emitting (apply_clumps dbg p r cs n o st).
  Proof.
    induction cs as [|c cs IH]; intros; cbn [apply_clumps]; [apply emitting_ret|].
    apply emitting_bind; [apply emitting_apply_step|]. intros [[n' o'] st']. apply IH.
  Qed.
  Lemma emitting_text_apply cs p r : emitting (text_apply_into dbg cs p r).
  Proof.
    unfold text_apply_into. apply emitting_bind; [apply emitting_apply_clumps|]. intros [n st]. emi.
  Qed.
End Account.

(* ---------------- decisions (C24) ---------------- *)
Lemma zip_all_eq_true_iff (l r : list line) : length l = length r -> zip_all_eq line_eqb l r = true <-> l = r.
Proof.
  intros E. rewrite (zip_all_eq_spec line_eqb line_eqb_lawful) by lia. rewrite E, firstn_all. reflexivity.
Qed.

Local Open Scope Z_scope.

Section Decide.
  Variable dbg : bool.
  Variable h : hunk line.
  Hypothesis Hok : hunk_ok h.
  Notation c := (text_of_hunk h).
  Notation old := (h_old h).

  Lemma old_len_bound : Z.of_nat (h_b h) + zlen old < two61 /\ 0 <= zlen old.
  Proof. destruct Hok as (_ & _ & _ & _ & H & _). unfold zlen. lia. Qed.

  Lemma before_end_ok : before_end dbg c false = Ok (Z.of_nat (h_b h) + zlen old).
  Proof. pose proof old_len_bound. unfold before_end. cbn. apply uadd_ok; consts; lia. Qed.
  Lemma before_length_ok : before_length dbg c false = Ok (zlen old).
  Proof.
    pose proof old_len_bound. unfold before_length. rewrite before_end_ok. cbn [bind].
    change (before_start c false) with (Z.of_nat (h_b h)). rewrite usubz_ok by (consts; lia). f_equal. lia.
  Qed.
  Lemma before_lines_ok r e : (r <= e)%nat -> (e <= length old)%nat ->
    before_lines dbg c (Some (Z.of_nat r, Z.of_nat e)) false = Ok (sub old r e).
  Proof.
    intros H1 H2. pose proof old_len_bound. unfold before_lines, snippet_items. cbn [tc_side text_of_hunk tc_before sn_items sn_start].
    replace (if dbg then let! m := uadd dbg (zlen old) (Z.of_nat (h_b h)) in debug_assert dbg ((Z.of_nat r <=? Z.of_nat e) && (Z.of_nat e <=? m)) else Ok tt) with (Ok tt).
    - cbn [bind]. apply zslice_ok; assumption.
    - destruct dbg; [|reflexivity]. rewrite uadd_ok by (consts; lia). cbn [bind]. unfold debug_assert.
      replace ((Z.of_nat r <=? Z.of_nat e) && (Z.of_nat e <=? zlen old + Z.of_nat (h_b h))) with true; [reflexivity|].
      symmetry. unfold zlen. lia.
  Qed.

  (* the trimmed lines occur at at_ *)
  Lemma is_subsequence_range target at_ r e (q : option (Z * Z)) : (r <= e)%nat -> (e <= length old)%nat ->
    my_before_range dbg c q false = Ok (Z.of_nat r, Z.of_nat e) ->
    0 <= at_ -> at_ < two63 ->
    exists x, before_is_subsequence_in_at dbg c target at_ q false = Ok x /\
      (x = true <-> occurs_at target (sub old r e) at_).
  Proof.
    intros H1 H2 Hq Ha1 Ha2. pose proof old_len_bound as [B1 B2]. unfold zlen in B1, B2.
    unfold before_is_subsequence_in_at. rewrite Hq. cbn [bind].
    assert (Hlen : zrange_len (Z.of_nat r, Z.of_nat e) = Z.of_nat (e - r)).
    { unfold zrange_len. cbn [fst snd]. destruct (Z.ltb_spec (Z.of_nat r) (Z.of_nat e)); lia. }
    rewrite Hlen. rewrite uadd_ok by (consts; lia). cbn [bind].
    assert (Ls : length (sub old r e) = (e - r)%nat) by now apply sub_length.
    destruct (Z.ltb_spec (zlen target) (at_ + Z.of_nat (e - r))) as [Hlt|Hge].
    - exists false. split; [reflexivity|]. split; [discriminate|]. intros (p & Hp & Hb & _). rewrite Ls in Hb. unfold zlen in Hlt. lia.
    - rewrite before_lines_ok by assumption. cbn [bind].
      assert (Hat : at_ = Z.of_nat (Z.to_nat at_)) by lia. set (p := Z.to_nat at_) in *. rewrite Hat.
      replace (Z.of_nat p + Z.of_nat (e - r)) with (Z.of_nat (p + (e - r))) by lia.
      unfold zlen in Hge. rewrite zslice_ok by lia. cbn [bind]. eexists. split; [reflexivity|].
      rewrite zip_all_eq_true_iff.
      + split.
        * intros E. exists p. split; [reflexivity|]. rewrite Ls. split; [lia|]. unfold sub at 1. now rewrite <- E.
        * intros (p' & Hp' & Hb & E). assert (p' = p) by lia. subst p'. rewrite Ls in E. symmetry. exact E.
      + rewrite Ls, firstn_length, skipn_length. lia.
  Qed.

  Lemma my_before_range_none : my_before_range dbg c None false = Ok (Z.of_nat 0, Z.of_nat (length old)).
  Proof. unfold my_before_range. rewrite before_length_ok. reflexivity. Qed.
  Lemma my_before_range_some r s : (r + s <= length old)%nat ->
    my_before_range dbg c (Some (Z.of_nat r, Z.of_nat s)) false = Ok (Z.of_nat r, Z.of_nat (length old - s)).
  Proof.
    intros H. unfold my_before_range. rewrite before_length_ok. cbn [bind]. pose proof old_len_bound. unfold zlen in *.
    rewrite usubz_ok by (consts; lia). cbn [bind]. do 2 f_equal. lia.
  Qed.
  Lemma sub_full {T} (l : list T) : sub l 0 (length l) = l.
  Proof. unfold sub. rewrite Nat.sub_0_r. simpl. apply firstn_all. Qed.

  Lemma hit_none target s : - two63 <= s -> s < two63 -> exists x,
    (if 0 <=? s then before_is_subsequence_in_at dbg c target (as_usize s) None false else Ok false) = Ok x /\
    (x = true <-> occurs_at target old s).
  Proof.
    intros H1 H2. destruct (Z.leb_spec 0 s) as [H|H].
    - rewrite as_usize_id by (consts; lia).
      destruct (is_subsequence_range target s 0 (length old) None) as (x & E & Hx); try lia; [apply my_before_range_none|].
      exists x. rewrite sub_full in Hx. auto.
    - exists false. split; [reflexivity|]. split; [discriminate|]. intros (p & Hp & _). lia.
  Qed.

  Lemma hit_some target pos k : - two63 < pos - 256 -> pos + 256 < two63 ->
    exists x,
    (let! adj_start := iadd dbg pos (Z.min (Z.of_nat k) (Z.of_nat (h_lead h))) in
     (if 0 <=? adj_start
      then before_is_subsequence_in_at dbg c target (as_usize adj_start)
             (Some (Z.min (Z.of_nat k) (Z.of_nat (h_lead h)), Z.min (Z.of_nat k) (Z.of_nat (h_trail h)))) false
      else Ok false)) = Ok x /\
    (x = true <-> occurs_trimmed h target pos k).
  Proof.
    intros H1 H2. destruct Hok as (O1 & O2 & O3 & O4 & O5 & O6). rewrite <- !Nat2Z.inj_min.
    rewrite iadd_ok by (consts; lia). cbn [bind]. unfold occurs_trimmed, trimmed.
    set (r := Nat.min k (h_lead h)) in *. set (s := Nat.min k (h_trail h)).
    destruct (Z.leb_spec 0 (pos + Z.of_nat r)) as [H|H].
    - rewrite as_usize_id by (consts; lia).
      destruct (is_subsequence_range target (pos + Z.of_nat r) r (length old - s) (Some (Z.of_nat r, Z.of_nat s))) as (x & E & Hx); try lia.
      + apply my_before_range_some. lia.
      + exists x. auto.
    - exists false. split; [reflexivity|]. split; [discriminate|]. intros (p & Hp & _). lia.
  Qed.

  Lemma will_apply_loop_spec target pos redns : - two63 < pos - 256 -> pos + 256 < two63 ->
    forall k0 n, redns = seq k0 n ->
    exists x, will_apply_loop dbg c target pos false redns = Ok x /\
      ((x = None /\ forall k, (k0 <= k < k0 + n)%nat -> ~ occurs_trimmed h target pos k) \/
       (exists k, (k0 <= k < k0 + n)%nat /\ x = Some (WithReductions (Z.of_nat (Nat.min k (h_lead h)), Z.of_nat (Nat.min k (h_trail h)))) /\
          occurs_trimmed h target pos k /\ forall k', (k0 <= k' < k)%nat -> ~ occurs_trimmed h target pos k')).
  Proof.
    intros H1 H2. induction redns as [|k redns IH]; intros k0 n E.
    - exists None. split; [reflexivity|]. left. split; [reflexivity|]. intros k Hk. destruct n; [lia|discriminate].
    - destruct n as [|n]; [discriminate|]. injection E as -> E.
      cbn [will_apply_loop]. cbn [text_of_hunk tc_context fst snd].
      destruct (hit_some target pos k0 H1 H2) as (hit & Eh & Hh).
      cbv zeta. revert Eh. destruct (iadd dbg pos _) as [adj| |]; cbn [bind]; intros Eh; [|discriminate..].
      change (TextClump (Z.of_nat (h_lead h), Z.of_nat (h_trail h)) (Snippet (Z.of_nat (h_b h)) (h_old h))
                (Snippet (Z.of_nat (h_a h)) (h_new h))) with c.
      rewrite Eh. cbn [bind]. destruct hit.
      + eexists. split; [reflexivity|]. right. exists k0. split; [lia|]. rewrite <- !Nat2Z.inj_min. split; [reflexivity|].
        split; [now apply Hh|]. intros k' Hk'. lia.
      + assert (Hno : ~ occurs_trimmed h target pos k0) by (rewrite <- Hh; discriminate).
        destruct (IH (S k0) n E) as (x & Ex & Hx). exists x. split; [exact Ex|].
        destruct Hx as [[-> Hx]|(k & Hk & -> & Ho & Hx)].
        * left. split; [reflexivity|]. intros k Hk. destruct (Nat.eq_dec k k0) as [->|]; [assumption|]. apply Hx. lia.
        * right. exists k. split; [lia|]. split; [reflexivity|]. split; [assumption|].
          intros k' Hk'. destruct (Nat.eq_dec k' k0) as [->|]; [assumption|]. apply Hx. lia.
  Qed.

  Lemma will_apply_spec target offset : - (2 * two61) <= offset -> offset <= 2 * two61 ->
    exists x, will_apply dbg c target offset false = Ok x /\ decision h target (Z.of_nat (h_b h) + offset) x.
  Proof.
    intros H1 H2. pose proof old_len_bound as [B1 B2]. unfold will_apply, before_adjusted_start.
    change (before_start c false) with (Z.of_nat (h_b h)). rewrite as_isize_id by (consts; lia).
    rewrite iadd_ok by (consts; lia). cbn [bind]. set (pos := Z.of_nat (h_b h) + offset).
    destruct (hit_none target pos) as (x & E & Hx); [subst pos; consts; lia..|]. rewrite E. cbn [bind].
    destruct x.
    - exists (Some Cleanly). split; [reflexivity|]. constructor. now apply Hx.
    - assert (Hno : ~ occurs_at target old pos) by (rewrite <- Hx; discriminate).
      cbn [text_of_hunk tc_context fst snd].
      change (TextClump (Z.of_nat (h_lead h), Z.of_nat (h_trail h)) (Snippet (Z.of_nat (h_b h)) (h_old h))
                (Snippet (Z.of_nat (h_a h)) (h_new h))) with c.
      rewrite <- Nat2Z.inj_max, Nat2Z.id.
      destruct (will_apply_loop_spec target pos (seq 1 (Nat.max (h_lead h) (h_trail h) - 1))) with (k0 := 1%nat) (n := (Nat.max (h_lead h) (h_trail h) - 1)%nat) as (x & Ex & Hd); try reflexivity; try (subst pos; consts; lia).
      exists x. split; [exact Ex|]. destruct Hd as [[-> Hd]|(k & Hk & -> & Ho & Hd)].
      + apply decide_none; [assumption|]. intros k K1 K2. apply Hd. lia.
      + apply decide_reduced; auto; try lia.
  Qed.
End Decide.

Lemma decision_unique h target pos x y : decision h target pos x -> decision h target pos y -> x = y.
Proof.
  intros H1 H2. destruct H1 as [A|k A1 A2 A3 A4 A5|A1 A2]; destruct H2 as [B|l B1 B2 B3 B4 B5|B1 B2]; try contradiction; try reflexivity.
  - assert (k = l) as ->; [|reflexivity]. destruct (Nat.lt_trichotomy k l) as [H|[H|H]]; [|assumption|].
    + exfalso. now apply (B5 k).
    + exfalso. now apply (A5 l).
  - exfalso. now apply (B2 k).
  - exfalso. now apply (A2 l).
Qed.

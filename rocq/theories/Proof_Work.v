(* Proof_Work.v - the number of attempts made when a text patch is applied. *)
From Verif Require Import Base Model_Seq Model_Changes Model_IO Model_Text Model_Cost Model_Work Spec Spec_Outcome Spec_Work Proof_Seq Proof_IO Proof_Arith Proof_Text Proof_Apply Proof_Nearby Proof_Fuzzy Proof_Term Proof_Cost Proof_Outcome Proof_Diff.
Local Open Scope Z_scope.

Lemma cthen_snd {A B} (m : cio A) (k : A -> cio B) w : snd (cthen m k w) = iobind (fun w => snd (m w)) (fun a w => snd (k a w)) w.
Proof. unfold cthen, iobind. destruct (m w) as [n [[a| | |] w']]; reflexivity. Qed.
Lemma cthen_le {A B} (m : cio A) (k : A -> cio B) w x y : (fst (m w) <= x)%nat ->
  (forall a w', snd (m w) = (Done a, w') -> (fst (k a w') <= y)%nat) -> (fst (cthen m k w) <= x + y)%nat.
Proof. unfold cthen. intros H1 H2. destruct (m w) as [n [[a| | |] w']]; cbn [fst snd] in *; [specialize (H2 a w' eq_refl)|..]; lia. Qed.
Lemma iobind_ext' {A B} (m m' : io A) (k k' : A -> io B) w : m w = m' w -> (forall a w, k a w = k' a w) -> iobind m k w = iobind m' k' w.
Proof. intros H K. unfold iobind. rewrite H. destruct (m' w) as [[a| | |] w']; auto. Qed.

Lemma cbind_ext {A B} (m : counted A) (k k' : A -> counted B) : (forall a, k a = k' a) -> cbind m k = cbind m k'.
Proof. intros H. destruct m as [n [a| |]]; cbn [cbind]; [now rewrite H|reflexivity..]. Qed.

Section Same.
  Variable dbg : bool.
  Lemma loop_same c p s r l : snd (will_apply_loop_c dbg c p s r l) = will_apply_loop dbg c p s r l.
  Proof.
    induction l as [|x l IH]; [reflexivity|]. cbn [will_apply_loop_c will_apply_loop tick snd]. cbv zeta. rewrite cbind_snd. cbn [uncounted snd]. apply bind_ext. intros a.
    rewrite cbind_snd. cbn [uncounted snd]. apply bind_ext. intros []; [reflexivity|exact IH].
  Qed.
  Lemma will_same c p o r : snd (will_apply_c dbg c p o r) = will_apply dbg c p o r.
  Proof.
    unfold will_apply_c, will_apply. cbn [tick snd]. rewrite cbind_snd. cbn [uncounted snd]. apply bind_ext. intros s. rewrite cbind_snd. cbn [uncounted snd]. apply bind_ext.
    intros []; [reflexivity|apply loop_same].
  Qed.
  Lemma nearby_same c p n na o r : forall fuel i bd fd, snd (nearby_loop_c dbg fuel c p n na o r i bd fd) = nearby_loop dbg fuel c p n na o r i bd fd.
  Proof.
    assert (X : forall x : Z, forall o', snd (count! w := will_apply_c dbg c p o' r in uncounted (Ok (w, false))) = (let! w := will_apply dbg c p o' r in Ok (w, false))).
    { intros _ o'. rewrite cbind_snd, will_same. reflexivity. }
    induction fuel as [|fuel IH]; intros i bd fd; [reflexivity|]. cbn [nearby_loop_c nearby_loop tick snd]. rewrite cbind_snd.
    match goal with |- bind ?a _ = bind ?b _ => assert (E : a = b) end.
    { destruct bd; [reflexivity|]. rewrite cbind_snd. apply bind_ext. intros x. rewrite cbind_snd. apply bind_ext. intros s. destruct (s <? as_isize n); [reflexivity|now apply X]. }
    rewrite E. apply bind_ext. intros [[w|] bd']; [reflexivity|]. rewrite cbind_snd.
    match goal with |- bind ?a _ = bind ?b _ => assert (E' : a = b) end.
    { destruct fd; [reflexivity|]. rewrite cbind_snd. apply bind_ext. intros x. rewrite cbind_snd. apply bind_ext. intros s. destruct (s <? as_isize na); [now apply X|reflexivity]. }
    rewrite E'. apply bind_ext. intros [[w|] fd']; [reflexivity|]. destruct (fd' && bd'); [reflexivity|apply IH].
  Qed.
  Lemma nearby_top_same c p n nx o r : snd (will_apply_nearby_c dbg c p n nx o r) = will_apply_nearby dbg c p n nx o r.
  Proof. unfold will_apply_nearby_c, will_apply_nearby. rewrite cbind_snd. apply bind_ext. intros na. apply nearby_same. Qed.
  Lemma step_same p r c nx n o st w : snd (apply_step_c dbg p r c nx n o st w) = apply_step dbg p r c nx n o st w.
  Proof.
    unfold apply_step_c, apply_step. rewrite cthen_snd. apply iobind_ext'; [unfold cread; cbn [snd]; now rewrite will_same|]. intros [[|q]|] w1; [reflexivity..|].
    rewrite cthen_snd. apply iobind_ext'; [unfold cread; cbn [snd]; now rewrite nearby_top_same|]. intros [[d wl]|] w2; [reflexivity|].
    rewrite cthen_snd. apply iobind_ext'; [unfold cread; cbn [snd]; now rewrite will_same|]. intros [[|q]|] w3; [reflexivity..|].
    rewrite cthen_snd. apply iobind_ext'; [unfold cread; cbn [snd]; now rewrite nearby_top_same|]. intros [[d wl]|] w4; reflexivity.
  Qed.
  Lemma clumps_same p r cs : forall n o st w, snd (apply_clumps_c dbg p r cs n o st w) = apply_clumps dbg p r cs n o st w.
  Proof.
    induction cs as [|c cs IH]; intros n o st w; [reflexivity|]. cbn [apply_clumps_c apply_clumps]. rewrite cthen_snd. apply iobind_ext'; [apply step_same|].
    intros [[n' o'] st'] w'. apply IH.
  Qed.
  Lemma apply_same cs p r w : snd (text_apply_into_c dbg cs p r w) = text_apply_into dbg cs p r w.
  Proof. unfold text_apply_into_c, text_apply_into. rewrite cthen_snd. apply iobind_ext'; [apply clumps_same|]. intros [n st] w'. reflexivity. Qed.

  (* ---------------- reverse ---------------- *)
  Lemma loop_swap c p s r l : will_apply_loop_c dbg (swap_clump c) p s r l = will_apply_loop_c dbg c p s (negb r) l.
  Proof. induction l as [|x l IH]; [reflexivity|]. cbn [will_apply_loop_c]. rewrite IH. cbn [swap_clump tc_context]. f_equal. cbv zeta. destruct (iadd dbg s _); cbn; try reflexivity. rewrite before_is_subsequence_swap. reflexivity. Qed.
  Lemma will_swap c p o r : will_apply_c dbg (swap_clump c) p o r = will_apply_c dbg c p o (negb r).
  Proof.
    unfold will_apply_c. rewrite before_adjusted_start_swap. f_equal. destruct (before_adjusted_start _ _ _ _ _); cbn; try reflexivity. rewrite before_is_subsequence_swap.
    destruct (if 0 <=? a then _ else _) as [[]| |]; cbn; try reflexivity. now rewrite loop_swap.
  Qed.
  Lemma nearby_loop_swap c p n na o r : forall fuel i bd fd, nearby_loop_c dbg fuel (swap_clump c) p n na o r i bd fd = nearby_loop_c dbg fuel c p n na o (negb r) i bd fd.
  Proof.
    induction fuel as [|fuel IH]; intros i bd fd; [reflexivity|]. cbn [nearby_loop_c]. f_equal.
    match goal with |- cbind ?a _ = cbind ?b _ => assert (E : a = b) end.
    { destruct bd; [reflexivity|]. apply cbind_ext. intros x. rewrite before_adjusted_start_swap. apply cbind_ext. intros s. now rewrite will_swap. }
    rewrite E. match goal with |- cbind ?a _ = _ => destruct a as [m [[[w|] bd']| |]]; try reflexivity end. cbn [cbind].
    match goal with |- ((m + fst (cbind ?a _))%nat, _) = ((m + fst (cbind ?b _))%nat, _) => assert (E' : a = b) end.
    { destruct fd; [reflexivity|]. apply cbind_ext. intros x. rewrite before_adjusted_start_swap. apply cbind_ext. intros s. now rewrite will_swap. }
    rewrite E'. match goal with |- ((m + fst (cbind ?a _))%nat, _) = _ => destruct a as [m' [[[w|] fd']| |]]; try reflexivity end. cbn [cbind]. now rewrite IH.
  Qed.
  Lemma nearby_top_swap c p n nx o r : will_apply_nearby_c dbg (swap_clump c) p n (option_map swap_clump nx) o r = will_apply_nearby_c dbg c p n nx o (negb r).
  Proof.
    unfold will_apply_nearby_c. replace (nearby_not_after dbg (swap_clump c) p (option_map swap_clump nx) o r) with (nearby_not_after dbg c p nx o (negb r)).
    - destruct (nearby_not_after _ _ _ _ _ _); cbn; try reflexivity. rewrite nearby_loop_swap. unfold nearby_fuel. now rewrite before_start_swap.
    - unfold nearby_not_after. destruct nx as [x|]; cbn [option_map]; rewrite ?before_adjusted_start_swap, ?before_adjusted_length_swap; reflexivity.
  Qed.
  Lemma cthen_ext {A B} (m m' : cio A) (k k' : A -> cio B) w : m w = m' w -> (forall a w, k a w = k' a w) -> cthen m k w = cthen m' k' w.
  Proof. intros H K. unfold cthen. rewrite H. destruct (m' w) as [n [[a| | |] w']]; [|reflexivity..]. now rewrite K. Qed.
  Lemma step_swap p r c nx n o st w : apply_step_c dbg p r (swap_clump c) (option_map swap_clump nx) n o st w = apply_step_c dbg p (negb r) c nx n o st w.
  Proof.
    assert (CA : forall n o q, clump_apply_into dbg (swap_clump c) p n o q r = clump_apply_into dbg c p n o q (negb r)).
    { intros. unfold clump_apply_into, after_write_into. now rewrite before_adjusted_start_swap, before_adjusted_length_swap, before_write_into_swap. }
    assert (AA : forall n o q, already_applied_into dbg (swap_clump c) p n o q r = already_applied_into dbg c p n o q (negb r)).
    { intros. unfold already_applied_into. now rewrite before_adjusted_start_swap, before_adjusted_length_swap. }
    unfold apply_step_c. rewrite !CA, !AA, !write_failure_data_into_swap. apply cthen_ext; [unfold cread; now rewrite will_swap|]. intros [[|q]|] w1; [reflexivity|now rewrite CA|].
    apply cthen_ext; [unfold cread; now rewrite nearby_top_swap|]. intros [[d wl]|] w2; [unfold plain; f_equal; apply iobind_ext'; [reflexivity|]; intros a w'; now rewrite CA|].
    apply cthen_ext; [unfold cread; now rewrite will_swap|]. intros [[|q]|] w3; [reflexivity|now rewrite AA|].
    apply cthen_ext; [unfold cread; now rewrite nearby_top_swap|]. intros [[d wl]|] w4; [unfold plain; f_equal; apply iobind_ext'; [reflexivity|]; intros a w'; now rewrite AA|]. reflexivity.
  Qed.
  Lemma clumps_swap p r cs : forall n o st w, apply_clumps_c dbg p r (map swap_clump cs) n o st w = apply_clumps_c dbg p (negb r) cs n o st w.
  Proof.
    induction cs as [|c cs IH]; intros n o st w; [reflexivity|]. cbn [map apply_clumps_c]. rewrite hd_error_map. apply cthen_ext; [apply step_swap|].
    intros [[n' o'] st'] w'. apply IH.
  Qed.
  Lemma apply_c_swap p r cs w : text_apply_into_c dbg (map swap_clump cs) p r w = text_apply_into_c dbg cs p (negb r) w.
  Proof. unfold text_apply_into_c. apply cthen_ext; [apply clumps_swap|]. intros [n st] w'. reflexivity. Qed.
End Same.

(* ---------------- bounds ---------------- *)
Section Bounds.
  Variable dbg : bool.
  Lemma loop_le c p s r l : (fst (will_apply_loop_c dbg c p s r l) <= length l)%nat.
  Proof.
    induction l as [|x l IH]; [cbn; lia|]. cbn [will_apply_loop_c tick fst length]. apply le_n_S. cbv zeta. apply uncounted_le. intros a _. apply uncounted_le. intros [] _; [cbn; lia|exact IH].
  Qed.
  Lemma will_le c p o r k : fst (tc_context c) <= Z.of_nat k -> snd (tc_context c) <= Z.of_nat k -> (fst (will_apply_c dbg c p o r) <= S k)%nat.
  Proof.
    intros H1 H2. unfold will_apply_c. cbn [tick fst]. apply le_n_S. apply uncounted_le. intros s _. apply uncounted_le. intros [] _; [cbn; lia|].
    eapply Nat.le_trans; [apply loop_le|]. rewrite seq_length. lia.
  Qed.
  Lemma nearby_le c p n na o r k : fst (tc_context c) <= Z.of_nat k -> snd (tc_context c) <= Z.of_nat k ->
    forall fuel i bd fd, (fst (nearby_loop_c dbg fuel c p n na o r i bd fd) <= fuel * S (S k + S k))%nat.
  Proof.
    intros H1 H2. induction fuel as [|fuel IH]; intros i bd fd; [cbn; lia|]. cbn [nearby_loop_c tick fst].
    assert (X : forall o', (fst (count! w := will_apply_c dbg c p o' r in uncounted (Ok (w, false))) <= S k)%nat).
    { intros o'. rewrite <- (Nat.add_0_r (S k)). apply cbind_le; [now apply will_le|]. intros a _. cbn. lia. }
    replace (S fuel * S (S k + S k))%nat with (S (S k + (S k + fuel * S (S k + S k))))%nat by lia. apply le_n_S. apply cbind_le.
    - destruct bd; [cbn; lia|]. apply uncounted_le. intros x _. apply uncounted_le. intros s _. destruct (s <? as_isize n); [cbn; lia|apply X].
    - intros [[w|] bd'] _; [cbn; lia|]. apply cbind_le.
      + destruct fd; [cbn; lia|]. apply uncounted_le. intros x _. apply uncounted_le. intros s _. destruct (s <? as_isize na); [apply X|cbn; lia].
      + intros [[w|] fd'] _; [cbn; lia|]. destruct (fd' && bd'); [cbn; lia|apply IH].
  Qed.
  Lemma nearby_ge c p n na o r : forall fuel fuel' i bd fd, (fuel <= fuel')%nat -> nearby_loop dbg fuel c p n na o r i bd fd = OutOfFuel ->
    (fuel <= fst (nearby_loop_c dbg fuel' c p n na o r i bd fd))%nat.
  Proof.
    induction fuel as [|fuel IH]; intros fuel' i bd fd Hle H; [lia|]. destruct fuel' as [|fuel']; [lia|]. cbn [nearby_loop_c tick fst]. apply le_n_S.
    cbn [nearby_loop] in H.
    match type of H with bind ?m _ = _ => match goal with |- (_ <= fst (cbind ?m' _))%nat => assert (E : snd m' = m) end end.
    { destruct bd; [reflexivity|]. rewrite cbind_snd. apply bind_ext. intros x. rewrite cbind_snd. apply bind_ext. intros s. destruct (s <? as_isize n); [reflexivity|].
      rewrite cbind_snd, will_same. reflexivity. }
    rewrite <- E in H. match goal with |- (_ <= fst (cbind ?m' _))%nat => destruct m' as [m1 [[[w|] bd']| |]] end; cbn [snd bind cbind fst] in *; try discriminate H.
    2:{ exfalso. clear - E. destruct bd; [discriminate E|]. symmetry in E. revert E.
        assert (N : forall A (x : res A), x <> OutOfFuel -> x = OutOfFuel -> False) by auto. apply N.
        apply nofuel_bind; [apply arith_isize_nofuel|]. intros x _. apply nofuel_bind; [apply before_adjusted_start_nofuel|]. intros s _. destruct (s <? as_isize n); [discriminate|].
        apply nofuel_bind; [apply will_apply_nofuel|discriminate]. }
    match type of H with bind ?m _ = _ => match goal with |- (_ <= m1 + fst (cbind ?m' _))%nat => assert (E' : snd m' = m) end end.
    { destruct fd; [reflexivity|]. rewrite cbind_snd. apply bind_ext. intros x. rewrite cbind_snd. apply bind_ext. intros s. destruct (s <? as_isize na); [|reflexivity].
      rewrite cbind_snd, will_same. reflexivity. }
    rewrite <- E' in H. match goal with |- (_ <= m1 + fst (cbind ?m' _))%nat => destruct m' as [m2 [[[w|] fd']| |]] end; cbn [snd bind cbind fst] in *; try discriminate H.
    2:{ exfalso. clear - E'. destruct fd; [discriminate E'|]. symmetry in E'. revert E'.
        assert (N : forall A (x : res A), x <> OutOfFuel -> x = OutOfFuel -> False) by auto. apply N.
        apply nofuel_bind; [apply arith_isize_nofuel|]. intros x _. apply nofuel_bind; [apply before_adjusted_start_nofuel|]. intros s _. destruct (s <? as_isize na); [|discriminate].
        apply nofuel_bind; [apply will_apply_nofuel|discriminate]. }
    destruct (fd' && bd'); [discriminate H|]. specialize (IH fuel' (i + 1) bd' fd' ltac:(lia) H). lia.
  Qed.

  Variable target : list line.
  Hypothesis Ft : fits_lines target.
  Variables m k : nat.

  Lemma limit_value h next o na : hunk_ok h -> next_ok next -> - two61 <= o < two61 ->
    nearby_not_after dbg (text_of_hunk h) target (option_map text_of_hunk next) o false = Ok na -> as_isize na = search_limit h target next o.
  Proof.
    intros Hok Hx Ho E.
    assert (D : (dbg = true -> (match next with Some x => Z.of_nat (h_b x) + o + Z.of_nat (h_lead h) < 0 | None => False end) \/ 0 <= search_limit h target next o) \/
      (dbg = true /\ match next with Some x => 0 <= Z.of_nat (h_b x) + o + Z.of_nat (h_lead h) | None => True end /\ search_limit h target next o < 0)).
    { destruct dbg; [|now left]. destruct (Z.ltb_spec (search_limit h target next o) 0) as [L|L]; [|left; auto].
      destruct next as [x|]; [|right; auto]. destruct (Z.ltb_spec (Z.of_nat (h_b x) + o + Z.of_nat (h_lead h)) 0); [left; auto|right; auto]. }
    destruct D as [D|(D1 & D2 & D3)].
    - destruct (nearby_not_after_spec dbg h Hok target Ft next o Hx Ho D) as (na' & E' & V). rewrite E in E'. now injection E' as <-.
    - rewrite (nearby_not_after_panic dbg h Hok target Ft next o Hx Ho D1 D2 D3) in E. discriminate.
  Qed.
  Definition next_within (next : option (hunk line)) : Prop := match next with Some x => within m k x | None => True end.
  Lemma nearby_top_le h next n o : hunk_ok h -> next_ok next -> within m k h -> next_within next -> - Z.of_nat m <= o <= zlen target -> Z.of_nat m < two61 -> 0 <= n < two61 ->
    (fst (will_apply_nearby_c dbg (text_of_hunk h) target n (option_map text_of_hunk next) o false) <= (length target + m + k + 3) * S (S k + S k))%nat.
  Proof.
    intros Hok Hx Hw Hnw Ho Hm Hn. unfold will_apply_nearby_c. apply uncounted_le. intros na E. pose proof (target_bound target Ft) as Bt.
    pose proof (limit_value h next o na Hok Hx ltac:(lia) E) as V. destruct Hw as (W1 & W2 & W3 & W4).
    eapply Nat.le_trans; [apply (nearby_le _ _ _ _ _ _ k); cbn; lia|]. apply Nat.mul_le_mono_r. unfold nearby_fuel. rewrite V.
    change (before_start (text_of_hunk h) false) with (Z.of_nat (h_b h)). pose proof (s_bound h Hok) as Hs. pose proof (core_bound h Hok) as Hc.
    rewrite (as_isize_id n), (as_isize_id (Z.of_nat (h_b h))) by (consts; lia). change wrap_isize with as_isize. rewrite !as_isize_id by (consts; lia).
    destruct next as [x|]; cbn [search_limit next_within] in *; [destruct Hnw as (X1 & _)|]; unfold zlen in *; lia.
  Qed.
  Lemma within_swap h : within m k h -> within m k (swap_hunk h).
  Proof. intros (H1 & H2 & H3 & H4). repeat split; assumption. Qed.
  Definition step_work : nat := (S k + (length target + m + k + 3) * S (S k + S k) + (S k + (length target + m + k + 3) * S (S k + S k)))%nat.
  Lemma step_le h next n o st w : hunk_ok h -> next_ok next -> within m k h -> next_within next -> - Z.of_nat m <= o <= zlen target -> Z.of_nat m < two61 -> 0 <= n < two61 ->
    (fst (apply_step_c dbg target false (text_of_hunk h) (option_map text_of_hunk next) n o st w) <= step_work)%nat.
  Proof.
    intros Hok Hx Hw Hnw Ho Hm Hn. unfold step_work. assert (W : forall r o', (fst (will_apply_c dbg (text_of_hunk h) target o' r) <= S k)%nat).
    { intros r o'. destruct Hw as (_ & _ & W3 & W4). apply will_le; cbn; lia. }
    pose proof (nearby_top_le h next n o Hok Hx Hw Hnw Ho Hm Hn) as N1.
    pose proof (nearby_top_le (swap_hunk h) (option_map swap_hunk next) n o (hunk_ok_swap _ Hok) (next_ok_swap _ Hx) (within_swap _ Hw)) as N2.
    assert (Hnw' : next_within (option_map swap_hunk next)) by (destruct next; [now apply within_swap|exact I]). specialize (N2 Hnw' Ho Hm Hn).
    rewrite <- swap_clump_hunk in N2. replace (option_map text_of_hunk (option_map swap_hunk next)) with (option_map swap_clump (option_map text_of_hunk next)) in N2 by (destruct next; reflexivity).
    rewrite nearby_top_swap in N2. cbn [negb] in N2. unfold apply_step_c. cbn [negb].
    set (B := ((length target + m + k + 3) * S (S k + S k))%nat) in *.
    replace (S k + B + (S k + B))%nat with (S k + (B + (S k + (B + 0))))%nat by lia.
    apply cthen_le; [apply W|]. intros [[|q]|] w1 _; [cbn; lia..|]. apply cthen_le; [exact N1|]. intros [[d wl]|] w2 _; [cbn; lia|].
    apply cthen_le; [apply W|]. intros [[|q]|] w3 _; [cbn; lia..|]. apply cthen_le; [exact N2|]. intros [[d wl]|] w4 _; cbn; lia.
  Qed.
  (* where a step leads to *)
  Lemma done_of {A} (x : io A) out a w b w' : emits x out (Done a) -> x w = (Done b, w') -> b = a.
  Proof. intros [_ H] E. rewrite H in E. unfold run_emit in E. destruct (w_room w) as [q|]; [destruct (_ <=? _)%nat|]; congruence. Qed.
  Lemma panicked_of {A} (x : io A) out w b w' : emits x out Panicked -> x w = (Done b, w') -> False.
  Proof. intros [_ H] E. rewrite H in E. unfold run_emit in E. destruct (w_room w) as [q|]; [destruct (_ <=? _)%nat|]; congruence. Qed.
  Lemma decision_low h o w : hunk_ok h -> within m k h -> decision h target (Z.of_nat (h_b h) + o) (Some w) -> - Z.of_nat m <= o <= zlen target.
  Proof.
    intros Hok Hw D. destruct (decision_place target h _ w Hok D) as (q & p & _ & _ & Hp & Hl & _). destruct Hw as (W1 & _). destruct Hok as (O1 & _). unfold zlen. lia.
  Qed.
  Lemma step_next h next n o st w n' o' st' w' : hunk_ok h -> next_ok next -> within m k h -> - Z.of_nat m <= o <= zlen target -> Z.of_nat m < two61 -> Z.of_nat (Nat.max n (length target)) < two61 ->
    apply_step dbg target false (text_of_hunk h) (option_map text_of_hunk next) (Z.of_nat n) o st w = (Done (n', o', st'), w') ->
    exists q, n' = Z.of_nat q /\ (q <= Nat.max n (length target) + length (h_old h))%nat /\ - Z.of_nat m <= o' <= zlen target.
  Proof.
    intros Hok Hx Hw Ho Hm Hn H. rewrite apply_step_classify in H. pose proof (target_bound target Ft) as Bt.
    destruct (classify_fate dbg target Ft h next n o Hok Hx ltac:(lia) ltac:(lia)) as [(cl & Ek & Hf)|(_ & Ek)]; rewrite Ek in H; unfold iobind at 1, lift in H; [|discriminate].
    destruct cl as [f o1 wl|f o1 wl|]; cbv beta iota in Hf; unfold render in H.
    - pose proof (fate_placed _ _ _ _ _ _ _ _ _ Hf) as D. destruct (emits_placed dbg target Ft h n o1 wl Hok D ltac:(lia)) as [P1 P2].
      pose proof (decision_low _ _ _ Hok Hw D). destruct (decision_kept target _ _ _ Hok D) as (K1 & K2 & K3 & K4).
      apply iobind_done in H as (a & wa & H1 & H2).
      assert (Ha : a = Z.of_nat (Nat.max n (kept_from (h_b h) o1 wl) + kept_count (h_old h) wl)).
      { destruct (Nat.leb_spec (h_a h) (cut_trail wl)) as [L|L]; [apply (done_of _ _ _ _ _ _ (P1 (or_intror L)) H1)|].
        destruct wl as [|q]; [apply (done_of _ _ _ _ _ _ (P1 (or_introl eq_refl)) H1)|]. exfalso. eapply panicked_of; [apply P2|exact H1]. intros [X|X]; [discriminate|lia]. }
      assert (E2 : n' = a /\ o' = o1) by (destruct f; apply ret_done in H2 as [H2 _]; injection H2 as <- <- _; auto). destruct E2 as [-> ->].
      eexists. split; [exact Ha|]. split; [|lia]. unfold kept_count, kept_from, zlen in *. lia.
    - pose proof (fate_seen_at _ _ _ _ _ _ _ _ _ Hf) as D. pose proof (emits_seen dbg target Ft h n o1 wl Hok D) as P1.
      pose proof (decision_low (swap_hunk h) _ _ (hunk_ok_swap _ Hok) (within_swap _ Hw) D). destruct (decision_kept target _ _ _ (hunk_ok_swap _ Hok) D) as (K1 & K2 & K3 & K4). cbn [swap_hunk h_old] in K4.
      apply iobind_done in H as (a & wa & H1 & H2). pose proof (done_of _ _ _ _ _ _ P1 H1) as Ha.
      assert (E2 : n' = a /\ o' = o1) by (destruct f; apply ret_done in H2 as [H2 _]; injection H2 as <- <- _; auto). destruct E2 as [-> ->].
      eexists. split; [exact Ha|]. split; [|lia]. unfold kept_from, zlen in *. lia.
    - apply iobind_done in H as (a & wa & H1 & H2). apply ret_done in H2 as [H2 _]. injection H2 as <- <- _. exists n. split; [reflexivity|]. split; lia.
  Qed.
  Lemma clumps_le hs : forall n o st w, Forall hunk_ok hs -> Forall (within m k) hs -> - Z.of_nat m <= o <= zlen target -> Z.of_nat m < two61 ->
    Z.of_nat (Nat.max n (length target) + total_old hs) < two61 ->
    (fst (apply_clumps_c dbg target false (map text_of_hunk hs) (Z.of_nat n) o st w) <= length hs * step_work)%nat.
  Proof.
    induction hs as [|h hs IH]; intros n o st w Hok Hw Ho Hm Hn; [cbn; lia|]. inversion Hok as [|? ? O1 O2]; subst. inversion Hw as [|? ? W1 W2]; subst. cbn [map apply_clumps_c length total_old] in *.
    replace (S (length hs) * step_work)%nat with (step_work + length hs * step_work)%nat by lia. rewrite hd_error_map. pose proof (hd_next_ok _ O2) as Hnx.
    assert (Hnw : next_within (hd_error hs)) by (destruct W2; [exact I|assumption]).
    apply cthen_le; [apply step_le; auto; lia|]. intros [[n' o'] st'] w' E. rewrite step_same in E.
    destruct (step_next h (hd_error hs) n o st w n' o' st' w' O1 Hnx W1 Ho Hm ltac:(lia) E) as (q & -> & Hq & Ho'). apply IH; auto. lia.
  Qed.
  Lemma apply_le hs w : Forall hunk_ok hs -> Forall (within m k) hs -> Z.of_nat m < two61 -> lines_fit hs ->
    (fst (text_apply_into_c dbg (map text_of_hunk hs) target false w) <= length hs * step_work)%nat.
  Proof.
    intros Hok Hw Hm Hf. unfold text_apply_into_c. rewrite <- (Nat.add_0_r (length hs * step_work)). apply cthen_le; [|intros [n st] w' _; cbn; lia].
    apply (clumps_le hs 0 0 stats0 w Hok Hw); auto; [unfold zlen; lia|]. pose proof (total_old_le hs). unfold lines_fit, fits_lines, zlen in *. revert Hf Ft. consts. lia.
  Qed.
End Bounds.

(* ---------------- a patch that takes long ---------------- *)
Lemma cthen_ge {A B} (m : cio A) (k : A -> cio B) w : (fst (m w) <= fst (cthen m k w))%nat.
Proof. unfold cthen. destruct (m w) as [n [[a| | |] w']]; cbn [fst]; lia. Qed.
Lemma cthen_ge_next {A B} (m : cio A) (k : A -> cio B) w a w' : snd (m w) = (Done a, w') -> (fst (k a w') <= fst (cthen m k w))%nat.
Proof. unfold cthen. destruct (m w) as [n r]. cbn [snd]. intros ->. cbn [fst]. lia. Qed.

Section Far.
  Variable dbg : bool.
  Variable h : hunk line.
  Hypothesis Hok : hunk_ok h.
  Variable target : list line.
  Hypothesis Ft : fits_lines target.
  Hypothesis Hnot : forall o, - two61 <= o <= two61 -> will_apply dbg (text_of_hunk h) target o false = Ok None.
  Lemma far_loop na : - two61 <= as_isize na <= two61 -> forall fuel i fd, 1 <= i -> Z.of_nat fuel + i <= Z.of_nat (h_b h) + 1 ->
    nearby_loop dbg fuel (text_of_hunk h) target 0 na 0 false i false fd = OutOfFuel.
  Proof.
    intros Hna. pose proof (s_bound h Hok) as Hs. induction fuel as [|fuel IH]; intros i fd Hi Hf; [reflexivity|].
    cbn [nearby_loop]. rewrite isubz_ok by (consts; lia). cbn [bind]. rewrite (adj_start dbg h Hok) by (consts; lia). cbn [bind].
    change (as_isize 0) with 0. replace (Z.of_nat (h_b h) + (0 - i) <? 0) with false by (symmetry; apply Z.ltb_ge; lia).
    rewrite Hnot by lia. cbn [bind].
    assert (E : exists fd', (if fd then Ok (None, true)
        else let! adjusted_offset := iadd dbg 0 i in
             let! s := before_adjusted_start dbg (text_of_hunk h) adjusted_offset None false in
             if s <? as_isize na then let! w := will_apply dbg (text_of_hunk h) target adjusted_offset false in Ok (w, false) else Ok (None, true)) = Ok (@None will, fd')).
    { destruct fd; [now exists true|]. rewrite iadd_ok by (consts; lia). cbn [bind]. rewrite (adj_start dbg h Hok) by (consts; lia). cbn [bind].
      destruct (_ <? _); [rewrite Hnot by lia; now exists false|now exists true]. }
    destruct E as (fd' & E). rewrite E. cbn [bind]. rewrite andb_false_r. apply IH; lia.
  Qed.
  Lemma far_work w : 0 <= search_limit h target None 0 -> (h_b h <= fst (text_apply_into_c dbg [text_of_hunk h] target false w))%nat.
  Proof.
    intros Hl. pose proof (s_bound h Hok) as Hs. pose proof (target_bound target Ft) as Bt. pose proof (core_bound h Hok) as Bc.
    destruct (nearby_not_after_spec dbg h Hok target Ft None 0 I ltac:(consts; lia) ltac:(auto)) as (na & E & V).
    unfold text_apply_into_c. eapply Nat.le_trans; [|apply cthen_ge]. cbn [apply_clumps_c hd_error]. eapply Nat.le_trans; [|apply cthen_ge].
    unfold apply_step_c. eapply Nat.le_trans; [|eapply cthen_ge_next; unfold cread; cbn [snd]; rewrite will_same, Hnot by (consts; lia); reflexivity].
    cbv beta iota. eapply Nat.le_trans; [|apply cthen_ge]. unfold cread. cbn [fst]. unfold will_apply_nearby_c. cbn [option_map] in E. rewrite E. cbn [uncounted cbind fst snd].
    assert (G : (h_b h <= nearby_fuel (text_of_hunk h) 0 na 0 false)%nat).
    { unfold nearby_fuel. change (before_start (text_of_hunk h) false) with (Z.of_nat (h_b h)). change (as_isize 0) with 0.
      rewrite (as_isize_id (Z.of_nat (h_b h))) by (consts; lia). change wrap_isize with as_isize. rewrite !as_isize_id by (consts; lia). lia. }
    eapply Nat.le_trans; [|apply Nat.le_add_l]. cbn [search_limit] in V. apply nearby_ge; [exact G|]. apply far_loop; lia.
  Qed.
End Far.

Lemma cover_within context g (b a : list line) i j hs : cover context g b a i j hs -> Forall (within (Nat.max (length b) (length a)) context) hs.
Proof.
  induction 1 as [|i j d i' j' l t rest]; constructor; [|assumption].
  match goal with H : cover _ _ _ _ i' j' _ |- _ => apply cover_bounds in H as [C1 C2] end.
  unfold within. cbn [h_b h_a h_old h_new h_lead h_trail]. rewrite !sub_length by lia. lia.
Qed.
Lemma lines_fit_swap hs : lines_fit hs -> lines_fit (map swap_hunk hs).
Proof.
  unfold lines_fit. intros H. eapply Z.le_lt_trans; [|exact H]. apply Z.eq_le_incl. clear H. do 2 f_equal.
  induction hs as [|h hs IH]; [reflexivity|]. cbn [map fold_right]. rewrite IH. cbn [swap_hunk h_old h_new]. lia.
Qed.

(* ---------------- exact counts ---------------- *)
Lemma cbind_ok {A B} (a : A) (k : A -> counted B) : cbind (uncounted (Ok a)) k = k a.
Proof. unfold uncounted. cbn [cbind Nat.add]. now destruct (k a). Qed.
Section Exact.
  Variable dbg : bool.
  Lemma loop_none_exact c p s r l : snd (will_apply_loop_c dbg c p s r l) = Ok None -> fst (will_apply_loop_c dbg c p s r l) = length l.
  Proof.
    induction l as [|x l IH]; [reflexivity|]. cbn [will_apply_loop_c tick fst snd length]. cbv zeta.
    destruct (iadd dbg s _) as [adj| |]; cbn [uncounted cbind fst snd]; [|discriminate..].
    match goal with |- context [if 0 <=? ?a then ?b else Ok false] => destruct (if 0 <=? a then b else Ok false) as [[]| |] end; cbn [uncounted cbind fst snd]; try discriminate. intros H. now rewrite IH.
  Qed.
  Lemma loop_not_clean c p s r l : snd (will_apply_loop_c dbg c p s r l) <> Ok (Some Cleanly).
  Proof.
    induction l as [|x l IH]; [discriminate|]. cbn [will_apply_loop_c tick fst snd length]. cbv zeta.
    destruct (iadd dbg s _) as [adj| |]; cbn [uncounted cbind fst snd]; [|discriminate..].
    match goal with |- context [if 0 <=? ?a then ?b else Ok false] => destruct (if 0 <=? a then b else Ok false) as [[]| |] end; cbn [uncounted cbind fst snd]; try discriminate. exact IH.
  Qed.
  Lemma will_clean_exact c p o r : will_apply dbg c p o r = Ok (Some Cleanly) -> fst (will_apply_c dbg c p o r) = 1%nat.
  Proof.
    rewrite <- will_same. unfold will_apply_c. cbn [tick fst snd]. destruct (before_adjusted_start dbg c o None r) as [s| |]; cbn [uncounted cbind fst snd]; [|discriminate..]. cbv zeta.
    match goal with |- context [if 0 <=? ?a then ?b else Ok false] => destruct (if 0 <=? a then b else Ok false) as [[]| |] end; cbn [uncounted cbind fst snd]; try discriminate; [reflexivity|].
    intros H. now apply loop_not_clean in H.
  Qed.
  Definition tries (h : hunk line) : nat := Nat.max 1 (Nat.max (h_lead h) (h_trail h)).
  Lemma will_none_exact h p o r : will_apply dbg (text_of_hunk h) p o r = Ok None -> fst (will_apply_c dbg (text_of_hunk h) p o r) = tries h.
  Proof.
    rewrite <- will_same. unfold will_apply_c, tries. cbn [tick fst snd]. destruct (before_adjusted_start dbg _ o None r) as [s| |]; cbn [uncounted cbind fst snd]; [|discriminate..]. cbv zeta.
    match goal with |- context [if 0 <=? ?a then ?b else Ok false] => destruct (if 0 <=? a then b else Ok false) as [[]| |] end; cbn [uncounted cbind fst snd]; try discriminate.
    intros H. apply loop_none_exact in H. cbn [Nat.add]. rewrite H, seq_length. cbn [text_of_hunk tc_context fst snd]. lia.
  Qed.
  Variable h : hunk line.
  Hypothesis Hok : hunk_ok h.
  Variable target : list line.
  Notation c := (text_of_hunk h).
  Notation s := (Z.of_nat (h_b h)).
  Variables n nau na o : Z.
  Hypothesis Ho : - two61 <= o < two61.
  Hypothesis Hn : 0 <= n < two61.
  Hypothesis Hna : as_isize nau = na.
  Hypothesis Hnab : - (2 * two61) <= na <= 2 * two61.
  Hypothesis Hnone : forall e, in_window (s + o) n na e -> decision h target (s + o + e) None.
  Lemma none_there e : in_window (s + o) n na e -> - (2 * two61) <= o + e <= 2 * two61 -> will_apply_c dbg c target (o + e) false = (tries h, Ok None).
  Proof.
    intros W B. destruct (will_apply_spec dbg h Hok target (o + e)) as (x & E & D); [lia..|]. specialize (Hnone e W).
    rewrite <- Z.add_assoc in Hnone. pose proof (decision_unique _ _ _ _ _ D Hnone) as ->.
    rewrite (surjective_pairing (will_apply_c dbg c target (o + e) false)). rewrite (will_none_exact h target (o + e) false E), will_same, E. reflexivity.
  Qed.
  Definition behind : nat := Z.to_nat (s + o - n).
  Definition ahead : nat := Z.to_nat (na - 1 - (s + o)).
  Lemma nearby_none_exact fuel : forall i, (1 <= i <= Nat.max behind ahead + 1)%nat -> (Nat.max behind ahead + 2 - i <= fuel)%nat ->
    fst (nearby_loop_c dbg fuel c target n nau o false (Z.of_nat i) (behind + 1 <? i)%nat (ahead + 1 <? i)%nat) =
    (Nat.max behind ahead + 2 - i + (behind + 1 - i + (ahead + 1 - i)) * tries h)%nat.
  Proof.
    pose proof (s_bound h Hok) as Hs. assert (Bb : Z.of_nat behind < 2 * two61) by (unfold behind; consts; lia). assert (Ba : Z.of_nat ahead < 4 * two61) by (unfold ahead; consts; lia).
    induction fuel as [|fuel IH]; intros i Hi Hf; [lia|]. cbn [nearby_loop_c tick fst]. rewrite (as_isize_id n), Hna by (consts; lia).
    match goal with |- S (fst (cbind ?m _)) = _ => assert (E : m = ((if (behind <? i)%nat then 0 else tries h)%nat, Ok (None, (behind <? i)%nat))) end.
    { destruct (Nat.ltb_spec (behind + 1) i) as [L|L].
      - destruct (Nat.ltb_spec behind i); [reflexivity|lia].
      - assert (- (2 * two61) <= o - Z.of_nat i <= 2 * two61) by (unfold behind in *; consts; lia).
        rewrite isubz_ok by (consts; lia). rewrite cbind_ok. rewrite (adj_start dbg h Hok) by (consts; lia). rewrite cbind_ok.
        destruct (Nat.ltb_spec behind i) as [L2|L2].
        + replace (s + (o - Z.of_nat i) <? n) with true by (symmetry; apply Z.ltb_lt; unfold behind in *; lia). reflexivity.
        + replace (s + (o - Z.of_nat i) <? n) with false by (symmetry; apply Z.ltb_ge; unfold behind in *; lia).
          replace (o - Z.of_nat i) with (o + - Z.of_nat i) by lia. rewrite none_there; [|left; unfold behind in *; lia|consts; lia]. unfold uncounted. cbn [cbind fst snd]. now rewrite Nat.add_0_r. }
    rewrite E. clear E. cbn [cbind fst snd].
    match goal with |- S (_ + fst (cbind ?m _)) = _ => assert (E : m = ((if (ahead <? i)%nat then 0 else tries h)%nat, Ok (None, (ahead <? i)%nat))) end.
    { destruct (Nat.ltb_spec (ahead + 1) i) as [L|L].
      - destruct (Nat.ltb_spec ahead i); [reflexivity|lia].
      - assert (- (2 * two61) <= o + Z.of_nat i <= 2 * two61) by (unfold ahead in *; consts; lia).
        rewrite iadd_ok by (consts; lia). rewrite cbind_ok. rewrite (adj_start dbg h Hok) by (consts; lia). rewrite cbind_ok.
        destruct (Nat.ltb_spec ahead i) as [L2|L2].
        + replace (s + (o + Z.of_nat i) <? na) with false by (symmetry; apply Z.ltb_ge; unfold ahead in *; lia). reflexivity.
        + replace (s + (o + Z.of_nat i) <? na) with true by (symmetry; apply Z.ltb_lt; unfold ahead in *; lia).
          rewrite none_there; [|right; unfold ahead in *; lia|assumption]. unfold uncounted. cbn [cbind fst snd]. now rewrite Nat.add_0_r. }
    rewrite E. clear E. cbn [cbind fst snd].
    destruct (Nat.ltb_spec ahead i) as [La|La], (Nat.ltb_spec behind i) as [Lb|Lb]; cbn [andb].
    - cbn [uncounted fst]. replace (Nat.max behind ahead + 2 - i)%nat with 1%nat by lia. replace (behind + 1 - i)%nat with 0%nat by lia. replace (ahead + 1 - i)%nat with 0%nat by lia. lia.
    - replace (Z.of_nat i + 1) with (Z.of_nat (S i)) by lia.
      assert (Fb : (behind + 1 <? S i)%nat = false) by (apply Nat.ltb_ge; lia). assert (Fa : (ahead + 1 <? S i)%nat = true) by (apply Nat.ltb_lt; lia).
      specialize (IH (S i) ltac:(lia) ltac:(lia)). rewrite Fa, Fb in IH. rewrite IH.
      replace (behind + 1 - i)%nat with (S (behind + 1 - S i)) by lia. replace (ahead + 1 - i)%nat with 0%nat by lia. replace (ahead + 1 - S i)%nat with 0%nat by lia.
      replace (Nat.max behind ahead + 2 - i)%nat with (S (Nat.max behind ahead + 2 - S i)) by lia. lia.
    - replace (Z.of_nat i + 1) with (Z.of_nat (S i)) by lia.
      assert (Fb : (behind + 1 <? S i)%nat = true) by (apply Nat.ltb_lt; lia). assert (Fa : (ahead + 1 <? S i)%nat = false) by (apply Nat.ltb_ge; lia).
      specialize (IH (S i) ltac:(lia) ltac:(lia)). rewrite Fa, Fb in IH. rewrite IH.
      replace (ahead + 1 - i)%nat with (S (ahead + 1 - S i)) by lia. replace (behind + 1 - i)%nat with 0%nat by lia. replace (behind + 1 - S i)%nat with 0%nat by lia.
      replace (Nat.max behind ahead + 2 - i)%nat with (S (Nat.max behind ahead + 2 - S i)) by lia. lia.
    - replace (Z.of_nat i + 1) with (Z.of_nat (S i)) by lia.
      replace (nearby_loop_c dbg fuel c target n nau o false (Z.of_nat (S i)) false false) with (nearby_loop_c dbg fuel c target n nau o false (Z.of_nat (S i)) (behind + 1 <? S i)%nat (ahead + 1 <? S i)%nat).
      + rewrite IH by lia. replace (ahead + 1 - i)%nat with (S (ahead + 1 - S i)) by lia. replace (behind + 1 - i)%nat with (S (behind + 1 - S i)) by lia.
        replace (Nat.max behind ahead + 2 - i)%nat with (S (Nat.max behind ahead + 2 - S i)) by lia. lia.
      + f_equal; apply Nat.ltb_ge; lia.
  Qed.
End Exact.

Lemma nearby_exact dbg h target next n o : hunk_ok h -> fits_lines target -> next_ok next -> - two61 <= o < two61 - 255 -> 0 <= n < two61 ->
  will_apply_nearby dbg (text_of_hunk h) target n (option_map text_of_hunk next) o false = Ok None ->
  let before := Z.to_nat (Z.of_nat (h_b h) + o - n) in
  let beyond := Z.to_nat (search_limit h target next o - 1 - (Z.of_nat (h_b h) + o)) in
  fst (will_apply_nearby_c dbg (text_of_hunk h) target n (option_map text_of_hunk next) o false) =
    (Nat.max before beyond + 1 + (before + beyond) * Nat.max 1 (Nat.max (h_lead h) (h_trail h)))%nat.
Proof.
  intros Hok Ft Hx Ho Hn H before beyond. pose proof (target_bound target Ft) as Bt. unfold will_apply_nearby in H. unfold will_apply_nearby_c.
  destruct (nearby_not_after dbg (text_of_hunk h) target (option_map text_of_hunk next) o false) as [na| |] eqn:E; [|discriminate..]. cbn [bind] in H. cbn [uncounted cbind fst Nat.add].
  pose proof (limit_value dbg target Ft h next o na Hok Hx ltac:(lia) E) as V.
  pose proof (search_limit_bounds h Hok target Ft next o Hx Ho) as Bl. pose proof (s_bound h Hok) as Hs.
  assert (Hf : (Nat.max before beyond + 2 - 1 <= nearby_fuel (text_of_hunk h) n na o false)%nat /\ Z.max (Z.of_nat (h_b h) + o - n) (search_limit h target next o - (Z.of_nat (h_b h) + o)) + 2 <= Z.of_nat (nearby_fuel (text_of_hunk h) n na o false) /\ 0 < Z.of_nat (nearby_fuel (text_of_hunk h) n na o false)).
  { unfold nearby_fuel. change (before_start (text_of_hunk h) false) with (Z.of_nat (h_b h)). rewrite V, (as_isize_id n), (as_isize_id (Z.of_nat (h_b h))) by (consts; lia).
    change wrap_isize with as_isize. rewrite !as_isize_id by (consts; lia). unfold before, beyond. lia. }
  destruct Hf as (Hf1 & Hf2 & Hf3).
  destruct (nearby_loop_spec dbg h Hok target n na (search_limit h target next o) o ltac:(lia) Hn V Bl (nearby_fuel (text_of_hunk h) n na o false) 1 false false) as (x & Ex & Hx'); auto; try lia; try discriminate.
  { intros e [He|He] Hlt; lia. }
  rewrite Ex in H. injection H as ->. inversion Hx' as [|N]; subst.
  pose proof (nearby_none_exact dbg h Hok target n na (search_limit h target next o) o ltac:(lia) Hn V Bl N (nearby_fuel (text_of_hunk h) n na o false) 1%nat) as X.
  unfold behind, ahead in X. fold before in X. fold beyond in X. specialize (X ltac:(lia) Hf1).
  replace (before + 1 <? 1)%nat with false in X by (symmetry; apply Nat.ltb_ge; lia). replace (beyond + 1 <? 1)%nat with false in X by (symmetry; apply Nat.ltb_ge; lia).
  change (Z.of_nat 1) with 1 in X. unfold tries in X. rewrite X. replace (before + 1 - 1 + (beyond + 1 - 1))%nat with (before + beyond)%nat by lia. lia.
Qed.

(* clumps that are applied cleanly *)
Lemma cthen_run {A B} (m : cio A) (k : A -> cio B) w a w' : snd (m w) = (Done a, w') -> cthen m k w = ((fst (m w) + fst (k a w'))%nat, snd (k a w')).
Proof. unfold cthen. destruct (m w) as [n r]. cbn [fst snd]. intros ->. reflexivity. Qed.
Lemma cthen_inv {A B} (m : cio A) (k : A -> cio B) w b w' : snd (cthen m k w) = (Done b, w') -> exists a w1, snd (m w) = (Done a, w1) /\ snd (k a w1) = (Done b, w').
Proof. rewrite cthen_snd. intros H. apply iobind_done in H as (a & w1 & H1 & H2). eauto. Qed.
Lemma step_clean dbg p r c nx n o st w n' o' st' w' : snd (apply_step_c dbg p r c nx n o st w) = (Done (n', o', st'), w') ->
  (st_clean st' = S (st_clean st) /\ fst (apply_step_c dbg p r c nx n o st w) = 1%nat) \/ st_clean st' = st_clean st.
Proof.
  unfold apply_step_c. intros H. pose proof H as H0. apply cthen_inv in H as (x & w1 & H1 & H2). rewrite (cthen_run _ _ _ _ _ H1) in *. clear H0.
  unfold cread in H1. cbn [snd] in H1. rewrite will_same in H1. apply lift_done in H1 as [H1 ->].
  destruct x as [[|q]|].
  - left. apply iobind_done in H2 as (a & wa & _ & H2). apply ret_done in H2 as [H2 _]. injection H2 as _ _ <-. split; [reflexivity|].
    unfold cread. cbn [fst]. rewrite (will_clean_exact _ _ _ _ _ H1). reflexivity.
  - right. apply iobind_done in H2 as (a & wa & _ & H2). apply ret_done in H2 as [H2 _]. injection H2 as _ _ <-. reflexivity.
  - right. apply cthen_inv in H2 as (y & w2 & _ & H2). destruct y as [[d wl]|].
    { apply iobind_done in H2 as (a & wa & _ & H2). apply iobind_done in H2 as (a' & wb & _ & H2). apply ret_done in H2 as [H2 _]. injection H2 as _ _ <-. reflexivity. }
    apply cthen_inv in H2 as (y & w3 & _ & H2). destruct y as [[|q]|].
    1,2: apply iobind_done in H2 as (a & wa & _ & H2); apply ret_done in H2 as [H2 _]; injection H2 as _ _ <-; reflexivity.
    apply cthen_inv in H2 as (y & w4 & _ & H2). destruct y as [[d wl]|].
    { apply iobind_done in H2 as (a & wa & _ & H2). apply iobind_done in H2 as (a' & wb & _ & H2). apply ret_done in H2 as [H2 _]. injection H2 as _ _ <-. reflexivity. }
    apply iobind_done in H2 as (a & wa & _ & H2). apply ret_done in H2 as [H2 _]. injection H2 as _ _ <-. reflexivity.
Qed.
Lemma clumps_clean dbg p r cs : forall n o st w n' st' w', snd (apply_clumps_c dbg p r cs n o st w) = (Done (n', st'), w') ->
  (st_clean st' <= st_clean st + length cs)%nat /\ (st_clean st' = (st_clean st + length cs)%nat -> fst (apply_clumps_c dbg p r cs n o st w) = length cs).
Proof.
  induction cs as [|c cs IH]; intros n o st w n' st' w' H; cbn [apply_clumps_c length] in *.
  - apply ret_done in H as [H _]. injection H as _ <-. split; [lia|reflexivity].
  - pose proof H as H0. apply cthen_inv in H as ([[n1 o1] st1] & w1 & H1 & H2). rewrite (cthen_run _ _ _ _ _ H1). cbn [fst].
    destruct (IH _ _ _ _ _ _ _ H2) as [I1 I2]. destruct (step_clean _ _ _ _ _ _ _ _ _ _ _ _ _ H1) as [[S1 S2]|S1]; split; lia.
Qed.
Lemma apply_clean dbg cs p r w st w' : text_apply_into dbg cs p r w = (Done st, w') -> st_clean st = length cs -> fst (text_apply_into_c dbg cs p r w) = length cs.
Proof.
  rewrite <- apply_same. unfold text_apply_into_c. intros H E. apply cthen_inv in H as ([n st1] & w1 & H1 & H2). rewrite (cthen_run _ _ _ _ _ H1). cbn [fst plain].
  apply iobind_done in H2 as (a & wa & _ & H2). apply ret_done in H2 as [H2 _]. subst st1. destruct (clumps_clean _ _ _ _ _ _ _ _ _ _ _ H1) as [_ X].
  rewrite X; [lia|]. exact E.
Qed.

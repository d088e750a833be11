(* Proof_Count.v - counting clumps with an i32. *)
From Verif Require Import Base Model_Seq Model_Changes Model_IO Model_Text Model_Bytes Model_Json Model_Files Model_Log Model_Count Spec_Count Proof_Log.
Local Open Scope Z_scope.

Lemma wrap_i32_small z : - two31 <= z < two31 -> wrap_i32 z = z.
Proof. unfold wrap_i32, two31, two32. intros H. rewrite Z.mod_small; lia. Qed.
Lemma wrap_i32_range z : - two31 <= wrap_i32 z < two31.
Proof. unfold wrap_i32, two31, two32. pose proof (Z.mod_pos_bound (z + 2147483648) 4294967296). lia. Qed.
Lemma wrap_i32_succ z : wrap_i32 (wrap_i32 z + 1) = wrap_i32 (z + 1).
Proof.
  unfold wrap_i32. f_equal. replace ((z + two31) mod two32 - two31 + 1 + two31) with ((z + two31) mod two32 + 1) by lia.
  rewrite Zplus_mod_idemp_l. f_equal. lia.
Qed.
Lemma wrap_i32_fits z : fits_in_32_bits z (wrap_i32 z).
Proof.
  split; [exact (wrap_i32_range z)|]. exists (- ((z + two31) / two32)). unfold wrap_i32. rewrite Z.mod_eq by discriminate. unfold two31, two32. lia.
Qed.
Lemma in_i32_iff z : in_i32 z = true <-> - two31 <= z < two31.
Proof. unfold in_i32. rewrite Bool.andb_true_iff, Z.leb_le, Z.ltb_lt. tauto. Qed.
Lemma next_wrapped dbg (n : nat) : dbg = false \/ Z.of_nat n + 1 < two31 ->
  next_number dbg (wrap_i32 (Z.of_nat n)) = Ok (wrap_i32 (Z.of_nat (S n))).
Proof.
  intros H. rewrite Nat2Z.inj_succ, <- Z.add_1_r, <- wrap_i32_succ. unfold next_number. destruct (in_i32 _) eqn:E.
  - apply in_i32_iff in E. now rewrite (wrap_i32_small (_ + 1)).
  - destruct H as [->|H]; [reflexivity|]. exfalso. rewrite (wrap_i32_small (Z.of_nat n)) in E by (unfold two31 in *; lia).
    assert (in_i32 (Z.of_nat n + 1) = true) by (apply in_i32_iff; unfold two31 in *; lia). congruence.
Qed.
Lemma next_last : next_number true (two31 - 1) = Panic.
Proof. reflexivity. Qed.

(* what is said about a clump does not depend on its number, apart from the number *)
Definition utter (num : nat) (s : level * verdict * option (Z * Z) * option Z) : event :=
  let '(lv, v, r, o) := s in Event Library lv (AboutClump num v r o).
Section Speaks.
Variable f : nat -> nat.
Definition speaks {A} (m : nat -> lio A) : Prop := forall w, exists l x, forall num, m num w = (map (utter (f num)) l, x).
Lemma speaks_mute {A} (m : io A) : speaks (fun _ => mute m).
Proof. intros w. exists [], (m w). reflexivity. Qed.
Lemma speaks_ret {A} (a : A) : speaks (fun _ => lret a).
Proof. apply speaks_mute. Qed.
Lemma speaks_say lv v r o : speaks (fun num => say (Event Library lv (AboutClump (f num) v r o))).
Proof. intros w. exists [(lv, v, r, o)], (Done tt, w). reflexivity. Qed.
Lemma speaks_bind {A B} (m : nat -> lio A) (k : nat -> A -> lio B) : speaks m -> (forall a, speaks (fun num => k num a)) ->
  speaks (fun num => lbind (m num) (k num)).
Proof.
  intros H1 H2 w. destruct (H1 w) as (l & (r & w') & E). unfold lbind. destruct r as [a| | |];
    [destruct (H2 a w') as (l' & x & E'); exists (l ++ l'), x; intros num; rewrite E, E', map_app; reflexivity|..];
    (eexists l, (_, w'); intros num; rewrite E; reflexivity).
Qed.
End Speaks.
Ltac speaking := repeat first
  [ apply speaks_mute | apply speaks_ret | apply (speaks_say (fun n => n)) | apply (speaks_say S)
  | match goal with
    | |- speaks _ (fun num => match ?x with _ => _ end) => destruct x
    | |- speaks _ (fun num => lbind _ _) => apply (speaks_bind _ (fun num => _) (fun num a => _))
    end; intros ].
Lemma speaks_step dbg p r c nx n o st : speaks (fun n => n) (fun num => apply_step_logged dbg p r c nx num n o st).
Proof. unfold apply_step_logged. speaking. Qed.
Lemma speaks_byte dbg p r c n : speaks S (fun num => byte_clumps_logged dbg p r [c] num n).
Proof. cbn [byte_clumps_logged]. speaking. Qed.

Definition counted_as (lo hi : nat) (n : nat) (z : Z) : Prop := z = wrap_i32 (Z.of_nat n) /\ (lo < n <= hi)%nat.
Definition same_messages (lo hi : nat) : list event -> list told -> Prop := Forall2 (same_but_number (counted_as lo hi)).
Lemma counted_wider lo hi lo' hi' ev tl : (lo' <= lo)%nat -> (hi <= hi')%nat -> same_messages lo hi ev tl -> same_messages lo' hi' ev tl.
Proof.
  intros H1 H2 H. induction H as [|e t ev tl (lv & n & v & r & o & A & B & C & D & E & F & G) _ IH]; constructor; [|assumption].
  exists lv, n, v, r, o. repeat split; auto; lia.
Qed.
Lemma told_same lo hi (num : nat) l : (lo < num <= hi)%nat ->
  same_messages lo hi (map (utter num) l) (flat_map (tell_as (wrap_i32 (Z.of_nat num))) (map (utter 0) l)).
Proof.
  intros H. induction l as [|(((lv & v) & r) & o) l IH]; [constructor|]. cbn [map utter flat_map tell_as ev_message ev_level app]. constructor; [|exact IH].
  exists lv, num, v, r, o. repeat split; auto; lia.
Qed.
Lemma told_same_S lo hi (num : nat) l : (lo < num <= hi)%nat ->
  same_messages lo hi (map (utter num) l) (flat_map (tell_as (wrap_i32 (Z.of_nat num))) (map (utter 1) l)).
Proof.
  intros H. induction l as [|(((lv & v) & r) & o) l IH]; [constructor|]. cbn [map utter flat_map tell_as ev_message ev_level app]. constructor; [|exact IH].
  exists lv, num, v, r, o. repeat split; auto; lia.
Qed.

Definition agrees {A} (lo hi : nat) (m : lio A) (m' : cio A) : Prop :=
  forall w, snd (m' w) = snd (m w) /\ same_messages lo hi (fst (m w)) (fst (m' w)).
Lemma agrees_wider {A} lo hi lo' hi' (m : lio A) m' : (lo' <= lo)%nat -> (hi <= hi')%nat -> agrees lo hi m m' -> agrees lo' hi' m m'.
Proof. intros H1 H2 H w. destruct (H w). split; [assumption|]. eapply counted_wider; eassumption. Qed.
Lemma agrees_bind {A B} lo hi (m : lio A) m' (k : A -> lio B) k' : agrees lo hi m m' -> (forall a, agrees lo hi (k a) (k' a)) ->
  agrees lo hi (lbind m k) (cbind m' k').
Proof.
  intros H1 H2 w. destruct (H1 w) as [E F]. unfold lbind, cbind. destruct (m w) as [ev x], (m' w) as [tl x']. cbn [fst snd] in E, F. subst x'.
  destruct x as [[a| | |] w']; [|split; [reflexivity|exact F]..].
  destruct (H2 a w') as [E' F']. destruct (k a w') as [ev' y], (k' a w') as [tl' y']. cbn [fst snd] in *. subst y'. split; [reflexivity|].
  now apply Forall2_app.
Qed.
Lemma agrees_mute {A} lo hi (m : io A) : agrees lo hi (mute m) (untold m).
Proof. intros w. split; [reflexivity|constructor]. Qed.
Lemma agrees_ret {A} lo hi (a : A) : agrees lo hi (lret a) (cret a).
Proof. intros w. split; [reflexivity|constructor]. Qed.
Lemma agrees_number {A} lo hi dbg (num : nat) (m : lio A) m' : dbg = false \/ Z.of_nat num + 1 < two31 ->
  agrees lo hi m (m' (wrap_i32 (Z.of_nat (S num)))) ->
  agrees lo hi m (cbind (untold (lift (next_number dbg (wrap_i32 (Z.of_nat num))))) m').
Proof.
  intros H1 H2 w. unfold cbind, untold, lift. rewrite next_wrapped by assumption. destruct (H2 w) as [E F].
  destruct (m' _ w) as [tl x]. split; [exact E|exact F].
Qed.
Lemma agrees_step {A} lo hi (num : nat) (m : nat -> lio A) : speaks (fun n => n) m -> (lo < num <= hi)%nat ->
  agrees lo hi (m num) (numbered (wrap_i32 (Z.of_nat num)) (m 0%nat)).
Proof.
  intros H1 H2 w. destruct (H1 w) as (l & x & E). unfold numbered. rewrite !E. split; [reflexivity|]. now apply told_same.
Qed.
Lemma agrees_step_S {A} lo hi (num : nat) (m : nat -> lio A) : speaks S m -> (lo < S num <= hi)%nat ->
  agrees lo hi (m num) (numbered (wrap_i32 (Z.of_nat (S num))) (m 0%nat)).
Proof.
  intros H1 H2 w. destruct (H1 w) as (l & x & E). unfold numbered. rewrite !E. split; [reflexivity|]. now apply told_same_S.
Qed.

Section Runs.
  Variable dbg : bool.
  Lemma text_clumps_agree p r cs : forall num n o st, dbg = false \/ Z.of_nat (num + length cs) < two31 ->
    agrees num (num + length cs) (apply_clumps_logged dbg p r cs num n o st) (text_clumps_counted dbg p r cs (wrap_i32 (Z.of_nat num)) n o st).
  Proof.
    induction cs as [|c cs IH]; intros num n o st H; cbn [apply_clumps_logged text_clumps_counted]; [apply agrees_ret|].
    cbn [length] in H |- *. apply agrees_number; [destruct H; [now left|right; lia]|].
    apply agrees_bind; [apply agrees_step with (m := fun num => apply_step_logged dbg p r c (hd_error cs) num n o st); [apply speaks_step|lia]|].
    intros [[n' o'] st']. apply agrees_wider with (lo := S num) (hi := (S num + length cs)%nat); [lia..|]. apply IH. destruct H; [now left|right; lia].
  Qed.
  Lemma text_agree p r cs : dbg = false \/ countable cs -> agrees 0 (length cs) (text_apply_logged dbg cs p r) (text_apply_counted dbg cs p r).
  Proof.
    intros H. unfold text_apply_logged, text_apply_counted. apply agrees_bind.
    - apply (text_clumps_agree p r cs 0). exact H.
    - intros [n st]. apply agrees_bind; [apply agrees_mute|]. intros _. apply agrees_ret.
  Qed.
  Lemma lbind_ret {A B} (m : lio A) (k : A -> lio B) w : lbind (lbind m (fun a => lret a)) k w = lbind m k w.
  Proof. unfold lbind, lret, mute, ret. destruct (m w) as [ev [[a| | |] w']]; try reflexivity. rewrite app_nil_r. reflexivity. Qed.
  Lemma byte_one p r c cs num n w : byte_clumps_logged dbg p r (c :: cs) num n w =
    lbind (byte_clumps_logged dbg p r [c] num n) (fun n' => byte_clumps_logged dbg p r cs (S num) n') w.
  Proof. cbn [byte_clumps_logged]. symmetry. apply lbind_ret. Qed.
  Lemma agrees_eq {A} lo hi (m1 m : lio A) m' : (forall w, m1 w = m w) -> agrees lo hi m m' -> agrees lo hi m1 m'.
  Proof. intros H1 H2 w. rewrite H1. apply H2. Qed.
  Lemma byte_clumps_agree p r cs : forall num n, dbg = false \/ Z.of_nat (num + length cs) < two31 ->
    agrees num (num + length cs) (byte_clumps_logged dbg p r cs num n) (byte_clumps_counted dbg p r cs (wrap_i32 (Z.of_nat num)) n).
  Proof.
    induction cs as [|c cs IH]; intros num n H; [apply agrees_ret|].
    eapply agrees_eq; [intros w; apply byte_one|]. cbn [byte_clumps_counted].
    cbn [length] in H |- *. apply agrees_number; [destruct H; [now left|right; lia]|].
    apply agrees_bind; [apply agrees_step_S with (m := fun num => byte_clumps_logged dbg p r [c] num n); [apply speaks_byte|lia]|].
    intros n'. apply agrees_wider with (lo := S num) (hi := (S num + length cs)%nat); [lia..|]. apply IH. destruct H; [now left|right; lia].
  Qed.
  Lemma byte_agree p r cs : dbg = false \/ countable cs -> agrees 0 (length cs) (byte_apply_logged dbg cs p r) (byte_apply_counted dbg cs p r).
  Proof.
    intros H. unfold byte_apply_logged, byte_apply_counted. apply agrees_bind.
    - apply (byte_clumps_agree p r cs 0). exact H.
    - intros n. apply agrees_bind; [apply agrees_mute|]. intros _. apply agrees_ret.
  Qed.

  (* the queries: as long as the number is not exceeded by the messages *)
  Lemma said_one lo hi lv num v r o : (lo < num <= hi)%nat ->
    same_but_number (counted_as lo hi) (Event Library lv (AboutClump num v r o)) (Told lv (wrap_i32 (Z.of_nat num)) v r o).
  Proof. intros H. exists lv, num, v, r, o. repeat split; auto; lia. Qed.
  Lemma text_query_agrees p r cs : forall num o, dbg = false \/ ((exists b, snd (text_query_logged dbg cs p r num o) = Ok b) /\ Z.of_nat (num + length (fst (text_query_logged dbg cs p r num o))) < two31) \/
       Z.of_nat (num + length cs) < two31 ->
    let (tl, x) := text_query_counted dbg cs p r (wrap_i32 (Z.of_nat num)) o in
    x = snd (text_query_logged dbg cs p r num o) /\ same_messages num (num + length cs) (fst (text_query_logged dbg cs p r num o)) tl.
  Proof.
    induction cs as [|c cs IH]; intros num o H; cbn [text_query_counted text_query_logged] in *; [split; [reflexivity|constructor]|].
    rewrite next_wrapped.
    2: { destruct H as [H|[[[b H1] H2]|H]]; [now left| |cbn [length] in H; right; lia].
      destruct (is_already_applied dbg c p o r) as [[w|]| |]; try discriminate H1;
        [|destruct (is_already_applied_nearby dbg c p 0 (hd_error cs) o r) as [[[d w]|]| |]; try discriminate H1;
          [destruct (iadd dbg o d) as [o'| |]; try discriminate H1|]];
        try (destruct (text_query_logged dbg cs p r _ _)); cbn [fst length] in H2; right; lia. }
    cbn [length] in H |- *.
    destruct (is_already_applied dbg c p o r) as [[w|]| |]; try (split; [reflexivity|constructor]).
    - specialize (IH (S num) o). destruct (text_query_logged dbg cs p r (S num) o) as [ev x]. cbn [fst snd length] in *.
      destruct (text_query_counted _ _ _ _ _ _) as [tl y]. destruct IH as [-> IH]; [intuition lia|]. split; [reflexivity|]. constructor.
      + apply said_one. lia.
      + eapply counted_wider; [| |exact IH]; lia.
    - destruct (is_already_applied_nearby dbg c p 0 (hd_error cs) o r) as [[[d w]|]| |]; try (split; [reflexivity|constructor]).
      + destruct (iadd dbg o d) as [o'| |]; try (split; [reflexivity|constructor]).
        specialize (IH (S num) o'). destruct (text_query_logged dbg cs p r (S num) o') as [ev x]. cbn [fst snd length] in *.
        destruct (text_query_counted _ _ _ _ _ _) as [tl y]. destruct IH as [-> IH]; [intuition lia|]. split; [reflexivity|]. constructor.
        * apply said_one. lia.
        * eapply counted_wider; [| |exact IH]; lia.
      + apply said_one. lia.
      + constructor.
  Qed.
  Lemma byte_query_agrees p r cs : forall num, dbg = false \/ Z.of_nat (num + length (fst (byte_query_logged cs p r num))) < two31 \/
       Z.of_nat (num + length cs) < two31 ->
    let (tl, x) := byte_query_counted dbg cs p r (wrap_i32 (Z.of_nat num)) in
    x = Ok (snd (byte_query_logged cs p r num)) /\ same_messages num (num + length cs) (fst (byte_query_logged cs p r num)) tl.
  Proof.
    induction cs as [|c cs IH]; intros num H; cbn [byte_query_counted byte_query_logged] in *; [split; [reflexivity|constructor]|].
    rewrite next_wrapped by (cbn [length] in H; destruct (byte_is_already_applied c p r), (byte_query_logged cs p r (S num)); cbn [fst length] in H; lia).
    cbn [length] in H |- *. destruct (byte_is_already_applied c p r).
    - specialize (IH (S num)). destruct (byte_query_logged cs p r (S num)) as [ev x]. cbn [fst snd length] in *.
      destruct (byte_query_counted _ _ _ _ _) as [tl y]. destruct IH as [-> IH]; [lia|]. split; [reflexivity|]. constructor.
      + apply said_one. lia.
      + eapply counted_wider; [| |exact IH]; lia.
    - split; [reflexivity|]. constructor; [apply said_one; lia|constructor].
  Qed.
End Runs.

(* ------------------------------------------------------------------ *)
(* debug builds: too many clumps                                       *)
(* ------------------------------------------------------------------ *)
Definition tells {A} (k : nat) (m : lio A) : Prop := forall w a w', snd (m w) = (Done a, w') -> length (fst (m w)) = k.
Lemma tells_mute {A} (m : io A) : tells 0 (mute m). Proof. intros w a w' _. reflexivity. Qed.
Lemma tells_say e : tells 1 (say e). Proof. intros w a w' _. reflexivity. Qed.
Lemma tells_bind {A B} j k (m : lio A) (f : A -> lio B) : tells j m -> (forall a, tells k (f a)) -> tells (j + k) (lbind m f).
Proof.
  intros H1 H2 w b w' E. unfold lbind in *. specialize (H1 w). destruct (m w) as [ev [[a| | |] w1]]; try discriminate E.
  specialize (H1 a w1 eq_refl). specialize (H2 a w1 b w'). destruct (f a w1) as [ev' x]. cbn [fst snd] in *. rewrite app_length, H1, H2; auto.
Qed.
Lemma tells_silent {A B} k (m : io A) (f : A -> lio B) : (forall a, tells k (f a)) -> tells k (lbind (mute m) f).
Proof. intros H. apply (tells_bind 0 k); [apply tells_mute|exact H]. Qed.
Lemma tells_said {B} e (f : unit -> lio B) : (forall a, tells 0 (f a)) -> tells 1 (lbind (say e) f).
Proof. intros H. apply (tells_bind 1 0); [apply tells_say|exact H]. Qed.
Ltac telling := repeat first
  [ apply tells_mute | apply tells_said; intros ? | apply tells_silent; intros ?
  | match goal with |- tells 1 (match ?x with _ => _ end) => destruct x end ].
Lemma tells_step dbg p r c nx num n o st : tells 1 (apply_step_logged dbg p r c nx num n o st).
Proof. unfold apply_step_logged. telling. Qed.
Lemma tells_byte dbg p r c num n : tells 1 (byte_clumps_logged dbg p r [c] num n).
Proof. cbn [byte_clumps_logged]. apply (tells_bind 1 0); [telling|intros ?; apply tells_mute]. Qed.

(* [m] would be done, but [m'] panics after the messages on the first clumps, the last of them the clump 2^31 - 1 *)
Lemma last_number_exists : { n : nat | Z.of_nat n = two31 - 1 }.
Proof. exists (Z.to_nat (two31 - 1)). apply Z2Nat.id. discriminate. Qed.
Definition last_number : nat := proj1_sig last_number_exists.
Lemma last_number_Z : Z.of_nat last_number = two31 - 1.
Proof. exact (proj2_sig last_number_exists). Qed.
Definition stops {A} (num : nat) (m : lio A) (m' : cio A) : Prop := forall w a w', snd (m w) = (Done a, w') ->
  fst (snd (m' w)) = Panicked /\ length (fst (m' w)) = (last_number - num)%nat /\
  same_messages num last_number (firstn (last_number - num) (fst (m w))) (fst (m' w)).
Lemma stops_now {A} (m : lio A) k : stops last_number m (cbind (untold (lift (next_number true (wrap_i32 (Z.of_nat last_number))))) k).
Proof.
  intros w a w' E. rewrite last_number_Z, wrap_i32_small by (unfold two31; lia). rewrite Nat.sub_diag. split; [reflexivity|]. split; [reflexivity|constructor].
Qed.
Lemma stops_later {A B} (num : nat) (s : lio A) s' (k : A -> lio B) k' : (num < last_number)%nat -> tells 1 s ->
  agrees num (S num) s (s' (wrap_i32 (Z.of_nat (S num)))) -> (forall a, stops (S num) (k a) (k' (wrap_i32 (Z.of_nat (S num))) a)) ->
  stops num (lbind s k) (cbind (untold (lift (next_number true (wrap_i32 (Z.of_nat num))))) (fun z => cbind (s' z) (k' z))).
Proof.
  intros H1 H2 H3 H4 w b w' E.
  assert (Q : cbind (untold (lift (next_number true (wrap_i32 (Z.of_nat num))))) (fun z => cbind (s' z) (k' z)) w =
    cbind (s' (wrap_i32 (Z.of_nat (S num)))) (k' (wrap_i32 (Z.of_nat (S num)))) w).
  { unfold cbind at 1, untold, lift. rewrite next_wrapped by (right; rewrite <- (Nat2Z.id num) in H1; pose proof last_number_Z; lia).
    cbn [app]. now destruct (cbind _ _ w). }
  rewrite Q. clear Q. unfold lbind, cbind in *. destruct (H3 w) as [F G]. specialize (H2 w). destruct (s w) as [ev x]. cbn [fst snd] in *.
  destruct (s' _ w) as [tl y]. cbn [fst snd] in *. subst y. destruct x as [[a| | |] w1]; try discriminate E.
  specialize (H2 a w1 eq_refl). specialize (H4 a w1). destruct (k a w1) as [ev' x]. cbn [fst snd] in *. destruct (H4 b w' E) as (I & J & K).
  destruct (k' _ a w1) as [tl' y]. cbn [fst snd] in *. split; [exact I|].
  destruct ev as [|e [|]]; try discriminate H2. inversion G as [|? t ? tl0 G1 G2]; subst. inversion G2; subst.
  split; [cbn [app length]; rewrite J; lia|]. replace (last_number - num)%nat with (S (last_number - S num)) by lia. cbn [app firstn].
  constructor; [|eapply counted_wider; [| |exact K]; lia].
  destruct G1 as (lv & n & v & r & o & A1 & A2 & A3 & A4 & A5 & A6 & A7). exists lv, n, v, r, o. repeat split; auto; lia.
Qed.
Lemma text_clumps_stop p r cs : forall num n o st, (num <= last_number)%nat -> (last_number < num + length cs)%nat ->
  stops num (apply_clumps_logged true p r cs num n o st) (text_clumps_counted true p r cs (wrap_i32 (Z.of_nat num)) n o st).
Proof.
  induction cs as [|c cs IH]; intros num n o st H1 H2; cbn [length] in H2; [lia|]. cbn [apply_clumps_logged text_clumps_counted].
  destruct (Nat.eq_dec num last_number) as [->|N]; [apply stops_now|].
  apply stops_later with (s := apply_step_logged true p r c (hd_error cs) (S num) n o st)
    (s' := fun z => numbered z (apply_step_logged true p r c (hd_error cs) 0 n o st))
    (k' := fun z '(n', o', st') => text_clumps_counted true p r cs z n' o' st'); [lia|apply tells_step| |].
  - apply agrees_step with (m := fun num => apply_step_logged true p r c (hd_error cs) num n o st); [apply speaks_step|lia].
  - intros [[n' o'] st']. apply IH; lia.
Qed.
Lemma stops_eq {A} num (m1 m : lio A) m' : (forall w, m1 w = m w) -> stops num m m' -> stops num m1 m'.
Proof. intros H1 H2 w a w'. rewrite H1. apply H2. Qed.
Lemma byte_clumps_stop p r cs : forall num n, (num <= last_number)%nat -> (last_number < num + length cs)%nat ->
  stops num (byte_clumps_logged true p r cs num n) (byte_clumps_counted true p r cs (wrap_i32 (Z.of_nat num)) n).
Proof.
  induction cs as [|c cs IH]; intros num n H1 H2; cbn [length] in H2; [lia|].
  eapply stops_eq; [intros w; apply byte_one|]. cbn [byte_clumps_counted].
  destruct (Nat.eq_dec num last_number) as [->|N]; [apply stops_now|].
  apply stops_later with (s := byte_clumps_logged true p r [c] num n)
    (s' := fun z => numbered z (byte_clumps_logged true p r [c] 0 n))
    (k' := fun z n' => byte_clumps_counted true p r cs z n'); [lia|apply tells_byte| |].
  - apply agrees_step_S with (m := fun num => byte_clumps_logged true p r [c] num n); [apply speaks_byte|lia].
  - intros n'. apply IH; lia.
Qed.
(* what follows the clumps says nothing and is not reached *)
Lemma stops_tail {A B} (m : lio A) m' (k : A -> lio B) k' : stops 0 m m' -> (forall a, tells 0 (k a)) -> stops 0 (lbind m k) (cbind m' k').
Proof.
  intros H1 H2 w b w' E. unfold lbind, cbind in *. specialize (H1 w). destruct (m w) as [ev [[a| | |] w1]]; try discriminate E. cbn [fst snd] in *.
  destruct (H1 a w1 eq_refl) as (F & G & H). specialize (H2 a w1). destruct (k a w1) as [ev' x]. cbn [fst snd] in *. specialize (H2 b w' E).
  destruct ev'; [|discriminate H2]. destruct (m' w) as [tl [y w2]]. cbn [fst snd] in *. subst y. rewrite app_nil_r. auto.
Qed.
Lemma text_stop p r cs : ~ countable cs -> stops 0 (text_apply_logged true cs p r) (text_apply_counted true cs p r).
Proof.
  intros H. assert (last_number < length cs)%nat by (pose proof last_number_Z; unfold countable, two31 in *; lia).
  unfold text_apply_logged, text_apply_counted. apply stops_tail.
  - apply (text_clumps_stop p r cs 0 0 0 stats0); lia.
  - intros [n st]. apply tells_silent. intros _. apply tells_mute.
Qed.
Lemma byte_stop p r cs : ~ countable cs -> stops 0 (byte_apply_logged true cs p r) (byte_apply_counted true cs p r).
Proof.
  intros H. assert (last_number < length cs)%nat by (pose proof last_number_Z; unfold countable, two31 in *; lia).
  unfold byte_apply_logged, byte_apply_counted. apply stops_tail.
  - apply (byte_clumps_stop p r cs 0 0); lia.
  - intros n. apply tells_silent. intros _. apply tells_mute.
Qed.
(* the queries *)
Lemma text_query_stops p r cs : forall num o b, (num <= last_number)%nat ->
  snd (text_query_logged true cs p r num o) = Ok b -> (last_number < num + length (fst (text_query_logged true cs p r num o)))%nat ->
  snd (text_query_counted true cs p r (wrap_i32 (Z.of_nat num)) o) = Panic.
Proof.
  induction cs as [|c cs IH]; intros num o b H1 H2 H3; cbn [text_query_logged text_query_counted] in *; [cbn [fst length] in H3; lia|].
  destruct (Nat.eq_dec num last_number) as [->|N].
  { rewrite last_number_Z, wrap_i32_small by (unfold two31; lia). reflexivity. }
  rewrite next_wrapped by (right; pose proof last_number_Z; lia).
  destruct (is_already_applied true c p o r) as [[w|]| |]; try discriminate H2.
  - specialize (IH (S num) o b). destruct (text_query_logged true cs p r (S num) o) as [ev x]. cbn [fst snd length] in *.
    destruct (text_query_counted _ _ _ _ _ _) as [tl y]. apply IH; [lia|assumption|lia].
  - destruct (is_already_applied_nearby true c p 0 (hd_error cs) o r) as [[[d w]|]| |]; try discriminate H2.
    + destruct (iadd true o d) as [o'| |]; try discriminate H2.
      specialize (IH (S num) o' b). destruct (text_query_logged true cs p r (S num) o') as [ev x]. cbn [fst snd length] in *.
      destruct (text_query_counted _ _ _ _ _ _) as [tl y]. apply IH; [lia|assumption|lia].
    + cbn [fst length] in H3. lia.
Qed.
Lemma byte_query_stops p r cs : forall num, (num <= last_number)%nat -> (last_number < num + length (fst (byte_query_logged cs p r num)))%nat ->
  snd (byte_query_counted true cs p r (wrap_i32 (Z.of_nat num))) = Panic.
Proof.
  induction cs as [|c cs IH]; intros num H1 H3; cbn [byte_query_logged byte_query_counted] in *; [cbn [fst length] in H3; lia|].
  destruct (Nat.eq_dec num last_number) as [->|N].
  { rewrite last_number_Z, wrap_i32_small by (unfold two31; lia). reflexivity. }
  rewrite next_wrapped by (right; pose proof last_number_Z; lia).
  destruct (byte_is_already_applied c p r); [|cbn [fst length] in H3; lia].
  specialize (IH (S num)). destruct (byte_query_logged cs p r (S num)) as [ev x]. cbn [fst snd length] in *.
  destruct (byte_query_counted _ _ _ _ _) as [tl y]. apply IH; lia.
Qed.

(* from [counted_as] to the vocabulary of the specification *)
Lemma counted_wrapped lo hi ev tl : same_messages lo hi ev tl -> Forall2 (same_but_number wrapped_number) ev tl.
Proof.
  intros H. induction H as [|e t ev tl (lv & n & v & r & o & A & B & C & D & E & F & G) _ IH]; constructor; [|assumption].
  exists lv, n, v, r, o. repeat split; auto; rewrite F; apply wrap_i32_fits.
Qed.
Lemma counted_true lo hi ev tl : Z.of_nat hi < 2 ^ 31 -> same_messages lo hi ev tl -> Forall2 (same_but_number true_number) ev tl.
Proof.
  intros H0 H. induction H as [|e t ev tl (lv & n & v & r & o & A & B & C & D & E & F & G) _ IH]; constructor; [|assumption].
  exists lv, n, v, r, o. repeat split; auto. rewrite F. apply wrap_i32_small. unfold two31. lia.
Qed.

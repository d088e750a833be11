(* Proof_ByteWork.v - the number of bytes compared when a byte patch is applied. *)
From Verif Require Import Base Model_Seq Model_Changes Model_IO Model_Text Model_Bytes Model_Cost Model_Work Model_ByteWork Proof_Work.
Local Open Scope Z_scope.

Lemma zip_c_snd l : forall r, snd (zip_all_eq_c l r) = zip_all_eq Byte.eqb l r.
Proof. induction l as [|x l IH]; intros [|y r]; try reflexivity. cbn [zip_all_eq_c zip_all_eq]. destruct (Byte.eqb y x); [cbn [snd andb]; apply IH|reflexivity]. Qed.
Lemma zip_c_left l : forall r, (fst (zip_all_eq_c l r) <= length l)%nat.
Proof. induction l as [|x l IH]; intros [|y r]; cbn [zip_all_eq_c fst length]; try lia. destruct (Byte.eqb y x); cbn [fst]; [specialize (IH r)|]; lia. Qed.
Lemma zip_c_all l : forall r, (length l <= length r)%nat -> snd (zip_all_eq_c l r) = true -> fst (zip_all_eq_c l r) = length l.
Proof.
  induction l as [|x l IH]; intros [|y r] H; cbn [zip_all_eq_c length] in *; try reflexivity; try lia.
  destruct (Byte.eqb y x); cbn [fst snd]; [intros E; rewrite IH; [reflexivity|lia|exact E]|discriminate].
Qed.
Lemma has_c_snd s sub p : snd (has_subsequence_at_c s sub p) = has_subsequence_at_z Byte.eqb s sub p.
Proof. unfold has_subsequence_at_c, has_subsequence_at_z. destruct (_ && _); [apply zip_c_snd|reflexivity]. Qed.
Lemma has_c_le s sub p : (fst (has_subsequence_at_c s sub p) <= length sub)%nat.
Proof. unfold has_subsequence_at_c. destruct (_ && _); [apply zip_c_left|cbn; lia]. Qed.
Lemma has_c_data s sub p : 0 <= p -> (fst (has_subsequence_at_c s sub p) <= length s)%nat.
Proof.
  intros Hp. unfold has_subsequence_at_c. destruct (_ && _) eqn:E; [|cbn; lia]. apply andb_prop in E as [E1 E2]. apply Z.ltb_lt in E1. apply Z.leb_le in E2.
  pose proof (zip_c_left sub (skipn (Z.to_nat p) s)). unfold zlen in *. lia.
Qed.
Lemma has_c_exact s sub p : 0 <= p -> snd (has_subsequence_at_c s sub p) = true -> fst (has_subsequence_at_c s sub p) = length sub.
Proof.
  intros Hp. unfold has_subsequence_at_c. destruct (_ && _) eqn:E; [|discriminate]. apply andb_prop in E as [E1 E2]. apply Z.ltb_lt in E1. apply Z.leb_le in E2.
  apply zip_c_all. rewrite skipn_length. unfold zlen in *. lia.
Qed.

Section Same.
  Variable dbg : bool.
  Lemma byte_clumps_same p r cs : forall n w, snd (byte_apply_clumps_c dbg p r cs n w) = byte_apply_clumps dbg p r cs n w.
  Proof.
    induction cs as [|c cs IH]; intros n w; [reflexivity|]. cbn [byte_apply_clumps_c byte_apply_clumps]. rewrite cthen_snd. apply iobind_ext'; [|intros; apply IH].
    rewrite cthen_snd. unfold asks at 1, iobind at 1. cbn [fst snd]. unfold byte_will_apply_c at 1. rewrite has_c_snd. change (has_subsequence_at_z _ _ _ _) with (byte_will_apply c p r).
    destruct (byte_will_apply c p r); [reflexivity|]. rewrite cthen_snd. unfold asks, iobind at 1. cbn [fst snd]. unfold byte_will_apply_c. rewrite has_c_snd.
    change (has_subsequence_at_z _ _ _ _) with (byte_is_already_applied c p r). destruct (byte_is_already_applied c p r); reflexivity.
  Qed.
  Lemma byte_apply_same cs p r w : snd (byte_apply_into_c dbg cs p r w) = byte_apply_into dbg cs p r w.
  Proof. unfold byte_apply_into_c, byte_apply_into. rewrite cthen_snd. apply iobind_ext'; [apply byte_clumps_same|reflexivity]. Qed.

  (* a bound for each clump gives a bound for all *)
  Lemma byte_clumps_le p r (f : byte_clump -> nat) cs :
    Forall (fun c => (fst (byte_will_apply_c c p r) + fst (byte_will_apply_c c p (negb r)) <= f c)%nat) cs ->
    forall n w, (fst (byte_apply_clumps_c dbg p r cs n w) <= list_sum (map f cs))%nat.
  Proof.
    induction 1 as [|c cs H _ IH]; intros n w; [cbn; lia|]. cbn [byte_apply_clumps_c map]. change (list_sum (f c :: map f cs)) with (f c + list_sum (map f cs))%nat.
    apply cthen_le; [|intros; apply IH]. eapply Nat.le_trans; [|exact H]. apply cthen_le; [cbn; lia|]. intros [] w' _; [cbn; lia|].
    rewrite <- (Nat.add_0_r (fst (byte_will_apply_c c p (negb r)))). apply cthen_le; [cbn; lia|]. intros [] w2 _; cbn; lia.
  Qed.
  Lemma byte_apply_le p r (f : byte_clump -> nat) cs w :
    Forall (fun c => (fst (byte_will_apply_c c p r) + fst (byte_will_apply_c c p (negb r)) <= f c)%nat) cs ->
    (fst (byte_apply_into_c dbg cs p r w) <= list_sum (map f cs))%nat.
  Proof. intros H. unfold byte_apply_into_c. rewrite <- (Nat.add_0_r (list_sum _)). apply cthen_le; [now apply byte_clumps_le|]. intros; cbn; lia. Qed.

  Lemma byte_clumps_exact p r cs : Forall (fun c => 0 <= sn_start (bc_side c r) /\ byte_will_apply c p r = true) cs ->
    forall n w n' w', byte_apply_clumps dbg p r cs n w = (Done n', w') ->
    fst (byte_apply_clumps_c dbg p r cs n w) = list_sum (map (fun c => length (sn_items (bc_side c r))) cs).
  Proof.
    induction 1 as [|c cs [H0 H] _ IH]; intros n w n' w'; [reflexivity|]. cbn [byte_apply_clumps_c byte_apply_clumps map]. rewrite H. intros E.
    unfold byte_will_apply in H. cbv zeta in H. rewrite <- has_c_snd in H. pose proof (has_c_exact _ _ _ H0 H) as X.
    assert (B : byte_will_apply_c c p r = (length (sn_items (bc_side c r)), true)) by (unfold byte_will_apply_c; rewrite (surjective_pairing (has_subsequence_at_c _ _ _)); now rewrite H, X).
    unfold cthen at 1. unfold cthen at 1. unfold asks at 1. rewrite B. unfold plain. cbn [fst snd].
    unfold iobind in E. destruct (byte_clump_apply_into dbg c p n r w) as [[m| | |] w1] eqn:E1; try discriminate. cbn [fst snd].
    rewrite (IH _ _ _ _ E). unfold list_sum. cbn [fold_right]. lia.
  Qed.
  Lemma byte_apply_exact p r cs w w' : Forall (fun c => 0 <= sn_start (bc_side c r) /\ byte_will_apply c p r = true) cs ->
    byte_apply_into dbg cs p r w = (Done tt, w') ->
    fst (byte_apply_into_c dbg cs p r w) = list_sum (map (fun c => length (sn_items (bc_side c r))) cs).
  Proof.
    intros H E. unfold byte_apply_into, iobind at 1 in E. destruct (byte_apply_clumps dbg p r cs 0 w) as [[n| | |] w1] eqn:E1; try discriminate.
    rewrite <- (byte_clumps_exact p r cs H _ _ _ _ E1). unfold byte_apply_into_c, cthen. pose proof (byte_clumps_same p r cs 0 w) as S. rewrite E1 in S.
    destruct (byte_apply_clumps_c dbg p r cs 0 w) as [k q]. cbn [fst snd] in *. subst q. cbn. lia.
  Qed.
End Same.

Lemma byte_query_same p r cs : snd (byte_already_applied_c cs p r) = byte_already_applied cs p r.
Proof.
  induction cs as [|c cs IH]; [reflexivity|]. cbn [byte_already_applied_c]. unfold byte_already_applied. cbn [forallb]. fold (byte_already_applied cs p r).
  unfold byte_will_apply_c at 1. rewrite has_c_snd. change (has_subsequence_at_z _ _ _ _) with (byte_is_already_applied c p r). destruct (byte_is_already_applied c p r); [exact IH|reflexivity].
Qed.
Lemma byte_query_le p r cs : (fst (byte_already_applied_c cs p r) <= list_sum (map (fun c => length (sn_items (bc_side c (negb r)))) cs))%nat.
Proof.
  induction cs as [|c cs IH]; [cbn; lia|]. cbn [byte_already_applied_c map]. match goal with |- (_ <= list_sum (?a :: ?l))%nat => change (list_sum (a :: l)) with (a + list_sum l)%nat end.
  pose proof (has_c_le p (sn_items (bc_side c (negb r))) (sn_start (bc_side c (negb r)))) as X. unfold byte_will_apply_c. destruct (snd _); cbn [fst]; lia.
Qed.

(* ---------------- exact counts ---------------- *)
Lemma zip_c_stops l : forall r, (length l <= length r)%nat -> exists m, firstn m l = firstn m r /\
  ((m = length l /\ zip_all_eq_c l r = (m, true)) \/ ((m < length l)%nat /\ nth_error l m <> nth_error r m /\ zip_all_eq_c l r = (S m, false))).
Proof.
  induction l as [|x l IH]; intros [|y r] H; cbn [length] in H; try lia.
  - exists 0%nat. split; [reflexivity|]. left. split; reflexivity.
  - exists 0%nat. split; [reflexivity|]. left. split; reflexivity.
  - cbn [zip_all_eq_c]. destruct (Byte.eqb y x) eqn:E.
    + apply Byte.byte_dec_bl in E as ->. destruct (IH r ltac:(lia)) as (m & F & D). exists (S m). cbn [firstn length nth_error]. split; [now rewrite F|].
      destruct D as [[-> D]|(D1 & D2 & D)]; rewrite D; cbn [fst snd]; [left|right]; repeat split; auto; lia.
    + exists 0%nat. split; [reflexivity|]. right. cbn [length nth_error]. repeat split; [lia|]. intros [= ->]. rewrite (Byte.byte_dec_lb eq_refl) in E. discriminate.
Qed.
Lemma byte_clumps_total dbg p r cs : forall n w n' w', byte_apply_clumps dbg p r cs n w = (Done n', w') ->
  fst (byte_apply_clumps_c dbg p r cs n w) =
  list_sum (map (fun c => fst (byte_will_apply_c c p r) + if byte_will_apply c p r then 0 else fst (byte_will_apply_c c p (negb r)))%nat cs).
Proof.
  induction cs as [|c cs IH]; intros n w n' w' E; [reflexivity|]. cbn [byte_apply_clumps_c map].
  match goal with |- _ = list_sum (?a :: ?l) => change (list_sum (a :: l)) with (a + list_sum l)%nat end.
  cbn [byte_apply_clumps] in E. unfold iobind at 1 in E. unfold cthen at 1.
  assert (S1 : snd (byte_will_apply_c c p r) = byte_will_apply c p r) by (unfold byte_will_apply_c; apply has_c_snd).
  assert (S2 : snd (byte_will_apply_c c p (negb r)) = byte_is_already_applied c p r) by (unfold byte_will_apply_c; apply has_c_snd).
  unfold cthen at 1. unfold asks at 1. rewrite S1. destruct (byte_will_apply c p r).
  - unfold plain. destruct (byte_clump_apply_into dbg c p n r w) as [[m| | |] w1]; try discriminate. cbn [fst snd]. rewrite (IH _ _ _ _ E). lia.
  - unfold cthen, asks. rewrite S2. destruct (byte_is_already_applied c p r); unfold plain.
    + destruct (byte_already_applied_into dbg c p n r w) as [[m| | |] w1]; try discriminate. cbn [fst snd]. rewrite (IH _ _ _ _ E). lia.
    + cbn [ret fst snd] in *. rewrite (IH _ _ _ _ E). lia.
Qed.
Lemma byte_apply_total dbg p r cs w w' : byte_apply_into dbg cs p r w = (Done tt, w') ->
  fst (byte_apply_into_c dbg cs p r w) =
  list_sum (map (fun c => fst (byte_will_apply_c c p r) + if byte_will_apply c p r then 0 else fst (byte_will_apply_c c p (negb r)))%nat cs).
Proof.
  intros E. unfold byte_apply_into, iobind at 1 in E. destruct (byte_apply_clumps dbg p r cs 0 w) as [[n| | |] w1] eqn:E1; try discriminate.
  rewrite <- (byte_clumps_total dbg p r cs _ _ _ _ E1). unfold byte_apply_into_c, cthen. pose proof (byte_clumps_same dbg p r cs 0 w) as S. rewrite E1 in S.
  destruct (byte_apply_clumps_c dbg p r cs 0 w) as [k q]. cbn [fst snd] in *. subst q. cbn. lia.
Qed.
Lemma byte_query_prefix p r pre c post : Forall (fun c => byte_is_already_applied c p r = true) pre -> byte_is_already_applied c p r = false ->
  fst (byte_already_applied_c (pre ++ c :: post) p r) = (list_sum (map (fun c => fst (byte_will_apply_c c p (negb r))) pre) + fst (byte_will_apply_c c p (negb r)))%nat.
Proof.
  assert (S : forall c, snd (byte_will_apply_c c p (negb r)) = byte_is_already_applied c p r) by (intros; unfold byte_will_apply_c; apply has_c_snd).
  intros H Hc. induction H as [|x pre Hx _ IH]; cbn [app byte_already_applied_c map]; rewrite S.
  - rewrite Hc. cbn. lia.
  - rewrite Hx. cbn [fst]. rewrite IH. unfold list_sum. cbn [fold_right]. lia.
Qed.

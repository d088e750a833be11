(* Proof_Accepts.v - the loader accepts exactly the JSON texts that stand for a diff (C79, C80). *)
From Coq Require Import String ZifyBool.
From Verif Require Import Base Model_Seq Model_Changes Model_IO Model_Text Model_Bytes Model_Json Spec Spec_Json Proof_Utf8 Proof_Json Proof_Grammar Proof_Values.
Local Open Scope Z_scope.

Definition shape_of : Type := val -> json -> Prop.
Definition sound (p : parser) (P : shape_of) : Prop := forall s v r, p s = POk v r ->
  exists w body j, json_blank w /\ s = w ++ body ++ r /\ value_text j body /\ P v j.
Definition complete (F : nat) (p : parser) (P : shape_of) : Prop := forall w body j v r,
  json_blank w -> value_text j body -> P v j -> num_end r -> (length (w ++ body ++ r) < F)%nat -> p (w ++ body ++ r) = POk v r.

Lemma complete_here F p P body j v r : complete F p P -> value_text j body -> P v j -> num_end r -> (length (body ++ r) < F)%nat -> p (body ++ r) = POk v r.
Proof. intros H. exact (H [] body j v r blank_nil). Qed.
Lemma expect_first b r : is_ws b = false -> expect b (b :: r) = POk tt r.
Proof. intros H. exact (expect_complete b [] r blank_nil H). Qed.

(* ---------------- sequences ---------------- *)
Lemma body_prefix {A} (P : A -> list byte -> Prop) first d w j js s b :
  separator first d -> json_blank w -> P j s -> body_text P false js b -> body_text P first (j :: js) (d ++ w ++ s ++ b).
Proof.
  intros D W V B. rewrite app_assoc. constructor; [|assumption..]. destruct first; [now apply blank_app|].
  destruct D as (w0 & w1 & W0 & W1 & ->). exists w0, (w1 ++ w). rewrite <- app_assoc. split; [assumption|]. split; [now apply blank_app|reflexivity].
Qed.
Lemma elems_sound p P : sound p P -> forall fuel first s acc vs r, parse_elems fuel p first s acc = POk vs r ->
  exists vs' js b r', vs = acc ++ vs' /\ Forall2 P vs' js /\ r = x5d :: r' /\ s = b ++ r /\ body_text value_text first js b.
Proof.
  intros Hp. induction fuel as [|fuel IH]; intros first s acc vs r H; [discriminate|]. cbn [parse_elems] in H.
  pose proof (next_sound x5d first s) as N. destruct (next_item x5d first s) as [r0|r0|]; [| |discriminate].
  - destruct N as (w & r' & W & -> & ->). injection H as <- <-. exists [], [], w, r'. rewrite app_nil_r. repeat split; constructor; assumption.
  - destruct N as (d & D & ->). destruct (p r0) as [v r1| |] eqn:E; cbn [pbind] in H; try discriminate. apply Hp in E as (w & body & j & W & -> & V & Pv).
    apply IH in H as (vs' & js & b & r' & -> & F & -> & -> & B). exists (v :: vs'), (j :: js), (d ++ w ++ body ++ b), r'.
    rewrite <- app_assoc. split; [reflexivity|]. split; [now constructor|]. split; [reflexivity|]. split; [flat|]. now apply body_prefix.
Qed.
Lemma elems_complete F p P : complete F p P -> forall vs js, Forall2 P vs js -> forall fuel first b acc r, body_text value_text first js b ->
  (length (b ++ x5d :: r) < F)%nat -> (length (b ++ x5d :: r) < fuel)%nat -> parse_elems fuel p first (b ++ x5d :: r) acc = POk (acc ++ vs) (x5d :: r).
Proof.
  intros Hp vs js HF. induction HF as [|v j vs js Pv HF IH]; intros fuel first b acc r B LF Lf; (destruct fuel as [|fuel]; [lia|]); cbn [parse_elems];
    inversion B as [? w W|? d ? s ? b' D V B']; subst.
  - rewrite end_next by auto. now rewrite app_nil_r.
  - rewrite <- !app_assoc in *. rewrite (item_next value_text x5d first d j s _ value_starts) by auto.
    assert (L : (length (s ++ b' ++ x5d%byte :: r) <= length (d ++ s ++ b' ++ x5d%byte :: r))%nat) by (rewrite !app_length; lia).
    rewrite (complete_here F p P s j v (b' ++ x5d :: r) Hp V Pv); [|eapply body_num_end; [exact B'|now left]|lia]. cbn [pbind].
    assert (L2 : (length (b' ++ x5d%byte :: r) < length (s ++ b' ++ x5d%byte :: r))%nat).
    { destruct (value_starts _ _ V) as (c & s' & -> & _). cbn [app length]. rewrite (app_length s'). lia. }
    rewrite IH by (assumption || lia). rewrite <- app_assoc. reflexivity.
Qed.
Fixpoint fixed_ok (Ps : list shape_of) (vs : list val) (js : list json) : Prop :=
  match Ps, vs, js with
  | [], [], [] => True
  | P :: Ps', v :: vs', j :: js' => P v j /\ fixed_ok Ps' vs' js'
  | _, _, _ => False
  end.
Lemma fixed_sound : forall ps Ps, Forall2 sound ps Ps -> forall first s vs r u r', parse_fixed ps first s = POk vs r -> expect x5d r = POk u r' ->
  exists js b, fixed_ok Ps vs js /\ s = b ++ x5d :: r' /\ body_text value_text first js b.
Proof.
  induction 1 as [|p P ps Ps Hp HF IH]; intros first s vs r u r' H E; cbn [parse_fixed] in H.
  - injection H as <- <-. apply expect_sound in E as (w & W & ->). exists [], w. cbn. repeat split; auto. now constructor.
  - pose proof (next_sound x5d first s) as N. destruct (next_item x5d first s) as [r0|r0|]; [discriminate| |discriminate].
    destruct N as (d & D & ->). destruct (p r0) as [v r1| |] eqn:Ep; cbn [pbind] in H; try discriminate. apply Hp in Ep as (w & body & j & W & -> & V & Pv).
    destruct (parse_fixed ps false r1) as [vs' r2| |] eqn:Ef; cbn [pbind] in H; try discriminate. injection H as <- <-.
    destruct (IH _ _ _ _ _ _ Ef E) as (js & b & O & -> & B). exists (j :: js), (d ++ w ++ body ++ b).
    split; [now split|]. split; [flat|]. now apply body_prefix.
Qed.
Lemma fixed_complete F : forall ps Ps, Forall2 (complete F) ps Ps -> forall vs js first b r, fixed_ok Ps vs js -> body_text value_text first js b ->
  (length (b ++ x5d :: r) < F)%nat -> exists w, json_blank w /\ parse_fixed ps first (b ++ x5d :: r) = POk vs (w ++ x5d :: r).
Proof.
  induction 1 as [|p P ps Ps Hp HF IH]; intros [|v vs] [|j js] first b r O B L; cbn [fixed_ok] in O; try contradiction; cbn [parse_fixed];
    inversion B as [? w W|? d ? s ? b' D V B']; subst.
  - now exists b.
  - rewrite <- !app_assoc in *. rewrite (item_next value_text x5d first d j s _ value_starts) by auto. destruct O as [Pv O].
    assert (L1 : (length (s ++ b' ++ x5d%byte :: r) <= length (d ++ s ++ b' ++ x5d%byte :: r))%nat) by (rewrite !app_length; lia).
    rewrite (complete_here F p P s j v (b' ++ x5d :: r) Hp V Pv); [|eapply body_num_end; [exact B'|now left]|lia]. cbn [pbind].
    assert (L2 : (length (b' ++ x5d%byte :: r) <= length (s ++ b' ++ x5d%byte :: r))%nat) by (rewrite !app_length; lia).
    destruct (IH vs js false b' r O B' ltac:(lia)) as (w & W & E). exists w. split; [assumption|]. rewrite E. reflexivity.
Qed.

(* ---------------- members ---------------- *)
Fixpoint index (names : list (list byte)) (key : list byte) : option nat :=
  match names with
  | [] => None
  | n :: names' => if list_eqb Byte.eqb n key then Some O else match index names' key with Some i => Some (S i) | None => None end
  end.
Lemma find_index fs key : match find_field fs key with
  | Some (i, p) => index (map fst fs) key = Some i /\ nth_error (map snd fs) i = Some p
  | None => index (map fst fs) key = None
  end.
Proof.
  induction fs as [|[n p] fs IH]; cbn; [reflexivity|]. destruct (list_eqb Byte.eqb n key); [auto|].
  destruct (find_field fs key) as [[i q]|]; [destruct IH as [-> H]; auto|now rewrite IH].
Qed.
Lemma index_nth names key i : index names key = Some i -> nth_error names i = Some key.
Proof.
  revert i. induction names as [|n names IH]; intros i H; cbn in H; [discriminate|]. destruct (list_eqb Byte.eqb n key) eqn:E.
  - injection H as <-. apply bytes_eqb_spec in E as ->. reflexivity.
  - destruct (index names key) as [j|]; [|discriminate]. injection H as <-. now apply IH.
Qed.
Lemma index_none names key : index names key = None -> ~ In key names.
Proof.
  induction names as [|n names IH]; cbn; [tauto|]. destruct (list_eqb Byte.eqb n key) eqn:E; [discriminate|].
  destruct (index names key) as [j|]; [discriminate|]. intros _ [->|H]; [|now apply IH]. rewrite (proj2 (bytes_eqb_spec key key) eq_refl) in E. discriminate.
Qed.
Inductive fill (names : list (list byte)) (Ps : list shape_of) : list (list byte * json) -> list (option val) -> list (option val) -> Prop :=
| fill_end got : fill names Ps [] got got
| fill_known k j name i P v ms got got' : stands_for k name -> index names name = Some i -> nth_error Ps i = Some P -> nth i got None = None -> P v j ->
    fill names Ps ms (set_nth i v got) got' -> fill names Ps ((k, j) :: ms) got got'
| fill_other k j name ms got got' : stands_for k name -> index names name = None -> fill names Ps ms got got' -> fill names Ps ((k, j) :: ms) got got'.

Lemma member_body first d w0 k w1 j w body ms b : separator first d -> json_blank w0 -> string_form k -> json_blank w1 -> json_blank w -> value_text j body ->
  body_text member_text false ms b ->
  body_text member_text first ((k, j) :: ms) (d ++ w0 ++ (x22 :: k ++ x22 :: w1 ++ x3a :: w ++ body) ++ b).
Proof. intros. apply body_prefix; auto. exists w1, w, body. auto. Qed.
Lemma stands_form k name : stands_for k name -> string_form k.
Proof. intros [H _]. now apply meaning_form in H. Qed.
Lemma map_sound fs Ps : Forall2 sound (map snd fs) Ps -> forall fuel first s got got' r, parse_map fuel fs first s got = POk got' r ->
  exists ms b r', r = x7d :: r' /\ s = b ++ r /\ body_text member_text first ms b /\ fill (map fst fs) Ps ms got got'.
Proof.
  intros Hp. induction fuel as [|fuel IH]; intros first s got got' r H; [discriminate|]. cbn [parse_map] in H.
  pose proof (next_sound x7d first s) as N. destruct (next_item x7d first s) as [r0|r0|]; [| |discriminate].
  - destruct N as (w & r' & W & -> & ->). injection H as <- <-. exists [], w, r'. repeat split; constructor; assumption.
  - destruct N as (d & D & ->). destruct (expect x22 r0) as [u1 r1| |] eqn:E1; cbn [pbind] in H; try discriminate. apply expect_sound in E1 as (w0 & W0 & ->).
    destruct (parse_chars r1 []) as [key r2| |] eqn:E2; cbn [pbind] in H; try discriminate.
    apply (parse_chars_sound _ _ _ _ _ (Nat.le_refl _)) in E2 as (k & t & -> & M & E & U). cbn [app] in E. subst t.
    assert (K : stands_for k key) by now split.
    pose proof (find_index fs key) as FI. destruct (find_field fs key) as [[i p]|].
    + destruct FI as [FI FP]. destruct (nth i got None) eqn:G; [discriminate|].
      destruct (expect x3a r2) as [u3 r3| |] eqn:E3; cbn [pbind] in H; try discriminate. apply expect_sound in E3 as (w1 & W1 & ->).
      destruct (p r3) as [v r4| |] eqn:E4; cbn [pbind] in H; try discriminate.
      assert (exists P, nth_error Ps i = Some P /\ sound p P) as (P & NP & SP).
      { clear - Hp FP. revert i FP. induction Hp as [|q Q qs Qs Hq HF IH]; intros [|i] FP; cbn in *; try discriminate; [injection FP as ->; eauto|now apply IH]. }
      apply SP in E4 as (w & body & j & W & -> & V & Pv). apply IH in H as (ms & b & r' & -> & -> & B & FL).
      exists ((k, j) :: ms), (d ++ w0 ++ (x22 :: k ++ x22 :: w1 ++ x3a :: w ++ body) ++ b), r'. split; [reflexivity|]. split; [flat|].
      split; [apply member_body; eauto using stands_form|eapply fill_known; eauto].
    + destruct (expect x3a r2) as [u3 r3| |] eqn:E3; cbn [pbind] in H; try discriminate. apply expect_sound in E3 as (w1 & W1 & ->).
      destruct (ignore_loop (S fuel) [] r3) as [v r4| |] eqn:E4; cbn [pbind] in H; try discriminate.
      apply skip_sound in E4 as (w & body & j & W & -> & V). apply IH in H as (ms & b & r' & -> & -> & B & FL).
      exists ((k, j) :: ms), (d ++ w0 ++ (x22 :: k ++ x22 :: w1 ++ x3a :: w ++ body) ++ b), r'. split; [reflexivity|]. split; [flat|].
      split; [apply member_body; eauto using stands_form|eapply fill_other; eauto].
Qed.
Lemma map_complete F fs Ps : Forall2 (complete F) (map snd fs) Ps -> forall ms got got', fill (map fst fs) Ps ms got got' -> forall fuel first b r,
  body_text member_text first ms b -> (length (b ++ x7d :: r) < F)%nat -> (length (b ++ x7d :: r) < fuel)%nat ->
  parse_map fuel fs first (b ++ x7d :: r) got = POk got' (x7d :: r).
Proof.
  intros Hp ms got got' HF. induction HF as [got|k j name i P v ms got got' K I NP G Pv HF IH|k j name ms got got' K I HF IH];
    intros fuel first b r B LF Lf; (destruct fuel as [|fuel]; [lia|]); cbn [parse_map]; inversion B as [? w W|? d ? s ? b' D V B']; subst.
  - now rewrite end_next by auto.
  - rewrite <- !app_assoc in *. rewrite (item_next member_text x7d first d (k, j) s _ member_starts) by auto.
    destruct V as (w1 & w & body & -> & _ & W1 & W & V). cbn [fst snd] in *. cbn [app]. repeat (rewrite <- !app_assoc in *; cbn [app] in * ).
    rewrite expect_first by reflexivity. cbn [pbind].
    destruct K as [M U]. rewrite (parse_chars_complete k name _ M [] U). cbn [pbind app].
    pose proof (find_index fs name) as FI. rewrite I in FI. destruct (find_field fs name) as [[i' p]|]; [|discriminate]. destruct FI as [[= <-] FP].
    rewrite G. rewrite expect_complete by (assumption || reflexivity). cbn [pbind].
    assert (SP : complete F p P).
    { clear - Hp FP NP. revert i FP NP. induction Hp as [|q Q qs Qs Hq HF IH]; intros [|i] FP NP; cbn in *; try discriminate; [injection FP as <-; injection NP as <-; assumption|now apply (IH i)]. }
    repeat (progress (rewrite ?app_length in LF, Lf; cbn [length] in LF, Lf)).
    rewrite (SP w body j v (b' ++ x7d :: r) W V Pv); [|eapply body_num_end; [exact B'|now right]|rewrite !app_length; cbn [length]; lia]. cbn [pbind].
    apply IH; [assumption| |]; rewrite app_length; cbn [length]; lia.
  - rewrite <- !app_assoc in *. rewrite (item_next member_text x7d first d (k, j) s _ member_starts) by auto.
    destruct V as (w1 & w & body & -> & _ & W1 & W & V). cbn [fst snd] in *. cbn [app]. repeat (rewrite <- !app_assoc in *; cbn [app] in * ).
    rewrite expect_first by reflexivity. cbn [pbind].
    destruct K as [M U]. rewrite (parse_chars_complete k name _ M [] U). cbn [pbind app].
    pose proof (find_index fs name) as FI. rewrite I in FI. destruct (find_field fs name) as [[i' p]|]; [destruct FI; discriminate|].
    rewrite expect_complete by (assumption || reflexivity). cbn [pbind].
    repeat (progress (rewrite ?app_length in LF, Lf; cbn [length] in LF, Lf)).
    rewrite (skip_complete (S fuel) w j body (b' ++ x7d :: r) W V); [|eapply body_num_end; [exact B'|now right]|rewrite !app_length; cbn [length]; lia]. cbn [pbind].
    apply IH; [assumption| |]; rewrite app_length; cbn [length]; lia.
Qed.

(* ---------------- records ---------------- *)
Definition nobody (ms : list (list byte * json)) (name : list byte) : Prop := Forall (fun m => ~ stands_for (fst m) name) ms.
Definition slot (ms : list (list byte * json)) (name : list byte) (P : shape_of) (before after : option val) : Prop :=
  match before, after with
  | None, None => nobody ms name
  | None, Some v => one_member ms name (P v)
  | Some v, Some v' => v = v' /\ nobody ms name
  | Some _, None => False
  end.
Lemma one_member_here k j ms name P : stands_for k name -> (one_member ((k, j) :: ms) name P <-> P j /\ nobody ms name).
Proof.
  intros K. split.
  - intros (front & k' & j' & back & E & K' & Pj & N). destruct front as [|m front]; cbn in E; [injection E as <- <- <-; auto|].
    injection E as <- E. cbn in N. inversion N; subst. now destruct H1.
  - intros [Pj N]. exists [], k, j, ms. auto.
Qed.
Lemma one_member_other k j ms name P : ~ stands_for k name -> (one_member ((k, j) :: ms) name P <-> one_member ms name P).
Proof.
  intros K. split.
  - intros (front & k' & j' & back & E & K' & Pj & N). destruct front as [|m front]; cbn in E; [injection E as <- <- <-; contradiction|].
    injection E as <- E. cbn in N. inversion N; subst. now exists front, k', j', back.
  - intros (front & k' & j' & back & -> & K' & Pj & N). exists ((k, j) :: front), k', j', back. split; [reflexivity|]. split; [assumption|]. split; [assumption|]. now constructor.
Qed.
Lemma nobody_cons k j ms name : nobody ((k, j) :: ms) name <-> ~ stands_for k name /\ nobody ms name.
Proof. unfold nobody. split; [inversion 1; auto|intros []; now constructor]. Qed.
Lemma slot_other k j ms name P a b : ~ stands_for k name -> (slot ((k, j) :: ms) name P a b <-> slot ms name P a b).
Proof.
  intros K. unfold slot. pose proof (nobody_cons k j ms name). destruct a, b; try tauto. now apply one_member_other.
Qed.
Lemma nth_set_same i v : forall got, (i < length got)%nat -> nth i (set_nth i v got) None = Some v.
Proof. induction i as [|i IH]; intros [|x got] H; cbn in *; try lia; [reflexivity|apply IH; lia]. Qed.
Lemma nth_set_other i i' v : forall got, i <> i' -> nth i' (set_nth i v got) None = nth i' got None.
Proof. revert i'. induction i as [|i IH]; intros [|i'] [|x got] H; cbn; try reflexivity; try congruence. apply IH. congruence. Qed.
Lemma set_nth_length i v : forall got, length (set_nth i v got) = length got.
Proof. induction i as [|i IH]; intros [|x got]; cbn; congruence. Qed.
Lemma nodup_index names i i' (name : list byte) : NoDup names -> nth_error names i = Some name -> nth_error names i' = Some name -> i = i'.
Proof. intros D H H'. eapply (proj1 (NoDup_nth_error names) D); [apply nth_error_Some; congruence|congruence]. Qed.
Lemma fill_spec names Ps : NoDup names -> length names = length Ps -> forall ms got got', length got = length names ->
  fill names Ps ms got got' <-> length got' = length got /\ Forall (fun m => exists name, stands_for (fst m) name) ms /\
    forall i name P, nth_error names i = Some name -> nth_error Ps i = Some P -> slot ms name P (nth i got None) (nth i got' None).
Proof.
  intros D LP. induction ms as [|[k j] ms IH]; intros got got' LG; split.
  - inversion 1; subst. split; [reflexivity|]. split; [constructor|]. intros i name P _ _. unfold slot. destruct (nth i got' None); [split|]; try constructor.
  - intros (L & _ & H). replace got' with got; [constructor|]. apply (nth_ext _ _ None None); [congruence|]. intros i Hi.
    destruct (nth_error names i) as [name|] eqn:E1; [|apply nth_error_None in E1; lia]. destruct (nth_error Ps i) as [P|] eqn:E2; [|apply nth_error_None in E2; lia].
    specialize (H i name P E1 E2). unfold slot in H. destruct (nth i got None), (nth i got' None); try contradiction; try reflexivity; [destruct H; congruence|].
    destruct H as ([|] & k & j & back & H & _); discriminate.
  - inversion 1 as [|k' j' n i P v ms' g g' K I NP G Pv F|k' j' n ms' g g' K I F]; subst.
    + apply IH in F as (L & N & F); [|now rewrite set_nth_length]. rewrite set_nth_length in L. split; [assumption|]. split; [constructor; cbn; eauto|].
      apply index_nth in I. assert (Li : (i < length got)%nat) by (rewrite LG; apply nth_error_Some; congruence).
      intros i' name' P' E1 E2. specialize (F i' name' P' E1 E2). destruct (Nat.eq_dec i i') as [<-|Hi].
      * assert (name' = n) as -> by congruence. assert (P' = P) as -> by congruence. rewrite nth_set_same in F by assumption. rewrite G.
        unfold slot in *. destruct (nth i got' None) as [v'|]; [|contradiction]. destruct F as [<- F]. now apply one_member_here.
      * rewrite nth_set_other in F by assumption. apply slot_other; [|assumption]. intros K'. pose proof (stands_for_unique _ _ _ K K') as <-.
        apply Hi. now apply (nodup_index names i i' n).
    + apply IH in F as (L & N & F); [|assumption]. split; [assumption|]. split; [constructor; cbn; eauto|].
      intros i' name' P' E1 E2. specialize (F i' name' P' E1 E2). apply slot_other; [|assumption]. intros K'. pose proof (stands_for_unique _ _ _ K K') as <-.
      apply index_none in I. apply I. now apply nth_error_In in E1.
  - intros (L & N & H). inversion N as [|? ? [n K] N']; subst. cbn in K. destruct (index names n) as [i|] eqn:I.
    + pose proof (index_nth _ _ _ I) as E1. assert (Li : (i < length got)%nat) by (rewrite LG; apply nth_error_Some; congruence).
      destruct (nth_error Ps i) as [P|] eqn:E2; [|apply nth_error_None in E2; lia].
      pose proof (H i n P E1 E2) as S. unfold slot in S. destruct (nth i got None) as [v|] eqn:G.
      { exfalso. destruct (nth i got' None); [|contradiction]. destruct S as [_ S]. apply nobody_cons in S as [S _]. contradiction. }
      destruct (nth i got' None) as [v|] eqn:G'; [|exfalso; apply nobody_cons in S as [S _]; contradiction].
      apply one_member_here in S as [Pj Nb]; [|assumption]. eapply fill_known; eauto. apply IH; [now rewrite set_nth_length|]. rewrite set_nth_length.
      split; [assumption|]. split; [assumption|]. intros i' name' P' E1' E2'. destruct (Nat.eq_dec i i') as [<-|Hi].
      * rewrite nth_set_same by assumption. rewrite G'. cbn. split; [reflexivity|]. assert (name' = n) as -> by congruence. assumption.
      * rewrite nth_set_other by assumption. specialize (H i' name' P' E1' E2'). apply slot_other in H; [assumption|].
        intros K'. pose proof (stands_for_unique _ _ _ K K') as <-. apply Hi. now apply (nodup_index names i i' n).
    + eapply fill_other; eauto. apply IH; [assumption|]. split; [assumption|]. split; [assumption|]. intros i' name' P' E1 E2.
      specialize (H i' name' P' E1 E2). apply slot_other in H; [assumption|]. intros K'. pose proof (stands_for_unique _ _ _ K K') as <-.
      apply index_none in I. apply I. now apply nth_error_In in E1.
Qed.
Fixpoint zip (names : list (list byte)) (Ps : list shape_of) (vs : list val) : list (list byte * (json -> Prop)) :=
  match names, Ps, vs with
  | n :: names', P :: Ps', v :: vs' => (n, P v) :: zip names' Ps' vs'
  | _, _, _ => []
  end.
Lemma zip_array : forall names Ps vs js, length names = length Ps ->
  (fixed_ok Ps vs js <-> length vs = length names /\ Forall2 (fun (f : list byte * (json -> Prop)) x => snd f x) (zip names Ps vs) js).
Proof.
  induction names as [|n names IH]; intros [|P Ps] vs js L; try discriminate; cbn [fixed_ok zip length] in *.
  - destruct vs, js; split; try tauto; [split; [reflexivity|constructor]|intros [_ H]; inversion H|intros [H _]; discriminate H|intros [H _]; discriminate H].
  - destruct vs as [|v vs]; [split; [tauto|intros [H _]; discriminate H]|]. destruct js as [|j js]; [split; [tauto|intros [_ H]; inversion H]|].
    specialize (IH Ps vs js ltac:(lia)). split.
    + intros [H1 H2]. apply IH in H2 as [H2 H3]. cbn. split; [lia|]. now constructor.
    + intros [H1 H2]. cbn in H1. inversion H2; subst. split; [assumption|]. apply IH. split; [lia|assumption].
Qed.
Lemma all_some_iff got vs : all_some got = Some vs <-> got = map Some vs.
Proof.
  split; [|intros ->; apply all_some_map]. revert vs. induction got as [|[v|] got IH]; intros vs H; cbn in H; try discriminate; [injection H as <-; reflexivity|].
  destruct (all_some got) as [vs'|]; [|discriminate]. injection H as <-. cbn. f_equal. now apply IH.
Qed.
Lemma zip_nth : forall names Ps vs (Q : list byte * (json -> Prop) -> Prop), length names = length Ps -> length vs = length names ->
  (Forall Q (zip names Ps vs) <-> forall i name P v, nth_error names i = Some name -> nth_error Ps i = Some P -> nth_error vs i = Some v -> Q (name, P v)).
Proof.
  induction names as [|n names IH]; intros [|P Ps] [|v vs] Q L1 L2; try discriminate; cbn [zip length] in *.
  - split; [intros _ [|i] ? ? ? H; discriminate|constructor].
  - specialize (IH Ps vs Q ltac:(lia) ltac:(lia)). split.
    + inversion 1; subst. intros [|i] name P' v' E1 E2 E3; cbn in *; [injection E1 as <-; injection E2 as <-; injection E3 as <-; assumption|].
      apply (proj1 IH) with (i := i); assumption.
    + intros H. constructor; [apply (H O); reflexivity|]. apply IH. intros i. apply (H (S i)).
Qed.
Lemma fill_record names Ps ms got vs : NoDup names -> length names = length Ps -> got = map Some vs ->
  (fill names Ps ms (map (fun _ => None) names) got <-> length vs = length names /\ Forall (fun m => exists name, stands_for (fst m) name) ms /\
    Forall (fun f => one_member ms (fst f) (snd f)) (zip names Ps vs)).
Proof.
  intros D L ->. rewrite fill_spec by (assumption || apply map_length). rewrite !map_length.
  assert (N : forall i, nth i (map (fun _ : list byte => None) names) None = (None : option val)).
  { clear. induction names as [|n names IH]; intros [|i]; cbn; auto. }
  split; intros (L2 & F & H); (split; [assumption|]); (split; [assumption|]).
  - apply zip_nth; [assumption..|]. intros i name P v E1 E2 E3. specialize (H i name P E1 E2). rewrite N in H.
    rewrite (nth_error_nth (map Some vs) i None (map_nth_error Some i vs E3)) in H. exact H.
  - intros i name P E1 E2. rewrite N. assert (Hi : (i < length vs)%nat) by (rewrite L2; apply nth_error_Some; congruence).
    destruct (nth_error vs i) as [v|] eqn:E3; [|apply nth_error_None in E3; lia].
    rewrite (nth_error_nth (map Some vs) i None (map_nth_error Some i vs E3)). cbn.
    apply (proj1 (zip_nth names Ps vs _ L L2)) with (i := i) (name := name) (P := P) (v := v) in H; assumption.
Qed.

(* ---------------- which trees stand for a value of a type ---------------- *)
Fixpoint shape (t : ty) (v : val) (j : json) {struct t} : Prop :=
  match t, v with
  | TNum max, VNum z => number max z j
  | TBool, VBool b => boolean b j
  | TStr, VStr s | TPath, VStr s => text s j
  | TSeq t', VSeq vs => array (shape t') vs j
  | TPair t1 t2, VPair v1 v2 => two (shape t1 v1) (shape t2 v2) j
  | TStruct fs, VStruct vs => length vs = length fs /\
      record ((fix fields (fs : list (list byte * ty)) (vs : list val) :=
         match fs, vs with (n, t') :: fs', v :: vs' => (n, shape t' v) :: fields fs' vs' | _, _ => [] end) fs vs) j
  | TEnum ts, VEnum i v => (fix go (ts : list (list byte * ty)) (i : nat) : Prop :=
         match ts, i with
         | (n, t') :: _, O => variant n (shape t' v) j
         | _ :: ts', S i' => go ts' i'
         | [], _ => False
         end) ts i
  | _, _ => False
  end.
Lemma shape_struct fs vs j : shape (TStruct fs) (VStruct vs) j <->
  length vs = length fs /\ record (zip (map fst fs) (map (fun f => shape (snd f)) fs) vs) j.
Proof.
  cbn [shape]. match goal with |- _ /\ record ?a j <-> _ /\ record ?b j => replace a with b; [reflexivity|] end.
  revert vs. induction fs as [|[n t] fs IH]; intros [|v vs]; cbn; try reflexivity. now rewrite IH.
Qed.
Lemma shape_enum ts i v j : shape (TEnum ts) (VEnum i v) j <-> exists n t, nth_error ts i = Some (n, t) /\ variant n (shape t v) j.
Proof.
  cbn [shape]. revert i. induction ts as [|[n t] ts IH]; intros [|i]; cbn [nth_error]; try (split; [tauto|intros (? & ? & H & _); discriminate H]).
  - split; [eauto|]. intros (n' & t' & [= <- <-] & H). exact H.
  - apply IH.
Qed.
Lemma parse_bool_sound s b r : parse_bool s = POk b r -> exists w, json_blank w /\ s = w ++ chars (if b then "true" else "false") ++ r.
Proof.
  unfold parse_bool. destruct (skip_ws_split s) as (w & Hw & E). destruct (skip_ws s) as [|c s']; [discriminate|].
  destruct (Byte.eqb c x74) eqn:E1.
  - apply eqb_eq in E1 as ->. destruct (parse_ident (str "rue") s') as [u r'| |] eqn:Ei; cbn [pbind]; intros [= <- <-]. apply parse_ident_sound in Ei as ->. now exists w.
  - destruct (Byte.eqb c x66) eqn:E2; [|destruct c; discriminate].
    apply eqb_eq in E2 as ->. destruct (parse_ident (str "alse") s') as [u r'| |] eqn:Ei; cbn [pbind]; intros [= <- <-]. apply parse_ident_sound in Ei as ->. now exists w.
Qed.
Lemma parse_sound fuel : forall t, wf_ty t -> nums_ok t -> sound (parse fuel t) (shape t).
Proof.
  induction t as [max| | | |t IH|t1 t2 IH1 IH2|fs IH|ts IH] using ty_ind'; intros Hw Hn s v r H; cbn [parse] in H.
  - destruct (parse_num max s) as [z r'| |] eqn:E; cbn [pbind] in H; inversion H; subst. apply parse_num_sound in E as (w & t & W & -> & I & V & M).
    exists w, t, (JNum t). split; [assumption|]. split; [reflexivity|]. split; [constructor; now apply integer_number|].
    cbn in Hn |- *. exists t. repeat split; auto. lia.
  - destruct (parse_bool s) as [z r'| |] eqn:E; cbn [pbind] in H; inversion H; subst. apply parse_bool_sound in E as (w & W & ->).
    exists w, (chars (if z then "true" else "false")), (if z then JTrue else JFalse). split; [assumption|]. split; [reflexivity|].
    split; [destruct z; constructor|reflexivity].
  - destruct (parse_string s) as [z r'| |] eqn:E; cbn [pbind] in H; inversion H; subst. apply parse_string_sound in E as (w & k & W & -> & K).
    exists w, (x22 :: k ++ [x22]), (JStr k). split; [assumption|]. split; [flat|]. split; [constructor; eapply stands_form; eauto|now exists k].
  - destruct (parse_string s) as [z r'| |] eqn:E; cbn [pbind] in H; inversion H; subst. apply parse_string_sound in E as (w & k & W & -> & K).
    exists w, (x22 :: k ++ [x22]), (JStr k). split; [assumption|]. split; [flat|]. split; [constructor; eapply stands_form; eauto|now exists k].
  - destruct (expect x5b s) as [u1 r1| |] eqn:E1; cbn [pbind] in H; try discriminate. apply expect_sound in E1 as (w & W & ->).
    destruct (parse_elems fuel (parse fuel t) true r1 []) as [vs r2| |] eqn:E2; cbn [pbind] in H; try discriminate.
    apply (elems_sound _ _ (IH Hw Hn)) in E2 as (vs' & js & b & r' & -> & F & -> & -> & B).
    rewrite expect_first in H by reflexivity. cbn [pbind app] in H. injection H as <- <-.
    exists w, (x5b :: b ++ [x5d]), (JArr js). split; [assumption|]. split; [flat|]. split; [apply array_text; eauto|]. now exists js.
  - destruct (expect x5b s) as [u1 r1| |] eqn:E1; cbn [pbind] in H; try discriminate. apply expect_sound in E1 as (w & W & ->).
    destruct (parse_fixed [parse fuel t1; parse fuel t2] true r1) as [vs r2| |] eqn:E2; cbn [pbind] in H; try discriminate.
    destruct vs as [|v1 [|v2 [|]]]; try discriminate. destruct (expect x5d r2) as [u3 r3| |] eqn:E3; cbn [pbind] in H; try discriminate. injection H as <- <-.
    assert (S2 : Forall2 sound [parse fuel t1; parse fuel t2] [shape t1; shape t2]) by (repeat constructor; [apply IH1|apply IH2]; try apply Hw; apply Hn).
    destruct (fixed_sound _ _ S2 _ _ _ _ _ _ E2 E3) as (js & b & O & -> & B). destruct js as [|j1 [|j2 [|]]]; cbn in O; try tauto.
    exists w, (x5b :: b ++ [x5d]), (JArr [j1; j2]). split; [assumption|]. split; [flat|]. split; [apply array_text; eauto|]. exists j1, j2. tauto.
  - set (ps := map _ fs) in H. assert (EN : map fst ps = map fst fs) by (unfold ps; rewrite map_map; apply map_ext; now intros []).
    assert (S2 : Forall2 sound (map snd ps) (map (fun f => shape (snd f)) fs)).
    { subst ps. clear H EN. destruct Hw as [_ Hw]. cbn in Hn. induction IH as [|[n t] fs Ht IH' IHF]; cbn in *; constructor; [apply Ht; tauto|apply IHF; tauto]. }
    assert (LN : length (map fst fs) = length (map (fun f => shape (snd f)) fs)) by now rewrite !map_length.
    unfold parse_struct in H. destruct (skip_ws_split s) as (w & W & E). destruct (skip_ws s) as [|c s']; [discriminate|].
    destruct (Byte.eqb c x5b) eqn:C1; [|destruct (Byte.eqb c x7b) eqn:C2; [|destruct c; discriminate]].
    + apply eqb_eq in C1 as ->. subst s. destruct (parse_fixed (map snd ps) true s') as [vs r2| |] eqn:E2; cbn [pbind] in H; try discriminate.
      destruct (expect x5d r2) as [u3 r3| |] eqn:E3; cbn [pbind] in H; try discriminate. injection H as <- <-.
      destruct (fixed_sound _ _ S2 _ _ _ _ _ _ E2 E3) as (js & b & O & -> & B). apply (zip_array _ _ _ _ LN) in O as [O1 O2].
      exists w, (x5b :: b ++ [x5d]), (JArr js). split; [assumption|]. split; [flat|]. split; [apply array_text; eauto|].
      apply shape_struct. rewrite map_length in O1. split; [assumption|]. left. eauto.
    + apply eqb_eq in C2 as ->. subst s. destruct (parse_map fuel ps true s' (map (fun _ => None) ps)) as [got r2| |] eqn:E2; cbn [pbind] in H; try discriminate.
      destruct (all_some got) as [vs|] eqn:A; [|discriminate]. apply all_some_iff in A as ->.
      apply (map_sound _ _ S2) in E2 as (ms & b & r' & -> & -> & B & FL). rewrite expect_first in H by reflexivity. cbn [pbind] in H. injection H as <- <-.
      rewrite EN in FL. replace (map (fun _ : list byte * parser => None) ps) with (map (fun _ : list byte => (None : option val)) (map fst fs)) in FL by (rewrite <- EN, map_map; reflexivity).
      destruct Hw as [HN _]. apply (fill_record _ _ _ _ vs) in FL as (L & N & O); [|apply HN|assumption|reflexivity].
      exists w, (x7b :: b ++ [x7d]), (JObj ms). split; [assumption|]. split; [flat|]. split; [apply object_text; eauto|].
      apply shape_struct. rewrite map_length in L. split; [assumption|]. right. eauto.
  - set (ps := map _ ts) in H. unfold parse_enum in H.
    destruct (expect x7b s) as [u1 r1| |] eqn:E1; cbn [pbind] in H; try discriminate. apply expect_sound in E1 as (w & W & ->).
    destruct (parse_string r1) as [name r2| |] eqn:E2; cbn [pbind] in H; try discriminate. apply parse_string_sound in E2 as (w0 & k & W0 & -> & K).
    destruct (find_field ps name) as [[i p]|] eqn:E3; [|discriminate].
    destruct (expect x3a r2) as [u4 r4| |] eqn:E4; cbn [pbind] in H; try discriminate. apply expect_sound in E4 as (w1 & W1 & ->).
    destruct (p r4) as [v' r5| |] eqn:E5; cbn [pbind] in H; try discriminate.
    destruct (expect x7d r5) as [u6 r6| |] eqn:E6; cbn [pbind] in H; try discriminate. apply expect_sound in E6 as (w2 & W2 & ->). injection H as <- <-.
    assert (exists t, nth_error ts i = Some (name, t) /\ p = parse fuel t) as (t & NT & ->).
    { pose proof (find_index ps name) as FI. rewrite E3 in FI. destruct FI as [FI FP]. apply index_nth in FI. subst ps. rewrite nth_error_map in FI, FP.
      rewrite nth_error_map in FI, FP. destruct (nth_error ts i) as [[n t]|]; [|discriminate]. cbn in *. injection FI as ->. injection FP as <-. eauto. }
    assert (S1 : sound (parse fuel t) (shape t)).
    { clear - IH Hw Hn NT. destruct Hw as [_ Hw]. cbn in Hn. revert i NT. induction IH as [|[n' t'] ts Ht IH' IHF]; intros [|i] NT; cbn in *; try discriminate.
      - injection NT as -> ->. apply Ht; tauto.
      - apply (IHF ltac:(tauto) ltac:(tauto) i NT). }
    apply S1 in E5 as (w3 & body & j & W3 & -> & V & Sv).
    exists w, (x7b :: (w0 ++ x22 :: k ++ x22 :: w1 ++ x3a :: w3 ++ body ++ w2) ++ [x7d]), (JObj [(k, j)]). split; [assumption|]. split; [flat|].
    split; [apply value_obj; constructor; eauto using stands_form|]. apply shape_enum. exists name, t. split; [assumption|]. now exists k, j.
Qed.
Lemma parse_complete fuel : forall t, wf_ty t -> complete fuel (parse fuel t) (shape t).
Proof.
  induction t as [max| | | |t IH|t1 t2 IH1 IH2|fs IH|ts IH] using ty_ind'; intros Hw w body j v r W V S N L; destruct v; try contradiction; cbn [parse].
  - destruct S as (t & -> & I & -> & M). inversion V; subst. change (fold_left _ body 0) with (value 0 body) in *.
    now rewrite parse_num_complete.
  - cbn in S. unfold boolean in S. unfold parse_bool. rewrite skip_ws_blank_app by assumption. destruct b; subst j; inversion V; subst; reflexivity.
  - destruct S as (k & -> & K). inversion V; subst. cbn [app]. rewrite <- app_assoc. cbn [app]. now rewrite (parse_string_complete w k s r).
  - destruct S as (k & -> & K). inversion V; subst. cbn [app]. rewrite <- app_assoc. cbn [app]. now rewrite (parse_string_complete w k s r).
  - destruct S as (js & -> & F). apply array_text in V as (b & -> & B). cbn [app]. rewrite <- app_assoc. cbn [app]. rewrite expect_complete by (assumption || reflexivity).
    cbn [pbind]. assert (L2 : (length (b ++ x5d%byte :: r) < fuel)%nat) by (rewrite !app_length in *; cbn [length] in *; rewrite !app_length in *; cbn [length] in *; lia).
    rewrite (elems_complete _ _ _ (IH Hw) vs js F _ _ _ _ _ B L2 L2). cbn [pbind]. now rewrite expect_first.
  - destruct S as (j1 & j2 & -> & S1 & S2). apply array_text in V as (b & -> & B). cbn [app]. rewrite <- app_assoc. cbn [app]. rewrite expect_complete by (assumption || reflexivity).
    cbn [pbind]. assert (L2 : (length (b ++ x5d%byte :: r) < fuel)%nat) by (rewrite !app_length in *; cbn [length] in *; rewrite !app_length in *; cbn [length] in *; lia).
    destruct (fixed_complete fuel [parse fuel t1; parse fuel t2] [shape t1; shape t2]) with (vs := [v1; v2]) (js := [j1; j2]) (first := true) (b := b) (r := r) as (w' & W' & E);
      [repeat constructor; [apply IH1|apply IH2]; apply Hw|cbn; auto|assumption|assumption|].
    rewrite E. cbn [pbind]. now rewrite expect_complete.
  - set (ps := map _ fs). assert (EN : map fst ps = map fst fs) by (unfold ps; rewrite map_map; apply map_ext; now intros []).
    assert (S2 : Forall2 (complete fuel) (map snd ps) (map (fun f => shape (snd f)) fs)).
    { subst ps. clear EN S. destruct Hw as [_ Hw]. induction IH as [|[n t] fs Ht IH' IHF]; cbn in *; constructor; [apply Ht; tauto|apply IHF; tauto]. }
    assert (LN : length (map fst fs) = length (map (fun f => shape (snd f)) fs)) by now rewrite !map_length.
    apply shape_struct in S as [LV S]. unfold parse_struct. rewrite skip_ws_blank_app by assumption. destruct S as [(js & -> & F)|(ms & -> & FN & F)].
    + apply array_text in V as (b & -> & B). cbn [app skip_ws is_ws]. rewrite <- app_assoc. cbn [app].
      assert (L2 : (length (b ++ x5d%byte :: r) < fuel)%nat) by (rewrite !app_length in *; cbn [length] in *; rewrite !app_length in *; cbn [length] in *; lia).
      destruct (fixed_complete fuel _ _ S2 vs js true b r) as (w' & W' & E); [apply (zip_array _ _ _ _ LN); rewrite map_length; auto|assumption|assumption|].
      rewrite E. cbn [pbind]. now rewrite expect_complete.
    + apply object_text in V as (b & -> & B). cbn [app skip_ws is_ws]. rewrite <- app_assoc. cbn [app].
      assert (L2 : (length (b ++ x7d%byte :: r) < fuel)%nat) by (rewrite !app_length in *; cbn [length] in *; rewrite !app_length in *; cbn [length] in *; lia).
      assert (FL : fill (map fst ps) (map (fun f => shape (snd f)) fs) ms (map (fun _ => None) ps) (map Some vs)).
      { rewrite EN. replace (map (fun _ : list byte * parser => None) ps) with (map (fun _ : list byte => (None : option val)) (map fst fs)) by (rewrite <- EN, map_map; reflexivity).
        apply (fill_record _ _ _ _ vs); [apply Hw|assumption|reflexivity|]. rewrite map_length. auto. }
      rewrite (map_complete fuel ps _ S2 ms _ _ FL fuel true b r B L2 L2). cbn [pbind]. rewrite all_some_map. now rewrite expect_first.
  - set (ps := map _ ts). apply shape_enum in S as (name & t & NT & k & x & -> & K & Sx). apply object_text in V as (b & -> & B).
    inversion B as [|f d m s0 ms b' D M B']; subst. inversion B' as [f w2 W2|]; subst. destruct M as (w1 & w3 & body & -> & _ & W1 & W3 & V). cbn [fst snd separator] in *.
    unfold parse_enum. repeat (progress (rewrite <- ?app_assoc in *; cbn [app] in * )). rewrite expect_complete by (assumption || reflexivity). cbn [pbind].
    rewrite (parse_string_complete d k name) by assumption. cbn [pbind].
    assert (FF : find_field ps name = Some (i, parse fuel t)) by (apply find_field_map; [apply Hw|assumption]).
    rewrite FF. rewrite expect_complete by (assumption || reflexivity). cbn [pbind].
    assert (C : complete fuel (parse fuel t) (shape t)).
    { clear - IH Hw NT. destruct Hw as [_ Hw]. revert i NT. induction IH as [|[n' t'] ts Ht IH' IHF]; intros [|i] NT; cbn in *; try discriminate.
      - injection NT as -> ->. apply Ht; tauto.
      - apply (IHF ltac:(tauto) i NT). }
    repeat (progress (rewrite ?app_length in L; cbn [length] in L)).
    rewrite (C w3 body x v (b' ++ x7d :: r) W3 V Sx); [|apply blank_num_end; [assumption|split; reflexivity]|rewrite !app_length; cbn [length]; lia].
    cbn [pbind]. now rewrite expect_complete.
Qed.

(* ---------------- diffs ---------------- *)
Lemma array_map {A} (f : A -> val) (P : shape_of) (Q : A -> json -> Prop) l j : (forall a j, P (f a) j <-> Q a j) ->
  (array P (map f l) j <-> array Q l j).
Proof.
  intros E. unfold array. split; intros (js & -> & F); exists js; (split; [reflexivity|]).
  - revert js F. induction l as [|a l IH]; intros js F; inversion F; subst; constructor; [now apply E|auto].
  - induction F; cbn; constructor; [now apply E|auto].
Qed.
Lemma record_ext fs gs j : Forall2 (fun f g : list byte * (json -> Prop) => fst f = fst g /\ forall j, snd f j <-> snd g j) fs gs -> (record fs j <-> record gs j).
Proof.
  assert (G : forall fs gs, Forall2 (fun f g : list byte * (json -> Prop) => fst f = fst g /\ forall j, snd f j <-> snd g j) fs gs -> record fs j -> record gs j).
  { clear. intros fs gs F [(js & -> & H)|(ms & -> & N & H)].
    - left. exists js. split; [reflexivity|]. revert js H. induction F as [|f g fs gs [_ E] F IH]; intros js H; inversion H; subst; constructor; [now apply E|auto].
    - right. exists ms. split; [reflexivity|]. split; [assumption|]. induction F as [|f g fs gs [E1 E] F IH]; [constructor|]. inversion H; subst. constructor; [|auto].
      destruct H2 as (front & k & x & back & E' & K & Px & Nb). rewrite <- E1. exists front, k, x, back. split; [assumption|]. split; [assumption|]. split; [now apply E|assumption]. }
  intros F. split; [now apply G|]. apply G. clear - F. induction F as [|f g fs gs [E1 E] F IH]; constructor; [|assumption]. split; [congruence|]. intros x. now rewrite E.
Qed.
Lemma variant_ext n (P Q : json -> Prop) j : (forall j, P j <-> Q j) -> (variant n P j <-> variant n Q j).
Proof. intros E. split; intros (k & x & -> & K & H); exists k, x; (split; [reflexivity|]); (split; [assumption|]); now apply E. Qed.
Lemma shape_struct_iff fs vs gs j : length vs = length fs ->
  Forall2 (fun f g : list byte * (json -> Prop) => fst f = fst g /\ forall j, snd f j <-> snd g j) (zip (map fst fs) (map (fun f => shape (snd f)) fs) vs) gs ->
  (shape (TStruct fs) (VStruct vs) j <-> record gs j).
Proof. intros L F. rewrite shape_struct. rewrite (record_ext _ _ j F). tauto. Qed.
Ltac fields_eq := apply shape_struct_iff; [reflexivity|cbn [map zip fst snd]; repeat apply Forall2_cons; try apply Forall2_nil; (split; [reflexivity|]); cbn [fst snd]; intros ?].
Lemma snippet_shape {T} (item : T -> val) ty (P : T -> json -> Prop) s j : (forall a j, shape ty (item a) j <-> P a j) ->
  (shape (snippet_ty ty) (val_of_snippet item s) j <-> snippet_form record P s j).
Proof. intros E. unfold snippet_ty, val_of_snippet, snippet_form. fields_eq; [reflexivity|now apply array_map]. Qed.
Lemma text_clump_shape c j : shape (clump_ty TStr) (val_of_text_clump c) j <-> text_clump_form text record c j.
Proof. unfold clump_ty, val_of_text_clump, text_clump_form. fields_eq; [reflexivity|now apply snippet_shape..]. Qed.
Lemma byte_clump_shape c j : shape (clump_ty TU8) (val_of_byte_clump c) j <-> byte_clump_form record c j.
Proof. unfold clump_ty, val_of_byte_clump, byte_clump_form. fields_eq; [reflexivity|now apply snippet_shape..]. Qed.
Lemma lines_shape p j : shape path_lines_ty (val_of_lines p) j <-> lines_form text record p j.
Proof. unfold path_lines_ty, val_of_lines, lines_form. fields_eq; [reflexivity|now apply array_map]. Qed.
Lemma bytes_shape p j : shape path_bytes_ty (val_of_bytes p) j <-> bytes_form text record p j.
Proof. unfold path_bytes_ty, val_of_bytes, bytes_form. fields_eq; [reflexivity|reflexivity|now apply array_map]. Qed.
Lemma diff_shape d j : shape diff_ty (val_of_diff d) j <-> diff_json d j.
Proof.
  assert (G : forall i v n t, nth_error [(str "TextChange", text_diff_ty); (str "TextAdd", path_lines_ty); (str "TextRemove", path_lines_ty);
         (str "ByteChange", byte_diff_ty); (str "ByteAdd", path_bytes_ty); (str "ByteRemove", path_bytes_ty)] i = Some (n, t) ->
      (shape diff_ty (VEnum i v) j <-> variant n (shape t v) j)).
  { intros i v n t H. unfold diff_ty. rewrite shape_enum. split; [|eauto]. intros (n' & t' & H' & V). rewrite H in H'. now injection H' as <- <-. }
  destruct d as [d|p|p|d|p|p]; cbn [val_of_diff diff_json diff_form]; unfold diff_json; cbn [diff_form].
  - rewrite G by reflexivity. apply variant_ext. intros x. unfold text_diff_ty. fields_eq; [reflexivity|reflexivity|apply array_map; apply text_clump_shape].
  - rewrite G by reflexivity. apply variant_ext. apply lines_shape.
  - rewrite G by reflexivity. apply variant_ext. apply lines_shape.
  - rewrite G by reflexivity. apply variant_ext. intros x. unfold byte_diff_ty. fields_eq; [reflexivity..|apply array_map; apply byte_clump_shape].
  - rewrite G by reflexivity. apply variant_ext. apply bytes_shape.
  - rewrite G by reflexivity. apply variant_ext. apply bytes_shape.
Qed.
Theorem accepts s d : diff_from_json s = Ok (Some d) <-> exists j, json_text j s /\ diff_json d j.
Proof.
  split.
  - intros H. destruct (diff_from_json_cases s) as [(d' & r & E & _ & [[B E']|[_ E']])|[_ E']]; rewrite H in E'; try discriminate. injection E' as <-.
    apply (parse_sound _ _ diff_ty_wf diff_ty_nums) in E as (w & body & j & W & E & V & S). exists j. split; [now exists w, body, r|]. now apply diff_shape.
  - intros (j & (w & body & r & W & V & B & ->) & HS). apply diff_shape in HS.
    assert (N : num_end r) by (destruct r as [|b r]; [split; reflexivity|]; inversion B; subst; match goal with H : In _ _ |- _ => destruct H as [<-|[<-|[<-|[<-|[]]]]] end; split; reflexivity).
    pose proof (parse_complete (S (length (w ++ body ++ r))) diff_ty diff_ty_wf w body j _ r W V HS N (Nat.lt_succ_diag_r _)) as E.
    unfold diff_from_json, parse_document. rewrite E. cbn [pbind]. rewrite skip_ws_blank by assumption. now rewrite diff_of_val_of.
Qed.

(* Proof_Files.v - what the operations on files do, and the courses a run of the patch tool can take. *)
From Verif Require Import Base Model_Seq Model_Changes Model_IO Model_Text Model_Bytes Model_Json Model_Files Spec Spec_Files Proof_Seq Proof_Utf8 Proof_Json Proof_IO Proof_Text Proof_Bytes Proof_Diff Proof_Apply Proof_Term.

Lemma path_eqb_spec p q : path_eqb p q = true <-> p = q.
Proof. apply list_eqb_lawful. intros x y. split; [apply Byte.byte_dec_bl|apply Byte.byte_dec_lb]. Qed.
Lemma path_eqb_refl p : path_eqb p p = true.
Proof. now apply path_eqb_spec. Qed.
Lemma path_eqb_neq p q : p <> q -> path_eqb p q = false.
Proof. intros H. destruct (path_eqb p q) eqn:E; [|reflexivity]. apply path_eqb_spec in E. contradiction. Qed.
Lemma upd_same f p n : upd f p n p = n.
Proof. unfold upd. now rewrite path_eqb_refl. Qed.
Lemma upd_other f p n q : p <> q -> upd f p n q = f q.
Proof. intros H. unfold upd. now rewrite path_eqb_neq. Qed.
Lemma path_dec (p q : path) : {p = q} + {p <> q}.
Proof. destruct (path_eqb p q) eqn:E; [left; now apply path_eqb_spec|right]. intros H. apply path_eqb_spec in H. congruence. Qed.

Section Files.
  Variable E : env.
  Notation tmp := (e_tmp E).

  (* the run from w to w' went through [states] *)
  Definition ext (w : world) (states : list fs) (w' : world) : Prop :=
    w_fs w' = last states (w_fs w) /\ w_seen w' = w_seen w ++ states /\ w_stdout w' = w_stdout w.
  Lemma last_app {A} (l l' : list A) d : last (l ++ l') d = last l' (last l d).
  Proof.
    destruct l' as [|x l' _] using rev_ind; [now rewrite app_nil_r|]. now rewrite app_assoc, !last_last.
  Qed.
  Lemma ext_nil w : ext w [] w.
  Proof. repeat split; try reflexivity. cbn. now rewrite app_nil_r. Qed.
  Lemma ext_app w s1 w1 s2 w2 : ext w s1 w1 -> ext w1 s2 w2 -> ext w (s1 ++ s2) w2.
  Proof.
    intros (A1 & A2 & A3) (B1 & B2 & B3). repeat split; [now rewrite last_app, <- A1|now rewrite B2, A2, app_assoc|congruence].
  Qed.
  Lemma ext_trans0 w w1 s w2 : ext w [] w1 -> ext w1 s w2 -> ext w s w2.
  Proof. intros H1 H2. exact (ext_app _ _ _ _ _ H1 H2). Qed.
  Lemma op_inv {A} (f : fault -> fs -> A * list fs) w o w' : op E f w = (o, w') ->
    exists a states, o = Val a /\ ext w states w' /\ f (e_fault E (w_ops w)) (w_fs w) = (a, states).
  Proof.
    unfold op. destruct (f _ _) as [a states]. intros [= <- <-]. exists a, states. repeat split.
  Qed.
  Lemma bnd_inv {A B} (m : prog A) (k : A -> prog B) w o w' : pbnd m k w = (o, w') ->
    (exists a w1, m w = (Val a, w1) /\ k a w1 = (o, w')) \/
    (exists o1, m w = (o1, w') /\ match o1, o with Exit c, Exit c' => c = c' | Abort, Abort => True | Stuck, Stuck => True | _, _ => False end).
  Proof.
    unfold pbnd. destruct (m w) as [[a|c| |] w1]; intros H; [left; eauto| | |]; right; injection H as <- <-; eexists; (split; [reflexivity|]); cbn; trivial.
  Qed.
  Lemma open_read_inv p w o w' : open_read E p w = (o, w') -> ext w [] w' /\
    exists b, o = Val b /\ (b = true -> (exists m d, w_fs w p = Some (File m d) /\ readable m = true) \/ w_fs w p = Some Dir).
  Proof.
    intros H. unfold open_read in H. apply op_inv in H as (b & st & -> & Hx & H). injection H as Hb <-. split; [assumption|]. exists b. split; [reflexivity|].
    intros ->. destruct (e_fault E (w_ops w)); try discriminate. destruct (w_fs w p) as [[m d|]|]; try discriminate; eauto.
  Qed.
  Lemma read_all_inv p w o w' : read_all E p w = (o, w') -> ext w [] w' /\
    exists r, o = Val r /\ match r with Some d => exists m, w_fs w p = Some (File m d) | None => True end.
  Proof.
    intros H. unfold read_all in H. apply op_inv in H as (b & st & -> & Hx & H). injection H as Hb <-. split; [assumption|]. exists b. split; [reflexivity|].
    destruct b as [d|]; [|trivial]. destruct (e_fault E (w_ops w)); try discriminate. destruct (w_fs w p) as [[m d'|]|]; try discriminate. injection Hb as ->. eauto.
  Qed.
  Lemma create_new_inv p w o w' : create_new E p w = (o, w') ->
    (o = Val false /\ ext w [] w') \/ (o = Val true /\ w_fs w p = None /\ ext w [upd (w_fs w) p (Some (File (e_mode E) []))] w').
  Proof.
    intros H. unfold create_new in H. apply op_inv in H as (b & st & -> & Hx & H). destruct (e_fault E (w_ops w)), (w_fs w p) eqn:Ep; injection H as <- <-; auto.
  Qed.
  Lemma create_inv p w o w' : create E p w = (o, w') ->
    (o = Val false /\ ext w [] w') \/
    (exists m, o = Val true /\ ext w [upd (w_fs w) p (Some (File m []))] w' /\ (w_fs w p = None /\ m = e_mode E \/ exists d, w_fs w p = Some (File m d))).
  Proof.
    intros H. unfold create in H. apply op_inv in H as (b & st & -> & Hx & H).
    destruct (e_fault E (w_ops w)), (w_fs w p) as [[m d|]|] eqn:Ep; injection H as <- <-; eauto 7.
  Qed.
  Definition prefixes (p : path) (m : N) (d out : list byte) (f : fs) : list fs :=
    map (fun k => upd f p (Some (File m (d ++ firstn k out)))) (seq 0 (S (length out))).
  Lemma write_file_inv {A} p (io : io A) full r w o w' m d : emits io full r -> w_fs w p = Some (File m d) -> write_file E p io w = (o, w') ->
    (o = Val r /\ ext w (prefixes p m d full (w_fs w)) w') \/
    (o = Val IoErr /\ exists n, ext w (prefixes p m d (firstn n full) (w_fs w)) w' /\ n < length full).
  Proof.
    intros [Hr He] Ef H. unfold write_file in H. apply op_inv in H as (b & st & -> & Hx & H). rewrite Ef in H. rewrite He in H. unfold run_emit in H. cbn [w_room w_out app] in H.
    destruct (e_fault E (w_ops w)) as [| |n].
    - injection H as <- <-. auto.
    - destruct (length full <=? 0) eqn:El; injection H as <- <-; [auto|]. right. split; [reflexivity|]. exists 0. split; [assumption|]. apply Nat.leb_gt in El. lia.
    - destruct (length full <=? n) eqn:El; injection H as <- <-; [auto|]. right. split; [reflexivity|]. exists n. split; [assumption|]. now apply Nat.leb_gt in El.
  Qed.
  Lemma rename_inv p q m d w o w' : w_fs w p = Some (File m d) -> p <> q -> rename E p q w = (o, w') ->
    (o = Val false /\ ext w [] w') \/ (o = Val true /\ ext w [upd (upd (w_fs w) p None) q (Some (File m d))] w').
  Proof.
    intros Ep Hpq H. unfold rename in H. apply op_inv in H as (b & st & -> & Hx & H). rewrite Ep, (path_eqb_neq _ _ Hpq) in H.
    destruct (e_fault E (w_ops w)); [|injection H as <- <-; auto|injection H as <- <-; auto].
    destruct (w_fs w q) as [[]|]; injection H as <- <-; auto.
  Qed.
  Lemma remove_inv p w o w' : remove_file E p w = (o, w') ->
    (o = Val false /\ ext w [] w') \/ (exists m d, o = Val true /\ w_fs w p = Some (File m d) /\ ext w [upd (w_fs w) p None] w').
  Proof.
    intros H. unfold remove_file in H. apply op_inv in H as (b & st & -> & Hx & H).
    destruct (e_fault E (w_ops w)), (w_fs w p) as [[]|] eqn:Ep; injection H as <- <-; eauto 6.
  Qed.
  Lemma drop_inv w o w' : drop_temp E w = (o, w') ->
    o = Val tt /\ (ext w [] w' \/ ext w [upd (w_fs w) tmp None] w').
  Proof.
    intros H. unfold drop_temp in H. apply bnd_inv in H as [(b & w1 & H & H')|(o1 & H & Ho)].
    - injection H' as <- <-. apply remove_inv in H as [(_ & H)|(m & d & _ & _ & H)]; auto.
    - apply remove_inv in H as [(-> & H)|(m & d & -> & _)]; destruct o; contradiction.
  Qed.
  (* after the rename there is nothing to drop *)
  Lemma drop_none w o w' : w_fs w tmp = None -> drop_temp E w = (o, w') -> o = Val tt /\ ext w [] w'.
  Proof.
    intros Hn H. unfold drop_temp in H. apply bnd_inv in H as [(b & w1 & H & H')|(o1 & H & Ho)].
    - injection H' as <- <-. apply remove_inv in H as [(_ & H)|(m & d & _ & H & _)]; [auto|congruence].
    - apply remove_inv in H as [(-> & H)|(m & d & -> & _)]; destruct o; contradiction.
  Qed.

  (* only the temporary file differs *)
  Definition aside (f g : fs) : Prop := forall p, p <> tmp -> g p = f p.
  Lemma aside_refl f : aside f f.
  Proof. intros p _. reflexivity. Qed.
  Lemma aside_upd f g n : aside f g -> aside f (upd g tmp n).
  Proof. intros H p Hp. rewrite upd_other by congruence. auto. Qed.
  Lemma aside_prefixes f g m d out : aside f g -> Forall (aside f) (prefixes tmp m d out g).
  Proof. intros H. apply Forall_map, Forall_forall. intros k _. now apply aside_upd. Qed.
  Lemma last_map_seq {A} (h : nat -> A) n d : last (map h (seq 0 (S n))) d = h n.
  Proof. rewrite seq_S, map_app. cbn [map]. now rewrite last_last. Qed.
  Lemma prefixes_last p m d out f x : last (prefixes p m d out f) x = upd f p (Some (File m (d ++ out))).
  Proof. unfold prefixes. now rewrite last_map_seq, firstn_all. Qed.

  (* [d] is the content of the file to be patched, [new] that of the finished temporary file *)
  Definition installed (f : fs) (t : path) (new : list byte) (g : fs) : Prop :=
    g t = Some (File (e_mode E) new) /\ g tmp = None /\ forall p, p <> t -> p <> tmp -> g p = f p.
  Inductive course {A B} (t : path) (items : list byte -> res (option A)) (apply : A -> io B) (f : fs) : outcome unit -> list fs -> Prop :=
  | c_early : course t items apply f (Exit 1) []
  | c_early_abort m d : f t = Some (File m d) -> readable m = true -> items d = Panic -> course t items apply f Abort []
  | c_early_stuck m d : f t = Some (File m d) -> readable m = true -> items d = OutOfFuel -> course t items apply f Stuck []
  | c_late m d x states : f t = Some (File m d) -> readable m = true -> items d = Ok (Some x) -> f tmp = None -> Forall (aside f) states ->
      course t items apply f (Exit 1) states
  | c_abort m d x states : f t = Some (File m d) -> readable m = true -> items d = Ok (Some x) -> f tmp = None -> Forall (aside f) states ->
      fst (apply x (Writer [] None)) = Panicked -> course t items apply f Abort states
  | c_stuck m d x states : f t = Some (File m d) -> readable m = true -> items d = Ok (Some x) -> f tmp = None -> Forall (aside f) states ->
      fst (apply x (Writer [] None)) = NoFuel -> course t items apply f Stuck states
  | c_done m d x b new states g : f t = Some (File m d) -> readable m = true -> items d = Ok (Some x) -> f tmp = None -> Forall (aside f) states ->
      apply x (Writer [] None) = (Done b, Writer new None) -> installed f t new g ->
      course t items apply f (Val tt) (states ++ [g]).
  Lemma patch_change_inv {A B} t items (apply : A -> io B) w o w' : (forall x, emitting (apply x)) ->
    patch_change E t items apply w = (o, w') -> exists states, ext w states w' /\ course t items apply (w_fs w) o states.
  Proof.
    intros Hem H. unfold patch_change in H.
    apply bnd_inv in H as [(b & w1 & H1 & H)|(o1 & H1 & Ho)].
    2: { apply open_read_inv in H1 as (_ & b & -> & _). destruct o; contradiction. }
    apply open_read_inv in H1 as (X1 & b' & [= <-] & Hb). destruct b; [|injection H as <- <-; eauto using c_early].
    apply bnd_inv in H as [(r & w2 & H2 & H)|(o1 & H2 & Ho)].
    2: { apply read_all_inv in H2 as (_ & r & -> & _). destruct o; contradiction. }
    apply read_all_inv in H2 as (X2 & r' & [= <-] & Hr). pose proof (ext_trans0 _ _ _ _ X1 X2) as X. clear X2.
    destruct r as [d|]; [|injection H as <- <-; eauto using c_early].
    destruct Hr as (m & Hr). assert (Ef : w_fs w t = Some (File m d)) by (destruct X1 as (X1 & _); cbn in X1; congruence). clear Hr X1.
    assert (Hm : readable m = true) by (destruct (Hb eq_refl) as [(m1 & d1 & E1 & Hm)|E1]; congruence). clear Hb.
    apply bnd_inv in H as [(x & w3 & H3 & H)|(o1 & H3 & Ho)].
    2: { unfold pure in H3. destruct (items d) eqn:Ei; injection H3 as <- <-; destruct o; try contradiction; exists []; split; auto; [eapply c_early_abort|eapply c_early_stuck]; eauto. }
    assert (Ei : items d = Ok x /\ w3 = w2) by (unfold pure in H3; destruct (items d); [injection H3 as -> ->; auto|discriminate|discriminate]). destruct Ei as [Ei ->]. clear H3.
    destruct x as [x|]; [|injection H as <- <-; eauto using c_early].
    assert (E2 : w_fs w2 = w_fs w) by apply X.
    apply bnd_inv in H as [(b & w3 & H3 & H)|(o1 & H3 & Ho)].
    2: { apply create_new_inv in H3 as [(-> & _)|(-> & _)]; destruct o; contradiction. }
    apply create_new_inv in H3 as [([= ->] & X3)|([= ->] & Et & X3)].
    { injection H as <- <-. exists []. split; [exact (ext_trans0 _ _ _ _ X X3)|constructor]. }
    pose proof (ext_trans0 _ _ _ _ X X3) as X'. clear X X3. rewrite E2 in *. rename X' into X. clear E2 w2.
    set (f1 := upd (w_fs w) tmp (Some (File (e_mode E) []))) in *.
    assert (E3 : w_fs w3 = f1) by apply X.
    assert (A1 : aside (w_fs w) f1) by (apply aside_upd, aside_refl).
    apply bnd_inv in H as [(b & w4 & H4 & H)|(o1 & H4 & Ho)].
    2: { apply create_inv in H4 as [(-> & _)|(m' & -> & _)]; destruct o; contradiction. }
    apply create_inv in H4 as [([= ->] & X4)|(m' & [= ->] & X4 & Hm')].
    { injection H as <- <-. exists ([f1] ++ []). split; [exact (ext_app _ _ _ _ _ X X4)|]. eapply c_late; eauto; cbn; auto. }
    assert (m' = e_mode E).
    { destruct Hm' as [(_ & ->)|(d' & Hm')]; [reflexivity|]. rewrite E3 in Hm'. unfold f1 in Hm'. rewrite upd_same in Hm'. congruence. }
    subst m'. clear Hm'. rewrite E3 in X4. set (f2 := upd f1 tmp (Some (File (e_mode E) []))) in *.
    pose proof (ext_app _ _ _ _ _ X X4) as X'. clear X. rename X' into X. cbn [app] in X.
    assert (E4 : w_fs w4 = f2) by apply X4. assert (A2 : aside (w_fs w) f2) by (now apply aside_upd).
    assert (Et4 : w_fs w4 tmp = Some (File (e_mode E) [])) by (rewrite E4; apply upd_same). clear X4.
    destruct (Hem x) as (full & r & Hx). pose proof (emits_run _ _ _ Hx) as Hrun.
    apply bnd_inv in H as [(b & w5 & H5 & H)|(o1 & H5 & Ho)].
    2: { destruct (write_file_inv _ _ _ _ _ _ _ _ _ Hx Et4 H5) as [(-> & _)|(-> & _)]; destruct o; contradiction. }
    destruct (write_file_inv _ _ _ _ _ _ _ _ _ Hx Et4 H5) as [([= ->] & X5)|([= ->] & n & X5 & _)].
    2: { injection H as <- <-. eexists. split; [exact (ext_app _ _ _ _ _ X X5)|]. eapply c_late; eauto. apply Forall_app. split; [auto|]. rewrite E4. now apply aside_prefixes. }
    pose proof (ext_app _ _ _ _ _ X X5) as X'. clear X. rename X' into X.
    assert (A5 : Forall (aside (w_fs w)) ([f1; f2] ++ prefixes tmp (e_mode E) [] full (w_fs w4))).
    { apply Forall_app. split; [auto|]. rewrite E4. now apply aside_prefixes. }
    assert (E5 : w_fs w5 = upd f2 tmp (Some (File (e_mode E) full))).
    { destruct X5 as (X5 & _). rewrite X5, prefixes_last, E4. reflexivity. }
    assert (Hne : t <> tmp) by (intros ->; congruence).
    destruct r as [b| | |].
    - apply bnd_inv in H as [(ok & w6 & H6 & H)|(o1 & H6 & Ho)].
      2: { eapply rename_inv in H6 as [(-> & _)|(-> & _)]; [destruct o; contradiction|destruct o; contradiction|rewrite E5; apply upd_same|congruence]. }
      eapply rename_inv in H6 as [([= ->] & X6)|([= ->] & X6)]; [| |rewrite E5; apply upd_same|congruence].
      { injection H as <- <-. eexists. split; [exact (ext_app _ _ _ _ _ X X6)|]. eapply c_late; eauto. now rewrite app_nil_r. }
      apply drop_none in H as [-> X7].
      + eexists. split; [exact (ext_app _ _ _ _ _ X (ext_app _ _ _ _ _ X6 X7))|]. rewrite app_nil_r.
        eapply c_done; eauto. rewrite E5. split; [apply upd_same|]. split; [rewrite upd_other by assumption; apply upd_same|].
        intros p Hp Ht. rewrite !upd_other by congruence. now apply A2.
      + destruct X6 as (X6 & _). rewrite X6. cbn [last]. rewrite upd_other by assumption. apply upd_same.
    - destruct Hx as [Hx _]. congruence.
    - apply bnd_inv in H as [(u & w6 & H6 & H)|(o1 & H6 & Ho)].
      2: { apply drop_inv in H6 as [-> _]. destruct o; contradiction. }
      injection H as <- <-. apply drop_inv in H6 as [_ [X6|X6]].
      + eexists. split; [exact (ext_app _ _ _ _ _ X X6)|]. rewrite app_nil_r. eapply c_abort; eauto. now rewrite Hrun.
      + eexists. split; [exact (ext_app _ _ _ _ _ X X6)|]. eapply c_abort; eauto; [|now rewrite Hrun]. apply Forall_app. split; [assumption|].
        constructor; [|constructor]. apply aside_upd. rewrite E5. now apply aside_upd.
    - injection H as <- <-. eexists. split; [exact X|]. eapply c_stuck; eauto. now rewrite Hrun.
  Qed.

  (* a panic in a run without faults removes the temporary file *)
  Lemma patch_change_abort {A B} t items (apply : A -> io B) w w' : fault_free E -> (forall x, emitting (apply x)) -> (forall d, items d <> Panic) ->
    patch_change E t items apply w = (Abort, w') -> w_fs w' tmp = None.
  Proof.
    intros FF Hem Hit H. unfold patch_change in H.
    apply bnd_inv in H as [(b & w1 & H1 & H)|(o1 & H1 & Ho)].
    2: { apply open_read_inv in H1 as (_ & b & -> & _). contradiction. }
    destruct b; [|discriminate].
    apply bnd_inv in H as [(r & w2 & H2 & H)|(o1 & H2 & Ho)].
    2: { apply read_all_inv in H2 as (_ & r & -> & _). contradiction. }
    destruct r as [d|]; [|discriminate].
    apply bnd_inv in H as [(x & w3 & H3 & H)|(o1 & H3 & Ho)].
    2: { unfold pure in H3. specialize (Hit d). destruct (items d); [|congruence|]; injection H3 as <- <-; contradiction. }
    destruct x as [x|]; [|discriminate].
    apply bnd_inv in H as [(b & w4 & H4 & H)|(o1 & H4 & Ho)].
    2: { apply create_new_inv in H4 as [(-> & _)|(-> & _)]; contradiction. }
    destruct b; [|discriminate].
    apply bnd_inv in H as [(b & w5 & H5 & H)|(o1 & H5 & Ho)].
    2: { apply create_inv in H5 as [(-> & _)|(m' & -> & _)]; contradiction. }
    apply create_inv in H5 as [([= ->] & _)|(m & [= ->] & X5 & _)]; [discriminate|].
    assert (E5 : w_fs w5 tmp = Some (File m [])) by (destruct X5 as (X5 & _); rewrite X5; apply upd_same).
    destruct (Hem x) as (full & r & Hx).
    apply bnd_inv in H as [(b & w6 & H6 & H)|(o1 & H6 & Ho)].
    2: { destruct (write_file_inv _ _ _ _ _ _ _ _ _ Hx E5 H6) as [(-> & _)|(-> & _)]; contradiction. }
    destruct b as [b| | |]; try discriminate.
    - apply bnd_inv in H as [(ok & w7 & H7 & H)|(o1 & H7 & Ho)].
      2: { unfold rename in H7. apply op_inv in H7 as (? & ? & -> & _). contradiction. }
      destruct ok; [|discriminate]. apply drop_inv in H as [H _]. discriminate.
    - apply bnd_inv in H as [(u & w7 & H7 & H)|(o1 & H7 & Ho)].
      2: { apply drop_inv in H7 as [-> _]. contradiction. }
      injection H as <-. destruct (write_file_inv _ _ _ _ _ _ _ _ _ Hx E5 H6) as [(_ & X6)|([=] & _)].
      assert (E6 : exists z, w_fs w6 tmp = Some (File m z)) by (destruct X6 as (X6 & _); rewrite X6, prefixes_last; eexists; apply upd_same).
      destruct E6 as (z & E6). unfold drop_temp, pbnd, remove_file, op in H7. rewrite FF, E6 in H7. cbn in H7. injection H7 as _ <-. cbn. apply upd_same.
  Qed.

  (* creating and removing *)
  Lemma patch_create_inv {B} t (m : io B) full r w o w' : emits m full r -> patch_create E t m w = (o, w') -> o = Val tt /\
    (ext w [] w' \/ (w_fs w t = None /\ exists n, ext w (upd (w_fs w) t (Some (File (e_mode E) [])) ::
       prefixes t (e_mode E) [] (firstn n full) (upd (w_fs w) t (Some (File (e_mode E) [])))) w')).
  Proof.
    intros Hx H. unfold patch_create in H. apply bnd_inv in H as [(b & w1 & H1 & H)|(o1 & H1 & Ho)].
    2: { apply create_new_inv in H1 as [(-> & _)|(-> & _)]; destruct o; contradiction. }
    apply create_new_inv in H1 as [([= ->] & X1)|([= ->] & Et & X1)]; [injection H as <- <-; auto|].
    assert (E1 : w_fs w1 = upd (w_fs w) t (Some (File (e_mode E) []))) by apply X1.
    assert (Et1 : w_fs w1 t = Some (File (e_mode E) [])) by (rewrite E1; apply upd_same).
    apply bnd_inv in H as [(b & w2 & H2 & H)|(o1 & H2 & Ho)].
    2: { destruct (write_file_inv _ _ _ _ _ _ _ _ _ Hx Et1 H2) as [(-> & _)|(-> & _)]; destruct o; contradiction. }
    injection H as <- <-. split; [reflexivity|]. right. split; [assumption|].
    destruct (write_file_inv _ _ _ _ _ _ _ _ _ Hx Et1 H2) as [(_ & X2)|(_ & n & X2 & _)]; rewrite E1 in X2.
    - exists (length full). rewrite firstn_all. exact (ext_app _ _ _ _ _ X1 X2).
    - exists n. exact (ext_app _ _ _ _ _ X1 X2).
  Qed.
  Lemma patch_remove_inv t w o w' : patch_remove E t w = (o, w') ->
    (o = Exit 1 /\ ext w [] w') \/ (exists m d, o = Val tt /\ w_fs w t = Some (File m d) /\ ext w [upd (w_fs w) t None] w').
  Proof.
    intros H. unfold patch_remove in H. apply bnd_inv in H as [(b & w1 & H1 & H)|(o1 & H1 & Ho)].
    2: { apply remove_inv in H1 as [(-> & _)|(m & d & -> & _)]; destruct o; contradiction. }
    apply remove_inv in H1 as [([= ->] & X1)|(m & d & [= ->] & Et & X1)]; injection H as <- <-; eauto 7.
  Qed.

  (* the courses of applying a diff *)
  Inductive courses (d : diff) (reverse : bool) (f : fs) : outcome unit -> list fs -> Prop :=
  | k_refused : ~ (exists c, creates d reverse c) -> courses d reverse f (Exit 1) []
  | k_aborted states old : is_change d -> content f (target d) = Some old -> f tmp = None ->
      Forall (aside f) states -> (forall new, ~ patches_to (e_dbg E) reverse d old new) -> courses d reverse f Abort states
  | k_stuck states old : is_change d -> content f (target d) = Some old -> f tmp = None ->
      Forall (aside f) states -> (forall new, ~ patches_to (e_dbg E) reverse d old new) ->
      match d with
      | TextChange t => exists w, fst (text_apply_into (e_dbg E) (td_clumps t) (split_lines old) reverse w) = NoFuel
      | ByteChange t => exists w, fst (byte_apply_into (e_dbg E) (bd_clumps t) old reverse w) = NoFuel
      | _ => False
      end -> courses d reverse f Stuck states
  | k_failed states old : is_change d -> content f (target d) = Some old -> f tmp = None ->
      Forall (aside f) states -> courses d reverse f (Exit 1) states
  | k_done states old new g : is_change d -> content f (target d) = Some old -> f tmp = None ->
      Forall (aside f) states -> patches_to (e_dbg E) reverse d old new -> installed f (target d) new g ->
      courses d reverse f (Val tt) (states ++ [g])
  | k_no_create c : creates d reverse c -> courses d reverse f (Val tt) []
  | k_create c n : creates d reverse c -> f (target d) = None ->
      courses d reverse f (Val tt) (upd f (target d) (Some (File (e_mode E) [])) ::
        prefixes (target d) (e_mode E) [] (firstn n c) (upd f (target d) (Some (File (e_mode E) []))))
  | k_remove m x : removes d reverse -> f (target d) = Some (File m x) -> courses d reverse f (Val tt) [upd f (target d) None].

  Lemma content_file f t m d : f t = Some (File m d) -> readable m = true -> content f t = Some d.
  Proof. unfold content. intros ->. unfold readable. now intros ->. Qed.
  Lemma read_lines_ok s ls : read_lines s = Ok (Some ls) -> is_utf8 s /\ lines_of s ls /\ ls = split_lines s.
  Proof.
    rewrite read_lines_spec. destruct (utf8_valid s) eqn:Eu; intros [= <-]. split; [now apply utf8_valid_spec|]. split; [apply split_lines_lines_of|reflexivity].
  Qed.
  Lemma lines_of_split s ls : lines_of s ls -> ls = split_lines s.
  Proof. apply lines_of_unique. Qed.

  Lemma patches_text_inv dbg reverse d old new : patches_to dbg reverse (TextChange d) old new ->
    is_utf8 old /\ exists st, text_apply_into dbg (td_clumps d) (split_lines old) reverse (Writer [] None) = (Done st, Writer new None).
  Proof. intros H. inversion H as [d0 o0 ls st n0 Hu Hl Hr|]; subst. split; [assumption|]. rewrite <- (lines_of_split _ _ Hl). eauto. Qed.
  Lemma patches_byte_inv dbg reverse d old new : patches_to dbg reverse (ByteChange d) old new ->
    exists u, byte_apply_into dbg (bd_clumps d) old reverse (Writer [] None) = (Done u, Writer new None).
  Proof. intros H. inversion H; subst. eauto. Qed.

  Lemma patch_diff_inv d reverse w o w' : patch_diff E d reverse w = (o, w') ->
    exists states, ext w states w' /\ courses d reverse (w_fs w) o states.
  Proof.
    intros H. destruct d as [d|p|p|d|p|p]; cbn [patch_diff] in H.
    - apply patch_change_inv in H as (states & X & H); [|intros; apply emitting_text_apply].
      exists states. split; [exact X|]. inversion H as [Eo Es|m x Ex Hm Ei Eo Es|m x Ex Hm Ei Eo Es|m x ls st Ex Hm Ei Et Ha Eo Es|m x ls st Ex Hm Ei Et Ha Er Eo Es|m x ls st Ex Hm Ei Et Ha Er Eo Es|m x ls b new st g Ex Hm Ei Et Ha Er Hi Eo Es]; clear H; subst.
      + apply k_refused. intros (c & []).
      + rewrite read_lines_spec in Ei. discriminate.
      + rewrite read_lines_spec in Ei. discriminate.
      + eapply k_failed; [exact I|exact (content_file _ _ _ _ Ex Hm)|assumption..].
      + eapply k_aborted; [exact I|exact (content_file _ _ _ _ Ex Hm)|assumption|assumption|].
        intros new Hp. apply patches_text_inv in Hp as (_ & st' & Hp). apply read_lines_ok in Ei as (_ & _ & ->). rewrite Hp in Er. discriminate.
      + eapply k_stuck; [exact I|exact (content_file _ _ _ _ Ex Hm)|assumption|assumption| |].
        * intros new Hp. apply patches_text_inv in Hp as (_ & st' & Hp). apply read_lines_ok in Ei as (_ & _ & ->). rewrite Hp in Er. discriminate.
        * apply read_lines_ok in Ei as (_ & _ & ->). eauto.
      + eapply k_done; [exact I|exact (content_file _ _ _ _ Ex Hm)|assumption|assumption| |exact Hi].
        apply read_lines_ok in Ei as (Hu & Hl & _). econstructor; eauto.
    - destruct reverse.
      + apply patch_remove_inv in H as [(-> & X)|(m & x & -> & Et & X)]; eexists; (split; [exact X|]).
        * apply k_refused. intros (c & Hc & _). discriminate.
        * eapply k_remove; [reflexivity|exact Et].
      + eapply patch_create_inv in H as [-> [X|(Et & n & X)]]; [| |apply emits_write_lines]; eexists; (split; [exact X|]).
        * eapply k_no_create. now split.
        * eapply (k_create (TextAdd p)); [now split|assumption].
    - destruct reverse.
      + eapply patch_create_inv in H as [-> [X|(Et & n & X)]]; [| |apply emits_write_lines]; eexists; (split; [exact X|]).
        * eapply k_no_create. now split.
        * eapply (k_create (TextRemove p)); [now split|assumption].
      + apply patch_remove_inv in H as [(-> & X)|(m & x & -> & Et & X)]; eexists; (split; [exact X|]).
        * apply k_refused. intros (c & Hc & _). discriminate.
        * eapply k_remove; [reflexivity|exact Et].
    - apply patch_change_inv in H as (states & X & H); [|intros; apply emitting_byte_apply].
      exists states. split; [exact X|]. inversion H as [Eo Es|m x Ex Hm Ei Eo Es|m x Ex Hm Ei Eo Es|m x ls st Ex Hm Ei Et Ha Eo Es|m x ls st Ex Hm Ei Et Ha Er Eo Es|m x ls st Ex Hm Ei Et Ha Er Eo Es|m x ls b new st g Ex Hm Ei Et Ha Er Hi Eo Es]; clear H; subst; try discriminate Ei; try (injection Ei as <-).
      + apply k_refused. intros (c & []).
      + eapply k_failed; [exact I|exact (content_file _ _ _ _ Ex Hm)|assumption..].
      + eapply k_aborted; [exact I|exact (content_file _ _ _ _ Ex Hm)|assumption|assumption|].
        intros new Hp. inversion Hp as [|d0 old u new0 Hr]; subst. rewrite Hr in Er. discriminate.
      + eapply k_stuck; [exact I|exact (content_file _ _ _ _ Ex Hm)|assumption|assumption| |eauto].
        intros new Hp. inversion Hp as [|d0 old u new0 Hr]; subst. rewrite Hr in Er. discriminate.
      + eapply k_done; [exact I|exact (content_file _ _ _ _ Ex Hm)|assumption|assumption| |exact Hi]. econstructor; eauto.
    - destruct reverse.
      + apply patch_remove_inv in H as [(-> & X)|(m & x & -> & Et & X)]; eexists; (split; [exact X|]).
        * apply k_refused. intros (c & Hc & _). discriminate.
        * eapply k_remove; [reflexivity|exact Et].
      + eapply patch_create_inv in H as [-> [X|(Et & n & X)]]; [| |apply emits_write_all]; eexists; (split; [exact X|]).
        * eapply k_no_create. now split.
        * eapply (k_create (ByteAdd p)); [now split|assumption].
    - destruct reverse.
      + eapply patch_create_inv in H as [-> [X|(Et & n & X)]]; [| |apply emits_write_all]; eexists; (split; [exact X|]).
        * eapply k_no_create. now split.
        * eapply (k_create (ByteRemove p)); [now split|assumption].
      + apply patch_remove_inv in H as [(-> & X)|(m & x & -> & Et & X)]; eexists; (split; [exact X|]).
        * apply k_refused. intros (c & Hc & _). discriminate.
        * eapply k_remove; [reflexivity|exact Et].
  Qed.
  Lemma load_total s : diff_from_json s = Ok None \/ exists d, diff_from_json s = Ok (Some d) /\ valid_diff d.
  Proof. destruct (diff_from_json_cases s) as [(d & r & _ & Hd & [(_ & ->)|(_ & ->)])|(_ & ->)]; eauto. Qed.
  Lemma patch_main_inv patch reverse f o w' : patch_main E patch reverse (start f) = (o, w') ->
    exists states, w_seen w' = f :: states /\ w_fs w' = last states f /\ w_stdout w' = [] /\
      ((o = Exit 1 /\ states = []) \/ exists d, holds_diff f patch d /\ courses d reverse f o states).
  Proof.
    intros H. unfold patch_main in H. apply bnd_inv in H as [(b & w1 & H1 & H)|(o1 & H1 & Ho)].
    2: { apply open_read_inv in H1 as (_ & b & -> & _). destruct o; contradiction. }
    apply open_read_inv in H1 as (X1 & b' & [= <-] & Hb).
    assert (R : forall w, ext (start f) [] w -> exists states, w_seen w = f :: states /\ w_fs w = last states f /\ w_stdout w = [] /\
      ((@Exit unit 1 = Exit 1 /\ states = []) \/ exists d, holds_diff f patch d /\ courses d reverse f (Exit 1) states)).
    { intros w (A1 & A2 & A3). exists []. cbn in *. auto 7. }
    destruct b; [|injection H as <- <-; auto].
    apply bnd_inv in H as [(r & w2 & H2 & H)|(o1 & H2 & Ho)].
    2: { apply read_all_inv in H2 as (_ & r & -> & _). destruct o; contradiction. }
    apply read_all_inv in H2 as (X2 & r' & [= <-] & Hr). pose proof (ext_trans0 _ _ _ _ X1 X2) as X. clear X2.
    destruct r as [s|]; [|injection H as <- <-; auto]. destruct Hr as (m & Hr).
    assert (E1 : w_fs w1 = f) by apply X1. rewrite E1 in Hr.
    assert (Hm : readable m = true) by (destruct (Hb eq_refl) as [(m1 & d1 & Ef & Hm)|Ef]; cbn in Ef; congruence).
    destruct (load_total s) as [Hs|(d & Hs & Hd)]; rewrite Hs in H; cbn in H; [injection H as <- <-; auto|].
    change (patch_diff E d reverse w2 = (o, w')) in H. apply patch_diff_inv in H as (states & X3 & Hk).
    assert (E2 : w_fs w2 = f) by apply X. rewrite E2 in Hk. destruct (ext_trans0 _ _ _ _ X X3) as (A1 & A2 & A3). exists states. cbn in *.
    repeat (split; [assumption|]). right. exists d. split; [|assumption]. exists s. split; [now apply (content_file _ _ m)|assumption].
  Qed.
  Lemma holds_diff_unique f p d d' : holds_diff f p d -> holds_diff f p d' -> d = d'.
  Proof. intros (s & E1 & E2) (s' & E3 & E4). congruence. Qed.
End Files.

(* ------------------------------------------------------------------ *)
(* Reading: Diff::new and pw_diff                                      *)
(* ------------------------------------------------------------------ *)
Section Reading.
  Variable E : env.
  Definition quiet {A} (m : prog A) : Prop := forall w, ext w [] (snd (m w)).
  Lemma quiet_ret {A} (a : A) : quiet (pret a).
  Proof. intros w. apply ext_nil. Qed.
  Lemma quiet_pure {A} (m : res A) : quiet (pure m).
  Proof. intros w. destruct m; apply ext_nil. Qed.
  Lemma quiet_bnd {A B} (m : prog A) (k : A -> prog B) : quiet m -> (forall a, quiet (k a)) -> quiet (pbnd m k).
  Proof.
    intros Hm Hk w. unfold pbnd. specialize (Hm w). destruct (m w) as [[a|c| |] w1]; cbn in *; try assumption.
    exact (ext_trans0 _ _ _ _ Hm (Hk a w1)).
  Qed.
  Lemma quiet_op {A} (f : fault -> fs -> A) : quiet (op E (fun flt s => (f flt s, []))).
  Proof. intros w. repeat split. Qed.
  Lemma quiet_exists p : quiet (path_exists E p). Proof. apply quiet_op. Qed.
  Lemma quiet_open p : quiet (open_read E p). Proof. apply quiet_op. Qed.
  Lemma quiet_all p : quiet (read_all E p). Proof. apply quiet_op. Qed.
  Lemma quiet_text p : quiet (read_text E p).
  Proof.
    apply quiet_bnd; [apply quiet_open|]. intros []; [|apply quiet_ret]. apply quiet_bnd; [apply quiet_all|].
    intros [d|]; [apply quiet_pure|apply quiet_ret].
  Qed.
  Lemma quiet_bytes p : quiet (read_bytes E p).
  Proof. apply quiet_bnd; [apply quiet_open|]. intros []; [apply quiet_all|apply quiet_ret]. Qed.
  Lemma quiet_diff_new b a context : quiet (diff_new E b a context).
  Proof.
    apply quiet_bnd; [apply quiet_exists|]. intros []; (apply quiet_bnd; [apply quiet_exists|]); intros [].
    - apply quiet_bnd.
      + apply quiet_bnd; [apply quiet_text|]. intros [x|]; [|apply quiet_ret]. apply quiet_bnd; [apply quiet_text|]. intros [y|]; [|apply quiet_ret].
        apply quiet_bnd; [apply quiet_pure|]. intros. apply quiet_ret.
      + intros [t|]; [apply quiet_ret|]. apply quiet_bnd; [|intros; apply quiet_ret].
        apply quiet_bnd; [apply quiet_bytes|]. intros [x|]; [|apply quiet_ret]. apply quiet_bnd; [apply quiet_bytes|]. intros [y|]; [|apply quiet_ret].
        apply quiet_bnd; [apply quiet_pure|]. intros. apply quiet_ret.
    - apply quiet_bnd; [apply quiet_text|]. intros [t|]; [apply quiet_ret|]. apply quiet_bnd; [apply quiet_bytes|]. intros; apply quiet_ret.
    - apply quiet_bnd; [apply quiet_text|]. intros [t|]; [apply quiet_ret|]. apply quiet_bnd; [apply quiet_bytes|]. intros; apply quiet_ret.
    - apply quiet_ret.
  Qed.

  (* what a reading program answers when the files are f *)
  Definition answers {A} (m : prog A) (f : fs) (P : outcome A -> Prop) : Prop := forall w, w_fs w = f -> P (fst (m w)).
  Lemma answers_bnd {A B} (m : prog A) (k : A -> prog B) f (P : outcome A -> Prop) (Q : outcome B -> Prop) : quiet m -> answers m f P ->
    (forall o, P o -> match o with
                      | Val a => answers (k a) f Q
                      | Exit c => Q (Exit c)
                      | Abort => Q Abort
                      | Stuck => Q Stuck
                      end) -> answers (pbnd m k) f Q.
  Proof.
    intros Hq Hm Hk w Ew. unfold pbnd. specialize (Hq w). specialize (Hm w Ew). destruct (m w) as [o w1]. cbn [fst snd] in *. specialize (Hk o Hm).
    destruct o as [a|c| |]; try exact Hk. apply Hk. destruct Hq as (Hq & _). cbn in Hq. congruence.
  Qed.
  (* with or without faults: an answer is right *)
  Lemma answers_open p f : answers (open_read E p) f (fun o => exists b, o = Val b /\
    (b = true -> (exists m d, f p = Some (File m d) /\ readable m = true) \/ f p = Some Dir)).
  Proof. intros w Ew. destruct (open_read E p w) as [o w'] eqn:H. apply open_read_inv in H as (_ & b & -> & Hb). rewrite Ew in Hb. exists b. split; [reflexivity|exact Hb]. Qed.
  Lemma answers_all p f : answers (read_all E p) f (fun o => exists r, o = Val r /\ match r with Some d => exists m, f p = Some (File m d) | None => True end).
  Proof. intros w Ew. destruct (read_all E p w) as [o w'] eqn:H. apply read_all_inv in H as (_ & b & -> & Hb). rewrite Ew in Hb. exists b. split; [reflexivity|exact Hb]. Qed.
  Lemma answers_exists p f : answers (path_exists E p) f (fun o => exists b, o = Val b /\ (b = true -> present f p)).
  Proof.
    intros w Ew. unfold path_exists. destruct (op E _ w) as [o w'] eqn:H. apply op_inv in H as (b & st & -> & _ & H). injection H as Hb _. exists b. split; [reflexivity|].
    intros ->. rewrite Ew in Hb. unfold present. destruct (e_fault E (w_ops w)), (f p); congruence.
  Qed.
  Lemma answers_text p f : answers (read_text E p) f (fun o => exists r, o = Val r /\ forall ls, r = Some ls -> text_of f p ls).
  Proof.
    eapply answers_bnd; [apply quiet_open|apply answers_open|]. intros o (b & -> & Hb). destruct b; [|intros w _; cbn; eexists; split; [reflexivity|discriminate]].
    eapply answers_bnd; [apply quiet_all|apply answers_all|]. intros o (r & -> & Hr). destruct r as [d|]; [|intros w _; cbn; eexists; split; [reflexivity|discriminate]].
    intros w _. unfold pure. rewrite read_lines_spec. cbn. eexists. split; [reflexivity|]. intros ls. destruct (utf8_valid d) eqn:Eu; intros [= <-].
    destruct Hr as (m & Hr). exists d. split; [|split; [now apply utf8_valid_spec|apply split_lines_lines_of]].
    apply (content_file _ _ m); [assumption|]. destruct (Hb eq_refl) as [(m' & d' & H1 & H2)|H1]; congruence.
  Qed.
  Lemma answers_bytes p f : answers (read_bytes E p) f (fun o => exists r, o = Val r /\ forall c, r = Some c -> content f p = Some c).
  Proof.
    eapply answers_bnd; [apply quiet_open|apply answers_open|]. intros o (b & -> & Hb). destruct b; [|intros w _; cbn; eexists; split; [reflexivity|discriminate]].
    intros w Ew. destruct (answers_all p f w Ew) as (r & Er & Hr). exists r. split; [exact Er|]. intros c ->. destruct Hr as (m & Hr).
    apply (content_file _ _ m); [assumption|]. destruct (Hb eq_refl) as [(m' & d' & H1 & H2)|H1]; congruence.
  Qed.
  Lemma answers_diff before after context f : context <= 255 -> answers (diff_new E before after context) f (fun o =>
    exists r, o = Val r /\ forall d, r = Some d -> describes f before after context d).
  Proof.
    intros Hctx. eapply answers_bnd; [apply quiet_exists|apply answers_exists|]. intros o (be & -> & Hbe).
    assert (Q : forall B (k : B) , quiet (pret k)) by (intros; apply quiet_ret).
    destruct be; (eapply answers_bnd; [apply quiet_exists|apply answers_exists|]; intros o (ae & -> & Hae)); destruct ae.
    - eapply answers_bnd with (P := fun o => exists r, o = Val r /\ forall t, r = Some t -> describes f before after context (TextChange t)).
      + apply quiet_bnd; [apply quiet_text|]. intros [x|]; [|apply quiet_ret]. apply quiet_bnd; [apply quiet_text|]. intros [y|]; [|apply quiet_ret].
        apply quiet_bnd; [apply quiet_pure|]. intros. apply quiet_ret.
      + eapply answers_bnd; [apply quiet_text|apply answers_text|]. intros o (r & -> & Hr). destruct r as [lb|]; [|intros w _; cbn; eexists; split; [reflexivity|discriminate]].
        eapply answers_bnd; [apply quiet_text|apply answers_text|]. intros o (r & -> & Hr'). destruct r as [la|]; [|intros w _; cbn; eexists; split; [reflexivity|discriminate]].
        intros w _. destruct (text_diff_spec lb la context Hctx) as (cs & clumps & hs & _ & _ & _ & _ & E5 & _). unfold pbnd, pure. rewrite E5. cbn.
        eexists. split; [reflexivity|]. intros t [= <-]. cbn. do 2 (split; [reflexivity|]). exists lb, la. auto.
      + intros o (r & -> & Hr). destruct r as [t|]; [intros w _; cbn; eexists; split; [reflexivity|]; intros d [= <-]; now apply Hr|].
        eapply answers_bnd with (P := fun o => exists r, o = Val r /\ forall t, r = Some t -> describes f before after context (ByteChange t)).
        * apply quiet_bnd; [apply quiet_bytes|]. intros [x|]; [|apply quiet_ret]. apply quiet_bnd; [apply quiet_bytes|]. intros [y|]; [|apply quiet_ret].
          apply quiet_bnd; [apply quiet_pure|]. intros. apply quiet_ret.
        * eapply answers_bnd; [apply quiet_bytes|apply answers_bytes|]. intros o (r & -> & Hr1). destruct r as [lb|]; [|intros w _; cbn; eexists; split; [reflexivity|discriminate]].
          eapply answers_bnd; [apply quiet_bytes|apply answers_bytes|]. intros o (r & -> & Hr2). destruct r as [la|]; [|intros w _; cbn; eexists; split; [reflexivity|discriminate]].
          intros w _. destruct (byte_diff_spec lb la context Hctx) as (cs & clumps & hs & _ & _ & _ & _ & E5 & _). unfold pbnd, pure. rewrite E5. cbn.
          eexists. split; [reflexivity|]. intros t [= <-]. cbn. do 3 (split; [reflexivity|]). exists lb, la. auto.
        * intros o (r & -> & Hr2) w _. cbn. eexists. split; [reflexivity|]. destruct r as [t|]; intros d [= <-]. now apply Hr2.
    - eapply answers_bnd; [apply quiet_text|apply answers_text|]. intros o (r & -> & Hr). destruct r as [ls|].
      + intros w _. cbn. eexists. split; [reflexivity|]. intros d [= <-]. cbn. auto.
      + eapply answers_bnd; [apply quiet_bytes|apply answers_bytes|]. intros o (r & -> & Hr'). intros w _. cbn. eexists. split; [reflexivity|].
        destruct r as [c|]; intros d [= <-]. cbn. auto.
    - eapply answers_bnd; [apply quiet_text|apply answers_text|]. intros o (r & -> & Hr). destruct r as [ls|].
      + intros w _. cbn. eexists. split; [reflexivity|]. intros d [= <-]. cbn. auto.
      + eapply answers_bnd; [apply quiet_bytes|apply answers_bytes|]. intros o (r & -> & Hr'). intros w _. cbn. eexists. split; [reflexivity|].
        destruct r as [c|]; intros d [= <-]. cbn. auto.
    - intros w _. cbn. eexists. split; [reflexivity|discriminate].
  Qed.

  (* without faults the answer is determined *)
  Hypothesis FF : fault_free E.
  Lemma ff_exists p f : answers (path_exists E p) f (fun o => o = Val (match f p with Some _ => true | None => false end)).
  Proof. intros w <-. unfold path_exists, op. cbn. now rewrite FF. Qed.
  Definition text_result (f : fs) (p : path) : option (list line) :=
    match content f p with Some c => if utf8_valid c then Some (split_lines c) else None | None => None end.
  Lemma ff_text p f : answers (read_text E p) f (fun o => o = Val (text_result f p)).
  Proof.
    intros w <-. unfold read_text, pbnd, open_read, read_all, op, text_result, content. cbn -[read_lines]. rewrite FF. unfold readable.
    destruct (w_fs w p) as [[m d|]|] eqn:Ep; cbn -[read_lines]; [|now rewrite FF, Ep|reflexivity]. destruct (N.testbit m 8); cbn -[read_lines]; [|reflexivity].
    rewrite FF, Ep. cbn -[read_lines]. unfold pure; now rewrite read_lines_spec.
  Qed.
  Lemma ff_bytes p f : answers (read_bytes E p) f (fun o => o = Val (content f p)).
  Proof.
    intros w <-. unfold read_bytes, pbnd, open_read, read_all, op, content. cbn. rewrite FF. unfold readable.
    destruct (w_fs w p) as [[m d|]|] eqn:Ep; cbn; [|now rewrite FF, Ep|reflexivity]. destruct (N.testbit m 8); cbn; [|reflexivity]. now rewrite FF, Ep.
  Qed.
  Lemma answers_bnd' {A B} (m : prog A) (k : A -> prog B) f a (Q : outcome B -> Prop) : quiet m -> answers m f (fun o => o = Val a) ->
    answers (k a) f Q -> answers (pbnd m k) f Q.
  Proof. intros Hq Hm Hk. eapply answers_bnd; [exact Hq|exact Hm|]. now intros o ->. Qed.
  (* the result of Diff::new *)
  Definition diff_result (f : fs) (before after : path) (context : nat) (r : option diff) : Prop :=
    match f before, f after with
    | Some _, Some _ =>
        match text_result f before, text_result f after, content f before, content f after with
        | Some lb, Some la, _, _ => exists cl, text_diff_clumps lb la context = Ok cl /\ r = Some (TextChange (TextDiff before after cl))
        | _, _, Some cb, Some ca => exists cl, byte_diff_clumps cb ca context = Ok cl /\ r = Some (ByteChange (ByteDiff before after false cl))
        | _, _, _, _ => r = None
        end
    | Some _, None =>
        r = match text_result f before, content f before with
            | Some ls, _ => Some (TextRemove (PathAndLines before ls))
            | None, Some c => Some (ByteRemove (PathAndBytes before false c))
            | None, None => None
            end
    | None, Some _ =>
        r = match text_result f after, content f after with
            | Some ls, _ => Some (TextAdd (PathAndLines before ls))
            | None, Some c => Some (ByteAdd (PathAndBytes before false c))
            | None, None => None
            end
    | None, None => r = None
    end.
  Lemma text_content f p ls : text_result f p = Some ls -> exists c, content f p = Some c /\ is_utf8 c /\ ls = split_lines c.
  Proof. unfold text_result. destruct (content f p) as [c|]; [|discriminate]. destruct (utf8_valid c) eqn:Eu; intros [= <-]. exists c. split; [reflexivity|]. split; [now apply utf8_valid_spec|reflexivity]. Qed.
  Lemma ff_diff before after context f : context <= 255 -> answers (diff_new E before after context) f (fun o => exists r, o = Val r /\ diff_result f before after context r).
  Proof.
    intros Hctx. eapply answers_bnd'; [apply quiet_exists|apply ff_exists|]. unfold diff_result.
    destruct (f before) as [nb|] eqn:Eb; (eapply answers_bnd'; [apply quiet_exists|apply ff_exists|]); destruct (f after) as [na|] eqn:Ea.
    - assert (Ht : answers (text_change_new E before after context) f (fun o =>
        match text_result f before, text_result f after with
        | Some lb, Some la => exists cl, text_diff_clumps lb la context = Ok cl /\ o = Val (Some (TextDiff before after cl))
        | _, _ => o = Val None
        end)).
      { eapply answers_bnd'; [apply quiet_text|apply ff_text|]. destruct (text_result f before) as [lb|]; [|now intros w _].
        eapply answers_bnd'; [apply quiet_text|apply ff_text|]. destruct (text_result f after) as [la|]; [|now intros w _].
        intros w _. destruct (text_diff_spec lb la context Hctx) as (cs & clumps & hs & _ & _ & _ & _ & E5 & _). unfold pbnd, pure. rewrite E5. cbn. eauto. }
      assert (Hb : answers (byte_change_new E before after context) f (fun o =>
        match content f before, content f after with
        | Some lb, Some la => exists cl, byte_diff_clumps lb la context = Ok cl /\ o = Val (Some (ByteDiff before after false cl))
        | _, _ => o = Val None
        end)).
      { eapply answers_bnd'; [apply quiet_bytes|apply ff_bytes|]. destruct (content f before) as [lb|]; [|now intros w _].
        eapply answers_bnd'; [apply quiet_bytes|apply ff_bytes|]. destruct (content f after) as [la|]; [|now intros w _].
        intros w _. destruct (byte_diff_spec lb la context Hctx) as (cs & clumps & hs & _ & _ & _ & _ & E5 & _). unfold pbnd, pure. rewrite E5. cbn. eauto. }
      eapply answers_bnd; [| exact Ht|].
      { apply quiet_bnd; [apply quiet_text|]. intros [x|]; [|apply quiet_ret]. apply quiet_bnd; [apply quiet_text|]. intros [y|]; [|apply quiet_ret].
        apply quiet_bnd; [apply quiet_pure|]. intros. apply quiet_ret. }
      intros o Ho.
      assert (Hrest : answers (run! d := byte_change_new E before after context in pret (option_map' ByteChange d)) f (fun o =>
        match content f before, content f after with
        | Some lb, Some la => exists cl, byte_diff_clumps lb la context = Ok cl /\ o = Val (Some (ByteChange (ByteDiff before after false cl)))
        | _, _ => o = Val None
        end)).
      { eapply answers_bnd; [|exact Hb|].
        - apply quiet_bnd; [apply quiet_bytes|]. intros [x|]; [|apply quiet_ret]. apply quiet_bnd; [apply quiet_bytes|]. intros [y|]; [|apply quiet_ret].
          apply quiet_bnd; [apply quiet_pure|]. intros. apply quiet_ret.
        - intros o' Ho'. destruct (content f before), (content f after); [destruct Ho' as (cl & Ec & ->)|subst o'..]; intros w _; cbn; eauto. }
      destruct (text_result f before) as [lb|] eqn:Tb; [destruct (text_result f after) as [la|] eqn:Ta|].
      + destruct Ho as (cl & Ec & ->). intros w _. cbn. eauto.
      + subst o. intros w Ew. specialize (Hrest w Ew). cbn beta iota. destruct (content f before), (content f after); [destruct Hrest as (cl & Ec & ->)|rewrite Hrest..]; eauto.
      + subst o. intros w Ew. specialize (Hrest w Ew). cbn beta iota. destruct (content f before), (content f after); [destruct Hrest as (cl & Ec & ->)|rewrite Hrest..]; eauto.
    - eapply answers_bnd'; [apply quiet_text|apply ff_text|]. destruct (text_result f before) as [ls|]; [intros w _; cbn; eauto|].
      eapply answers_bnd'; [apply quiet_bytes|apply ff_bytes|]. intros w _. cbn. destruct (content f before); cbn; eauto.
    - eapply answers_bnd'; [apply quiet_text|apply ff_text|]. destruct (text_result f after) as [ls|]; [intros w _; cbn; eauto|].
      eapply answers_bnd'; [apply quiet_bytes|apply ff_bytes|]. intros w _. cbn. destruct (content f after); cbn; eauto.
    - intros w _. cbn. eauto.
  Qed.
End Reading.

(* ------------------------------------------------------------------ *)
(* Patching without faults                                             *)
(* ------------------------------------------------------------------ *)
Section Forward.
  Variable E : env.
  Notation tmp := (e_tmp E).
  Hypothesis FF : fault_free E.
  Definition fin {A} (m : prog A) (w : world) (a : A) (g : fs) : Prop := exists w', m w = (Val a, w') /\ w_fs w' = g.
  Lemma fin_bnd {A B} (m : prog A) (k : A -> prog B) w a b g h : fin m w a g -> (forall w', w_fs w' = g -> fin (k a) w' b h) -> fin (pbnd m k) w b h.
  Proof. intros (w1 & E1 & G1) Hk. destruct (Hk w1 G1) as (w2 & E2 & G2). exists w2. unfold pbnd. rewrite E1. auto. Qed.
  Lemma fin_op {A} (f : fault -> fs -> A * list fs) w a states : f NoFault (w_fs w) = (a, states) -> fin (op E f) w a (last states (w_fs w)).
  Proof. intros H. unfold fin, op. rewrite FF, H. eexists. split; reflexivity. Qed.
  Lemma content_inv f p c : content f p = Some c -> exists m, f p = Some (File m c) /\ readable m = true.
  Proof. unfold content, readable. destruct (f p) as [[m d|]|]; try discriminate. destruct (N.testbit m 8) eqn:Em; intros [= <-]. eauto. Qed.
  Lemma fin_open p f w c : content f p = Some c -> w_fs w = f -> fin (open_read E p) w true f.
  Proof. intros H Ew. destruct (content_inv _ _ _ H) as (m & Hp & Hm). subst f. refine (fin_op _ w true [] _). now rewrite Hp, Hm. Qed.
  Lemma fin_all p f w c : content f p = Some c -> w_fs w = f -> fin (read_all E p) w (Some c) f.
  Proof. intros H Ew. destruct (content_inv _ _ _ H) as (m & Hp & Hm). subst f. refine (fin_op _ w (Some c) [] _). now rewrite Hp. Qed.
  Lemma fin_create_new p w : w_fs w p = None -> fin (create_new E p) w true (upd (w_fs w) p (Some (File (e_mode E) []))).
  Proof. intros H. refine (fin_op _ w true [_] _). now rewrite H. Qed.
  Lemma fin_create p w m d : w_fs w p = Some (File m d) -> fin (create E p) w true (upd (w_fs w) p (Some (File m []))).
  Proof. intros H. refine (fin_op _ w true [_] _). now rewrite H. Qed.
  Lemma fin_write {A} p (io : io A) full r w m d : emits io full r -> w_fs w p = Some (File m d) -> fin (write_file E p io) w r (upd (w_fs w) p (Some (File m (d ++ full)))).
  Proof.
    intros Hx H. assert (X : fin (write_file E p io) w r (last (prefixes p m d full (w_fs w)) (w_fs w))).
    { refine (fin_op _ w r _ _). rewrite H, (emits_run _ _ _ Hx). reflexivity. }
    now rewrite prefixes_last in X.
  Qed.
  Lemma fin_rename p q w m d n x : w_fs w p = Some (File m d) -> p <> q -> w_fs w q = Some (File n x) ->
    fin (rename E p q) w true (upd (upd (w_fs w) p None) q (Some (File m d))).
  Proof. intros H Hn Hq. refine (fin_op _ w true [_] _). now rewrite H, Hq, (path_eqb_neq _ _ Hn). Qed.
  Lemma fin_drop w : w_fs w tmp = None -> fin (drop_temp E) w tt (w_fs w).
  Proof.
    intros H. eapply fin_bnd with (a := false) (g := w_fs w); [refine (fin_op _ w false [] _); now rewrite H|].
    intros w' Hw. exists w'. split; [reflexivity|assumption].
  Qed.
  Lemma ff_patch_change {A B} t items (apply : A -> io B) d x full b f : content f t = Some d -> items d = Ok (Some x) -> f tmp = None ->
    emits (apply x) full (Done b) -> exists g, (forall w, w_fs w = f -> fin (patch_change E t items apply) w tt g) /\
      g t = Some (File (e_mode E) full) /\ g tmp = None /\ forall p, p <> t -> p <> tmp -> g p = f p.
  Proof.
    intros Hc Hi Ht Hx. destruct (content_inv _ _ _ Hc) as (m & Hm & Hr).
    assert (Hne : t <> tmp) by (intros Hx0; rewrite Hx0 in Hm; congruence).
    set (f1 := upd f tmp (Some (File (e_mode E) []))). set (f2 := upd f1 tmp (Some (File (e_mode E) []))).
    set (f3 := upd f2 tmp (Some (File (e_mode E) ([] ++ full)))). set (f4 := upd (upd f3 tmp None) t (Some (File (e_mode E) ([] ++ full)))).
    assert (H4 : f4 tmp = None) by (unfold f4; rewrite upd_other by assumption; apply upd_same).
    exists f4. split; [|split; [apply upd_same|split; [assumption|intros p H1 H2; unfold f4, f3, f2, f1; now rewrite !upd_other by congruence]]].
    intros w Hw.
    eapply fin_bnd; [now eapply fin_open; [exact Hc|]|]. intros w1 Hw1. cbn iota.
    eapply fin_bnd; [now eapply fin_all; [exact Hc|]|]. intros w2 Hw2. cbn iota.
    eapply fin_bnd with (g := f); [unfold pure; rewrite Hi; exists w2; split; [reflexivity|exact Hw2]|]. intros w3 Hw3. cbn iota.
    eapply fin_bnd; [apply fin_create_new; now rewrite Hw3|]. intros w4 Hw4. cbn iota. rewrite Hw3 in Hw4. fold f1 in Hw4.
    eapply fin_bnd; [eapply fin_create; rewrite Hw4; apply upd_same|]. intros w5 Hw5. cbn iota. rewrite Hw4 in Hw5. fold f2 in Hw5.
    eapply fin_bnd; [eapply fin_write; [exact Hx|rewrite Hw5; apply upd_same]|]. intros w6 Hw6. cbn iota. rewrite Hw5 in Hw6. fold f3 in Hw6.
    eapply fin_bnd; [eapply fin_rename; [rewrite Hw6; apply upd_same|congruence|rewrite Hw6; unfold f3, f2, f1; rewrite !upd_other by congruence; exact Hm]|].
    intros w7 Hw7. cbn iota. rewrite Hw6 in Hw7. fold f4 in Hw7. rewrite <- Hw7. apply fin_drop. now rewrite Hw7.
  Qed.
  Lemma ff_patch_create {B} t (m : io B) full r f : f t = None -> emits m full r ->
    exists g, (forall w, w_fs w = f -> fin (patch_create E t m) w tt g) /\ g t = Some (File (e_mode E) full) /\ forall p, p <> t -> g p = f p.
  Proof.
    intros Ht Hx. set (f1 := upd f t (Some (File (e_mode E) []))). set (f2 := upd f1 t (Some (File (e_mode E) ([] ++ full)))).
    exists f2. split; [|split; [apply upd_same|intros p H1; unfold f2, f1; now rewrite !upd_other by congruence]].
    intros w Hw. eapply fin_bnd; [apply fin_create_new; now rewrite Hw|]. intros w1 Hw1. cbn iota. rewrite Hw in Hw1. fold f1 in Hw1.
    eapply fin_bnd; [eapply fin_write; [exact Hx|rewrite Hw1; apply upd_same]|]. intros w2 Hw2. rewrite Hw1 in Hw2. exists w2. split; [reflexivity|exact Hw2].
  Qed.
  Lemma ff_patch_remove t m d f : f t = Some (File m d) ->
    exists g, (forall w, w_fs w = f -> fin (patch_remove E t) w tt g) /\ g t = None /\ forall p, p <> t -> g p = f p.
  Proof.
    intros Ht. exists (upd f t None). split; [|split; [apply upd_same|intros p H1; now rewrite upd_other by congruence]].
    intros w <-. eapply fin_bnd with (a := true); [refine (fin_op _ w true [_] _); now rewrite Ht|]. intros w1 Hw1. exists w1. split; [reflexivity|exact Hw1].
  Qed.
  (* applying a diff whose result is known *)
  Lemma ff_patch_apply d reverse old new f : content f (target d) = Some old -> patches_to (e_dbg E) reverse d old new -> f tmp = None ->
    exists g, (forall w, w_fs w = f -> fin (patch_diff E d reverse) w tt g) /\ g (target d) = Some (File (e_mode E) new) /\ g tmp = None /\
      forall p, p <> target d -> p <> tmp -> g p = f p.
  Proof.
    intros Hc Hp Ht. destruct Hp as [d old ls st new Hu Hl Hr|d old u new Hr].
    - eapply (ff_patch_change (td_before d) read_lines (fun ls => text_apply_into (e_dbg E) (td_clumps d) ls reverse)); [exact Hc| |exact Ht|].
      + rewrite read_lines_spec. apply utf8_valid_spec in Hu. rewrite Hu. reflexivity.
      + rewrite <- (lines_of_split _ _ Hl). eapply emits_of_run; [apply emitting_text_apply|exact Hr].
    - eapply (ff_patch_change (bd_before d) (fun b => Ok (Some b)) (fun b => byte_apply_into (e_dbg E) (bd_clumps d) b reverse)); [exact Hc|reflexivity|exact Ht|].
      eapply emits_of_run; [apply emitting_byte_apply|exact Hr].
  Qed.
  Lemma ff_create d reverse c f : creates d reverse c -> f (target d) = None ->
    exists g, (forall w, w_fs w = f -> fin (patch_diff E d reverse) w tt g) /\ g (target d) = Some (File (e_mode E) c) /\ forall p, p <> target d -> g p = f p.
  Proof.
    intros Hc Ht. destruct d as [d|p|p|d|p|p]; try contradiction; destruct Hc as [-> ->]; cbn [patch_diff target] in *;
      (eapply ff_patch_create; [exact Ht|first [apply emits_write_lines|apply emits_write_all]]).
  Qed.
  Lemma ff_remove d reverse m c f : removes d reverse -> f (target d) = Some (File m c) ->
    exists g, (forall w, w_fs w = f -> fin (patch_diff E d reverse) w tt g) /\ g (target d) = None /\ forall p, p <> target d -> g p = f p.
  Proof.
    intros Hc Ht. destruct d as [d|p|p|d|p|p]; try contradiction; cbn in Hc; subst reverse; cbn [patch_diff target] in *; (eapply ff_patch_remove; exact Ht).
  Qed.
  Lemma ff_patch_main patch reverse f d g : holds_diff f patch d -> (forall w, w_fs w = f -> fin (patch_diff E d reverse) w tt g) ->
    fin (patch_main E patch reverse) (start f) tt g.
  Proof.
    intros (s & Hc & Hs) Hd. eapply fin_bnd; [now eapply fin_open; [exact Hc|]|]. intros w1 Hw1. cbn iota.
    eapply fin_bnd; [now eapply fin_all; [exact Hc|]|]. intros w2 Hw2. cbn iota. rewrite Hs.
    eapply fin_bnd with (g := f); [exists w2; split; [reflexivity|exact Hw2]|]. intros w3 Hw3. cbn iota. now apply Hd.
  Qed.
End Forward.

(* ------------------------------------------------------------------ *)
(* Generated diffs can be saved                                        *)
(* ------------------------------------------------------------------ *)
Lemma encode_newline c : In 10%N (utf8_encode c) -> c = 10%N.
Proof.
  assert (K : forall k x, (10 < k)%N -> (k + x)%N <> 10%N) by (intros; lia).
  unfold utf8_encode. destruct (c <? 128)%N; [intros [H|[]]; exact H|].
  destruct (c <? 2048)%N; [|destruct (c <? 65536)%N]; cbn [In]; intros H;
    repeat (destruct H as [H|H]; [now apply K in H|]); destruct H.
Qed.
Lemma utf8_split_newline : forall cs x y, Forall scalar cs -> map Byte.to_N (x ++ newline :: y) = concat (map utf8_encode cs) ->
  is_utf8 (x ++ [newline]) /\ is_utf8 y.
Proof.
  induction cs as [|c cs IH]; intros x y Hs E; [destruct x; discriminate|].
  inversion Hs as [|? ? Hc Hs']; subst. rewrite map_app in E. cbn [map concat] in E.
  assert (K : forall z, map Byte.to_N x = utf8_encode c ++ z -> exists x1 x2, x = x1 ++ x2 /\ map Byte.to_N x1 = utf8_encode c /\ map Byte.to_N x2 = z).
  { intros z Hz. exists (firstn (length (utf8_encode c)) x), (skipn (length (utf8_encode c)) x). split; [symmetry; apply firstn_skipn|].
    rewrite <- firstn_map, <- skipn_map, Hz, firstn_app, Nat.sub_diag, firstn_all, skipn_app, skipn_all, Nat.sub_diag. cbn. now rewrite app_nil_r. }
  apply app_eq_app in E as (z & [(E1 & E2)|(E1 & E2)]).
  - destruct (K z E1) as (x1 & x2 & -> & Hx1 & Hx2). assert (Hc2 : map Byte.to_N (x2 ++ newline :: y) = concat (map utf8_encode cs)) by (rewrite map_app; cbn [map]; rewrite Hx2; now symmetry).
    destruct (IH x2 y Hs' Hc2) as [H1 H2]. split; [|assumption]. rewrite <- app_assoc. now apply (is_utf8_cons c).
  - destruct z as [|v z].
    + rewrite app_nil_r in E1. destruct (K [] ltac:(now rewrite app_nil_r)) as (x1 & x2 & -> & Hx1 & Hx2). cbn in E2.
      assert (Hc2 : map Byte.to_N (x2 ++ newline :: y) = concat (map utf8_encode cs)) by (rewrite map_app; cbn [map]; rewrite Hx2; exact E2).
      destruct (IH x2 y Hs' Hc2) as [H1 H2]. split; [|assumption]. rewrite <- app_assoc. now apply (is_utf8_cons c).
    + cbn [app] in E2. injection E2 as Ev E2. assert (c = 10%N).
      { apply encode_newline. rewrite E1. apply in_or_app. right. left. now rewrite <- Ev. }
      subst c. change (utf8_encode 10) with [10%N] in E1. destruct x as [|x0 x]; cbn in E1; [|destruct x; discriminate]. injection E1 as <- <-.
      split; [|exists cs; auto]. exists [10%N]. split; [constructor; [assumption|constructor]|reflexivity].
Qed.
Lemma utf8_lines s ls : is_utf8 s -> lines_of s ls -> Forall is_utf8 ls.
Proof.
  intros Hu (Hc & _ & Hl). revert s Hu Hc. induction ls as [|l ls IH]; intros s Hu Hc; [constructor|]. cbn in Hc. destruct ls as [|l' ls].
  - constructor; [|constructor]. cbn in Hc. rewrite app_nil_r in Hc. now subst.
  - destruct (Hl [] l (l' :: ls) eq_refl ltac:(discriminate)) as (body & ->). destruct Hu as (cs & Hs & Hu). rewrite <- Hc, <- app_assoc in Hu. cbn [app] in Hu.
    destruct (utf8_split_newline cs body _ Hs Hu) as [H1 H2]. constructor; [assumption|]. apply (IH) with (s := concat (l' :: ls)); [|assumption|reflexivity].
    intros pre x post Hp Hne. apply (Hl ((body ++ [newline]) :: pre) x post); [|assumption]. now rewrite Hp.
Qed.
Lemma Forall_sub {T} (P : T -> Prop) (s : list T) i j : Forall P s -> Forall P (sub s i j).
Proof.
  unfold sub. intros H. rewrite <- (firstn_skipn i s) in H. apply Forall_app in H as [_ H].
  rewrite <- (firstn_skipn (j - i) (skipn i s)) in H. now apply Forall_app in H as [H _].
Qed.
Lemma cover_old {T} context g (b a : list T) i j hs : cover context g b a i j hs -> forall P, Forall P b -> Forall P a ->
  Forall (fun h => Forall P (h_old h) /\ Forall P (h_new h)) hs.
Proof.
  induction 1; intros P Pb Pa; constructor; auto. cbn. split; apply Forall_sub; assumption.
Qed.
Lemma valid_text_hunk h : hunk_ok h -> Forall is_utf8 (h_old h) -> Forall is_utf8 (h_new h) -> valid_text_clump (text_of_hunk h).
Proof.
  intros (H1 & H2 & H3 & H4 & H5 & H6) Ho Hn. unfold valid_text_clump, text_of_hunk, valid_context, is_u8, is_usize, two61, two64 in *. cbn [tc_context tc_before tc_after sn_start sn_items fst snd] in *. change line with (list byte) in *. split; [lia|]. split; [lia|]. split; [lia|]. now split.
Qed.
Lemma valid_byte_hunk context h : context <= 255 -> h_lead h <= context -> h_trail h <= context -> bhunk_ok h -> valid_byte_clump (byte_of_hunk h).
Proof.
  intros Hc Hl Ht (H1 & H2). unfold valid_byte_clump, byte_of_hunk, valid_context, is_u8, is_usize, two63, two64 in *. cbn [bc_context bc_before bc_after sn_start sn_items fst snd] in *. lia.
Qed.
Lemma cover_context {T} context g (b a : list T) i j hs : cover context g b a i j hs -> Forall (fun h => h_lead h <= context /\ h_trail h <= context) hs.
Proof. induction 1; constructor; auto. Qed.
Lemma generated_content f before after context d : context <= 255 -> fits_file f before -> fits_file f after ->
  describes f before after context d -> valid_content d.
Proof.
  intros Hc Fb Fa H. destruct d as [d|p|p|d|p|p]; cbn in *.
  - destruct H as (_ & _ & lb & la & (cb & Cb & Hb & Lb) & (ca & Ca & Ha & La) & Hd).
    destruct (text_diff_spec lb la context Hc) as (cs & clumps & hs & _ & _ & _ & _ & E5 & Hcov). rewrite E5 in Hd. injection Hd as <-.
    pose proof (cover_ok _ _ _ _ _ _ _ (proj2 (Fb _ Cb) _ Lb) (proj2 (Fa _ Ca) _ La) Hc Hcov) as Hok.
    pose proof (cover_old _ _ _ _ _ _ _ Hcov is_utf8 (utf8_lines _ _ Hb Lb) (utf8_lines _ _ Ha La)) as Hu.
    apply Forall_map. rewrite Forall_forall in *. intros h Hh. apply valid_text_hunk; [now apply Hok|apply (Hu h Hh)..].
  - destruct H as (_ & c & _ & Hu & Hl). now apply (utf8_lines c).
  - destruct H as (_ & c & _ & Hu & Hl). now apply (utf8_lines c).
  - destruct H as (_ & _ & _ & cb & ca & Cb & Ca & Hd).
    destruct (byte_diff_spec cb ca context Hc) as (cs & clumps & hs & _ & _ & _ & _ & E5 & Hcov). rewrite E5 in Hd. injection Hd as <-.
    pose proof (cover_bok _ _ _ _ _ _ _ (proj1 (Fb _ Cb)) (proj1 (Fa _ Ca)) Hcov) as Hok. pose proof (cover_context _ _ _ _ _ _ _ Hcov) as Hcc.
    apply Forall_map. rewrite Forall_forall in *. intros h Hh. apply (valid_byte_hunk context); [assumption|apply (Hcc h Hh)..|now apply Hok].
  - trivial.
  - trivial.
Qed.
Lemma generated_valid f before after context d : context <= 255 -> is_utf8 before -> is_utf8 after -> fits_file f before -> fits_file f after ->
  describes f before after context d -> valid_diff d.
Proof.
  intros Hc Ub Ua Fb Fa H. split; [|now apply (generated_content f before after context)].
  destruct d; cbn in *; repeat match goal with H : _ /\ _ |- _ => destruct H end; subst; repeat constructor; assumption.
Qed.

(* ------------------------------------------------------------------ *)
(* pw_diff                                                             *)
(* ------------------------------------------------------------------ *)
Lemma upto_newline_end x : upto_newline (x ++ [x0a; x7d]) = x ++ [x0a].
Proof. induction x as [|c x IH]; [reflexivity|]. cbn [app upto_newline]. rewrite IH. destruct x; reflexivity. Qed.
Definition delivered (room : option nat) (out : list byte) : list byte := match room with None => out | Some n => firstn n out end.
Lemma diff_main_inv E before after context f o w : context <= 255 -> diff_main E before after context (start f) = (o, w) ->
  w_seen w = [f] /\ w_fs w = f /\
  ((o = Exit 1 /\ w_stdout w = []) \/
   exists d, describes f before after context d /\ w_stdout w = delivered (e_stdout E) (fst (diff_to_json d)) /\
     ((o = Exit 5 /\ (snd (diff_to_json d) = false \/ w_stdout w <> fst (diff_to_json d))) \/
      (o = Val tt /\ snd (diff_to_json d) = true /\
       (w_stdout w = fst (diff_to_json d) \/ fst (diff_to_json d) = w_stdout w ++ [x7d])))).
Proof.
  intros Hc H. unfold diff_main, pbnd in H. pose proof (quiet_diff_new E before after context (start f)) as Hq.
  destruct (answers_diff E before after context f Hc (start f) eq_refl) as (r & Hr & Hd).
  destruct (diff_new E before after context (start f)) as [o1 w1]. cbn [fst snd] in *. subst o1. destruct Hq as (Q1 & Q2 & Q3). cbn in Q1, Q2, Q3.
  destruct r as [d|]; [|injection H as <- <-; auto 6].
  destruct (diff_to_json d) as [out ok] eqn:Ej. injection H as <- <-. cbn [w_seen w_fs w_stdout]. rewrite Q3, Q2, Q1. split; [reflexivity|]. split; [reflexivity|].
  right. exists d. split; [now apply Hd|]. rewrite Ej. cbn [fst snd app]. split; [reflexivity|]. destruct ok; cbn [andb].
  - pose proof (diff_json_end d) as He. rewrite Ej in He. cbn [fst snd] in He. destruct (He eq_refl) as (x & ->). rewrite upto_newline_end.
    unfold delivered. destruct (e_stdout E) as [n|]; [|right; auto]. rewrite app_length. cbn [length]. destruct (n <? length x + 1) eqn:En.
    + left. apply Nat.ltb_lt in En. split; [reflexivity|]. right. intros Hf. apply (f_equal (@length byte)) in Hf. rewrite firstn_length, app_length in Hf. cbn in Hf. lia.
    + right. apply Nat.ltb_ge in En. split; [reflexivity|]. split; [reflexivity|].
      destruct (Nat.eq_dec n (length x + 1)) as [->|Hn].
      * right. change [x0a; x7d] with ([x0a] ++ [x7d]). rewrite app_assoc. f_equal. rewrite firstn_app, app_length. cbn [length]. rewrite Nat.sub_diag, app_nil_r. symmetry. apply firstn_all2. rewrite app_length. cbn. lia.
      * left. apply firstn_all2. rewrite app_length. cbn. lia.
  - left. auto.
Qed.

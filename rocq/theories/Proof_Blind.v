(* Proof_Blind.v - what the programs do depends only on the files they are told of (for C126). *)
From Verif Require Import Base Model_Seq Model_Changes Model_IO Model_Text Model_Bytes Model_Json Model_Files Model_Log Spec Spec_Files Spec_Blind.

Section Blind.
  Variable E : env.
  (* ---------------- the diff tool ---------------- *)
  Section Diff.
    Variable S : path -> Prop.
    Definition alike (w w' : world) : Prop := w_ops w = w_ops w' /\ w_stdout w = w_stdout w' /\ forall p, S p -> view (w_fs w) p = view (w_fs w') p.
    Definition blind {A} (m : prog A) : Prop := forall w w', alike w w' -> fst (m w) = fst (m w') /\ alike (snd (m w)) (snd (m w')).
    Lemma blind_ret {A} (a : A) : blind (pret a).
    Proof. intros w w' H. now split. Qed.
    Lemma blind_pure {A} (m : res A) : blind (pure m).
    Proof. intros w w' H. destruct m; now split. Qed.
    Lemma blind_bind {A B} (m : prog A) (k : A -> prog B) : blind m -> (forall a, blind (k a)) -> blind (pbnd m k).
    Proof.
      intros Hm Hk w w' H. destruct (Hm w w' H) as [E1 E2]. unfold pbnd. destruct (m w) as [o w1], (m w') as [o' w1']. cbn [fst snd] in *. subst o'.
      destruct o as [a| | |]; [now apply Hk|now split..].
    Qed.
    Lemma blind_exists p : S p -> blind (path_exists E p).
    Proof.
      intros Hp w w' (H1 & H2 & H3). unfold path_exists, op. rewrite H1. specialize (H3 p Hp) as V. unfold view in V. unfold readable. cbn [fst snd].
      split; [|split; [|split]]; cbn; [|congruence|assumption|assumption].
      destruct (e_fault E (w_ops w')); [|reflexivity..]. destruct (w_fs w p) as [[m d|]|], (w_fs w' p) as [[m' d'|]|]; try reflexivity; try discriminate V; destruct (N.testbit _ 8); discriminate V.
    Qed.
    Lemma blind_bytes p : S p -> blind (read_bytes E p).
    Proof.
      intros Hp w w' (H1 & H2 & H3). unfold read_bytes, pbnd, open_read, read_all, op. rewrite H1. specialize (H3 p Hp) as V. unfold view in V. unfold readable. cbn [fst snd last w_fs w_ops].
      destruct (e_fault E (w_ops w')); [|now split..]. 
      destruct (w_fs w p) as [[m d|]|] eqn:F, (w_fs w' p) as [[m' d'|]|] eqn:F'; try destruct (N.testbit m 8); try destruct (N.testbit m' 8); try discriminate V; try (injection V as <-);
        cbn [fst snd w_fs w_ops last app]; rewrite ?F, ?F'; (split; [try reflexivity; destruct (e_fault E _); reflexivity|]); split; cbn; try assumption; try congruence; now split.
    Qed.
    Lemma read_text_is p w : read_text E p w = (run! d := read_bytes E p in match d with Some d => pure (read_lines d) | None => pret None end) w.
    Proof. unfold read_text, read_bytes, pbnd. destruct (open_read E p w) as [[[|]| | |] w1]; reflexivity. Qed.
    Lemma blind_text p : S p -> blind (read_text E p).
    Proof.
      intros Hp w w' H. rewrite !read_text_is. revert w w' H. apply blind_bind; [now apply blind_bytes|]. intros [d|]; [apply blind_pure|apply blind_ret].
    Qed.
    Lemma blind_diff before after context : S before -> S after -> blind (diff_new E before after context).
    Proof.
      intros Hb Ha. unfold diff_new, text_change_new, byte_change_new.
      repeat first [now apply blind_exists|now apply blind_text|now apply blind_bytes|apply blind_ret|apply blind_pure|apply blind_bind; [|intros [|]]|apply blind_bind; [|intros ?]].
    Qed.
  End Diff.

  (* ---------------- the patch tool ---------------- *)
  Section Patch.
    Variable S : path -> Prop.
    Definition agree (g g' : fs) : Prop := forall p, S p -> g p = g' p.
    Definition pace (w w' : world) : Prop := w_ops w = w_ops w' /\ w_stdout w = w_stdout w' /\ agree (w_fs w) (w_fs w') /\ Forall2 agree (w_seen w) (w_seen w').
    Definition steady {A} (m : lprog A) : Prop := forall w w', pace w w' ->
      fst (m w) = fst (m w') /\ fst (snd (m w)) = fst (snd (m w')) /\ pace (snd (snd (m w))) (snd (snd (m w'))).
    Lemma last_agree l l' : Forall2 agree l l' -> forall d d', agree d d' -> agree (last l d) (last l' d').
    Proof.
      induction 1 as [|x y l l' H1 H2 IH]; intros d d' Hd; [exact Hd|]. inversion H2; subst; [exact H1|]. cbn [last] in *. now apply IH.
    Qed.
    Lemma upd_agree g g' p n : agree g g' -> agree (upd g p n) (upd g' p n).
    Proof. intros H q Hq. unfold upd. destruct (path_eqb p q); [reflexivity|now apply H]. Qed.
    Lemma steady_op {A} (k : fault -> fs -> A * list fs) :
      (forall flt g g', agree g g' -> fst (k flt g) = fst (k flt g') /\ Forall2 agree (snd (k flt g)) (snd (k flt g'))) -> steady (silent (op E k)).
    Proof.
      intros Hk w w' (H1 & H2 & H3 & H4). unfold silent, op. rewrite H1. destruct (Hk (e_fault E (w_ops w')) _ _ H3) as [K1 K2].
      destruct (k _ (w_fs w)) as [a l], (k _ (w_fs w')) as [a' l']. cbn [fst snd] in *. split; [reflexivity|]. split; [congruence|].
      split; [cbn; congruence|]. split; [exact H2|]. split; [now apply last_agree|]. cbn. now apply Forall2_app.
    Qed.
    Ltac look H p Hp := let X := fresh in pose proof (H p Hp) as X; cbv beta; rewrite X.
    Lemma steady_open p : S p -> steady (silent (open_read E p)).
    Proof. intros Hp. apply steady_op. intros flt g g' H. look H p Hp. split; [reflexivity|constructor]. Qed.
    Lemma steady_read p : S p -> steady (silent (read_all E p)).
    Proof. intros Hp. apply steady_op. intros flt g g' H. look H p Hp. split; [reflexivity|constructor]. Qed.
    Lemma steady_create_new p : S p -> steady (silent (create_new E p)).
    Proof. intros Hp. apply steady_op. intros flt g g' H. look H p Hp. destruct flt, (g' p); cbn; split; try reflexivity; repeat constructor. now apply upd_agree. Qed.
    Lemma steady_create p : S p -> steady (silent (create E p)).
    Proof. intros Hp. apply steady_op. intros flt g g' H. look H p Hp. destruct flt, (g' p) as [[m d|]|]; cbn; split; try reflexivity; repeat constructor; now apply upd_agree. Qed.
    Lemma steady_remove p : S p -> steady (silent (remove_file E p)).
    Proof. intros Hp. apply steady_op. intros flt g g' H. look H p Hp. destruct flt, (g' p) as [[m d|]|]; cbn; split; try reflexivity; repeat constructor; now apply upd_agree. Qed.
    Lemma steady_rename p q : S p -> S q -> steady (silent (rename E p q)).
    Proof.
      intros Hp Hq. apply steady_op. intros flt g g' H. look H p Hp. look H q Hq. destruct flt, (g' p) as [[m d|]|], (g' q) as [[m' d'|]|]; cbn; split; try reflexivity; try constructor;
        destruct (path_eqb p q); repeat constructor; now do 2 apply upd_agree.
    Qed.
    Lemma steady_write {A} p (m : io A) : S p -> steady (silent (write_file E p m)).
    Proof.
      intros Hp. apply steady_op. intros flt g g' H. look H p Hp. destruct (g' p) as [[mo d|]|]; [|split; [reflexivity|constructor]..].
      destruct (m _) as [r wr]. cbn [fst snd]. split; [reflexivity|]. induction (seq 0 (Datatypes.S (length (w_out wr)))) as [|k l IH]; constructor; [now apply upd_agree|exact IH].
    Qed.
    Lemma steady_write_logged {A} p (m : lio A) : S p -> steady (write_file_logged E p m).
    Proof.
      intros Hp w w' H. destruct (steady_write p (fun wr => snd (m wr)) Hp w w' H) as (_ & H2 & H3). unfold write_file_logged. cbn [fst snd]. split; [|split; [exact H2|exact H3]].
      destruct H as (H1 & _ & H & _). rewrite (H p Hp), H1. reflexivity.
    Qed.
    Lemma steady_ret {A} (a : A) : steady (silent (pret a)).
    Proof. intros w w' H. now split. Qed.
    Lemma steady_exit {A} c : @steady A (silent (exit c)).
    Proof. intros w w' H. now split. Qed.
    Lemma steady_pure {A} (m : res A) : steady (silent (pure m)).
    Proof. intros w w' H. destruct m; now split. Qed.
    Lemma steady_tell lv m : steady (tell lv m).
    Proof. intros w w' H. now split. Qed.
    Lemma steady_bind {A B} (m : lprog A) (k : A -> lprog B) : steady m -> (forall a, steady (k a)) -> steady (lpbind m k).
    Proof.
      intros Hm Hk w w' H. destruct (Hm w w' H) as (E1 & E2 & E3). unfold lpbind. destruct (m w) as [ev [o w1]], (m w') as [ev' [o' w1']]. cbn [fst snd] in *. subst ev' o'.
      destruct o as [a| | |]; try (split; [reflexivity|split; [reflexivity|exact E3]]). destruct (Hk a _ _ E3) as (K1 & K2 & K3). destruct (k a w1) as [ev2 x], (k a w1') as [ev2' x']. cbn [fst snd] in *. subst. auto.
    Qed.
    Lemma steady_fail {A} m c : @steady A (fail_with m c).
    Proof. apply steady_bind; [apply steady_tell|intros; apply steady_exit]. Qed.
    Lemma steady_pbind {A B} (m : prog A) (k : A -> prog B) : steady (silent m) -> (forall a, steady (silent (k a))) -> steady (silent (pbnd m k)).
    Proof.
      intros Hm Hk w w' H. destruct (Hm w w' H) as (_ & E2 & E3). unfold silent, pbnd in *. cbn [fst snd] in *. destruct (m w) as [o w1], (m w') as [o' w1']. cbn [fst snd] in *. subst o'.
      split; [reflexivity|]. destruct o as [a| | |]; [now apply (Hk a)|now split..].
    Qed.
    Lemma steady_drop : S (e_tmp E) -> steady (silent (drop_temp E)).
    Proof. intros H. apply steady_pbind; [now apply steady_remove|intros; apply steady_ret]. Qed.
    Lemma steady_change {A B} t (items : list byte -> res (option A)) (apply : A -> lio B) report : S t -> S (e_tmp E) -> steady (patch_change_logged E t items apply report).
    Proof.
      intros Ht Hm. unfold patch_change_logged. apply steady_bind; [now apply steady_open|]. intros [|]; [|apply steady_fail].
      apply steady_bind; [now apply steady_read|]. intros [d|]; [|apply steady_fail]. apply steady_bind; [apply steady_pure|]. intros [x|]; [|apply steady_fail].
      apply steady_bind; [now apply steady_create_new|]. intros [|]; [|apply steady_fail]. apply steady_bind; [now apply steady_create|]. intros [|]; [|apply steady_fail].
      apply steady_bind; [now apply steady_write_logged|]. intros [s| | |]; [|apply steady_fail| |intros w w' H; now split].
      - apply steady_bind; [now apply steady_rename|]. intros [|]; [|apply steady_fail]. apply steady_bind; [apply steady_tell|]. intros _. now apply steady_drop.
      - apply steady_pbind; [now apply steady_drop|]. intros _ w w' H. now split.
    Qed.
    Lemma steady_add {B} t (c : io B) : S t -> steady (patch_create_logged E t c).
    Proof.
      intros Ht. unfold patch_create_logged. apply steady_bind; [now apply steady_create_new|]. intros [|]; [|apply steady_tell]. apply steady_bind; [now apply steady_write|]. intros [| | |]; apply steady_tell.
    Qed.
    Lemma steady_del t : S t -> steady (patch_remove_logged E t).
    Proof. intros Ht. unfold patch_remove_logged. apply steady_bind; [now apply steady_remove|]. intros [|]; [apply steady_tell|apply steady_fail]. Qed.
    Lemma steady_diff d reverse : S (target d) -> S (e_tmp E) -> steady (patch_diff_logged E d reverse).
    Proof. intros Ht Hm. destruct d; cbn [patch_diff_logged target] in *; try destruct reverse; first [now apply steady_change|now apply steady_add|now apply steady_del]. Qed.
  End Patch.

  Lemma steady_main f g patch reverse : view f patch = view g patch -> f (e_tmp E) = g (e_tmp E) -> (forall d, holds_diff f patch d -> f (target d) = g (target d)) ->
    forall S, (forall p, S p <-> f p = g p) ->
    let r := patch_main_logged E patch reverse (start f) in let r' := patch_main_logged E patch reverse (start g) in
    fst r = fst r' /\ fst (snd r) = fst (snd r') /\ pace S (snd (snd r)) (snd (snd r')).
  Proof.
    intros V Ht Hd S HS. cbn zeta. unfold patch_main_logged, lpbind, silent, open_read, read_all, op. cbn [start w_fs w_ops w_seen w_stdout last app].
    assert (P : forall n, pace S (World f ([f] ++ [] ++ []) n []) (World g ([g] ++ [] ++ []) n [])).
    { intros n. split; [reflexivity|]. split; [reflexivity|]. assert (A : agree S f g) by (intros p Hp; now apply HS). split; [exact A|]. cbn [app w_seen]. constructor; [exact A|constructor]. }
    cbn [app] in P.
    assert (HD : forall d, content f patch = Some d -> forall x, diff_from_json d = Ok (Some x) -> f (target x) = g (target x)) by (intros d C x X; apply Hd; now exists d).
    unfold view in V. unfold readable. unfold content in HD.
    destruct (e_fault E 0); [|destruct (f patch) as [[m d|]|], (g patch) as [[m' d'|]|]; (split; [reflexivity|split; [reflexivity|apply P]])..].
    destruct (f patch) as [[m d|]|] eqn:F, (g patch) as [[m' d'|]|] eqn:F'; try destruct (N.testbit m 8); try destruct (N.testbit m' 8); try discriminate V;
      cbn [w_fs w_ops w_seen w_stdout app]; rewrite ?F, ?F'; try (split; [reflexivity|split; [reflexivity|apply P]]).
    - injection V as <-. destruct (e_fault E 1); [|split; [reflexivity|split; [reflexivity|apply P]]..].
      unfold pure. specialize (HD d eq_refl). destruct (diff_from_json d) as [[x|]| |]; [|split; [reflexivity|split; [reflexivity|apply P]]..].
      assert (SD := steady_diff S x reverse). destruct (SD (proj2 (HS _) (HD x eq_refl)) (proj2 (HS _) Ht) _ _ (P 2)) as (K1 & K2 & K3).
      destruct (patch_diff_logged E x reverse (World f [f] 2 [])) as [ev y], (patch_diff_logged E x reverse (World g [g] 2 [])) as [ev' y']. cbn [fst snd app] in *. subst. auto.
    - destruct (e_fault E 1); split; try reflexivity; split; try reflexivity; apply P.
  Qed.
End Blind.

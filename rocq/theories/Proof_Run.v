(* Proof_Run.v - runs of the two programs when nothing outside of them fails (C86, C87). *)
From Verif Require Import Base Model_Seq Model_Changes Model_IO Model_Text Model_Bytes Model_Json Model_Files Model_Log Spec Spec_Files Spec_Json Spec_Run Proof_Seq Proof_Utf8 Proof_IO Proof_Text Proof_Bytes Proof_Term Proof_Log Proof_LogMain Proof_Files.

Section Calm.
  Variable E : env.
  Hypothesis FF : fault_free E.
  Notation tmp := (e_tmp E).

  Definition after (w : world) (states : list fs) : world :=
    World (last states (w_fs w)) (w_seen w ++ states) (S (w_ops w)) (w_stdout w).
  Lemma calm_op {A B} (F : fault -> fs -> A * list fs) (k : A -> lprog B) w a states : F NoFault (w_fs w) = (a, states) ->
    lpbind (silent (op E F)) k w = k a (after w states).
  Proof. intros H. unfold lpbind, silent, op. rewrite FF, H. cbn [app]. now destruct (k a _). Qed.
  Lemma calm_pure {A B} (a : A) (k : A -> lprog B) w : lpbind (silent (pure (Ok a))) k w = k a w.
  Proof. unfold lpbind, silent, pure. cbn [app]. now destruct (k a w). Qed.

  (* a run ends: what the program said, the status, the files *)
  Definition ends_in {A} (z : list event * (Model_Files.outcome A * world)) (said : list event) (code : nat) (P : fs -> Prop) : Prop :=
    filter by_program (fst z) = said /\ status (fst (snd z)) = Some code /\ P (w_fs (snd (snd z))).
  Lemma library_filter ev : Forall of_library ev -> filter by_program ev = [].
  Proof. induction 1 as [|e ev He _ IH]; [reflexivity|]. cbn. unfold by_program at 1. unfold of_library in He. now rewrite He. Qed.

  Lemma calm_closed p (k : bool -> lprog unit) w : closed (w_fs w) p -> lpbind (silent (open_read E p)) k w = k false (after w []).
  Proof. intros H. apply calm_op. unfold closed in H. destruct (w_fs w p) as [[m d|]|]; [|contradiction|reflexivity]. unfold readable. now rewrite H. Qed.
  Lemma calm_dir p (k : bool -> lprog unit) w : w_fs w p = Some Dir -> lpbind (silent (open_read E p)) k w = k true (after w []).
  Proof. intros H. apply calm_op. now rewrite H. Qed.
  Lemma calm_dir_read p (k : option (list byte) -> lprog unit) w : w_fs w p = Some Dir -> lpbind (silent (read_all E p)) k w = k None (after w []).
  Proof. intros H. apply calm_op. now rewrite H. Qed.
  Lemma calm_open p (k : bool -> lprog unit) w c : content (w_fs w) p = Some c -> lpbind (silent (open_read E p)) k w = k true (after w []).
  Proof. intros H. destruct (content_inv _ _ _ H) as (m & Hp & Hm). apply calm_op. now rewrite Hp, Hm. Qed.
  Lemma calm_read p (k : option (list byte) -> lprog unit) w c : content (w_fs w) p = Some c -> lpbind (silent (read_all E p)) k w = k (Some c) (after w []).
  Proof. intros H. destruct (content_inv _ _ _ H) as (m & Hp & Hm). apply calm_op. now rewrite Hp. Qed.
  Lemma node_cases f p : closed f p \/ f p = Some Dir \/ exists c, content f p = Some c.
  Proof. unfold closed, content. destruct (f p) as [[m d|]|]; [|auto|auto]. destruct (N.testbit m 8); eauto. Qed.

  Lemma change_calm {A B} t items (apply : A -> lio B) rep w d x full r : content (w_fs w) t = Some d -> items d = Ok (Some x) -> w_fs w tmp = None ->
    library_only (apply x) -> emits (fun wr => snd (apply x wr)) full r ->
    let z := patch_change_logged E t items apply rep w in
    match r with
    | Done st => ends_in z [Event Program Info (PatchDone (rep st))] 0 (replaced (w_fs w) t (Some (File (e_mode E) full)))
    | Panicked => ends_in z [] 101 (same_files (w_fs w))
    | _ => True
    end.
  Proof.
    intros Hc Hi Ht Hl [Hr He] z. destruct (content_inv _ _ _ Hc) as (m & Hm & _).
    assert (Hne : t <> tmp) by (intros Q; rewrite Q in Hm; congruence).
    destruct r as [st| | |]; [|contradiction| |trivial].
    all: subst z; unfold patch_change_logged; rewrite (calm_open t _ w d Hc), (calm_read t _ (after w []) d Hc), Hi, calm_pure.
    all: set (f1 := upd (w_fs w) tmp (Some (File (e_mode E) []))).
    all: unfold create_new; erewrite (calm_op _ _ _ true [f1]) by (cbn; now rewrite Ht); cbn iota.
    all: set (f2 := upd f1 tmp (Some (File (e_mode E) []))).
    all: unfold create; erewrite (calm_op _ _ _ true [f2]) by (cbn; unfold f1; rewrite upd_same; reflexivity); cbn iota.
    all: set (w4 := after (after _ [f1]) [f2]); assert (F4 : w_fs w4 = f2) by reflexivity.
    all: assert (T2 : f2 tmp = Some (File (e_mode E) [])) by apply upd_same.
    all: unfold lpbind at 1; unfold write_file_logged, write_file, op; rewrite F4, !T2, FF, He; unfold run_emit; cbn [w_room w_out app].
    all: specialize (Hl (Writer [] None)); set (ev := fst (apply x (Writer [] None))) in *; change (w_fs w4) with f2.
    all: assert (LAST : forall g0, last (map (fun k => upd f2 tmp (Some (File (e_mode E) (firstn k full)))) (seq 0 (S (length full)))) g0 = upd f2 tmp (Some (File (e_mode E) full)))
      by (intros g0; rewrite seq_S, map_app; cbn [map]; now rewrite last_last, Nat.add_0_l, firstn_all).
    - rewrite LAST. set (f3 := upd f2 tmp (Some (File (e_mode E) full))). set (f4 := upd (upd f3 tmp None) t (Some (File (e_mode E) full))).
      unfold rename. erewrite (calm_op _ _ _ true [f4]).
      2:{ cbn [w_fs]. unfold f3 at 1. rewrite upd_same. unfold f3 at 1. rewrite upd_other by congruence. unfold f2 at 1, f1 at 1. rewrite !upd_other by congruence.
          rewrite Hm, path_eqb_neq by congruence. reflexivity. }
      cbn iota. unfold lpbind, tell, silent, drop_temp, pbnd, remove_file, op, pret. rewrite FF. cbn [w_fs after last].
      assert (T4 : f4 tmp = None) by (unfold f4; rewrite upd_other by assumption; apply upd_same). rewrite T4. cbn.
      split; [|split; [reflexivity|]].
      + cbn [fst]. rewrite filter_app, library_filter by exact Hl. reflexivity.
      + split; [apply upd_same|]. intros q Hq. destruct (path_dec q tmp) as [->|Hq2]; [cbn; now rewrite T4|].
        cbn. unfold f4, f3, f2, f1. now rewrite !upd_other by congruence.
    - rewrite LAST. unfold silent, drop_temp, pbnd, remove_file, op, pret. rewrite FF. cbn [w_fs]. rewrite upd_same. cbn.
      split; [|split; [reflexivity|]].
      + cbn [fst]. rewrite app_nil_r. now apply library_filter.
      + intros q. cbn. destruct (path_dec q tmp) as [->|Hq2]; [now rewrite upd_same|]. unfold f2, f1. now rewrite !upd_other by congruence.
  Qed.
  Lemma create_calm {B} t (m : io B) full b w : emits m full (Done b) ->
    let z := patch_create_logged E t m w in
    (w_fs w t = None /\ ends_in z [Event Program Info (Created t)] 0 (replaced (w_fs w) t (Some (File (e_mode E) full)))) \/
    (w_fs w t <> None /\ ends_in z [Event Program Error (CreationFailed t)] 0 (same_files (w_fs w))).
  Proof.
    intros [Hr He] z. subst z. unfold patch_create_logged. destruct (w_fs w t) as [n|] eqn:Et.
    - right. split; [discriminate|]. unfold create_new. erewrite (calm_op _ _ _ false []) by (now rewrite Et). cbn iota. repeat split.
    - left. split; [reflexivity|]. set (f1 := upd (w_fs w) t (Some (File (e_mode E) []))).
      unfold create_new. erewrite (calm_op _ _ _ true [f1]) by (cbn; now rewrite Et). cbn iota.
      set (f2 := upd f1 t (Some (File (e_mode E) full))).
      unfold lpbind, silent, write_file, op. cbn [w_fs after last]. unfold f1 at 1. rewrite upd_same, FF, He. unfold run_emit. cbn [w_room w_out app].
      cbn [tell fst snd]. split; [reflexivity|]. split; [reflexivity|]. cbn [w_fs snd].
      rewrite seq_S, map_app. cbn [map]. rewrite last_last, Nat.add_0_l, firstn_all. fold f1 f2.
      split; [apply upd_same|]. intros q Hq. unfold f2, f1. now rewrite !upd_other by congruence.
  Qed.
  Lemma remove_calm t w :
    let z := patch_remove_logged E t w in
    (exists m c, w_fs w t = Some (File m c) /\ ends_in z [Event Program Info (Deleted t)] 0 (replaced (w_fs w) t None)) \/
    ((forall m c, w_fs w t <> Some (File m c)) /\ ends_in z [Event Program Error (DeletionFailed t)] 1 (same_files (w_fs w))).
  Proof.
    cbn zeta. unfold patch_remove_logged, remove_file. destruct (w_fs w t) as [[m c|]|] eqn:Et.
    - left. exists m, c. split; [reflexivity|]. erewrite (calm_op _ _ _ true [upd (w_fs w) t None]) by (now rewrite Et). cbn iota.
      split; [reflexivity|]. split; [reflexivity|]. split; [apply upd_same|]. intros q Hq. cbn. now rewrite upd_other by congruence.
    - right. split; [discriminate|]. erewrite (calm_op _ _ _ false []) by (now rewrite Et). cbn iota. repeat split.
    - right. split; [discriminate|]. erewrite (calm_op _ _ _ false []) by (now rewrite Et). cbn iota. repeat split.
  Qed.

  Lemma diff_calm f patch d reverse w : w_fs w = f -> f tmp = None -> holds_diff f patch d ->
    (forall t ls c, d = TextChange t -> content f (td_before t) = Some c -> lines_of c ls ->
       fst (text_apply_into (e_dbg E) (td_clumps t) ls reverse (Writer [] None)) <> NoFuel) ->
    exists said code g, ends_in (patch_diff_logged E d reverse w) said code (fun g' => g' = g) /\ patch_run E f patch reverse said code g.
  Proof.
    intros Hw Ht Hd Hfuel.
    assert (FIN : forall (z : list event * (Model_Files.outcome unit * world)) said code (P : fs -> Prop), ends_in z said code P -> (forall g, P g -> patch_run E f patch reverse said code g) ->
      exists said code g, ends_in z said code (fun g' => g' = g) /\ patch_run E f patch reverse said code g).
    { intros z said code P (H1 & H2 & H3) HP. exists said, code, (w_fs (snd (snd z))). split; [repeat split; assumption|]. now apply HP. }
    assert (CR : forall t B (m : io B) c b, target d = t -> emits m c (Done b) -> creates d reverse c ->
      exists said code g, ends_in (patch_create_logged E t m w) said code (fun g' => g' = g) /\ patch_run E f patch reverse said code g).
    { intros t B m c b <- Hm Hc. destruct (create_calm (target d) m c b w Hm) as [(H1 & H2)|(H1 & H2)]; rewrite Hw in *; (eapply FIN; [exact H2|]); intros g Hg.
      - eapply run_created; eauto.
      - eapply run_not_created; eauto. }
    assert (RM : forall t, target d = t -> removes d reverse ->
      exists said code g, ends_in (patch_remove_logged E t w) said code (fun g' => g' = g) /\ patch_run E f patch reverse said code g).
    { intros t <- Hr. destruct (remove_calm (target d) w) as [(m & c & H1 & H2)|(H1 & H2)]; rewrite Hw in *; (eapply FIN; [exact H2|]); intros g Hg.
      - eapply run_deleted; eauto.
      - eapply run_not_deleted; eauto. }
    assert (NO : forall A B items (apply : A -> lio B) rep, is_change d -> (forall c, content f (target d) <> Some c) ->
      exists said code g, ends_in (patch_change_logged E (target d) items apply rep w) said code (fun g' => g' = g) /\ patch_run E f patch reverse said code g).
    { intros A B items apply rep Hic Hno. unfold patch_change_logged. destruct (node_cases f (target d)) as [H|[H|(c & H)]]; [| |destruct (Hno c H)].
      - rewrite calm_closed by (now rewrite Hw). cbn iota. eapply (FIN _ _ _ (same_files f)); [|intros g Hg; eapply run_no_target; eauto].
        split; [reflexivity|]. split; [reflexivity|]. intros q. cbn. now rewrite Hw.
      - rewrite calm_dir by (now rewrite Hw). cbn iota. rewrite calm_dir_read by (cbn; now rewrite Hw). eapply (FIN _ _ _ (same_files f)); [|intros g Hg; eapply run_target_dir; eauto].
        split; [reflexivity|]. split; [reflexivity|]. intros q. cbn. now rewrite Hw. }
    destruct d as [d|p|p|d|p|p]; cbn [patch_diff_logged].
    - destruct (content f (td_before d)) as [c|] eqn:Hc; [|apply (NO _ _ _ _ _ I); cbn; congruence].
      destruct (utf8_valid c) eqn:Hu.
      + set (ls := split_lines c). pose proof (split_lines_lines_of c) as Hls. fold ls in Hls.
        assert (Hi : read_lines c = Ok (Some ls)) by (rewrite read_lines_spec, Hu; reflexivity).
        destruct (emitting_text_apply (e_dbg E) (td_clumps d) ls reverse) as (out & r & Hem).
        assert (Hem' : emits (fun wr => snd (text_apply_logged (e_dbg E) (td_clumps d) ls reverse wr)) out r).
        { destruct Hem as [H1 H2]. split; [assumption|]. intros wr. rewrite text_apply_unlogged. apply H2. }
        pose proof (emits_run _ _ _ Hem) as Hrun.
        assert (Hcw : content (w_fs w) (td_before d) = Some c) by (now rewrite Hw).
        assert (Htw : w_fs w tmp = None) by (now rewrite Hw).
        pose proof (change_calm (td_before d) read_lines (fun ls => text_apply_logged (e_dbg E) (td_clumps d) ls reverse) Some w c ls out r Hcw Hi Htw (library_text _ _ _ _) Hem') as Hz.
        cbn zeta in Hz. rewrite Hw in Hz. apply utf8_valid_spec in Hu. destruct r as [st| | |].
        * eapply FIN; [exact Hz|]. intros g Hg. eapply run_changed; [exact Hd|exact Hc|econstructor; eauto|exact Hg].
        * destruct Hem as [Q _]. contradiction.
        * eapply FIN; [exact Hz|]. intros g Hg. eapply run_panic; [exact Hd|exact Hc|econstructor; eauto|exact Hg].
        * exfalso. apply (Hfuel d ls c eq_refl Hc Hls). now rewrite Hrun.
      + unfold patch_change_logged. rewrite (calm_open _ _ w c) by (now rewrite Hw). cbn iota. rewrite (calm_read _ _ _ c) by (cbn; now rewrite Hw).
        rewrite read_lines_spec, Hu. rewrite calm_pure. eapply (FIN _ _ _ (same_files f)).
        * split; [reflexivity|]. split; [reflexivity|]. intros q. cbn. now rewrite Hw.
        * intros g Hg. eapply run_not_text; eauto. intros Q. apply utf8_valid_spec in Q. congruence.
    - destruct reverse; [apply RM; reflexivity|]. eapply CR; [reflexivity|apply emits_write_lines|split; reflexivity].
    - destruct reverse; [|apply RM; reflexivity]. eapply CR; [reflexivity|apply emits_write_lines|split; reflexivity].
    - destruct (content f (bd_before d)) as [c|] eqn:Hc; [|apply (NO _ _ _ _ _ I); cbn; congruence].
      destruct (emitting_byte_apply (e_dbg E) (bd_clumps d) c reverse) as (out & r & Hem).
      assert (Hem' : emits (fun wr => snd (byte_apply_logged (e_dbg E) (bd_clumps d) c reverse wr)) out r).
      { destruct Hem as [H1 H2]. split; [assumption|]. intros wr. rewrite byte_apply_unlogged. apply H2. }
      pose proof (emits_run _ _ _ Hem) as Hrun.
      assert (Hcw : content (w_fs w) (bd_before d) = Some c) by (now rewrite Hw).
      assert (Htw : w_fs w tmp = None) by (now rewrite Hw).
      pose proof (change_calm (bd_before d) (fun b => Ok (Some b)) (fun b => byte_apply_logged (e_dbg E) (bd_clumps d) b reverse) (fun _ => None) w c c out r Hcw eq_refl Htw (library_bytes _ _ _ _) Hem') as Hz.
      cbn zeta in Hz. rewrite Hw in Hz. destruct r as [st| | |].
      * eapply FIN; [exact Hz|]. intros g Hg. eapply run_changed; [exact Hd|exact Hc|econstructor; eauto|exact Hg].
      * destruct Hem as [Q _]. contradiction.
      * eapply FIN; [exact Hz|]. intros g Hg. eapply run_panic; [exact Hd|exact Hc|econstructor; eauto|exact Hg].
      * exfalso. apply (byte_apply_nofuel (e_dbg E) (bd_clumps d) c reverse (Writer [] None)). now rewrite Hrun.
    - destruct reverse; [apply RM; reflexivity|]. eapply CR; [reflexivity|apply emits_write_all|split; reflexivity].
    - destruct reverse; [|apply RM; reflexivity]. eapply CR; [reflexivity|apply emits_write_all|split; reflexivity].
  Qed.

  Lemma main_calm f patch reverse : f tmp = None ->
    (forall t ls c, holds_diff f patch (TextChange t) -> content f (td_before t) = Some c -> lines_of c ls ->
       fst (text_apply_into (e_dbg E) (td_clumps t) ls reverse (Writer [] None)) <> NoFuel) ->
    exists said code g, ends_in (patch_main_logged E patch reverse (start f)) said code (fun g' => g' = g) /\ patch_run E f patch reverse said code g.
  Proof.
    intros Ht Hfuel. unfold patch_main_logged. destruct (node_cases f patch) as [H|[H|(c & H)]].
    - rewrite calm_closed by exact H. exists [Event Program Error (OpeningFailed patch)], 1, f. split; [repeat split|]. apply run_no_patch; [exact H|now intros ?].
    - rewrite calm_dir by exact H. cbn iota. rewrite calm_dir_read by exact H. exists [Event Program Error BadPatch], 1, f. split; [repeat split|].
      apply run_patch_dir; [exact H|now intros ?].
    - rewrite (calm_open _ _ _ c) by exact H. cbn iota. rewrite (calm_read _ _ _ c) by exact H.
      destruct (load_total c) as [Hs|(d & Hs & _)]; rewrite Hs, calm_pure.
      + exists [Event Program Error BadPatch], 1, f. split; [repeat split|]. eapply run_bad_patch; [exact H| |now intros ?].
        intros d (s & Hs1 & Hs2). congruence.
      + assert (Hd : holds_diff f patch d) by (exists c; auto). apply diff_calm; [reflexivity|exact Ht|exact Hd|].
        intros t ls c' -> . apply Hfuel. exact Hd.
  Qed.
End Calm.

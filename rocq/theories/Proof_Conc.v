(* Proof_Conc.v - several runs of the patch tool at the same time. *)
From Verif Require Import Base Model_Seq Model_Changes Model_IO Model_Text Model_Bytes Model_Json Model_Files Model_Conc Spec Spec_Files Spec_Conc Proof_Seq Proof_Utf8 Proof_Json Proof_IO Proof_Text Proof_Bytes Proof_Term Proof_Files.

(* ------------------------------------------------------------------ *)
(* One run                                                             *)
(* ------------------------------------------------------------------ *)
Fixpoint perform (E : env) (a : act) : prog unit :=
  match a with
  | AEnd o => fun w => (o, w)
  | AOp f k => pbnd (op E f) (fun b => perform E (k b))
  end.
Lemma bnd_ext {A B} (m m' : prog A) (k k' : A -> prog B) w : m w = m' w -> (forall a w, k a w = k' a w) -> pbnd m k w = pbnd m' k' w.
Proof. intros H1 H2. unfold pbnd. rewrite H1. destruct (m' w) as [[a|c| |] w']; auto. Qed.
Lemma bnd_assoc {A B C} (m : prog A) (k : A -> prog B) (l : B -> prog C) w : pbnd (pbnd m k) l w = pbnd m (fun a => pbnd (k a) l) w.
Proof. unfold pbnd. destruct (m w) as [[a|c| |] w']; reflexivity. Qed.
Lemma perform_pure {A} E (m : res A) k w : perform E (a_pure m k) w = pbnd (pure m) (fun a => perform E (k a)) w.
Proof. destruct m; reflexivity. Qed.
Lemma perform_drop E o w : perform E (a_drop E o) w = pbnd (drop_temp E) (fun _ => fun w => (o, w)) w.
Proof.
  unfold drop_temp. rewrite bnd_assoc. reflexivity.
Qed.
(* opening and reading, as one *)
Lemma open_then_read {A} E p (k : option (list byte) -> prog A) (k' : prog A) w :
  pbnd (op E (o_open_read p)) (fun h => match h with Some h => pbnd (op E (o_read_all h)) k | None => k' end) w =
  pbnd (open_read E p) (fun ok => if ok then pbnd (read_all E p) k else k') w.
Proof.
  unfold pbnd, open_read, read_all, op. cbn [w_fs w_ops w_seen w_stdout]. unfold o_open_read, o_read_all.
  destruct (e_fault E (w_ops w)); cbn [w_fs w_ops w_seen w_stdout last]; try reflexivity.
  destruct (w_fs w p) as [[m d|]|] eqn:Ef; cbn [w_fs w_ops w_seen w_stdout]; [destruct (readable m) eqn:Em|..]; cbn [w_fs w_ops w_seen w_stdout]; rewrite ?Ef; try reflexivity;
    destruct (e_fault E (S (w_ops w))); reflexivity.
Qed.
Lemma perform_change E {A B} t items (apply : A -> io B) w : perform E (a_change E t items apply) w = patch_change E t items apply w.
Proof.
  unfold patch_change, a_change. cbn [perform].
  transitivity (pbnd (op E (o_open_read t)) (fun h => match h with
    | Some h => pbnd (op E (o_read_all h)) (fun c => perform E (match c with None => AEnd (Exit 1) | Some d => a_apply E t items apply d end))
    | None => fun w => (Exit 1, w) end) w).
  { apply bnd_ext; [reflexivity|]. intros [h|] w1; reflexivity. }
  rewrite open_then_read. apply bnd_ext; [reflexivity|]. intros [] w1; [|reflexivity]. apply bnd_ext; [reflexivity|]. intros [d|] w2; [|reflexivity].
  unfold a_apply. rewrite perform_pure. apply bnd_ext; [reflexivity|]. intros [x|] w3; [|reflexivity].
  unfold a_make_temp. cbn [perform]. apply bnd_ext; [reflexivity|]. intros [] w4; [|reflexivity].
  unfold a_open_temp. cbn [perform]. apply bnd_ext; [reflexivity|]. intros [] w5; [|reflexivity].
  unfold a_write. cbn [perform]. apply bnd_ext; [reflexivity|]. intros [b| | |] w6; [|reflexivity| |reflexivity].
  - unfold a_rename. cbn [perform]. apply bnd_ext; [reflexivity|]. intros [] w7; [|reflexivity].
    rewrite perform_drop. unfold pbnd at 1. destruct (drop_temp E w7) as [[[]|c| |] w8]; reflexivity.
  - rewrite perform_drop. reflexivity.
Qed.
Lemma perform_create E {B} t (m : io B) w : perform E (a_create E t m) w = patch_create E t m w.
Proof.
  unfold patch_create, a_create. cbn [perform]. apply bnd_ext; [reflexivity|]. intros [] w1; reflexivity.
Qed.
Lemma perform_remove E t w : perform E (a_remove t) w = patch_remove E t w.
Proof.
  unfold patch_remove, a_remove. cbn [perform]. apply bnd_ext; [reflexivity|]. intros [] w1; reflexivity.
Qed.
Lemma perform_main E patch reverse w : perform E (a_main E patch reverse) w = patch_main E patch reverse w.
Proof.
  unfold patch_main, a_main. cbn [perform].
  transitivity (pbnd (op E (o_open_read patch)) (fun h => match h with
    | Some h => pbnd (op E (o_read_all h)) (fun c => perform E (match c with
        | None => AEnd (Exit 1)
        | Some s => a_pure (diff_from_json s) (fun d => match d with None => AEnd (Exit 1) | Some d => a_diff E d reverse end) end))
    | None => fun w => (Exit 1, w) end) w).
  { apply bnd_ext; [reflexivity|]. intros [h|] w1; reflexivity. }
  rewrite open_then_read. apply bnd_ext; [reflexivity|]. intros [] w1; [|reflexivity]. apply bnd_ext; [reflexivity|]. intros [s|] w2; [|reflexivity].
  rewrite perform_pure. apply bnd_ext; [reflexivity|]. intros [d|] w3; [|reflexivity].
  destruct d; cbn [a_diff patch_diff]; try apply perform_change; destruct reverse; try apply perform_create; apply perform_remove.
Qed.
Lemma perform_together E a : forall f s n out o w, perform E a (World f s n out) = (o, w) ->
  exists seen, together f [Process E n a] seen (w_fs w) [Process E (w_ops w) (AEnd o)] /\ w_seen w = s ++ seen.
Proof.
  induction a as [o'|B g k IH]; intros f s n out o w H; cbn [perform] in H.
  - injection H as <- <-. exists []. split; [constructor|]. cbn. now rewrite app_nil_r.
  - unfold pbnd, op in H. cbn [w_ops w_fs w_seen w_stdout] in H. destruct (g (e_fault E n) f) as [b states] eqn:Eg.
    destruct (IH b _ _ _ _ _ _ H) as (seen & Hs & Hw). exists (states ++ seen). split; [|now rewrite Hw, app_assoc].
    apply (together_step f [] (Process E n (AOp g k)) [] states (Process E (S n) (k b))); [|exact Hs].
    unfold advance. cbn [pr_act pr_env pr_ops]. now rewrite Eg.
Qed.
Lemma together_perform f ps seen g qs : together f ps seen g qs -> forall E n a q o s out, ps = [Process E n a] -> qs = [q] -> ended q = Some o ->
  q = Process E (pr_ops q) (AEnd o) /\ perform E a (World f s n out) = (o, World g (s ++ seen) (pr_ops q) out).
Proof.
  induction 1 as [f ps|f ps1 p ps2 states p' seen g qs Ha H IH]; intros E n a q o s out Hp Hq He.
  - subst ps. injection Hq as <-. unfold ended in He. cbn in He. destruct a; [|discriminate]. injection He as ->. split; [reflexivity|].
    cbn. now rewrite app_nil_r.
  - destruct ps1 as [|? [|]]; try discriminate. injection Hp as -> ->. unfold advance in Ha. cbn [pr_act pr_env pr_ops] in Ha.
    destruct a as [o'|B h k]; [discriminate|]. destruct (h (e_fault E n) f) as [b st] eqn:Eh. injection Ha as <- <-.
    destruct (IH E (S n) (k b) q o (s ++ st) out eq_refl Hq He) as [H1 H2]. split; [assumption|].
    cbn [perform]. unfold pbnd, op. cbn [w_ops w_fs w_seen w_stdout]. rewrite Eh, H2. now rewrite app_assoc.
Qed.

(* ------------------------------------------------------------------ *)
(* Several                                                             *)
(* ------------------------------------------------------------------ *)
Inductive phase := PBefore | PHold (old : list byte) | PMade (old : list byte) | PReady (old new : list byte) | PDone | PGone | PFail.

Section Several.
  Variable f0 : fs.
  Variable js : list job.
  Hypothesis Hgood : mixed f0 js.

  (* writing this makes [new] of [old] *)
  Definition writes {B} (j : job) (m : io B) (old : list byte) : Prop :=
    exists full r, emits m full r /\ forall b, r = Done b -> patches_to (e_dbg (j_env j)) (j_reverse j) (j_diff j) old full.
  Inductive stage (j : job) : phase -> act -> Prop :=
  | st_main : stage j PBefore (a_main (j_env j) (j_patch j) (j_reverse j))
  | st_load h : (forall s, h = Some s -> diff_from_json s = Ok (Some (j_diff j))) -> stage j PBefore (a_load (j_env j) (j_reverse j) h)
  | st_diff : stage j PBefore (a_diff (j_env j) (j_diff j) (j_reverse j))
  | st_read_none A B t (items : list byte -> res (option A)) (apply : A -> io B) : stage j PBefore (a_read (j_env j) t items apply None)
  | st_read A B (items : list byte -> res (option A)) (apply : A -> io B) old : (forall x, items old = Ok (Some x) -> writes j (apply x) old) ->
      stage j (PHold old) (a_read (j_env j) (target (j_diff j)) items apply (Some old))
  | st_make B (m : io B) old : writes j m old -> stage j (PHold old) (a_make_temp (j_env j) (target (j_diff j)) m)
  | st_open B (m : io B) old : writes j m old -> stage j (PMade old) (a_open_temp (j_env j) (target (j_diff j)) m)
  | st_write B (m : io B) old : writes j m old -> stage j (PMade old) (a_write (j_env j) (target (j_diff j)) m)
  | st_rename old new : stage j (PReady old new) (a_rename (j_env j) (target (j_diff j)))
  | st_drop_done : stage j PDone (a_drop (j_env j) (Val tt))
  | st_done : stage j PDone (AEnd (Val tt))
  | st_gone : removal j -> stage j PGone (AEnd (Val tt))
  | st_drop_fail : stage j PFail (a_drop (j_env j) Abort)
  | st_fail o : o <> Val tt -> stage j PFail (AEnd o).

  Definition lineage (phs : nat -> phase) (p : path) (n : option node) : Prop :=
    exists is, (forall k, In k is -> phs k = PDone) /\ after_jobs f0 js p is n.
  (* no other job is about the same file *)
  Definition sole (i : nat) (j : job) : Prop := forall k l, nth_error js k = Some l -> target (j_diff l) = target (j_diff j) -> k = i.
  Lemma after_targets p is n : after_jobs f0 js p is n -> forall k, In k is -> exists l, nth_error js k = Some l /\ target (j_diff l) = p.
  Proof. induction 1 as [|is m old i j new H IH Hi Hj Ht Hp]; [easy|]. intros k [<-|Hk]; eauto. Qed.
  Definition holds (phs : nat -> phase) (seen : list fs) (i : nat) (j : job) (ph : phase) (f : fs) : Prop :=
    match ph with
    | PHold old => exists m, lineage phs (target (j_diff j)) (Some (File m old))
    | PMade old => (exists m, lineage phs (target (j_diff j)) (Some (File m old))) /\ f (e_tmp (j_env j)) = Some (File (e_mode (j_env j)) [])
    | PReady old new => (exists m, lineage phs (target (j_diff j)) (Some (File m old))) /\
        patches_to (e_dbg (j_env j)) (j_reverse j) (j_diff j) old new /\ f (e_tmp (j_env j)) = Some (File (e_mode (j_env j)) new)
    | PDone => (exists h is, In h seen /\ after_jobs f0 js (target (j_diff j)) (i :: is) (h (target (j_diff j)))) /\
        f (e_tmp (j_env j)) = None /\ (sole i j -> after_jobs f0 js (target (j_diff j)) [i] (f (target (j_diff j))))
    | PGone => (exists h, In h seen /\ h (target (j_diff j)) = None) /\ (sole i j -> f (target (j_diff j)) = None)
    | PBefore | PFail => True
    end.
  (* removed by one of the runs *)
  Definition gone (phs : nat -> phase) (p : path) : Prop :=
    exists i j, phs i = PGone /\ nth_error js i = Some j /\ target (j_diff j) = p /\ removal j.
  Record inv (phs : nat -> phase) (f : fs) (seen : list fs) (ps : list process) : Prop := {
    i_rest : forall p, ~ In p (targets js) -> ~ In p (temps js) -> f p = f0 p;
    i_targets : forall p, In p (targets js) -> lineage phs p (f p) \/ f p = None /\ gone phs p;
    i_length : length ps = length js;
    i_procs : forall i j, nth_error js i = Some j ->
      exists n a, nth_error ps i = Some (Process (j_env j) n a) /\ stage j (phs i) a /\ holds phs seen i j (phs i) f
  }.
  Definition fine (h : fs) : Prop :=
    (forall p, ~ In p (targets js) -> ~ In p (temps js) -> h p = f0 p) /\
    (forall p, In p (targets js) -> (exists is, after_jobs f0 js p is (h p)) \/
       h p = None /\ exists i j, nth_error js i = Some j /\ target (j_diff j) = p /\ removal j).
  Lemma inv_fine phs f seen ps : inv phs f seen ps -> fine f.
  Proof. intros [H1 H2 _ _]. split; [assumption|]. intros p Hp. destruct (H2 p Hp) as [(is & _ & H)|(H & i & j & _ & K)]; [eauto|right; eauto]. Qed.

  Definition set_phase (phs : nat -> phase) (i : nat) (ph : phase) : nat -> phase := fun k => if k =? i then ph else phs k.
  Lemma set_same phs i ph : set_phase phs i ph i = ph.
  Proof. unfold set_phase. now rewrite Nat.eqb_refl. Qed.
  Lemma set_other phs i ph k : k <> i -> set_phase phs i ph k = phs k.
  Proof. intros H. unfold set_phase. now rewrite (proj2 (Nat.eqb_neq k i) H). Qed.
  (* nothing that is done is undone *)
  Definition onward (old new : phase) : Prop := (old = PDone -> new = PDone) /\ (old = PGone -> new = PGone).
  Lemma lineage_set phs i ph p n : onward (phs i) ph -> lineage phs p n -> lineage (set_phase phs i ph) p n.
  Proof.
    intros [Hi _] (is & H1 & H2). exists is. split; [|assumption]. intros k Hk. destruct (Nat.eq_dec k i) as [->|Hki].
    - rewrite set_same. now apply Hi, H1.
    - rewrite set_other by assumption. now apply H1.
  Qed.
  Lemma gone_set phs i ph p : onward (phs i) ph -> gone phs p -> gone (set_phase phs i ph) p.
  Proof.
    intros [_ Hi] (k & j & H1 & H2). exists k, j. split; [|assumption]. destruct (Nat.eq_dec k i) as [->|Hki].
    - rewrite set_same. now apply Hi.
    - now rewrite set_other.
  Qed.
  Lemma target_in i j : nth_error js i = Some j -> In (target (j_diff j)) (targets js).
  Proof. intros H. apply nth_error_In in H. now apply (in_map (fun j => target (j_diff j))). Qed.
  Lemma temp_in i j : nth_error js i = Some j -> In (e_tmp (j_env j)) (temps js).
  Proof. intros H. apply nth_error_In in H. now apply (in_map (fun j => e_tmp (j_env j))). Qed.
  Lemma temp_no_target i j p : nth_error js i = Some j -> In p (targets js) -> e_tmp (j_env j) <> p.
  Proof. intros H Hp <-. destruct Hgood as (_ & _ & H1 & _). now destruct (H1 _ (temp_in _ _ H)). Qed.
  Lemma temps_differ i j k l : nth_error js i = Some j -> nth_error js k = Some l -> i <> k -> e_tmp (j_env j) <> e_tmp (j_env l).
  Proof.
    intros Hj Hl Hik E. destruct Hgood as (_ & Hn & _). apply Hik. rewrite NoDup_nth_error in Hn. apply Hn.
    - unfold temps. rewrite map_length. apply nth_error_Some. congruence.
    - unfold temps. rewrite (map_nth_error _ _ _ Hj), (map_nth_error _ _ _ Hl). now rewrite E.
  Qed.

  Lemma holds_other phs seen i j ph f k l states f' : nth_error js i = Some j -> nth_error js k = Some l -> k <> i -> onward (phs i) ph ->
    (forall p, p <> e_tmp (j_env j) -> p <> target (j_diff j) -> f' p = f p) ->
    holds phs seen k l (phs k) f -> holds (set_phase phs i ph) (seen ++ states) k l (phs k) f'.
  Proof.
    intros Hj Hl Hki Hi Hf. assert (T : f' (e_tmp (j_env l)) = f (e_tmp (j_env l))).
    { apply Hf; [now apply (temps_differ k l i j)|]. apply (temp_no_target k l _ Hl). now apply (target_in i). }
    unfold holds. destruct (phs k); rewrite ?T; try tauto.
    - intros (m & H). exists m. now apply lineage_set.
    - intros ((m & H) & H'). split; [|assumption]. exists m. now apply lineage_set.
    - intros ((m & H) & H'). split; [|assumption]. exists m. now apply lineage_set.
    - intros ((h & is & Hh & H) & Hn & Hs). split; [|split; [assumption|]].
      + exists h, is. split; [apply in_or_app; now left|assumption].
      + intros K. rewrite Hf; [now apply Hs| |].
        * intros K'. apply (temp_no_target i j (target (j_diff l)) Hj); [now apply (target_in k)|congruence].
        * intros K'. apply Hki. symmetry. apply (K i j); congruence.
    - intros ((h & Hh & H) & Hs). split; [exists h; split; [apply in_or_app; now left|assumption]|].
      intros K. rewrite Hf; [now apply Hs| |].
      + intros K'. apply (temp_no_target i j (target (j_diff l)) Hj); [now apply (target_in k)|congruence].
      + intros K'. apply Hki. symmetry. apply (K i j); congruence.
  Qed.
  Lemma step_inv phs f seen ps1 n a ps2 j ph states f' a' : inv phs f seen (ps1 ++ Process (j_env j) n a :: ps2) ->
    nth_error js (length ps1) = Some j -> onward (phs (length ps1)) ph ->
    (forall p, p <> e_tmp (j_env j) -> p <> target (j_diff j) -> f' p = f p) ->
    (forall p, In p (targets js) -> lineage (set_phase phs (length ps1) ph) p (f' p) \/ f' p = None /\ gone (set_phase phs (length ps1) ph) p) ->
    stage j ph a' -> holds (set_phase phs (length ps1) ph) (seen ++ states) (length ps1) j ph f' ->
    inv (set_phase phs (length ps1) ph) f' (seen ++ states) (ps1 ++ Process (j_env j) (S n) a' :: ps2).
  Proof.
    intros [H1 H2 H3 H4] Hj Hi Hf Ht Hs Hh. constructor.
    - intros p Hp Hp'. rewrite <- (H1 p Hp Hp'). apply Hf; intros ->; [apply Hp'; now apply (temp_in (length ps1))|apply Hp; now apply (target_in (length ps1))].
    - assumption.
    - rewrite app_length in *. exact H3.
    - intros k l Hl. destruct (Nat.eq_dec k (length ps1)) as [->|Hk].
      + assert (l = j) as -> by congruence. exists (S n), a'. rewrite nth_error_app2, Nat.sub_diag by lia. rewrite set_same. now repeat split.
      + destruct (H4 k l Hl) as (n' & b & Hn & Hb & Hk'). exists n', b. rewrite set_other by assumption. split; [|split; [assumption|]].
        * destruct (Nat.lt_ge_cases k (length ps1)) as [L|G].
          -- rewrite nth_error_app1 in * by assumption. assumption.
          -- rewrite nth_error_app2 in * by assumption. destruct (k - length ps1) eqn:E; [lia|]. exact Hn.
        * eapply holds_other; eauto.
  Qed.
  (* a step that touches at most the temporary file *)
  Lemma quiet_inv phs f seen ps1 n a ps2 j ph states f' a' : inv phs f seen (ps1 ++ Process (j_env j) n a :: ps2) ->
    nth_error js (length ps1) = Some j -> onward (phs (length ps1)) ph ->
    (forall p, p <> e_tmp (j_env j) -> f' p = f p) ->
    stage j ph a' -> holds (set_phase phs (length ps1) ph) (seen ++ states) (length ps1) j ph f' ->
    inv (set_phase phs (length ps1) ph) f' (seen ++ states) (ps1 ++ Process (j_env j) (S n) a' :: ps2).
  Proof.
    intros H Hj Hi Hf Hs Hh. eapply step_inv; eauto. intros p Hp. assert (e_tmp (j_env j) <> p) by (eapply temp_no_target; eassumption).
    rewrite Hf by congruence. destruct (i_targets _ _ _ _ H p Hp) as [K|[K1 K2]]; [left; now apply lineage_set|right; split; [assumption|now apply gone_set]].
  Qed.
  Lemma fine_aside phs f seen ps j i h : inv phs f seen ps -> nth_error js i = Some j -> (forall p, p <> e_tmp (j_env j) -> h p = f p) -> fine h.
  Proof.
    intros H Hj Hh. pose proof (inv_fine _ _ _ _ H) as [F1 F2]. split.
    - intros p Hp Hp'. rewrite Hh; [now apply F1|]. intros ->. apply Hp'. now apply (temp_in i).
    - intros p Hp. rewrite Hh; [now apply F2|]. intros ->. now apply (temp_no_target i j _ Hj Hp).
  Qed.

  Lemma writes_text j d old ls : j_diff j = TextChange d -> read_lines old = Ok (Some ls) ->
    writes j (text_apply_into (e_dbg (j_env j)) (td_clumps d) ls (j_reverse j)) old.
  Proof.
    intros Hd Hl. destruct (emitting_text_apply (e_dbg (j_env j)) (td_clumps d) ls (j_reverse j)) as (full & r & He). exists full, r. split; [assumption|].
    intros b ->. rewrite Hd. apply read_lines_ok in Hl as (Hu & Hl & _). eapply patches_text; [assumption|eassumption|]. exact (emits_run _ _ _ He).
  Qed.
  Lemma writes_bytes j d old : j_diff j = ByteChange d -> writes j (byte_apply_into (e_dbg (j_env j)) (bd_clumps d) old (j_reverse j)) old.
  Proof.
    intros Hd. destruct (emitting_byte_apply (e_dbg (j_env j)) (bd_clumps d) old (j_reverse j)) as (full & r & He). exists full, r. split; [assumption|].
    intros b ->. rewrite Hd. eapply patches_bytes. exact (emits_run _ _ _ He).
  Qed.
  Lemma last_aside (q : path) (f : fs) states : Forall (fun h : fs => forall p, p <> q -> h p = f p) states -> forall p, p <> q -> last states f p = f p.
  Proof.
    intros H p Hp. destruct states as [|s l] using rev_ind; [reflexivity|]. rewrite last_last. apply Forall_app in H as [_ H]. inversion H; subst. auto.
  Qed.
  Lemma quiet phs f seen ps1 n a ps2 j ph states a' : inv phs f seen (ps1 ++ Process (j_env j) n a :: ps2) ->
    nth_error js (length ps1) = Some j -> onward (phs (length ps1)) ph ->
    Forall (fun h : fs => forall p, p <> e_tmp (j_env j) -> h p = f p) states ->
    stage j ph a' -> holds (set_phase phs (length ps1) ph) (seen ++ states) (length ps1) j ph (last states f) ->
    Forall fine states /\ exists phs', inv phs' (last states f) (seen ++ states) (ps1 ++ Process (j_env j) (S n) a' :: ps2).
  Proof.
    intros H Hj Hi Hf Hs Hh. split.
    - rewrite Forall_forall in *. intros h Hin. eapply fine_aside; eauto.
    - exists (set_phase phs (length ps1) ph). eapply quiet_inv; eauto. now apply last_aside.
  Qed.
  Lemma fail phs f seen ps1 n a ps2 j states o : inv phs f seen (ps1 ++ Process (j_env j) n a :: ps2) ->
    nth_error js (length ps1) = Some j -> phs (length ps1) <> PDone -> phs (length ps1) <> PGone -> o <> Val tt ->
    Forall (fun h : fs => forall p, p <> e_tmp (j_env j) -> h p = f p) states ->
    Forall fine states /\ exists phs', inv phs' (last states f) (seen ++ states) (ps1 ++ Process (j_env j) (S n) (AEnd o) :: ps2).
  Proof. intros H Hj Hi Hi' Ho Hf. apply (quiet phs f seen ps1 n a ps2 j PFail); try assumption; [split; tauto|now constructor|exact I]. Qed.

  Ltac onw := split; congruence.
  Lemma stage_step phs f seen ps1 n a ps2 j states p' : inv phs f seen (ps1 ++ Process (j_env j) n a :: ps2) ->
    nth_error js (length ps1) = Some j -> advance (Process (j_env j) n a) f = Some (states, p') ->
    Forall fine states /\ exists phs', inv phs' (last states f) (seen ++ states) (ps1 ++ p' :: ps2).
  Proof.
    intros H Hj Ha. set (i := length ps1) in *. destruct (i_procs _ _ _ _ H i j Hj) as (n' & a0 & Hn & Hs & Hh).
    unfold i in Hn. rewrite nth_error_app2, Nat.sub_diag in Hn by lia. cbn [nth_error] in Hn. injection Hn as <- <-. fold i in Hs, Hh.
    assert (Ht : In (target (j_diff j)) (targets js)) by now apply (target_in i).
    pose proof (i_targets _ _ _ _ H _ Ht) as Hlin.
    assert (Htt : e_tmp (j_env j) <> target (j_diff j)) by now apply (temp_no_target i).
    assert (Hg := Hgood). destruct Hg as (Hjobs & _ & Htp & Hpt). rewrite Forall_forall in Hjobs. destruct (Hjobs j (nth_error_In _ _ Hj)) as [(sp & Hsp & Hd) Hch].
    assert (Hfp : f (j_patch j) = f0 (j_patch j)).
    { assert (K : In (j_patch j) (patches js)) by (apply in_map; now apply nth_error_In in Hj).
      apply (i_rest _ _ _ _ H); intros K'; [now apply (Hpt _ K')|now apply (Htp _ K')]. }
    unfold advance in Ha. remember (phs i) as ph eqn:Eph. symmetry in Eph.
    destruct Hs as [ |h Hload| |A B t items apply|A B items apply old Hw|B m old Hw|B m old Hw|B m old Hw|old new| | |Hrm| |o Ho].
    - (* open the patch file *)
      unfold a_main in Ha. cbn [pr_act pr_env pr_ops] in Ha. destruct (o_open_read _ _ f) as [b st] eqn:Eo. injection Ha as <- <-.
      unfold o_open_read in Eo. injection Eo as Eo <-. destruct b as [h|].
      + apply quiet with (1 := H) (ph := PBefore); try assumption; fold i; try exact I; try onw; constructor.
        intros s ->. rewrite Hfp in Eo. unfold content in Hsp. destruct (e_fault (j_env j) n); try discriminate.
        destruct (f0 (j_patch j)) as [[m c|]|]; try discriminate. unfold readable in Eo. destruct (N.testbit m 8) in *; try discriminate. congruence.
      + apply fail with (1 := H); try assumption; fold i; [congruence|congruence|discriminate|constructor].
    - (* read it *)
      unfold a_load in Ha. cbn [pr_act pr_env pr_ops] in Ha. destruct (o_read_all _ _ f) as [b st] eqn:Eo. injection Ha as <- <-.
      unfold o_read_all in Eo. injection Eo as Eo <-. destruct b as [s|].
      + rewrite (Hload s) by (destruct (e_fault (j_env j) n); congruence). cbn [a_pure].
        apply quiet with (1 := H) (ph := PBefore); try assumption; fold i; try exact I; try onw; constructor.
      + apply fail with (1 := H); try assumption; fold i; [congruence|congruence|discriminate|constructor].
    - destruct Hch as [Hch|Hch].
      2: {
      (* remove the file *)
      assert (Kd : a_diff (j_env j) (j_diff j) (j_reverse j) = a_remove (target (j_diff j))).
      { unfold removal, removes in Hch. destruct (j_diff j); try contradiction; cbn [a_diff target]; rewrite Hch; reflexivity. }
      cbn [pr_act pr_env pr_ops] in Ha. rewrite Kd in Ha. unfold a_remove in Ha. destruct (o_remove _ _ f) as [b st] eqn:Eo. injection Ha as <- <-.
      assert (Hst : b = false /\ st = [] \/ b = true /\ st = [upd f (target (j_diff j)) None]).
      { unfold o_remove in Eo. destruct (e_fault (j_env j) n), (f (target (j_diff j))) as [[]|]; injection Eo as <- <-; auto. }
      destruct Hst as [[-> ->]|[-> ->]]; [apply fail with (1 := H); try assumption; fold i; [congruence|congruence|discriminate|constructor]|].
      cbn [last]. set (g := upd f (target (j_diff j)) None).
      assert (Hnew : g (target (j_diff j)) = None) by apply upd_same.
      assert (HI : inv (set_phase phs i PGone) g (seen ++ [g]) (ps1 ++ Process (j_env j) (S n) (AEnd (Val tt)) :: ps2)).
      { eapply step_inv; try eassumption; fold i.
        - rewrite Eph. split; congruence.
        - intros p Hp1 Hp2. unfold g. now rewrite upd_other by congruence.
        - intros p Hp1. destruct (path_dec p (target (j_diff j))) as [->|Hp2].
          + right. split; [assumption|]. exists i, j. rewrite set_same. repeat split; assumption.
          + unfold g. rewrite upd_other by congruence. destruct (i_targets _ _ _ _ H p Hp1) as [K|[K1 K2]].
            * left. apply lineage_set; [onw|assumption].
            * right. split; [assumption|]. apply gone_set; [onw|assumption].
        - now constructor.
        - cbn [holds]. split; [exists g; split; [apply in_or_app; right; now left|assumption]|now intros _]. }
      split; [|eauto]. constructor; [|constructor]. now apply inv_fine in HI. }
      (* open the file to be patched *)
      assert (Hkind : exists A B (items : list byte -> res (option A)) (apply : A -> io B),
        a_diff (j_env j) (j_diff j) (j_reverse j) = a_change (j_env j) (target (j_diff j)) items apply /\
        forall old x, items old = Ok (Some x) -> writes j (apply x) old).
      { destruct (j_diff j) as [d| | |d| |] eqn:Ed; try contradiction; do 4 eexists; (split; [reflexivity|]).
        - intros old ls Hl. now apply writes_text. - intros old x [= <-]. now apply writes_bytes. }
      destruct Hkind as (A & B & items & apply & Kd & Kw). cbn [pr_act pr_env pr_ops] in Ha. rewrite Kd in Ha. unfold a_change in Ha. destruct (o_open_read _ _ f) as [b st] eqn:Eo. injection Ha as <- <-.
      unfold o_open_read in Eo. injection Eo as Eo <-. destruct b as [[s|]|].
      + apply quiet with (1 := H) (ph := PHold s); try assumption; fold i; [onw|constructor|now constructor; apply Kw|].
        cbn [holds]. destruct (e_fault (j_env j) n); try discriminate. destruct (f (target (j_diff j))) as [[m c|]|] eqn:Ef; try discriminate.
        destruct (readable m); try discriminate. injection Eo as ->. exists m. apply lineage_set; [onw|]. destruct Hlin as [Hlin|[Hlin _]]; [assumption|discriminate].
      + apply quiet with (1 := H) (ph := PBefore); try assumption; fold i; try exact I; try onw; constructor.
      + apply fail with (1 := H); try assumption; fold i; [congruence|congruence|discriminate|constructor].
    - (* read it: a directory *)
      unfold a_read in Ha. cbn [pr_act pr_env pr_ops] in Ha. destruct (o_read_all _ _ f) as [b st] eqn:Eo. injection Ha as <- <-.
      unfold o_read_all in Eo. injection Eo as Eo <-. assert (b = None) as -> by (destruct (e_fault (j_env j) n); congruence).
      apply fail with (1 := H); try assumption; fold i; [congruence|congruence|discriminate|constructor].
    - (* read it: a file *)
      unfold a_read in Ha. cbn [pr_act pr_env pr_ops] in Ha. destruct (o_read_all _ _ f) as [b st] eqn:Eo. injection Ha as <- <-.
      unfold o_read_all in Eo. injection Eo as Eo <-. destruct b as [s|]; [|apply fail with (1 := H); try assumption; fold i; [congruence|congruence|discriminate|constructor]].
      assert (s = old) as -> by (destruct (e_fault (j_env j) n); congruence).
      unfold a_apply. destruct (items old) as [[x|]| |] eqn:El; cbn [a_pure]; try (apply fail with (1 := H); try assumption; fold i; [congruence|congruence|discriminate|constructor]).
      apply quiet with (1 := H) (ph := PHold old); try assumption; fold i; [onw|constructor|constructor; now apply Hw|].
      cbn [holds] in *. destruct Hh as (m0 & Hh). exists m0. apply lineage_set; [onw|assumption].
    - (* make the temporary file *)
      unfold a_make_temp in Ha. cbn [pr_act pr_env pr_ops] in Ha. destruct (o_create_new _ _ _ f) as [b st] eqn:Eo. injection Ha as <- <-.
      unfold o_create_new in Eo. destruct (e_fault (j_env j) n), (f (e_tmp (j_env j))) eqn:Ef; injection Eo as <- <-;
        try (apply fail with (1 := H); try assumption; fold i; [congruence|congruence|discriminate|constructor]).
      apply quiet with (1 := H) (ph := (PMade old)); try assumption; fold i; [onw| |now constructor|].
      + constructor; [|constructor]. intros p Hp. apply upd_other. congruence.
      + cbn [holds last]. rewrite upd_same. split; [|reflexivity]. cbn [holds] in Hh. destruct Hh as (m0 & Hh). exists m0. apply lineage_set; [onw|assumption].
    - (* open it *)
      unfold a_open_temp in Ha. cbn [pr_act pr_env pr_ops] in Ha. destruct (o_create _ _ _ f) as [b st] eqn:Eo. injection Ha as <- <-.
      cbn [holds] in Hh. destruct Hh as ((m0 & Hh) & Hf). unfold o_create in Eo. rewrite Hf in Eo.
      destruct (e_fault (j_env j) n); injection Eo as <- <-; try (apply fail with (1 := H); try assumption; fold i; [congruence|congruence|discriminate|constructor]).
      apply quiet with (1 := H) (ph := (PMade old)); try assumption; fold i; [onw| |now constructor|].
      + constructor; [|constructor]. intros p Hp. apply upd_other. congruence.
      + cbn [holds last]. rewrite upd_same. split; [|reflexivity]. exists m0. apply lineage_set; [onw|assumption].
    - (* write to it *)
      unfold a_write in Ha. cbn [pr_act pr_env pr_ops] in Ha. destruct (o_write _ _ _ f) as [b st] eqn:Eo. injection Ha as <- <-.
      cbn [holds] in Hh. destruct Hh as ((m0 & Hh) & Hf). destruct Hw as (full & r & [Hr He] & Hp).
      assert (Hst : Forall (fun h : fs => forall p, p <> e_tmp (j_env j) -> h p = f p) st /\
        (b = IoErr \/ b = r /\ last st f (e_tmp (j_env j)) = Some (File (e_mode (j_env j)) full))).
      { unfold o_write in Eo. rewrite Hf, He in Eo. unfold run_emit in Eo. cbn [w_room w_out app] in Eo.
        assert (A : forall out, Forall (fun h : fs => forall p, p <> e_tmp (j_env j) -> h p = f p) (prefixes (e_tmp (j_env j)) (e_mode (j_env j)) [] out f)).
        { intros out. apply Forall_map, Forall_forall. intros k _ p Hp'. apply upd_other. congruence. }
        assert (B' : last (prefixes (e_tmp (j_env j)) (e_mode (j_env j)) [] full f) f (e_tmp (j_env j)) = Some (File (e_mode (j_env j)) full)).
        { rewrite prefixes_last. apply upd_same. }
        destruct (e_fault (j_env j) n) as [| |k].
        - injection Eo as <- <-. split; [apply A|right; split; [reflexivity|exact B']].
        - destruct (length full <=? 0); injection Eo as <- <-; (split; [first [apply A | apply (A [])]|]); [right; split; [reflexivity|exact B']|now left].
        - destruct (length full <=? k); injection Eo as <- <-; (split; [first [apply A | apply (A [])]|]); [right; split; [reflexivity|exact B']|now left]. }
      destruct Hst as [Hst [->|[-> Hl]]]; [apply fail with (1 := H); try assumption; fold i; [congruence|congruence|discriminate]|].
      destruct r as [x| | |].
      + apply quiet with (1 := H) (ph := (PReady old full)); try assumption; fold i; [onw|constructor|].
        cbn [holds]. split; [|split; [now apply (Hp x)|assumption]]. exists m0. apply lineage_set; [onw|assumption].
      + contradiction.
      + apply quiet with (1 := H) (ph := PFail); try assumption; fold i; try exact I; try onw; constructor.
      + apply fail with (1 := H); try assumption; fold i; [congruence|congruence|discriminate].
    - (* rename it *)
      unfold a_rename in Ha. cbn [pr_act pr_env pr_ops] in Ha. destruct (o_rename _ _ _ f) as [b st] eqn:Eo. injection Ha as <- <-.
      cbn [holds] in Hh. destruct Hh as ((m0 & is & His & Hh) & Hp & Hf). unfold o_rename in Eo. rewrite Hf, (path_eqb_neq _ _ Htt) in Eo.
      assert (Hst : b = false /\ st = [] \/ b = true /\ st = [upd (upd f (e_tmp (j_env j)) None) (target (j_diff j)) (Some (File (e_mode (j_env j)) new))]).
      { destruct (e_fault (j_env j) n); [|injection Eo as <- <-; auto..]. destruct (f (target (j_diff j))) as [[]|]; injection Eo as <- <-; auto. }
      destruct Hst as [[-> ->]|[-> ->]]; [apply fail with (1 := H); try assumption; fold i; [congruence|congruence|discriminate|constructor]|].
      cbn [last]. set (g := upd _ (target _) _).
      assert (Hnew : after_jobs f0 js (target (j_diff j)) (i :: is) (g (target (j_diff j)))).
      { unfold g. rewrite upd_same. eapply aj_job; eauto. intros K. apply His in K. congruence. }
      assert (HI : inv (set_phase phs i PDone) g (seen ++ [g]) (ps1 ++ Process (j_env j) (S n) (a_drop (j_env j) (Val tt)) :: ps2)).
      { eapply step_inv; try eassumption; fold i.
        - rewrite Eph. split; congruence.
        - intros p Hp1 Hp2. unfold g. rewrite !upd_other by congruence. reflexivity.
        - intros p Hp1. destruct (path_dec p (target (j_diff j))) as [->|Hp2].
          + left. exists (i :: is). split; [|exact Hnew]. intros k [<-|Hk]; [apply set_same|]. destruct (Nat.eq_dec k i) as [->|Hki]; [apply set_same|].
            rewrite set_other by assumption. now apply His.
          + unfold g. rewrite upd_other by congruence. rewrite upd_other by (now apply (temp_no_target i)). destruct (i_targets _ _ _ _ H p Hp1) as [K|[K1 K2]].
            * left. apply lineage_set; [onw|assumption].
            * right. split; [assumption|]. apply gone_set; [onw|assumption].
        - constructor.
        - cbn [holds]. split; [|split].
          + exists g, is. split; [apply in_or_app; right; now left|exact Hnew].
          + unfold g. rewrite upd_other, upd_same by congruence. reflexivity.
          + intros K. destruct is as [|k is]; [exact Hnew|exfalso].
            destruct (after_targets _ _ _ Hh k (or_introl eq_refl)) as (l & Hl & Hl'). pose proof (K k l Hl Hl') as ->. specialize (His i (or_introl eq_refl)). congruence. }
      split; [|eauto]. constructor; [|constructor]. now apply inv_fine in HI.
    - (* remove it *)
      unfold a_drop in Ha. cbn [pr_act pr_env pr_ops] in Ha. destruct (o_remove _ _ f) as [b st] eqn:Eo. injection Ha as <- <-.
      cbn [holds] in Hh. destruct Hh as ((h & is & Hh1 & Hh2) & Hh3 & Hh4).
      assert (st = []) as -> by (unfold o_remove in Eo; rewrite Hh3 in Eo; destruct (e_fault (j_env j) n); now injection Eo).
      apply quiet with (1 := H) (ph := PDone); try assumption; fold i; [onw|constructor|constructor|].
      cbn [holds last]. split; [|now split]. exists h, is. split; [apply in_or_app; now left|assumption].
    - discriminate Ha.
    - discriminate Ha.
    - unfold a_drop in Ha. cbn [pr_act pr_env pr_ops] in Ha. destruct (o_remove _ _ f) as [b st] eqn:Eo. injection Ha as <- <-.
      apply fail with (1 := H); try assumption; fold i; [congruence|congruence|discriminate|].
      unfold o_remove in Eo. destruct (e_fault (j_env j) n), (f (e_tmp (j_env j))) as [[]|]; injection Eo as <- <-; constructor; [|constructor].
      intros p Hp. apply upd_other. congruence.
    - discriminate Ha.
  Qed.

  Lemma together_inv f ps more g qs : together f ps more g qs -> forall phs seen, inv phs f seen ps ->
    Forall fine more /\ exists phs', inv phs' g (seen ++ more) qs.
  Proof.
    induction 1 as [f ps|f ps1 p ps2 states p' more g qs Ha H IH]; intros phs seen HI.
    - split; [constructor|]. exists phs. now rewrite app_nil_r.
    - assert (Hlt : length ps1 < length js). { rewrite <- (i_length _ _ _ _ HI), app_length. cbn. lia. }
      destruct (nth_error js (length ps1)) as [j|] eqn:Ej; [|apply nth_error_None in Ej; lia].
      destruct (i_procs _ _ _ _ HI _ _ Ej) as (n & a & Hn & _). rewrite nth_error_app2, Nat.sub_diag in Hn by lia. cbn in Hn. injection Hn as ->.
      destruct (stage_step _ _ _ _ _ _ _ _ _ _ HI Ej Ha) as [HF (phs' & HI')]. destruct (IH _ _ HI') as [HF' (phs'' & HI'')].
      split; [now apply Forall_app|]. exists phs''. now rewrite app_assoc.
  Qed.
  Lemma start_inv : inv (fun _ => PBefore) f0 [] (map begun js).
  Proof.
    constructor.
    - reflexivity.
    - intros p _. left. exists []. split; [easy|constructor].
    - apply map_length.
    - intros i j Hj. exists 0, (a_main (j_env j) (j_patch j) (j_reverse j)). split; [now rewrite (map_nth_error _ _ _ Hj)|]. split; [constructor|exact I].
  Qed.
  Lemma stage_end j ph o : stage j ph (AEnd o) -> is_change (j_diff j) \/ removal j -> (o = Val tt <-> ph = PDone \/ ph = PGone).
  Proof.
    intros Hs Hc. remember (AEnd o) as a eqn:Ea. destruct Hs; try discriminate Ea.
    - destruct Hc as [Hc|Hc]; [destruct (j_diff j); try contradiction; discriminate Ea|].
      unfold removal, removes in Hc. destruct (j_diff j); try contradiction; cbn [a_diff] in Ea; rewrite Hc in Ea; discriminate Ea.
    - injection Ea as <-. tauto.
    - injection Ea as <-. tauto.
    - injection Ea as ->. split; [contradiction|intros [K|K]; discriminate K].
  Qed.
  Lemma together_mixed seen g qs : together f0 (map begun js) seen g qs ->
    (forall h, In h (f0 :: seen) -> fine h) /\
    (forall p, ~ In p (targets js) -> ~ In p (temps js) -> g p = f0 p) /\
    (forall p, In p (targets js) ->
       (exists is, after_jobs f0 js p is (g p) /\
          forall i q o, In i is -> nth_error qs i = Some q -> ended q = Some o -> o = Val tt) \/
       g p = None /\ exists i j, nth_error js i = Some j /\ target (j_diff j) = p /\ removal j /\
          forall q o, nth_error qs i = Some q -> ended q = Some o -> o = Val tt) /\
    forall i j q, nth_error js i = Some j -> nth_error qs i = Some q -> ended q = Some (Val tt) ->
      (exists h is, In h seen /\ after_jobs f0 js (target (j_diff j)) (i :: is) (h (target (j_diff j)))) /\
      g (e_tmp (j_env j)) = None /\
      (sole i j -> after_jobs f0 js (target (j_diff j)) [i] (g (target (j_diff j)))) \/
      removal j /\ (exists h, In h seen /\ h (target (j_diff j)) = None) /\ (sole i j -> g (target (j_diff j)) = None).
  Proof.
    intros H. destruct (together_inv _ _ _ _ _ H _ _ start_inv) as [HF (phs & HI)]. cbn [app] in HI.
    assert (Hend : forall i j q o, nth_error js i = Some j -> nth_error qs i = Some q -> ended q = Some o ->
      (o = Val tt <-> phs i = PDone \/ phs i = PGone) /\ holds phs seen i j (phs i) g /\ (phs i = PGone -> removal j)).
    { intros i j q o Hj Hq He. destruct (i_procs _ _ _ _ HI i j Hj) as (n & a & Hn & Hs & Hh). rewrite Hn in Hq. injection Hq as <-.
      unfold ended in He. cbn [pr_act] in He. destruct a as [o'|]; [|discriminate]. injection He as ->. split; [|split; [assumption|]].
      - apply (stage_end j _ _ Hs). destruct Hgood as (Hjobs & _). rewrite Forall_forall in Hjobs. apply Hjobs. now apply nth_error_In in Hj.
      - intros E. rewrite E in Hs. now inversion Hs. }
    split; [|split; [|split]].
    - intros h [<-|Hh]; [exact (inv_fine _ _ _ _ start_inv)|]. rewrite Forall_forall in HF. auto.
    - exact (i_rest _ _ _ _ HI).
    - intros p Hp. destruct (i_targets _ _ _ _ HI p Hp) as [(is & His & Ha)|(Hn & i & j & Hi & Hj & Ht & Hr)].
      + left. exists is. split; [assumption|]. intros i q o Hi Hq He. destruct (after_targets _ _ _ Ha i Hi) as (j & Hj & _).
        apply (Hend i j q o Hj Hq He). left. now apply His.
      + right. split; [assumption|]. exists i, j. repeat (split; [assumption|]). intros q o Hq He. apply (Hend i j q o Hj Hq He). now right.
    - intros i j q Hj Hq He. destruct (Hend i j q _ Hj Hq He) as (K & Hh & Hr). destruct (proj1 K eq_refl) as [E|E].
      + left. rewrite E in Hh. exact Hh.
      + right. split; [now apply Hr|]. rewrite E in Hh. exact Hh.
  Qed.
End Several.
Lemma orderly_mixed f js : orderly f js -> mixed f js.
Proof. intros (H & H'). split; [|assumption]. eapply Forall_impl; [|exact H]. cbn. tauto. Qed.
Lemma orderly_none f js i j : orderly f js -> nth_error js i = Some j -> removal j -> False.
Proof.
  intros (H & _) Hj Hr. rewrite Forall_forall in H. destruct (H j (nth_error_In _ _ Hj)) as [_ Hc].
  unfold removal, removes, is_change in *. destruct (j_diff j); contradiction.
Qed.
Lemma together_jobs f0 js : orderly f0 js -> forall seen g qs, together f0 (map begun js) seen g qs ->
  (forall h, In h (f0 :: seen) -> (forall p, ~ In p (targets js) -> ~ In p (temps js) -> h p = f0 p) /\
     (forall p, In p (targets js) -> exists is, after_jobs f0 js p is (h p))) /\
  (forall p, ~ In p (targets js) -> ~ In p (temps js) -> g p = f0 p) /\
  (forall p, In p (targets js) -> exists is, after_jobs f0 js p is (g p) /\
     forall i q o, In i is -> nth_error qs i = Some q -> ended q = Some o -> o = Val tt) /\
  forall i j q, nth_error js i = Some j -> nth_error qs i = Some q -> ended q = Some (Val tt) ->
    (exists h is, In h seen /\ after_jobs f0 js (target (j_diff j)) (i :: is) (h (target (j_diff j)))) /\
    g (e_tmp (j_env j)) = None /\
    (sole js i j -> after_jobs f0 js (target (j_diff j)) [i] (g (target (j_diff j)))).
Proof.
  intros Ho seen g qs H. destruct (together_mixed f0 js (orderly_mixed _ _ Ho) seen g qs H) as (H1 & H2 & H3 & H4).
  pose proof (fun i j => orderly_none f0 js i j Ho) as N. split; [|split; [assumption|split]].
  - intros h Hh. destruct (H1 h Hh) as [K1 K2]. split; [assumption|]. intros p Hp. destruct (K2 p Hp) as [K|(_ & i & j & Hj & _ & Hr)]; [assumption|].
    destruct (N i j Hj Hr).
  - intros p Hp. destruct (H3 p Hp) as [K|(_ & i & j & Hj & _ & Hr & _)]; [assumption|]. destruct (N i j Hj Hr).
  - intros i j q Hj Hq He. destruct (H4 i j q Hj Hq He) as [K|(Hr & _)]; [assumption|]. destruct (N i j Hj Hr).
Qed.

(* ------------------------------------------------------------------ *)
(* Chains                                                              *)
(* ------------------------------------------------------------------ *)
Lemma patches_unique dbg reverse d old new new' : patches_to dbg reverse d old new -> patches_to dbg reverse d old new' -> new = new'.
Proof.
  intros H H'. destruct H as [d old ls st new Hu Hl Hr|d old u new Hr].
  - apply patches_text_inv in H' as (_ & st' & H'). rewrite <- (lines_of_split _ _ Hl) in H'. rewrite Hr in H'. now injection H'.
  - apply patches_byte_inv in H' as (u' & H'). rewrite Hr in H'. now injection H'.
Qed.
Lemma after_unique f js p is n : after_jobs f js p is n -> forall n', after_jobs f js p is n' -> n = n'.
Proof.
  induction 1 as [|is m old i j new H IH Hi Hj Ht Hp]; intros n' H'; inversion H' as [|is' m' old' i' j' new' K Ki Kj Kt Kp]; subst; [reflexivity|].
  apply IH in K. injection K as <- <-. assert (j' = j) as -> by congruence. now rewrite (patches_unique _ _ _ _ _ _ Hp Kp).
Qed.
Lemma after_nodup f js p is n : after_jobs f js p is n -> NoDup is /\ forall i, In i is -> i < length js.
Proof.
  induction 1 as [|is m old i j new H [IH1 IH2] Hi Hj Ht Hp]; [split; [constructor|easy]|]. split; [now constructor|].
  intros k [<-|Hk]; [|auto]. apply nth_error_Some. congruence.
Qed.
Lemma both_of_two is : NoDup is -> (forall i, In i is -> i < 2) -> In 0 is -> In 1 is -> is = [0; 1] \/ is = [1; 0].
Proof.
  intros Hn Hb H0 H1. destruct is as [|a [|b [|c is]]].
  - destruct H0.
  - destruct H0 as [->|[]], H1 as [H|[]]. discriminate.
  - destruct H0 as [E0|[E0|[]]], H1 as [E1|[E1|[]]]; subst; auto; discriminate.
  - exfalso. pose proof (Hb a ltac:(now left)). pose proof (Hb b ltac:(right; now left)). pose proof (Hb c ltac:(right; right; now left)).
    inversion Hn as [|? ? N1 N2]; subst. inversion N2 as [|? ? N3 N4]; subst. cbn [In] in *.
    assert (a <> b) by (intros ->; tauto). assert (a <> c) by (intros ->; tauto). assert (b <> c) by (intros ->; tauto). lia.
Qed.

(* ------------------------------------------------------------------ *)
(* A given order                                                       *)
(* ------------------------------------------------------------------ *)
Fixpoint replace_at (i : nat) (p : process) (ps : list process) : list process :=
  match i, ps with
  | 0, _ :: ps => p :: ps
  | S i, q :: ps => q :: replace_at i p ps
  | _, [] => []
  end.
Fixpoint exec (order : list nat) (f : fs) (ps : list process) : list fs * fs * list process :=
  match order with
  | [] => ([], f, ps)
  | i :: order =>
      match nth_error ps i with
      | None => exec order f ps
      | Some p =>
          match advance p f with
          | None => exec order f ps
          | Some (states, p') => let '(seen, g, qs) := exec order (last states f) (replace_at i p' ps) in (states ++ seen, g, qs)
          end
      end
  end.
Lemma replace_at_app ps1 p ps2 p' : replace_at (length ps1) p' (ps1 ++ p :: ps2) = ps1 ++ p' :: ps2.
Proof. induction ps1; cbn; congruence. Qed.
Lemma exec_together order : forall f ps, let r := exec order f ps in together f ps (fst (fst r)) (snd (fst r)) (snd r).
Proof.
  induction order as [|i order IH]; intros f ps; cbn [exec]; [constructor|].
  destruct (nth_error ps i) as [p|] eqn:En; [|apply IH]. destruct (advance p f) as [[states p']|] eqn:Ea; [|apply IH].
  apply nth_error_split in En as (ps1 & ps2 & -> & <-). rewrite replace_at_app. specialize (IH (last states f) (ps1 ++ p' :: ps2)).
  destruct (exec order _ _) as [[seen g] qs]. cbn [fst snd] in *. econstructor; eassumption.
Qed.

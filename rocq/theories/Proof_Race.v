(* Proof_Race.v - runs of the patch tool that create or remove the same file at the same time. *)
From Verif Require Import Base Model_Seq Model_Changes Model_IO Model_Text Model_Bytes Model_Json Model_Files Model_Conc Spec Spec_Files Spec_Conc Proof_Seq Proof_Utf8 Proof_Json Proof_IO Proof_Text Proof_Bytes Proof_Term Proof_Files Proof_Conc.

Inductive turn := Waiting | Writing | Over.

Section Rivals.
  Variable f0 : fs.
  Variable js : list job.
  Variable p : path.
  Hypothesis Hr : rivals f0 js p.

  Inductive at_turn (j : job) : turn -> act -> Prop :=
  | at_main : at_turn j Waiting (a_main (j_env j) (j_patch j) (j_reverse j))
  | at_load s : diff_from_json s = Ok (Some (j_diff j)) -> at_turn j Waiting (a_load (j_env j) (j_reverse j) (Some s))
  | at_diff : at_turn j Waiting (a_diff (j_env j) (j_diff j) (j_reverse j))
  | at_write B (m : io B) c r : creation j c -> emits m c r -> at_turn j Writing (AOp (o_write p m) (fun _ => AEnd (Val tt)))
  | at_end o : (fault_free (j_env j) -> o = Val tt) -> at_turn j Over (AEnd o).

  (* the path is as it was, or holds a beginning of what the run [won] creates *)
  Definition begins (won : option nat) (n : option node) : Prop :=
    n = f0 p \/ f0 p = None /\ exists i j c k, won = Some i /\ nth_error js i = Some j /\ creation j c /\ n = Some (File (e_mode (j_env j)) (firstn k c)).
  Definition sound (won : option nat) (h : fs) : Prop := (forall q, q <> p -> h q = f0 q) /\ begins won (h p).
  Definition standing (won : option nat) (ts : nat -> turn) (n : option node) : Prop :=
    match won with
    | None => n = f0 p /\ forall i, ts i <> Writing
    | Some i => f0 p = None /\ (forall k, ts k = Writing -> k = i) /\ exists j c, nth_error js i = Some j /\ creation j c /\
        (ts i = Writing /\ n = Some (File (e_mode (j_env j)) []) \/
         ts i = Over /\ exists k, n = Some (File (e_mode (j_env j)) (firstn k c)) /\ (fault_free (j_env j) -> firstn k c = c))
    end.
  Record race (won : option nat) (ts : nat -> turn) (f : fs) (seen : list fs) (ps : list process) : Prop := {
    c_rest : forall q, q <> p -> f q = f0 q;
    c_stand : standing won ts (f p);
    c_seen : Forall (sound won) seen;
    c_over : forall i j, nth_error js i = Some j -> ts i = Over -> fault_free (j_env j) -> f p <> None;
    c_length : length ps = length js;
    c_procs : forall i j, nth_error js i = Some j -> exists n a, nth_error ps i = Some (Process (j_env j) n a) /\ at_turn j (ts i) a
  }.
  Lemma standing_begins won ts n : standing won ts n -> begins won n.
  Proof.
    unfold standing, begins. destruct won as [i|]; [|intros [-> _]; now left].
    intros (H0 & _ & j & c & Hj & Hc & [[_ ->]|[_ (k & -> & _)]]); right; (split; [assumption|]).
    - exists i, j, c, 0. repeat split; assumption.
    - exists i, j, c, k. repeat split; assumption.
  Qed.
  Lemma race_sound won ts f seen ps : race won ts f seen ps -> sound won f.
  Proof. intros [H1 H2 _ _ _ _]. split; [assumption|]. eapply standing_begins. exact H2. Qed.

  Definition set_turn (ts : nat -> turn) (i : nat) (t : turn) : nat -> turn := fun k => if k =? i then t else ts k.
  Lemma turn_same ts i t : set_turn ts i t i = t.
  Proof. unfold set_turn. now rewrite Nat.eqb_refl. Qed.
  Lemma turn_other ts i t k : k <> i -> set_turn ts i t k = ts k.
  Proof. intros H. unfold set_turn. now rewrite (proj2 (Nat.eqb_neq k i) H). Qed.
  Lemma procs_set ts ps1 n a ps2 j t a' : (forall i l, nth_error js i = Some l ->
      exists n' b, nth_error (ps1 ++ Process (j_env j) n a :: ps2) i = Some (Process (j_env l) n' b) /\ at_turn l (ts i) b) ->
    nth_error js (length ps1) = Some j -> at_turn j t a' ->
    forall i l, nth_error js i = Some l ->
      exists n' b, nth_error (ps1 ++ Process (j_env j) (S n) a' :: ps2) i = Some (Process (j_env l) n' b) /\ at_turn l (set_turn ts (length ps1) t i) b.
  Proof.
    intros H4 Hj Hs k l Hl. destruct (Nat.eq_dec k (length ps1)) as [->|Hk].
    - assert (l = j) as -> by congruence. exists (S n), a'. rewrite nth_error_app2, Nat.sub_diag by lia. rewrite turn_same. now split.
    - destruct (H4 k l Hl) as (n' & b & Hn & Hb). exists n', b. rewrite turn_other by assumption. split; [|assumption].
      destruct (Nat.lt_ge_cases k (length ps1)) as [L|G].
      + rewrite nth_error_app1 in * by assumption. assumption.
      + rewrite nth_error_app2 in * by assumption. destruct (k - length ps1) eqn:E; [lia|]. exact Hn.
  Qed.
  (* a step that changes nothing, of a run that is not writing *)
  Lemma idle won ts f seen ps1 n a ps2 j t a' : race won ts f seen (ps1 ++ Process (j_env j) n a :: ps2) ->
    nth_error js (length ps1) = Some j -> ts (length ps1) = Waiting -> at_turn j t a' -> (t = Waiting \/ t = Over) ->
    (t = Over -> fault_free (j_env j) -> f p <> None) ->
    race won (set_turn ts (length ps1) t) f (seen ++ []) (ps1 ++ Process (j_env j) (S n) a' :: ps2).
  Proof.
    intros [H1 H2 H3 H4 H5 H6] Hj Hw Ha Ht Hf. constructor.
    - assumption.
    - unfold standing in *. destruct won as [i|].
      + destruct H2 as (H0 & Hu & i' & c & Hi & Hc & Hk). split; [assumption|]. split.
        * intros k Ek. destruct (Nat.eq_dec k (length ps1)) as [->|Nk]; [rewrite turn_same in Ek; destruct Ht; congruence|]. rewrite turn_other in Ek by assumption. auto.
        * exists i', c. split; [assumption|]. split; [assumption|].
          assert (i <> length ps1) by (intros ->; destruct Hk as [[K _]|[K _]]; congruence). now rewrite turn_other.
      + destruct H2 as [H0 Hu]. split; [assumption|]. intros k Ek.
        destruct (Nat.eq_dec k (length ps1)) as [->|Nk]; [rewrite turn_same in Ek; destruct Ht; congruence|]. rewrite turn_other in Ek by assumption. now apply (Hu k).
    - now rewrite app_nil_r.
    - intros i l Hl Ho Hff. destruct (Nat.eq_dec i (length ps1)) as [->|Ni].
      + rewrite turn_same in Ho. assert (l = j) as -> by congruence. now apply Hf.
      + rewrite turn_other in Ho by assumption. now apply (H4 i l).
    - rewrite app_length in *. exact H5.
    - now apply procs_set with (a := a).
  Qed.

  Lemma fault_over won ts f seen ps1 n a ps2 j o : race won ts f seen (ps1 ++ Process (j_env j) n a :: ps2) ->
    nth_error js (length ps1) = Some j -> ts (length ps1) = Waiting -> e_fault (j_env j) n <> NoFault ->
    exists won' ts', race won' ts' f (seen ++ []) (ps1 ++ Process (j_env j) (S n) (AEnd o) :: ps2).
  Proof.
    intros H Hj Hw Hf. exists won, (set_turn ts (length ps1) Over). eapply idle; try eassumption; [|now right|].
    - constructor. intros K. destruct (Hf (K n)).
    - intros _ K. destruct (Hf (K n)).
  Qed.
  Lemma wait won ts f seen ps1 n a ps2 j a' : race won ts f seen (ps1 ++ Process (j_env j) n a :: ps2) ->
    nth_error js (length ps1) = Some j -> ts (length ps1) = Waiting -> at_turn j Waiting a' ->
    exists won' ts', race won' ts' f (seen ++ []) (ps1 ++ Process (j_env j) (S n) a' :: ps2).
  Proof.
    intros H Hj Hw Ha. exists won, (set_turn ts (length ps1) Waiting). eapply idle; try eassumption; [now left|discriminate].
  Qed.
  Lemma creation_unique j c c' : creation j c -> creation j c' -> c = c'.
  Proof. unfold creation, creates. destruct (j_diff j); try easy; intros [_ ->] [_ ->]; reflexivity. Qed.
  Lemma creation_act j c : creation j c -> exists B (m : io B) r, emits m c r /\ a_diff (j_env j) (j_diff j) (j_reverse j) = a_create (j_env j) (target (j_diff j)) m.
  Proof.
    unfold creation, creates. destruct (j_diff j) as [d|q|q|d|q|q]; try easy; intros [-> ->]; cbn [a_diff target]; do 3 eexists; (split; [|reflexivity]);
      first [apply emits_write_lines|apply emits_write_all].
  Qed.

  Lemma race_step won ts f seen ps1 n a ps2 j states p' : race won ts f seen (ps1 ++ Process (j_env j) n a :: ps2) ->
    nth_error js (length ps1) = Some j -> advance (Process (j_env j) n a) f = Some (states, p') ->
    exists won' ts', race won' ts' (last states f) (seen ++ states) (ps1 ++ p' :: ps2).
  Proof.
    intros H Hj Ha. set (i := length ps1) in *. destruct (c_procs _ _ _ _ _ H i j Hj) as (n' & a0 & Hn & Hs).
    unfold i in Hn. rewrite nth_error_app2, Nat.sub_diag in Hn by lia. cbn [nth_error] in Hn. injection Hn as <- <-. fold i in Hs.
    assert (Hg := Hr). destruct Hg as (Hjobs & Hpp). rewrite Forall_forall in Hjobs.
    destruct (Hjobs j (nth_error_In _ _ Hj)) as ((sp & Hsp & Hd) & Ht & c & Hc).
    assert (Hfp : f (j_patch j) = f0 (j_patch j)).
    { apply (c_rest _ _ _ _ _ H). intros K. apply Hpp. rewrite <- K. apply in_map. now apply nth_error_In in Hj. }
    unfold advance in Ha. remember (ts i) as t eqn:Et. symmetry in Et.
    destruct Hs as [ |s Hload| |B m c' r Hc' Hm|o Ho].
    - (* open the patch file *)
      unfold a_main in Ha. cbn [pr_act pr_env pr_ops] in Ha. destruct (o_open_read _ _ f) as [b st] eqn:Eo. injection Ha as <- <-.
      unfold o_open_read in Eo. injection Eo as Eo <-. rewrite Hfp in Eo. unfold content in Hsp. unfold readable in Eo.
      destruct (f0 (j_patch j)) as [[m d|]|]; try discriminate. destruct (N.testbit m 8); try discriminate. injection Hsp as ->.
      destruct (e_fault (j_env j) n) eqn:Ef; subst b; try (cbn [last]; eapply fault_over; [exact H|exact Hj|exact Et|congruence]).
      cbn [last]; eapply wait; [exact H|exact Hj|exact Et|]. now constructor.
    - (* read it *)
      unfold a_load in Ha. cbn [pr_act pr_env pr_ops] in Ha. unfold o_read_all in Ha. injection Ha as <- <-.
      destruct (e_fault (j_env j) n) eqn:Ef; try (cbn [last]; eapply fault_over; [exact H|exact Hj|exact Et|congruence]).
      rewrite Hload. cbn [a_pure last]. cbn [last]; eapply wait; [exact H|exact Hj|exact Et|]. constructor.
    - (* create the file *)
      destruct (creation_act j c Hc) as (B & m & r & Hm & Kd). cbn [pr_act pr_env pr_ops] in Ha. rewrite Kd, Ht in Ha. unfold a_create in Ha.
      destruct (o_create_new _ _ _ f) as [b st] eqn:Eo. injection Ha as <- <-. unfold o_create_new in Eo.
      destruct (e_fault (j_env j) n) eqn:Ef; [|injection Eo as <- <-; cbn [last]; eapply fault_over; [exact H|exact Hj|exact Et|congruence]..].
      destruct (f p) as [x|] eqn:Ep; injection Eo as <- <-.
      { exists won, (set_turn ts i Over). cbn [last]. eapply idle; try eassumption; [now constructor|now right|]. intros _ _; rewrite Ep; discriminate. }
      assert (won = None) as ->.
      { pose proof (c_stand _ _ _ _ _ H) as S. unfold standing in S. destruct won as [w|]; [|reflexivity].
        destruct S as (_ & _ & l & c' & _ & _ & [[_ K]|[_ (k & K & _)]]); congruence. }
      destruct (c_stand _ _ _ _ _ H) as [Hp0 Hno]. rewrite Ep in Hp0. symmetry in Hp0.
      exists (Some i), (set_turn ts i Writing). cbn [last]. constructor.
      + intros q Hq. rewrite upd_other by congruence. now apply (c_rest _ _ _ _ _ H).
      + unfold standing. split; [assumption|]. split.
        * intros k Hk. destruct (Nat.eq_dec k i) as [->|Nk]; [reflexivity|]. rewrite turn_other in Hk by assumption. destruct (Hno k Hk).
        * exists j, c. split; [assumption|]. split; [assumption|]. left. rewrite turn_same, upd_same. now split.
      + apply Forall_app. split.
        * eapply Forall_impl; [|exact (c_seen _ _ _ _ _ H)]. intros h [K1 [K2|(_ & w & l & c' & k & K2 & _)]]; [|discriminate]. split; [assumption|now left].
        * constructor; [|constructor]. split; [intros q Hq; rewrite upd_other by congruence; now apply (c_rest _ _ _ _ _ H)|].
          right. split; [assumption|]. exists i, j, c, 0. rewrite upd_same. repeat split; assumption.
      + intros k l Hl Ho Hff. rewrite upd_same. discriminate.
      + pose proof (c_length _ _ _ _ _ H) as K. rewrite app_length in *. exact K.
      + eapply procs_set; [exact (c_procs _ _ _ _ _ H)|assumption|]. econstructor; eassumption.
    - (* write to it *)
      cbn [pr_act pr_env pr_ops] in Ha. destruct (o_write _ _ _ f) as [b st] eqn:Eo. injection Ha as <- <-.
      pose proof (creation_unique _ _ _ Hc Hc') as <-. pose proof (c_stand _ _ _ _ _ H) as S. unfold standing in S.
      destruct won as [w|]; [|destruct S as [_ S]; destruct (S i Et)]. destruct S as (Hp0 & Hu & l & c' & Hl & Hcl & Hw).
      pose proof (Hu i Et) as <-. assert (l = j) as -> by congruence. pose proof (creation_unique _ _ _ Hc Hcl) as <-.
      destruct Hw as [[_ Hfile]|[K _]]; [|congruence]. destruct Hm as [_ Hm].
      assert (Hst : exists k, st = prefixes p (e_mode (j_env j)) [] (firstn k c) f /\ (e_fault (j_env j) n = NoFault -> firstn k c = c)).
      { unfold o_write in Eo. rewrite Hfile, Hm in Eo. unfold run_emit in Eo. cbn [w_room w_out app] in Eo.
        destruct (e_fault (j_env j) n) as [| |k].
        - injection Eo as <- <-. exists (length c). now rewrite firstn_all.
        - destruct (length c <=? 0) eqn:El; injection Eo as <- <-.
          + exists (length c). now rewrite firstn_all. + exists 0. now split.
        - destruct (length c <=? k) eqn:El; injection Eo as <- <-.
          + exists (length c). now rewrite firstn_all. + exists k. now split. }
      destruct Hst as (k & -> & Hfull). exists (Some i), (set_turn ts i Over).
      rewrite prefixes_last. cbn [app]. constructor.
      + intros q Hq. rewrite upd_other by congruence. now apply (c_rest _ _ _ _ _ H).
      + unfold standing. split; [assumption|]. split.
        * intros x Hx. destruct (Nat.eq_dec x i) as [->|Nx]; [reflexivity|]. rewrite turn_other in Hx by assumption. auto.
        * exists j, c. split; [assumption|]. split; [assumption|]. right. rewrite turn_same, upd_same. split; [reflexivity|]. exists k. split; [reflexivity|]. intros K. apply Hfull, K.
      + apply Forall_app. split; [exact (c_seen _ _ _ _ _ H)|]. apply Forall_map, Forall_forall. intros x _. split.
        * intros q Hq. rewrite upd_other by congruence. now apply (c_rest _ _ _ _ _ H).
        * right. split; [assumption|]. exists i, j, c, (Nat.min x k). rewrite upd_same. cbn [app]. rewrite firstn_firstn. repeat split; assumption.
      + intros x l Hx Ho Hff. rewrite upd_same. discriminate.
      + pose proof (c_length _ _ _ _ _ H) as K. rewrite app_length in *. exact K.
      + eapply procs_set; [exact (c_procs _ _ _ _ _ H)|assumption|]. now constructor.
    - discriminate Ha.
  Qed.

  Lemma together_race f ps more g qs : together f ps more g qs -> forall won ts seen, race won ts f seen ps ->
    exists won' ts', race won' ts' g (seen ++ more) qs.
  Proof.
    induction 1 as [f ps|f ps1 q ps2 states p' more g qs Ha H IH]; intros won ts seen HI.
    - exists won, ts. now rewrite app_nil_r.
    - assert (Hlt : length ps1 < length js). { rewrite <- (c_length _ _ _ _ _ HI), app_length. cbn. lia. }
      destruct (nth_error js (length ps1)) as [j|] eqn:Ej; [|apply nth_error_None in Ej; lia].
      destruct (c_procs _ _ _ _ _ HI _ _ Ej) as (n & a & Hn & _). rewrite nth_error_app2, Nat.sub_diag in Hn by lia. cbn in Hn. injection Hn as ->.
      destruct (race_step _ _ _ _ _ _ _ _ _ _ _ HI Ej Ha) as (won' & ts' & HI'). destruct (IH _ _ _ HI') as (won'' & ts'' & HI'').
      exists won'', ts''. now rewrite app_assoc.
  Qed.
  Lemma start_race : race None (fun _ => Waiting) f0 [] (map begun js).
  Proof.
    constructor.
    - reflexivity.
    - split; [reflexivity|discriminate].
    - constructor.
    - discriminate.
    - apply map_length.
    - intros i j Hj. exists 0, (a_main (j_env j) (j_patch j) (j_reverse j)). split; [now rewrite (map_nth_error _ _ _ Hj)|constructor].
  Qed.
  Lemma turn_end j t o : at_turn j t (AEnd o) -> (exists c, creation j c) -> t = Over.
  Proof.
    intros Hs (c & Hc). remember (AEnd o) as a eqn:Ea. destruct Hs; try discriminate Ea; [|reflexivity].
    destruct (creation_act j c Hc) as (B & m & r & _ & Kd). rewrite Kd in Ea. discriminate Ea.
  Qed.
  Lemma together_rivals seen g qs : together f0 (map begun js) seen g qs ->
    exists won ts, race won ts g seen qs /\
      forall i j q o, nth_error js i = Some j -> nth_error qs i = Some q -> ended q = Some o -> ts i = Over /\ (fault_free (j_env j) -> o = Val tt).
  Proof.
    intros H. destruct (together_race _ _ _ _ _ H _ _ _ start_race) as (won & ts & HI). cbn [app] in HI. exists won, ts. split; [assumption|].
    intros i j q o Hj Hq He. destruct (c_procs _ _ _ _ _ HI i j Hj) as (n & a & Hn & Hs). rewrite Hn in Hq. injection Hq as <-.
    unfold ended in He. cbn [pr_act] in He. destruct a as [o'|]; [|discriminate]. injection He as ->.
    assert (E : ts i = Over).
    { apply (turn_end j _ o Hs). destruct Hr as [Hjobs _]. rewrite Forall_forall in Hjobs. apply (Hjobs j (nth_error_In _ _ Hj)). }
    split; [assumption|]. rewrite E in Hs. intros Hff. inversion Hs; subst. auto.
  Qed.
End Rivals.

Section Removers.
  Variable f0 : fs.
  Variable js : list job.
  Variable p : path.
  Hypothesis Hr : removers f0 js p.

  Inductive rm_turn (j : job) : act -> Prop :=
  | rt_main : rm_turn j (a_main (j_env j) (j_patch j) (j_reverse j))
  | rt_load s : diff_from_json s = Ok (Some (j_diff j)) -> rm_turn j (a_load (j_env j) (j_reverse j) (Some s))
  | rt_diff : rm_turn j (a_diff (j_env j) (j_diff j) (j_reverse j))
  | rt_end o : o = Val tt \/ o = Exit 1 -> rm_turn j (AEnd o).
  Definition by_one (won : option nat) (n : option node) (ps : list process) : Prop :=
    match won with
    | None => n = f0 p /\ forall k q, nth_error ps k = Some q -> ended q <> Some (Val tt)
    | Some i => (exists m d, f0 p = Some (File m d)) /\ n = None /\ (exists q, nth_error ps i = Some q /\ ended q = Some (Val tt)) /\
        forall k q, nth_error ps k = Some q -> ended q = Some (Val tt) -> k = i
    end.
  Record removing (won : option nat) (f : fs) (seen : list fs) (ps : list process) : Prop := {
    m_rest : forall q, q <> p -> f q = f0 q;
    m_one : by_one won (f p) ps;
    m_seen : Forall (fun h : fs => (forall q, q <> p -> h q = f0 q) /\ (h p = f0 p \/ h p = None)) seen;
    m_fail : forall i j q o, nth_error js i = Some j -> nth_error ps i = Some q -> ended q = Some o -> o <> Val tt -> fault_free (j_env j) ->
      f p = None \/ forall m d, f0 p <> Some (File m d);
    m_length : length ps = length js;
    m_procs : forall i j, nth_error js i = Some j -> exists n a, nth_error ps i = Some (Process (j_env j) n a) /\ rm_turn j a
  }.
  Lemma nth_set (ps1 : list process) q ps2 q' k r : nth_error (ps1 ++ q' :: ps2) k = Some r ->
    k = length ps1 /\ r = q' \/ k <> length ps1 /\ nth_error (ps1 ++ q :: ps2) k = Some r.
  Proof.
    intros H. destruct (Nat.lt_trichotomy k (length ps1)) as [L|[->|G]].
    - right. split; [lia|]. rewrite nth_error_app1 in * by assumption. assumption.
    - left. rewrite nth_error_app2, Nat.sub_diag in H by lia. cbn in H. split; congruence.
    - right. split; [lia|]. rewrite nth_error_app2 in * by lia. destruct (k - length ps1) eqn:E; [lia|]. exact H.
  Qed.
  Lemma procs_next ps1 n a ps2 j a' : (forall i l, nth_error js i = Some l ->
      exists n' b, nth_error (ps1 ++ Process (j_env j) n a :: ps2) i = Some (Process (j_env l) n' b) /\ rm_turn l b) ->
    nth_error js (length ps1) = Some j -> rm_turn j a' ->
    forall i l, nth_error js i = Some l ->
      exists n' b, nth_error (ps1 ++ Process (j_env j) (S n) a' :: ps2) i = Some (Process (j_env l) n' b) /\ rm_turn l b.
  Proof.
    intros H4 Hj Hs k l Hl. destruct (Nat.eq_dec k (length ps1)) as [->|Hk].
    - assert (l = j) as -> by congruence. exists (S n), a'. rewrite nth_error_app2, Nat.sub_diag by lia. now split.
    - destruct (H4 k l Hl) as (n' & b & Hn & Hb). exists n', b. split; [|assumption].
      destruct (Nat.lt_ge_cases k (length ps1)) as [L|G].
      + rewrite nth_error_app1 in * by assumption. assumption.
      + rewrite nth_error_app2 in * by assumption. destruct (k - length ps1) eqn:E; [lia|]. exact Hn.
  Qed.
  Lemma removal_act j : removal j -> a_diff (j_env j) (j_diff j) (j_reverse j) = a_remove (target (j_diff j)).
  Proof. unfold removal, removes. destruct (j_diff j); try contradiction; intros E; cbn [a_diff target]; rewrite E; reflexivity. Qed.

  (* a step that changes no file, of a run that does not succeed by it *)
  Lemma unmoved won f seen ps1 n a ps2 j a' : removing won f seen (ps1 ++ Process (j_env j) n a :: ps2) ->
    nth_error js (length ps1) = Some j -> ended (Process (j_env j) n a) = None -> rm_turn j a' -> a' <> AEnd (Val tt) ->
    (forall o, a' = AEnd o -> fault_free (j_env j) -> f p = None \/ forall m d, f0 p <> Some (File m d)) ->
    removing won f (seen ++ []) (ps1 ++ Process (j_env j) (S n) a' :: ps2).
  Proof.
    intros [H1 H2 H3 H4 H5 H6] Hj Ha Hs Hn Hf. constructor.
    - assumption.
    - unfold by_one in *. assert (N : ended (Process (j_env j) (S n) a') <> Some (Val tt)).
      { unfold ended. cbn. destruct a'; congruence. }
      destruct won as [i|].
      + destruct H2 as (K1 & K2 & (q & K3 & K4) & K5). split; [assumption|]. split; [assumption|]. split.
        * exists q. split; [|assumption]. destruct (nth_set ps1 (Process (j_env j) (S n) a') ps2 _ _ _ K3) as [[-> ->]|[_ K]]; [congruence|exact K].
        * intros k r Hk He. destruct (nth_set ps1 (Process (j_env j) n a) ps2 _ _ _ Hk) as [[-> ->]|[_ K]]; [contradiction|]. now apply (K5 k r).
      + destruct H2 as [K1 K2]. split; [assumption|]. intros k r Hk. destruct (nth_set ps1 (Process (j_env j) n a) ps2 _ _ _ Hk) as [[-> ->]|[_ K]]; [assumption|]. now apply (K2 k).
    - now rewrite app_nil_r.
    - intros i l r o Hl Hk He Ho Hff. destruct (nth_set ps1 (Process (j_env j) n a) ps2 _ _ _ Hk) as [[-> ->]|[_ K]]; [|now apply (H4 i l r o)].
      assert (l = j) as -> by congruence. unfold ended in He. cbn in He. destruct a' as [o'|]; [|discriminate]. now apply (Hf o').
    - rewrite app_length in *. exact H5.
    - now apply procs_next with (a := a).
  Qed.
  Lemma remove_step won f seen ps1 n a ps2 j states p' : removing won f seen (ps1 ++ Process (j_env j) n a :: ps2) ->
    nth_error js (length ps1) = Some j -> advance (Process (j_env j) n a) f = Some (states, p') ->
    exists won', removing won' (last states f) (seen ++ states) (ps1 ++ p' :: ps2).
  Proof.
    intros H Hj Ha. set (i := length ps1) in *. destruct (m_procs _ _ _ _ H i j Hj) as (n' & a0 & Hn & Hs).
    unfold i in Hn. rewrite nth_error_app2, Nat.sub_diag in Hn by lia. cbn [nth_error] in Hn. injection Hn as <- <-.
    assert (Hg := Hr). destruct Hg as (Hjobs & Hpp). rewrite Forall_forall in Hjobs.
    destruct (Hjobs j (nth_error_In _ _ Hj)) as ((sp & Hsp & Hd) & Ht & Hrm).
    assert (Hfp : f (j_patch j) = f0 (j_patch j)).
    { apply (m_rest _ _ _ _ H). intros K. apply Hpp. rewrite <- K. apply in_map. now apply nth_error_In in Hj. }
    assert (Hend : ended (Process (j_env j) n a) = None) by (unfold advance, ended in *; cbn in *; destruct a; [discriminate|reflexivity]).
    unfold advance in Ha.
    assert (Fault : e_fault (j_env j) n <> NoFault -> exists won', removing won' f (seen ++ []) (ps1 ++ Process (j_env j) (S n) (AEnd (Exit 1)) :: ps2)).
    { intros K. exists won. eapply unmoved; try eassumption; [constructor; now right|discriminate|]. intros o _ Hff. destruct (K (Hff n)). }
    destruct Hs as [ |s Hload| |o Ho].
    - unfold a_main in Ha. cbn [pr_act pr_env pr_ops] in Ha. destruct (o_open_read _ _ f) as [b st] eqn:Eo. injection Ha as <- <-.
      unfold o_open_read in Eo. injection Eo as Eo <-. rewrite Hfp in Eo. unfold content in Hsp. unfold readable in Eo.
      destruct (f0 (j_patch j)) as [[m d|]|]; try discriminate. destruct (N.testbit m 8); try discriminate. injection Hsp as ->.
      destruct (e_fault (j_env j) n) eqn:Ef; subst b; try (apply Fault; congruence).
      exists won. cbn [last]. eapply unmoved; try eassumption; [now constructor|discriminate|discriminate].
    - unfold a_load in Ha. cbn [pr_act pr_env pr_ops] in Ha. unfold o_read_all in Ha. injection Ha as <- <-.
      destruct (e_fault (j_env j) n) eqn:Ef; try (apply Fault; congruence).
      rewrite Hload. cbn [a_pure last]. exists won. eapply unmoved; try eassumption; [constructor|..]; rewrite (removal_act j Hrm); discriminate.
    - cbn [pr_act pr_env pr_ops] in Ha. rewrite (removal_act j Hrm), Ht in Ha. unfold a_remove in Ha.
      destruct (o_remove _ _ f) as [b st] eqn:Eo. injection Ha as <- <-. unfold o_remove in Eo.
      destruct (e_fault (j_env j) n) eqn:Ef; [|injection Eo as <- <-; apply Fault; congruence..].
      assert (Hnone : f p = None \/ f p = f0 p).
      { pose proof (m_one _ _ _ _ H) as K. unfold by_one in K. destruct won; [left; apply K|right; apply K]. }
      destruct (f p) as [[m d|]|] eqn:Ep; injection Eo as <- <-.
      2: { exists won. cbn [last]. eapply unmoved; try eassumption; [constructor; now right|discriminate|]. intros _ _ _. right. intros m d K. destruct Hnone; congruence. }
      2: { exists won. cbn [last]. eapply unmoved; try eassumption; [constructor; now right|discriminate|]. intros _ _ _. now left. }
      assert (Hfile : f0 p = Some (File m d)) by (destruct Hnone; congruence).
      assert (won = None) as ->.
      { pose proof (m_one _ _ _ _ H) as K. unfold by_one in K. destruct won; [|reflexivity]. destruct K as (_ & K & _). congruence. }
      destruct (m_one _ _ _ _ H) as [_ Hno]. exists (Some i). cbn [last]. constructor.
      + intros q Hq. rewrite upd_other by congruence. now apply (m_rest _ _ _ _ H).
      + unfold by_one. split; [eauto|]. split; [apply upd_same|]. split.
        * eexists. unfold i. rewrite nth_error_app2, Nat.sub_diag by lia. split; reflexivity.
        * intros k r Hk He. destruct (nth_set ps1 (Process (j_env j) n (a_diff (j_env j) (j_diff j) (j_reverse j))) ps2 _ _ _ Hk) as [[-> ->]|[_ K]]; [reflexivity|].
          destruct (Hno k r K He).
      + apply Forall_app. split; [exact (m_seen _ _ _ _ H)|]. constructor; [|constructor]. split; [|right; apply upd_same].
        intros q Hq. rewrite upd_other by congruence. now apply (m_rest _ _ _ _ H).
      + intros k l r o Hl Hk He Ho Hff. left. apply upd_same.
      + pose proof (m_length _ _ _ _ H) as K. rewrite app_length in *. exact K.
      + eapply procs_next; [exact (m_procs _ _ _ _ H)|assumption|]. constructor. now left.
    - discriminate Ha.
  Qed.
  Lemma together_removing f ps more g qs : together f ps more g qs -> forall won seen, removing won f seen ps ->
    exists won', removing won' g (seen ++ more) qs.
  Proof.
    induction 1 as [f ps|f ps1 q ps2 states p' more g qs Ha H IH]; intros won seen HI.
    - exists won. now rewrite app_nil_r.
    - assert (Hlt : length ps1 < length js). { rewrite <- (m_length _ _ _ _ HI), app_length. cbn. lia. }
      destruct (nth_error js (length ps1)) as [j|] eqn:Ej; [|apply nth_error_None in Ej; lia].
      destruct (m_procs _ _ _ _ HI _ _ Ej) as (n & a & Hn & _). rewrite nth_error_app2, Nat.sub_diag in Hn by lia. cbn in Hn. injection Hn as ->.
      destruct (remove_step _ _ _ _ _ _ _ _ _ _ HI Ej Ha) as (won' & HI'). destruct (IH _ _ HI') as (won'' & HI'').
      exists won''. now rewrite app_assoc.
  Qed.
  Lemma start_removing : removing None f0 [] (map begun js).
  Proof.
    assert (N : forall k q, nth_error (map begun js) k = Some q -> ended q = None).
    { intros k q Hk. apply nth_error_In, in_map_iff in Hk as (j & <- & _). reflexivity. }
    constructor.
    - reflexivity.
    - split; [reflexivity|]. intros k q Hk. rewrite (N k q Hk). discriminate.
    - constructor.
    - intros i j q o _ Hk He. rewrite (N i q Hk) in He. discriminate.
    - apply map_length.
    - intros i j Hj. exists 0, (a_main (j_env j) (j_patch j) (j_reverse j)). split; [now rewrite (map_nth_error _ _ _ Hj)|constructor].
  Qed.
  Lemma together_removers seen g qs : together f0 (map begun js) seen g qs ->
    exists won, removing won g seen qs /\
      forall i q o, nth_error qs i = Some q -> ended q = Some o -> o = Val tt \/ o = Exit 1.
  Proof.
    intros H. destruct (together_removing _ _ _ _ _ H _ _ start_removing) as (won & HI). exists won. split; [assumption|].
    intros i q o Hq He. destruct (nth_error js i) as [j|] eqn:Ej.
    - destruct (m_procs _ _ _ _ HI i j Ej) as (n & a & Hn & Hs). rewrite Hn in Hq. injection Hq as <-.
      unfold ended in He. cbn [pr_act] in He. destruct a as [o'|]; [|discriminate]. injection He as ->. remember (AEnd o) as a eqn:Ea. destruct Hs; try discriminate Ea.
      + destruct Hr as [Hjobs _]. rewrite Forall_forall in Hjobs. destruct (Hjobs j (nth_error_In _ _ Ej)) as (_ & _ & Hrm).
        rewrite (removal_act j Hrm) in Ea. discriminate Ea.
      + injection Ea as ->. assumption.
    - apply nth_error_None in Ej. rewrite <- (m_length _ _ _ _ HI) in Ej. apply nth_error_None in Ej. congruence.
  Qed.
End Removers.

(* Proof_Open.v - several runs of the patch tool at the same time, with open files. *)
From Verif Require Import Base Model_Seq Model_Changes Model_IO Model_Text Model_Bytes Model_Json Model_Files Model_Conc Model_Links Model_Open Spec Spec_Files Spec_Conc Spec_Links Spec_Open Proof_Seq Proof_Utf8 Proof_Json Proof_IO Proof_Text Proof_Bytes Proof_Term Proof_Files Proof_Conc Proof_Links.

Inductive ophase :=
| QBefore
| QOpen (n : nat)
| QHold (old : list byte)
| QMade (n : nat) (old : list byte)
| QFill (n : nat) (old done : list byte)
| QReady (n : nat) (old new : list byte)
| QDone (n : nat) (new : list byte)
| QNew (n : nat) (done : list byte)
| QGone
| QSkip
| QFail.
(* the file of the run *)
Definition file_of (ph : ophase) : option nat :=
  match ph with QMade n _ | QFill n _ _ | QReady n _ _ | QDone n _ | QNew n _ => Some n | _ => None end.
(* the file it has put in place *)
Definition placed (ph : ophase) : option nat := match ph with QDone n _ | QNew n _ => Some n | _ => None end.
(* what its target has become *)
Definition becomes (ph : ophase) (e : option entry) : option entry :=
  match ph with QDone n _ | QNew n _ => Some (EFile n) | QGone => None | _ => e end.
(* nothing that is done is undone *)
Definition onwards (old new : ophase) : Prop :=
  (forall n, placed old = Some n -> placed new = Some n) /\ (old = QGone -> new = QGone).

Lemma resolve_here I p : (forall q, names I p <> Some (ELink q)) -> resolve I p = Some p.
Proof. intros H. unfold resolve. cbn [follow]. destruct (names I p) as [[n| |q]|] eqn:E; try reflexivity. now destruct (H q). Qed.
Lemma append_same I n b : nodes (append I n b) n = (fst (nodes I n), snd (nodes I n) ++ b).
Proof. apply node_same. Qed.

Section Open.
  Variable I0 : ifs.
  Variable js : list job.
  Hypothesis Hgood : assorted I0 js.

  Definition applies (j : job) : list byte -> list byte -> Prop := patches_to (e_dbg (j_env j)) (j_reverse j) (j_diff j).
  Inductive ostage (j : job) : ophase -> oact -> Prop :=
  | os_main : ostage j QBefore (o_main (j_env j) (j_patch j) (j_reverse j))
  | os_load n : names I0 (j_patch j) = Some (EFile n) -> ostage j QBefore (o_load (j_env j) (j_reverse j) (Some n))
  | os_diff : ostage j QBefore (o_diff (j_env j) (j_diff j) (j_reverse j))
  | os_read_none A B t (items : list byte -> res (option A)) (apply : A -> io B) : ostage j QBefore (o_change_read (j_env j) t items apply None)
  | os_read A B (items : list byte -> res (option A)) (apply : A -> io B) n : is_change (j_diff j) ->
      (forall old x, items old = Ok (Some x) -> writes j (apply x) old) ->
      ostage j (QOpen n) (o_change_read (j_env j) (target (j_diff j)) items apply (Some n))
  | os_temp B (m : io B) old : is_change (j_diff j) -> writes j m old -> ostage j (QHold old) (o_change_temp (j_env j) (target (j_diff j)) m)
  | os_open B (m : io B) n old : is_change (j_diff j) -> writes j m old -> ostage j (QMade n old) (o_change_open (j_env j) (target (j_diff j)) m)
  | os_write B (m : io B) n old : is_change (j_diff j) -> writes j m old -> ostage j (QMade n old) (o_change_write (j_env j) (target (j_diff j)) m n)
  | os_bytes B (r : ores B) n old done bytes : is_change (j_diff j) -> (forall b, r = Done b -> applies j old (done ++ bytes)) ->
      ostage j (QFill n old done) (OBytes n bytes (o_written (j_env j) (target (j_diff j)) r))
  | os_end n old new : is_change (j_diff j) -> ostage j (QReady n old new) (o_change_end (j_env j) (target (j_diff j)))
  | os_drop_done n new : is_change (j_diff j) -> ostage j (QDone n new) (o_drop (j_env j) (Val tt))
  | os_done n new : is_change (j_diff j) -> ostage j (QDone n new) (OEnd (Val tt))
  | os_new_write B (m : io B) n c r : creation j c -> emits m c r -> ostage j (QNew n []) (OWrite n m (fun _ => OEnd (Val tt)))
  | os_new_bytes n c rest done bytes : creation j c -> c = done ++ bytes ++ rest -> (fault_free (j_env j) -> rest = []) ->
      ostage j (QNew n done) (OBytes n bytes (OEnd (Val tt)))
  | os_new n c rest done : creation j c -> c = done ++ rest -> (fault_free (j_env j) -> rest = []) -> ostage j (QNew n done) (OEnd (Val tt))
  | os_gone : removal j -> ostage j QGone (OEnd (Val tt))
  | os_skip c : creation j c -> ostage j QSkip (OEnd (Val tt))
  | os_drop_fail : ostage j QFail (o_drop (j_env j) Abort)
  | os_fail o : o <> Val tt -> ostage j QFail (OEnd o).

  Definition sole_target (i : nat) (j : job) : Prop := forall k l, nth_error js k = Some l -> target (j_diff l) = target (j_diff j) -> k = i.
  Definition descent (phs : nat -> ophase) (p : path) (d : list byte) : Prop :=
    exists is, (forall k, In k is -> placed (phs k) <> None) /\ grown I0 js p is d.
  (* a file that has been or is under the name [p] *)
  Definition good_file (phs : nat -> ophase) (p : path) (n : nat) : Prop :=
    n < used I0 /\ names I0 p = Some (EFile n) \/
    exists i j, nth_error js i = Some j /\ target (j_diff j) = p /\ placed (phs i) = Some n.
  Definition made (J : ifs) (j : job) (n : nat) (d : list byte) : Prop :=
    used I0 <= n < used J /\ nodes J n = (e_mode (j_env j), d).
  Definition keeps (phs : nat -> ophase) (seen : list ifs) (i : nat) (j : job) (ph : ophase) (J : ifs) : Prop :=
    let p := target (j_diff j) in let tmp := names J (e_tmp (j_env j)) in
    match ph with
    | QOpen n => good_file phs p n
    | QHold old => descent phs p old
    | QMade n old => descent phs p old /\ made J j n [] /\ tmp = Some (EFile n)
    | QFill n old done => descent phs p old /\ made J j n done /\ tmp = Some (EFile n)
    | QReady n old new => descent phs p old /\ applies j old new /\ made J j n new /\ tmp = Some (EFile n)
    | QDone n new => made J j n new /\ (exists is, (forall k, In k is -> placed (phs k) <> None) /\ grown I0 js p (i :: is) new) /\
        (exists h is d, In h seen /\ file_at h p d /\ grown I0 js p (i :: is) d) /\ tmp = None
    | QNew n done => made J j n done /\ (exists c rest, creation j c /\ c = done ++ rest) /\ (sole_target i j -> names I0 p = None)
    | QGone => exists h, In h seen /\ names h p = None
    | QSkip => fault_free (j_env j) -> sole_target i j -> names I0 p <> None
    | QBefore | QFail => True
    end.
  Definition swept (phs : nat -> ophase) (p : path) : Prop :=
    exists i j, phs i = QGone /\ nth_error js i = Some j /\ target (j_diff j) = p /\ removal j.
  Definition aimed (phs : nat -> ophase) (p : path) (e : option entry) : Prop :=
    e = names I0 p \/ e = None /\ swept phs p \/ exists n, e = Some (EFile n) /\ good_file phs p n.
  Record oinv (phs : nat -> ophase) (J : ifs) (seen : list ifs) (ps : list orun) : Prop := {
    o_used : used I0 <= used J;
    o_nodes : forall n, n < used I0 -> nodes J n = nodes I0 n;
    o_rest : forall p, ~ In p (targets js) -> ~ In p (temps js) -> names J p = names I0 p;
    o_targets : forall p, In p (targets js) -> aimed phs p (names J p);
    o_length : length ps = length js;
    o_own : forall i k n, i <> k -> i < length js -> k < length js -> file_of (phs i) = Some n -> file_of (phs k) <> Some n;
    o_procs : forall i j, nth_error js i = Some j ->
      exists n a, nth_error ps i = Some (ORun (j_env j) n a) /\ ostage j (phs i) a /\ keeps phs seen i j (phs i) J /\
        (sole_target i j -> names J (target (j_diff j)) = becomes (phs i) (names I0 (target (j_diff j))))
  }.

  Lemma placed_file ph n : placed ph = Some n -> file_of ph = Some n.
  Proof. destruct ph; cbn; congruence. Qed.
  Lemma keeps_made phs seen i j ph J n : keeps phs seen i j ph J -> file_of ph = Some n -> exists d, made J j n d.
  Proof. destruct ph; cbn; try discriminate; intros H [= <-]; repeat match goal with H : _ /\ _ |- _ => destruct H end; eauto. Qed.
  Lemma file_index phs J seen ps i n : oinv phs J seen ps -> i < length js -> file_of (phs i) = Some n -> exists j d, nth_error js i = Some j /\ made J j n d.
  Proof.
    intros H Hi Hn. destruct (nth_error js i) as [j|] eqn:Ej; [|apply nth_error_None in Ej; lia].
    destruct (o_procs _ _ _ _ H i j Ej) as (m & a & _ & _ & Hk & _). destruct (keeps_made _ _ _ _ _ _ _ Hk Hn) as (d & Hd). eauto.
  Qed.
  Lemma index_lt i (j : job) : nth_error js i = Some j -> i < length js.
  Proof. intros H. apply nth_error_Some. congruence. Qed.

  Definition set_ph (phs : nat -> ophase) (i : nat) (ph : ophase) : nat -> ophase := fun k => if k =? i then ph else phs k.
  Lemma ph_same phs i ph : set_ph phs i ph i = ph.
  Proof. unfold set_ph. now rewrite Nat.eqb_refl. Qed.
  Lemma ph_other phs i ph k : k <> i -> set_ph phs i ph k = phs k.
  Proof. intros H. unfold set_ph. now rewrite (proj2 (Nat.eqb_neq k i) H). Qed.
  Lemma placed_set phs i ph k n : onwards (phs i) ph -> placed (phs k) = Some n -> placed (set_ph phs i ph k) = Some n.
  Proof. intros [H _] K. destruct (Nat.eq_dec k i) as [->|Hk]; [rewrite ph_same; auto|now rewrite ph_other]. Qed.
  Lemma placed_some phs i ph k : onwards (phs i) ph -> placed (phs k) <> None -> placed (set_ph phs i ph k) <> None.
  Proof. intros H K. destruct (placed (phs k)) as [n|] eqn:E; [|congruence]. rewrite (placed_set _ _ _ _ _ H E). discriminate. Qed.
  Lemma descent_set phs i ph p d : onwards (phs i) ph -> descent phs p d -> descent (set_ph phs i ph) p d.
  Proof. intros H (is & H1 & H2). exists is. split; [|assumption]. intros k Hk. apply placed_some; auto. Qed.
  Lemma good_set phs i ph p n : onwards (phs i) ph -> good_file phs p n -> good_file (set_ph phs i ph) p n.
  Proof. intros H [K|(k & j & H1 & H2 & H3)]; [now left|right]. exists k, j. repeat split; try assumption. now apply placed_set. Qed.
  Lemma swept_set phs i ph p : onwards (phs i) ph -> swept phs p -> swept (set_ph phs i ph) p.
  Proof.
    intros [_ H] (k & j & H1 & H2). exists k, j. split; [|assumption]. destruct (Nat.eq_dec k i) as [->|Hk]; [rewrite ph_same; auto|now rewrite ph_other].
  Qed.
  Lemma aimed_set phs i ph p e : onwards (phs i) ph -> aimed phs p e -> aimed (set_ph phs i ph) p e.
  Proof.
    intros H [K|[[K1 K2]|(n & K1 & K2)]]; [now left|right; left; split; [assumption|now apply swept_set]|].
    right. right. exists n. split; [assumption|now apply good_set].
  Qed.
  Lemma good_descent phs J seen ps p n : oinv phs J seen ps -> good_file phs p n -> descent phs p (snd (nodes J n)).
  Proof.
    intros H [[H1 H2]|(i & j & Hj & Ht & Hp)].
    - exists []. split; [easy|]. rewrite (o_nodes _ _ _ _ H n H1). apply grown_start. exists n. now split.
    - destruct (o_procs _ _ _ _ H i j Hj) as (m & a & _ & _ & Hk & _). remember (phs i) as ph eqn:E. destruct ph; cbn in Hp; try discriminate; injection Hp as ->; cbn [keeps] in Hk.
      + destruct Hk as ((_ & Hm) & (is & His & Hg) & _). rewrite Hm. cbn [snd]. exists (i :: is). split; [|now rewrite <- Ht].
        intros k [<-|Hk]; [rewrite <- E; discriminate|auto].
      + destruct Hk as ((_ & Hm) & (c & rest & Hc & Hr) & _). rewrite Hm. cbn [snd]. exists [i]. split; [intros k [<-|[]]; rewrite <- E; discriminate|].
        eapply grown_new; eassumption.
  Qed.
  Lemma good_used phs J seen ps p n : oinv phs J seen ps -> good_file phs p n -> n < used J.
  Proof.
    intros H [[H1 H2]|(i & j & Hj & Ht & Hp)]; [pose proof (o_used _ _ _ _ H); lia|].
    destruct (file_index _ _ _ _ i n H (index_lt _ _ Hj) (placed_file _ _ Hp)) as (l & d & _ & Hm & _). lia.
  Qed.
  Lemma aimed_file phs J seen ps p n : oinv phs J seen ps -> aimed phs p (Some (EFile n)) -> good_file phs p n.
  Proof.
    intros H [K|[[K _]|(m & K & Hm)]]; [|discriminate|now injection K as ->]. left. split; [|now symmetry].
    destruct Hgood as (Hw & _). now apply (Hw p).
  Qed.
  Lemma o_target_in i j : nth_error js i = Some j -> In (target (j_diff j)) (targets js).
  Proof. intros H. apply nth_error_In in H. now apply (in_map (fun j => target (j_diff j))). Qed.
  Lemma o_temp_in i j : nth_error js i = Some j -> In (e_tmp (j_env j)) (temps js).
  Proof. intros H. apply nth_error_In in H. now apply (in_map (fun j => e_tmp (j_env j))). Qed.
  Lemma o_temp_no_target i j p : nth_error js i = Some j -> In p (targets js) -> e_tmp (j_env j) <> p.
  Proof. intros H Hp <-. destruct Hgood as (_ & _ & _ & H1 & _). now destruct (H1 _ (o_temp_in _ _ H)). Qed.
  Lemma o_temps_differ i j k l : nth_error js i = Some j -> nth_error js k = Some l -> i <> k -> e_tmp (j_env j) <> e_tmp (j_env l).
  Proof.
    intros Hj Hl Hik E. destruct Hgood as (_ & _ & Hn & _). apply Hik. rewrite NoDup_nth_error in Hn. apply Hn.
    - unfold temps. rewrite map_length. now apply (index_lt i j).
    - unfold temps. rewrite (map_nth_error _ _ _ Hj), (map_nth_error _ _ _ Hl). now rewrite E.
  Qed.
  Lemma no_link phs J seen ps p q : oinv phs J seen ps -> In p (targets js) -> names J p <> Some (ELink q).
  Proof.
    intros H Hp K. pose proof (o_targets _ _ _ _ H p Hp) as A. rewrite K in A. destruct A as [A|[[A _]|(n & A & _)]]; try discriminate.
    apply in_map_iff in Hp as (j & <- & Hj). destruct Hgood as (_ & Hall & _). rewrite Forall_forall in Hall. destruct (Hall j Hj) as [_ N]. now apply (N q).
  Qed.

  (* what was the case at the start, or was made of it *)
  Definition sound_at (h : ifs) : Prop :=
    (forall n, n < used I0 -> nodes h n = nodes I0 n) /\
    (forall p, ~ In p (targets js) -> ~ In p (temps js) -> names h p = names I0 p) /\
    (forall p, In p (targets js) -> names h p = names I0 p \/
       names h p = None /\ (exists i j, nth_error js i = Some j /\ target (j_diff j) = p /\ removal j) \/
       exists is d, file_at h p d /\ grown I0 js p is d).
  Lemma oinv_sound phs J seen ps : oinv phs J seen ps -> sound_at J.
  Proof.
    intros H. split; [exact (o_nodes _ _ _ _ H)|]. split; [exact (o_rest _ _ _ _ H)|]. intros p Hp.
    destruct (o_targets _ _ _ _ H p Hp) as [K|[(K & i & j & _ & K')|(n & K & Hn)]]; [now left|right; left; eauto|].
    right. right. destruct (good_descent _ _ _ _ _ _ H Hn) as (is & _ & Hg). exists is, (snd (nodes J n)). split; [|assumption]. now exists n.
  Qed.

  Lemma step_oinv phs J seen ps1 n a ps2 j ph K n' a' : oinv phs J seen (ps1 ++ ORun (j_env j) n a :: ps2) ->
    nth_error js (length ps1) = Some j -> onwards (phs (length ps1)) ph -> used J <= used K ->
    (forall m, m < used J -> file_of (phs (length ps1)) <> Some m -> nodes K m = nodes J m) ->
    (forall m, file_of ph = Some m -> file_of (phs (length ps1)) = Some m \/ used J <= m) ->
    (forall p, p <> e_tmp (j_env j) -> p <> target (j_diff j) -> names K p = names J p) ->
    aimed (set_ph phs (length ps1) ph) (target (j_diff j)) (names K (target (j_diff j))) ->
    (sole_target (length ps1) j -> names K (target (j_diff j)) = becomes ph (names I0 (target (j_diff j)))) ->
    ostage j ph a' -> keeps (set_ph phs (length ps1) ph) (seen ++ [K]) (length ps1) j ph K ->
    oinv (set_ph phs (length ps1) ph) K (seen ++ [K]) (ps1 ++ ORun (j_env j) n' a' :: ps2).
  Proof.
    intros H Hj Hon Hu Hno Hfi Hna Haim Hsole Hst Hk. set (i := length ps1) in *. pose proof (index_lt _ _ Hj) as Hi.
    assert (Hnode : forall k m, k <> i -> k < length js -> file_of (phs k) = Some m -> nodes K m = nodes J m).
    { intros k m Hki Hkl Hm. destruct (file_index _ _ _ _ k m H Hkl Hm) as (l & d & _ & [Hr _]). apply Hno; [lia|].
      intros Hm'. now apply (o_own _ _ _ _ H k i m Hki Hkl Hi Hm). }
    constructor.
    - pose proof (o_used _ _ _ _ H). lia.
    - intros m Hm. pose proof (o_used _ _ _ _ H). rewrite <- (o_nodes _ _ _ _ H m Hm). apply Hno; [lia|]. intros Hm'.
      destruct (file_index _ _ _ _ i m H Hi Hm') as (l & d & _ & [Hr _]). lia.
    - intros p Hp Hp'. rewrite <- (o_rest _ _ _ _ H p Hp Hp'). apply Hna; intros ->; [apply Hp'; now apply (o_temp_in i)|apply Hp; now apply (o_target_in i)].
    - intros p Hp. destruct (path_dec p (target (j_diff j))) as [->|Hpt]; [assumption|]. rewrite Hna; [|intros E; now apply (o_temp_no_target i j p)|assumption].
      apply aimed_set; [assumption|]. now apply (o_targets _ _ _ _ H).
    - pose proof (o_length _ _ _ _ H) as L. rewrite app_length in *. exact L.
    - assert (Hown : forall k m, k <> i -> k < length js -> file_of (phs k) = Some m -> file_of ph <> Some m).
      { intros k m Hki Hkl Hm Hm'. destruct (Hfi m Hm') as [E|E]; [now apply (o_own _ _ _ _ H k i m Hki Hkl Hi Hm)|].
        destruct (file_index _ _ _ _ k m H Hkl Hm) as (l & d & _ & [Hr _]). lia. }
      intros x y m Hxy Hx Hy. destruct (Nat.eq_dec x i) as [->|Hxi], (Nat.eq_dec y i) as [->|Hyi]; rewrite ?ph_same, ?ph_other by assumption; intros Hm Hm'.
      + now apply Hxy.
      + now apply (Hown y m).
      + now apply (Hown x m).
      + now apply (o_own _ _ _ _ H x y m).
    - intros k l Hl. destruct (Nat.eq_dec k i) as [->|Hki].
      + assert (l = j) as -> by congruence. exists n', a'. unfold i at 1. rewrite nth_error_app2, Nat.sub_diag by lia. rewrite ph_same. now repeat split.
      + destruct (o_procs _ _ _ _ H k l Hl) as (nk & b & Hn & Hb & Hkk & Hso). exists nk, b. rewrite ph_other by assumption. pose proof (index_lt _ _ Hl) as Hkl. split; [|split; [assumption|split]].
        * destruct (Nat.lt_ge_cases k i) as [L|G]; unfold i in *.
          -- rewrite nth_error_app1 in * by assumption. assumption.
          -- rewrite nth_error_app2 in * by assumption. destruct (k - length ps1) eqn:E; [lia|]. exact Hn.
        * assert (T : names K (e_tmp (j_env l)) = names J (e_tmp (j_env l))).
          { apply Hna; [now apply (o_temps_differ k l i j)|]. apply (o_temp_no_target k l _ Hl). now apply (o_target_in i). }
          assert (M : forall m d, file_of (phs k) = Some m -> made J l m d -> made K l m d).
          { intros m d Hm [Hr Hd]. split; [lia|]. now rewrite (Hnode k m). }
          destruct (phs k) as [|m|old|m old|m old done|m old new|m new|m done| | |]; cbn [keeps file_of] in *; rewrite ?T; try tauto.
          -- now apply good_set.
          -- now apply descent_set.
          -- destruct Hkk as (H1 & H2 & H3). split; [now apply descent_set|auto].
          -- destruct Hkk as (H1 & H2 & H3). split; [now apply descent_set|auto].
          -- destruct Hkk as (H1 & H2 & H3 & H4). split; [now apply descent_set|auto].
          -- destruct Hkk as (H1 & (is & H2 & H2') & (h & is' & d & H3 & H4) & H5). split; [auto|]. split; [|split; [|assumption]].
             ++ exists is. split; [|assumption]. intros x Hx. apply placed_some; auto.
             ++ exists h, is', d. split; [apply in_or_app; now left|assumption].
          -- destruct Hkk as (H1 & H2). auto.
          -- destruct Hkk as (h & H1 & H2). exists h. split; [apply in_or_app; now left|assumption].
        * intros S. rewrite Hna; [now apply Hso| |].
          -- intros E. apply (o_temp_no_target i j (target (j_diff l)) Hj); [now apply (o_target_in k)|congruence].
          -- intros E. apply Hki. symmetry. now apply (S i j).
  Qed.
  (* a step that leaves the target *)
  Lemma aside phs J seen ps1 n a ps2 j ph K n' a' : oinv phs J seen (ps1 ++ ORun (j_env j) n a :: ps2) ->
    nth_error js (length ps1) = Some j -> onwards (phs (length ps1)) ph -> used J <= used K ->
    (forall m, m < used J -> file_of (phs (length ps1)) <> Some m -> nodes K m = nodes J m) ->
    (forall m, file_of ph = Some m -> file_of (phs (length ps1)) = Some m \/ used J <= m) ->
    (forall p, p <> e_tmp (j_env j) -> names K p = names J p) ->
    (forall e, becomes ph e = becomes (phs (length ps1)) e) ->
    ostage j ph a' -> keeps (set_ph phs (length ps1) ph) (seen ++ [K]) (length ps1) j ph K ->
    exists phs', oinv phs' K (seen ++ [K]) (ps1 ++ ORun (j_env j) n' a' :: ps2).
  Proof.
    intros H Hj Hon Hu Hno Hfi Hna Hbe Hst Hk. exists (set_ph phs (length ps1) ph). pose proof (o_target_in _ _ Hj) as Ht.
    assert (E : names K (target (j_diff j)) = names J (target (j_diff j))). { apply Hna. intros E. now apply (o_temp_no_target _ _ _ Hj Ht). }
    eapply step_oinv; try eassumption.
    - intros p Hp _. now apply Hna.
    - rewrite E. apply aimed_set; [assumption|]. now apply (o_targets _ _ _ _ H).
    - rewrite E, Hbe. destruct (o_procs _ _ _ _ H _ _ Hj) as (? & ? & _ & _ & _ & S). exact S.
  Qed.
  (* a step that changes no file and no name *)
  Lemma still phs J seen ps1 n a ps2 j ph n' a' : oinv phs J seen (ps1 ++ ORun (j_env j) n a :: ps2) ->
    nth_error js (length ps1) = Some j -> onwards (phs (length ps1)) ph ->
    (forall m, file_of ph = Some m -> file_of (phs (length ps1)) = Some m) ->
    (forall e, becomes ph e = becomes (phs (length ps1)) e) ->
    ostage j ph a' -> keeps (set_ph phs (length ps1) ph) (seen ++ [J]) (length ps1) j ph J ->
    exists phs', oinv phs' J (seen ++ [J]) (ps1 ++ ORun (j_env j) n' a' :: ps2).
  Proof. intros. eapply aside; eauto. Qed.
  Lemma give_up phs J seen ps1 n a ps2 j n' o : oinv phs J seen (ps1 ++ ORun (j_env j) n a :: ps2) ->
    nth_error js (length ps1) = Some j -> placed (phs (length ps1)) = None -> phs (length ps1) <> QGone -> o <> Val tt ->
    exists phs', oinv phs' J (seen ++ [J]) (ps1 ++ ORun (j_env j) n' (OEnd o) :: ps2).
  Proof.
    intros H Hj Hp Hg Ho. eapply (still _ _ _ _ _ _ _ _ QFail); try eassumption.
    - split; congruence.
    - discriminate.
    - intros e. destruct (phs (length ps1)); cbn in *; congruence.
    - now constructor.
    - exact I.
  Qed.

  Lemma change_kind j : is_change (j_diff j) -> exists A B (items : list byte -> res (option A)) (apply : A -> io B),
    o_diff (j_env j) (j_diff j) (j_reverse j) = o_change (j_env j) (target (j_diff j)) items apply /\
    forall old x, items old = Ok (Some x) -> writes j (apply x) old.
  Proof.
    intros Hch. destruct (j_diff j) as [d| | |d| |] eqn:Ed; try contradiction; do 4 eexists; (split; [reflexivity|]).
    - intros old ls Hl. now apply writes_text.
    - intros old x [= <-]. now apply writes_bytes.
  Qed.
  Lemma creation_kind j c : creation j c -> exists B (m : io B) r, emits m c r /\
    o_diff (j_env j) (j_diff j) (j_reverse j) = o_add (j_env j) (target (j_diff j)) m.
  Proof.
    unfold creation, creates. destruct (j_diff j) as [d|p|p|d|p|p]; try contradiction; intros [-> ->]; do 3 eexists;
      (split; [|reflexivity]); first [apply emits_write_lines|apply emits_write_all].
  Qed.
  Lemma removal_kind j : removal j -> o_diff (j_env j) (j_diff j) (j_reverse j) = o_del (target (j_diff j)).
  Proof. unfold removal, removes. destruct (j_diff j); try contradiction; cbn [o_diff target]; intros ->; reflexivity. Qed.
  Lemma some_kind j : is_change (j_diff j) \/ removal j \/ exists c, creation j c.
  Proof. unfold removal, creation, removes, creates. destruct (j_diff j), (j_reverse j); cbn; eauto. Qed.

  Ltac onws := split; cbn; congruence.
  Ltac give H i E := eapply give_up with (1 := H); [eassumption|fold i; rewrite E; reflexivity|fold i; rewrite E; discriminate|discriminate].
  Lemma open_step phs J seen ps1 n a ps2 j K p' : oinv phs J seen (ps1 ++ ORun (j_env j) n a :: ps2) ->
    nth_error js (length ps1) = Some j -> ostep (ORun (j_env j) n a) J = Some (K, p') ->
    exists phs', oinv phs' K (seen ++ [K]) (ps1 ++ p' :: ps2).
  Proof.
    intros H Hj Ha. set (i := length ps1) in *. destruct (o_procs _ _ _ _ H i j Hj) as (n' & a0 & Hn & Hs & Hk & Hso).
    unfold i in Hn. rewrite nth_error_app2, Nat.sub_diag in Hn by lia. cbn [nth_error] in Hn. injection Hn as <- <-.
    pose proof (o_target_in i j Hj) as Ht. pose proof (o_targets _ _ _ _ H _ Ht) as Haim.
    assert (Htt : e_tmp (j_env j) <> target (j_diff j)) by now apply (o_temp_no_target i).
    assert (Hg := Hgood). destruct Hg as (Hw0 & Hjobs & _ & Htp & Hpt). rewrite Forall_forall in Hjobs.
    destruct (Hjobs j (nth_error_In _ _ Hj)) as [(sp & (np & Hnp & Hsp) & Hd) Hnl].
    assert (Hfp : names J (j_patch j) = names I0 (j_patch j)).
    { assert (Q : In (j_patch j) (patches js)) by (apply in_map; now apply nth_error_In in Hj).
      apply (o_rest _ _ _ _ H); intros Q'; [now apply (Hpt _ Q')|now apply (Htp _ Q')]. }
    unfold ostep in Ha. cbn [or_act or_env or_ops] in Ha. remember (phs i) as ph eqn:Eph. symmetry in Eph.
    destruct Hs as [ |m Hm| |A B t items apply|A B items apply m Hch Hw|B m old Hch Hw|B m x old Hch Hw|B m x old Hch Hw|B r x old done bytes Hch Hr|x old new Hch|x new Hch|x new Hch
      |B m x c r Hc He|x c rest done bytes Hc Hrest Hff|x c rest done Hc Hrest Hff|Hrm|c Hc| |o Ho]; cbn [keeps] in Hk.
    - (* open the patch file *)
      unfold o_main in Ha. destruct (i_open_read _ _ J) as [b st] eqn:Eo. injection Ha as <- <-.
      unfold i_open_read in Eo. injection Eo as Eo <-. cbn [last]. rewrite resolve_here, Hfp, Hnp in Eo by (rewrite Hfp, Hnp; discriminate).
      destruct b as [h|]; [|give H i Eph]. assert (h = Some np) as -> by (destruct (e_fault (j_env j) n), (readable (fst (nodes J np))); congruence).
      eapply still with (1 := H) (ph := QBefore); try eassumption; fold i; rewrite ?Eph; try exact I; try onws; try reflexivity; try discriminate. now constructor.
    - (* read it *)
      unfold o_load in Ha. destruct (i_read_all _ _ J) as [b st] eqn:Eo. injection Ha as <- <-.
      unfold i_read_all in Eo. injection Eo as Eo <-. cbn [last]. destruct b as [s|]; [|give H i Eph].
      assert (m = np) as -> by congruence. assert (s = sp) as ->.
      { rewrite (o_nodes _ _ _ _ H) in Eo by now apply (Hw0 (j_patch j)). destruct (e_fault (j_env j) n); congruence. }
      rewrite Hd. cbn [o_pure].
      eapply still with (1 := H) (ph := QBefore); try eassumption; fold i; rewrite ?Eph; try exact I; try onws; try reflexivity; try discriminate. constructor.
    - destruct (some_kind j) as [Hch|[Hrm|(c & Hc)]].
      + (* open the file to be patched *)
        destruct (change_kind j Hch) as (A & B & items & apply & Kd & Kw). rewrite Kd in Ha. unfold o_change in Ha.
        destruct (i_open_read _ _ J) as [b st] eqn:Eo. injection Ha as <- <-. unfold i_open_read in Eo. injection Eo as Eo <-. cbn [last].
        rewrite resolve_here in Eo by (intros q; now apply (no_link _ _ _ _ _ q H)). destruct b as [[x|]|]; [| |give H i Eph].
        * eapply still with (1 := H) (ph := QOpen x); try eassumption; fold i; rewrite ?Eph; try onws; try reflexivity; try discriminate; [now constructor|].
          cbn [keeps]. apply good_set; [fold i; rewrite Eph; onws|]. destruct (e_fault (j_env j) n); try discriminate.
          destruct (names J (target (j_diff j))) as [[y| |]|] eqn:En; try discriminate. destruct (readable (fst (nodes J y))); try discriminate. injection Eo as ->.
          eapply aimed_file; eassumption.
        * eapply still with (1 := H) (ph := QBefore); try eassumption; fold i; rewrite ?Eph; try exact I; try onws; try reflexivity; try discriminate. constructor.
      + (* remove the file *)
        rewrite (removal_kind j Hrm) in Ha. unfold o_del in Ha. destruct (i_remove _ _ J) as [b st] eqn:Eo. injection Ha as <- <-.
        assert (Hst : b = false /\ st = [] \/ b = true /\ st = [upd_name J (target (j_diff j)) None]).
        { unfold i_remove in Eo. destruct (e_fault (j_env j) n), (names J (target (j_diff j))) as [[]|]; injection Eo as <- <-; auto. }
        destruct Hst as [[-> ->]|[-> ->]]; cbn [last]; [give H i Eph|]. set (K := upd_name J (target (j_diff j)) None).
        assert (Hnew : names K (target (j_diff j)) = None) by apply name_same.
        exists (set_ph phs i QGone). eapply step_oinv with (1 := H); try eassumption; fold i; rewrite ?Eph; try onws; try reflexivity; try discriminate.
        * intros p Hp1 Hp2. unfold K. rewrite name_other by congruence. reflexivity.
        * right. left. split; [assumption|]. exists i, j. rewrite ph_same. now repeat split.
        * intros _. exact Hnew.
        * now constructor.
        * cbn [keeps]. exists K. split; [apply in_or_app; right; now left|assumption].
      + (* create it *)
        destruct (creation_kind j c Hc) as (B & m & r & He & Kd). rewrite Kd in Ha. unfold o_add in Ha. destruct (i_create_new _ _ _ J) as [b st] eqn:Eo. injection Ha as <- <-.
        assert (Hst : b = None /\ st = [] /\ (fault_free (j_env j) -> names J (target (j_diff j)) <> None) \/
          b = Some (used J) /\ st = [new_file J (target (j_diff j)) (e_mode (j_env j))] /\ names J (target (j_diff j)) = None).
        { unfold i_create_new in Eo. destruct (e_fault (j_env j) n) eqn:Ef, (names J (target (j_diff j))) eqn:En; injection Eo as <- <-; auto; left; repeat split; intros F; try discriminate; rewrite F in Ef; discriminate. }
        destruct Hst as [(-> & -> & Hnn)|(-> & -> & Hnn)]; cbn [last].
        * eapply still with (1 := H) (ph := QSkip); try eassumption; fold i; rewrite ?Eph; try onws; try reflexivity; try discriminate; [now apply (os_skip _ c)|].
          cbn [keeps]. intros F S E. apply (Hnn F). rewrite (Hso S). exact E.
        * set (K := new_file _ _ _). assert (Hnew : names K (target (j_diff j)) = Some (EFile (used J))) by (cbn; now rewrite path_eqb_refl).
          assert (Hon : onwards (phs i) (QNew (used J) [])) by (rewrite Eph; onws).
          exists (set_ph phs i (QNew (used J) [])). eapply step_oinv with (1 := H); try eassumption; fold i; rewrite ?Eph; try reflexivity.
          -- cbn. lia.
          -- intros x Hx _. cbn. rewrite (proj2 (Nat.eqb_neq (used J) x)) by lia. reflexivity.
          -- intros x [= <-]. now right.
          -- intros p Hp1 Hp2. cbn. rewrite path_eqb_neq by congruence. reflexivity.
          -- right. right. exists (used J). split; [assumption|]. right. exists i, j. rewrite ph_same. now repeat split.
          -- intros _. exact Hnew.
          -- now apply (os_new_write _ B m _ c r).
          -- cbn [keeps]. split; [|split; [exists c, c; now split|intros S; rewrite <- Hnn; symmetry; exact (Hso S)]]. split; [pose proof (o_used _ _ _ _ H); cbn; lia|]. cbn. now rewrite Nat.eqb_refl.
    - (* read it: a directory *)
      unfold o_change_read in Ha. destruct (i_read_all _ _ J) as [b st] eqn:Eo. injection Ha as <- <-.
      unfold i_read_all in Eo. injection Eo as Eo <-. assert (b = None) as -> by (destruct (e_fault (j_env j) n); congruence). cbn [last]. give H i Eph.
    - (* read it: a file *)
      unfold o_change_read in Ha. destruct (i_read_all _ _ J) as [b st] eqn:Eo. injection Ha as <- <-.
      unfold i_read_all in Eo. injection Eo as Eo <-. cbn [last]. destruct b as [old|]; [|give H i Eph].
      assert (Hold : old = snd (nodes J m)) by (destruct (e_fault (j_env j) n); congruence).
      unfold o_change_apply. destruct (items old) as [[x|]| |] eqn:El; cbn [o_pure]; try give H i Eph.
      eapply still with (1 := H) (ph := QHold old); try eassumption; fold i; rewrite ?Eph; try onws; try reflexivity; try discriminate.
      + constructor; [assumption|]. now apply Hw.
      + cbn [keeps]. apply descent_set; [fold i; rewrite Eph; onws|]. rewrite Hold. eapply good_descent; eassumption.
    - (* make the temporary file *)
      unfold o_change_temp in Ha. destruct (i_create_new _ _ _ J) as [b st] eqn:Eo. injection Ha as <- <-.
      unfold i_create_new in Eo. destruct (e_fault (j_env j) n), (names J (e_tmp (j_env j))) eqn:Ef; injection Eo as <- <-; cbn [last]; try give H i Eph.
      eapply aside with (1 := H) (ph := QMade (used J) old); try eassumption; fold i; rewrite ?Eph; try onws; try reflexivity.
      + cbn. lia.
      + intros x Hx _. cbn. rewrite (proj2 (Nat.eqb_neq (used J) x)) by lia. reflexivity.
      + intros x [= <-]. now right.
      + intros p Hp. cbn. rewrite path_eqb_neq by congruence. reflexivity.
      + now constructor.
      + cbn [keeps]. split; [apply descent_set; [fold i; rewrite Eph; onws|assumption]|]. split; [|cbn; now rewrite path_eqb_refl].
        split; [pose proof (o_used _ _ _ _ H); cbn; lia|]. cbn. now rewrite Nat.eqb_refl.
    - (* open it *)
      unfold o_change_open in Ha. destruct (i_create _ _ _ J) as [b st] eqn:Eo. injection Ha as <- <-.
      destruct Hk as (Hde & [Hx Hno] & Hna). unfold i_create in Eo. rewrite resolve_here, Hna in Eo by (rewrite Hna; discriminate).
      destruct (e_fault (j_env j) n); injection Eo as <- <-; cbn [last]; try give H i Eph.
      eapply aside with (1 := H) (ph := QMade x old); try eassumption; fold i; rewrite ?Eph; try onws; try reflexivity.
      + intros y _ Hy. apply node_other. intros ->. now apply Hy.
      + intros y Hy. now left.
      + now constructor.
      + cbn [keeps]. split; [apply descent_set; [fold i; rewrite Eph; onws|assumption]|]. split; [|assumption].
        split; [exact Hx|]. rewrite node_same, Hno. reflexivity.
    - (* write to it *)
      unfold o_change_write in Ha. destruct Hw as (full & r & [Hr He] & Hp). rewrite He in Ha. destruct Hk as (Hde & Hmd & Hna).
      assert (Hst : exists (r' : ores B) bytes, Some (K, p') = Some (J, ORun (j_env j) (S n) (OBytes x bytes (o_written (j_env j) (target (j_diff j)) r'))) /\
        forall b, r' = Done b -> applies j old ([] ++ bytes)).
      { unfold run_emit in Ha. cbn [w_room w_out app] in Ha. destruct (e_fault (j_env j) n) as [| |k].
        - cbn [w_out] in Ha. exists r, full. split; [now symmetry|]. exact Hp.
        - destruct (length full <=? 0); cbn [w_out] in Ha; do 2 eexists; (split; [symmetry; exact Ha|]); [exact Hp|discriminate].
        - destruct (length full <=? k); cbn [w_out] in Ha; do 2 eexists; (split; [symmetry; exact Ha|]); [exact Hp|discriminate]. }
      destruct Hst as (r' & bytes & E & Hr'). injection E as -> ->.
      eapply still with (1 := H) (ph := QFill x old []); try eassumption; fold i; rewrite ?Eph; try onws; try reflexivity.
      + now intros y Hy.
      + now constructor.
      + cbn [keeps]. split; [apply descent_set; [fold i; rewrite Eph; onws|assumption]|]. now split.
    - (* a byte, or the end *)
      destruct Hk as (Hde & [Hx Hno] & Hna). destruct bytes as [|b bytes]; injection Ha as <- <-.
      + rewrite app_nil_r in Hr. destruct r as [y| | |]; cbn [o_written].
        * eapply still with (1 := H) (ph := QReady x old done); try eassumption; fold i; rewrite ?Eph; try onws; try reflexivity.
          -- now intros z Hz.
          -- now constructor.
          -- cbn [keeps]. split; [apply descent_set; [fold i; rewrite Eph; onws|assumption]|]. split; [now apply (Hr y)|]. now split.
        * give H i Eph.
        * eapply still with (1 := H) (ph := QFail); try eassumption; fold i; rewrite ?Eph; try exact I; try onws; try reflexivity; try discriminate. constructor.
        * give H i Eph.
      + eapply aside with (1 := H) (ph := QFill x old (done ++ [b])); try eassumption; fold i; rewrite ?Eph; try onws; try reflexivity.
        * intros y _ Hy. apply node_other. intros ->. now apply Hy.
        * intros y Hy. now left.
        * constructor; [assumption|]. intros y Hy. rewrite <- app_assoc. now apply (Hr y).
        * cbn [keeps]. split; [apply descent_set; [fold i; rewrite Eph; onws|assumption]|]. split; [|assumption].
          split; [exact Hx|]. rewrite append_same, Hno. reflexivity.
    - (* rename it *)
      unfold o_change_end in Ha. destruct (i_rename _ _ _ J) as [b st] eqn:Eo. injection Ha as <- <-.
      destruct Hk as ((is & His & Hgr) & Hap & Hmd & Hna). unfold i_rename in Eo. rewrite Hna, (path_eqb_neq _ _ Htt) in Eo.
      assert (Hst : b = false /\ st = [] \/ b = true /\ st = [upd_name (upd_name J (e_tmp (j_env j)) None) (target (j_diff j)) (Some (EFile x))]).
      { destruct (e_fault (j_env j) n); [|injection Eo as <- <-; auto..].
        destruct (names J (target (j_diff j))) as [[y| |q]|] eqn:En; [|injection Eo as <- <-; auto..].
        destruct (Nat.eqb_spec x y) as [<-|Hxy]; injection Eo as <- <-; auto. exfalso.
        destruct (aimed_file _ _ _ _ _ _ H Haim) as [[Hy _]|(k & l & Hl & Htl & Hpl)].
        - destruct Hmd as [Hmd _]. lia.
        - destruct (Nat.eq_dec k i) as [->|Hki]; [rewrite Eph in Hpl; discriminate|].
          apply (o_own _ _ _ _ H k i x Hki (index_lt _ _ Hl) (index_lt _ _ Hj)); [now apply placed_file|now rewrite Eph]. }
      destruct Hst as [[-> ->]|[-> ->]]; cbn [last]; [give H i Eph|]. set (K := upd_name _ (target _) _).
      assert (Hni : ~ In i is) by (intros Q; apply His in Q; rewrite Eph in Q; now apply Q).
      assert (Hnew : grown I0 js (target (j_diff j)) (i :: is) new) by (eapply grown_change; eauto).
      assert (Hat : names K (target (j_diff j)) = Some (EFile x)) by apply name_same.
      assert (Hon : onwards (phs i) (QDone x new)) by (rewrite Eph; onws).
      exists (set_ph phs i (QDone x new)). eapply step_oinv with (1 := H); try eassumption; fold i; rewrite ?Eph; try reflexivity.
      + intros y Hy. now left.
      + intros p Hp1 Hp2. unfold K. rewrite !name_other by congruence. reflexivity.
      + right. right. exists x. split; [assumption|]. right. exists i, j. rewrite ph_same. now repeat split.
      + intros _. exact Hat.
      + now constructor.
      + cbn [keeps]. split; [exact Hmd|]. split; [|split].
        * exists is. split; [|assumption]. intros k Hkk. apply placed_some; auto.
        * exists K, is, new. split; [apply in_or_app; right; now left|]. split; [|assumption]. exists x. split; [assumption|]. destruct Hmd as [_ Hmd]. cbn. now rewrite Hmd.
        * unfold K. rewrite name_other, name_same by congruence. reflexivity.
    - (* remove it *)
      unfold o_drop in Ha. destruct (i_remove _ _ J) as [b st] eqn:Eo. injection Ha as <- <-.
      destruct Hk as (Hmd & (is & His & Hgr) & (h & is' & d & Hh & Hh') & Hna).
      assert (st = []) as -> by (unfold i_remove in Eo; rewrite Hna in Eo; destruct (e_fault (j_env j) n); now injection Eo). cbn [last].
      assert (Hon : onwards (phs i) (QDone x new)) by (rewrite Eph; onws).
      eapply still with (1 := H) (ph := QDone x new); try eassumption; fold i; rewrite ?Eph; try reflexivity.
      + now intros y Hy.
      + now constructor.
      + cbn [keeps]. split; [assumption|]. split; [|split; [|assumption]].
        * exists is. split; [|assumption]. intros k Hkk. apply placed_some; auto.
        * exists h, is', d. split; [apply in_or_app; now left|assumption].
    - discriminate Ha.
    - (* write what is to be created *)
      destruct He as [Hr He]. rewrite He in Ha. destruct Hk as (Hmd & _ & Hk).
      assert (Hst : exists bytes rest, Some (K, p') = Some (J, ORun (j_env j) (S n) (OBytes x bytes (OEnd (Val tt)))) /\
        c = [] ++ bytes ++ rest /\ (fault_free (j_env j) -> rest = [])).
      { unfold run_emit in Ha. cbn [w_room w_out app] in Ha. destruct (e_fault (j_env j) n) as [| |k] eqn:Ef.
        - cbn [w_out] in Ha. exists c, []. rewrite app_nil_r. now repeat split.
        - destruct (length c <=? 0); cbn [w_out] in Ha.
          + exists c, []. rewrite app_nil_r. now repeat split.
          + exists (firstn 0 c), (skipn 0 c). split; [now symmetry|]. split; [now rewrite firstn_skipn|]. intros F. rewrite F in Ef. discriminate.
        - destruct (length c <=? k); cbn [w_out] in Ha.
          + exists c, []. rewrite app_nil_r. now repeat split.
          + exists (firstn k c), (skipn k c). split; [now symmetry|]. split; [cbn [app]; now rewrite firstn_skipn|]. intros F. rewrite F in Ef. discriminate. }
      destruct Hst as (bytes & rest & E & Hrest & Hff). injection E as -> ->.
      eapply still with (1 := H) (ph := QNew x []); try eassumption; fold i; rewrite ?Eph; try onws; try reflexivity.
      + now intros y Hy.
      + now apply (os_new_bytes _ _ c rest).
      + cbn [keeps]. split; [assumption|]. split; [|assumption]. exists c, c. now split.
    - (* a byte, or the end *)
      destruct Hk as ([Hx Hno] & _ & Hk). destruct bytes as [|b bytes]; injection Ha as <- <-.
      + eapply still with (1 := H) (ph := QNew x done); try eassumption; fold i; rewrite ?Eph; try onws; try reflexivity.
        * now intros z Hz.
        * now apply (os_new _ _ c rest).
        * cbn [keeps]. split; [now split|]. split; [|assumption]. exists c, rest. now split.
      + eapply aside with (1 := H) (ph := QNew x (done ++ [b])); try eassumption; fold i; rewrite ?Eph; try onws; try reflexivity.
        * intros y _ Hy. apply node_other. intros ->. now apply Hy.
        * intros y Hy. now left.
        * apply (os_new_bytes _ _ c rest); [assumption| |assumption]. rewrite <- app_assoc. exact Hrest.
        * cbn [keeps]. split; [|split; [|assumption]].
          -- split; [exact Hx|]. rewrite append_same, Hno. reflexivity.
          -- exists c, (bytes ++ rest). split; [assumption|]. rewrite <- app_assoc. exact Hrest.
    - discriminate Ha.
    - discriminate Ha.
    - discriminate Ha.
    - unfold o_drop in Ha. destruct (i_remove _ _ J) as [b st] eqn:Eo. injection Ha as <- <-.
      assert (Hst : st = [] \/ st = [upd_name J (e_tmp (j_env j)) None]).
      { unfold i_remove in Eo. destruct (e_fault (j_env j) n), (names J (e_tmp (j_env j))) as [[]|]; injection Eo as <- <-; auto. }
      destruct Hst as [-> | ->]; cbn [last]; [give H i Eph|].
      eapply aside with (1 := H) (ph := QFail); try eassumption; fold i; rewrite ?Eph; try exact I; try onws; try reflexivity; try discriminate.
      + intros p Hp. apply name_other. congruence.
      + constructor. discriminate.
    - discriminate Ha.
  Qed.

  Lemma at_once_oinv J ps more K qs : at_once J ps more K qs -> forall phs seen, oinv phs J seen ps ->
    Forall sound_at more /\ exists phs', oinv phs' K (seen ++ more) qs.
  Proof.
    induction 1 as [J ps|J ps1 p ps2 J' p' more K qs Ha H IH]; intros phs seen HI.
    - split; [constructor|]. exists phs. now rewrite app_nil_r.
    - assert (Hlt : length ps1 < length js). { rewrite <- (o_length _ _ _ _ HI), app_length. cbn. lia. }
      destruct (nth_error js (length ps1)) as [j|] eqn:Ej; [|apply nth_error_None in Ej; lia].
      destruct (o_procs _ _ _ _ HI _ _ Ej) as (n & a & Hn & _). rewrite nth_error_app2, Nat.sub_diag in Hn by lia. cbn in Hn. injection Hn as ->.
      destruct (open_step _ _ _ _ _ _ _ _ _ _ HI Ej Ha) as (phs' & HI'). destruct (IH _ _ HI') as [HF (phs'' & HI'')].
      split; [constructor; [exact (oinv_sound _ _ _ _ HI')|assumption]|]. exists phs''. now rewrite <- app_assoc in HI''.
  Qed.
  Lemma start_oinv : oinv (fun _ => QBefore) I0 [] (map started js).
  Proof.
    constructor; try reflexivity; try discriminate.
    - intros p _. now left.
    - apply map_length.
    - intros i j Hj. exists 0, (o_main (j_env j) (j_patch j) (j_reverse j)). split; [now rewrite (map_nth_error _ _ _ Hj)|]. split; [constructor|]. now split.
  Qed.
  Lemma grown_jobs p is d : grown I0 js p is d -> forall k, In k is -> exists l, nth_error js k = Some l /\ target (j_diff l) = p.
  Proof. induction 1 as [d Hd|i j c d rest Hj Ht Hc Hr|is old i j new H IH Hi Hj Ht Hp]; [easy|..]; intros k [<-|Hk]; eauto; easy. Qed.
  Lemma change_not j c : is_change (j_diff j) -> ~ creation j c /\ ~ removal j.
  Proof. unfold creation, removal, creates, removes, is_change. destruct (j_diff j); tauto. Qed.
  Lemma change_no_creation j c : is_change (j_diff j) -> creation j c -> False.
  Proof. intros H. exact (proj1 (change_not j c H)). Qed.
  Lemma change_no_removal j : is_change (j_diff j) -> removal j -> False.
  Proof. intros H. exact (proj2 (change_not j [] H)). Qed.
  Lemma removal_not j c : removal j -> ~ creation j c.
  Proof. unfold creation, removal, creates, removes. destruct (j_diff j); intros ? []; congruence. Qed.
  Lemma creation_same j c c' : creation j c -> creation j c' -> c = c'.
  Proof. unfold creation, creates. destruct (j_diff j); intros []; try contradiction; intros []; congruence. Qed.

  Lemma at_once_jobs seen J qs : at_once I0 (map started js) seen J qs ->
    (forall h, In h (I0 :: seen) -> sound_at h) /\
    (forall p, In p (targets js) -> names J p = names I0 p \/
       names J p = None /\ (exists i j, nth_error js i = Some j /\ target (j_diff j) = p /\ removal j /\
         forall q o, nth_error qs i = Some q -> over q = Some o -> o = Val tt) \/
       exists is d, file_at J p d /\ grown I0 js p is d /\ forall i q o, In i is -> nth_error qs i = Some q -> over q = Some o -> o = Val tt) /\
    (forall i j q, nth_error js i = Some j -> nth_error qs i = Some q -> over q = Some (Val tt) ->
       (is_change (j_diff j) -> (exists h is d, In h seen /\ file_at h (target (j_diff j)) d /\ grown I0 js (target (j_diff j)) (i :: is) d) /\ names J (e_tmp (j_env j)) = None) /\
       (removal j -> exists h, In h seen /\ names h (target (j_diff j)) = None)).
  Proof.
    intros H. destruct (at_once_oinv _ _ _ _ _ H _ _ start_oinv) as [HF (phs & HI)]. cbn [app] in HI.
    assert (Hend : forall i j q o, nth_error js i = Some j -> nth_error qs i = Some q -> over q = Some o ->
      ostage j (phs i) (OEnd o) /\ keeps phs seen i j (phs i) J).
    { intros i j q o Hj Hq He. destruct (o_procs _ _ _ _ HI i j Hj) as (n & a & Hn & Hs & Hk & _). rewrite Hn in Hq. injection Hq as <-.
      unfold over in He. cbn [or_act] in He. destruct a as [o'| | |]; try discriminate. injection He as ->. now split. }
    assert (Hval : forall j ph o, ostage j ph (OEnd o) -> placed ph <> None \/ ph = QGone -> o = Val tt).
    { intros j ph o Hs Hp. remember (OEnd o) as a eqn:Ea. destruct Hs; try discriminate Ea; try (now injection Ea); try (destruct Hp as [Hp|Hp]; [now destruct Hp|discriminate]). }
    split; [|split].
    - intros h [<-|Hh]; [exact (oinv_sound _ _ _ _ start_oinv)|]. rewrite Forall_forall in HF. auto.
    - intros p Hp. destruct (o_targets _ _ _ _ HI p Hp) as [K|[(K & i & j & Hi & Hj & Ht & Hr)|(n & K & Hn)]]; [now left|right; left|right; right].
      + split; [assumption|]. exists i, j. repeat (split; [assumption|]). intros q o Hq He. destruct (Hend i j q o Hj Hq He) as [Hs _]. apply (Hval _ _ _ Hs). now right.
      + destruct (good_descent _ _ _ _ _ _ HI Hn) as (is & His & Hg). exists is, (snd (nodes J n)). split; [now exists n|]. split; [assumption|].
        intros i q o Hi Hq He. destruct (grown_jobs _ _ _ Hg i Hi) as (j & Hj & _). destruct (Hend i j q o Hj Hq He) as [Hs _]. apply (Hval _ _ _ Hs). left. auto.
    - intros i j q Hj Hq He. destruct (Hend i j q _ Hj Hq He) as [Hs Hk]. split.
      + intros Hc. remember (OEnd (Val tt)) as a eqn:Ea. destruct Hs; try discriminate Ea; try (exfalso; eapply change_no_creation; eassumption); try (exfalso; eapply change_no_removal; eassumption).
        * unfold o_diff in Ea. destruct (j_diff j), (j_reverse j); discriminate Ea.
        * cbn [keeps] in Hk. tauto.
        * injection Ea as ->. congruence.
      + intros Hr. remember (OEnd (Val tt)) as a eqn:Ea. destruct Hs; try discriminate Ea; try (exfalso; eapply removal_not; eassumption).
        * unfold o_diff in Ea. destruct (j_diff j), (j_reverse j); discriminate Ea.
        * exfalso. eapply change_no_removal; eassumption.
        * exact Hk.
        * injection Ea as ->. congruence.
  Qed.

  Lemma at_once_apart seen J qs : NoDup (targets js) -> at_once I0 (map started js) seen J qs ->
    forall i j q o, nth_error js i = Some j -> nth_error qs i = Some q -> over q = Some o ->
    (o = Val tt -> removal j -> names J (target (j_diff j)) = None) /\
    (o = Val tt -> is_change (j_diff j) -> exists old new, file_at I0 (target (j_diff j)) old /\ applies j old new /\ file_at J (target (j_diff j)) new) /\
    (forall c, o = Val tt -> creation j c -> names I0 (target (j_diff j)) <> None -> names J (target (j_diff j)) = names I0 (target (j_diff j))) /\
    (forall c, o = Val tt -> creation j c -> fault_free (j_env j) -> names I0 (target (j_diff j)) = None -> file_at J (target (j_diff j)) c) /\
    (o <> Val tt -> names J (target (j_diff j)) = names I0 (target (j_diff j))).
  Proof.
    intros Hnd H. destruct (at_once_oinv _ _ _ _ _ H _ _ start_oinv) as [_ (phs & HI)]. cbn [app] in HI.
    intros i j q o Hj Hq He. destruct (o_procs _ _ _ _ HI i j Hj) as (n & a & Hn & Hs & Hk & Hso). rewrite Hn in Hq. injection Hq as <-.
    unfold over in He. cbn [or_act] in He. destruct a as [o'| | |]; try discriminate. injection He as ->.
    assert (S : sole_target i j).
    { intros k l Hl E. rewrite NoDup_nth_error in Hnd. apply Hnd; [unfold targets; rewrite map_length; now apply (index_lt k l)|].
      unfold targets. rewrite (map_nth_error _ _ _ Hj), (map_nth_error _ _ _ Hl). now rewrite E. }
    specialize (Hso S). remember (OEnd o) as a eqn:Ea. destruct Hs as [ |m Hm| |A B t items apply|A B items apply m Hch Hw|B m old Hch Hw|B m x old Hch Hw|B m x old Hch Hw|B r x old done bytes Hch Hr|x old new Hch|x new Hch|x new Hch
      |B m x c r Hc Hem|x c rest done bytes Hc Hrest Hff|x c rest done Hc Hrest Hff|Hrm|c Hc| |o' Ho]; try discriminate Ea; cbn [keeps becomes] in *.
    - unfold o_diff in Ea. destruct (j_diff j), (j_reverse j); discriminate Ea.
    - injection Ea as <-. split; [intros _ K; exfalso; eapply change_no_removal; eassumption|]. split; [|split; [|split]].
      + intros _ _. destruct Hk as ((Hx & Hmd) & (is & His & Hg) & _). inversion Hg as [|i' j' c d rest Hj' Ht' Hc' Hr'|is' old i' j' new' Hg' Hi' Hj' Ht' Hp']; subst.
        * exfalso. assert (j' = j) as -> by congruence. eapply change_no_creation; eassumption.
        * assert (j' = j) as -> by congruence. assert (is = []) as ->.
          { destruct is as [|k is]; [reflexivity|exfalso]. destruct (grown_jobs _ _ _ Hg' k) as (l & Hl & Htl); [now left|]. apply Hi'. left. now apply (S k l). }
          inversion Hg' as [d Hd| |]; subst. exists old, new. split; [assumption|]. split; [assumption|]. exists x. split; [assumption|]. now rewrite Hmd.
      + intros c _ K. exfalso. eapply change_no_creation; eassumption.
      + intros c _ K. exfalso. eapply change_no_creation; eassumption.
      + congruence.
    - injection Ea as <-. split; [intros _ K; exfalso; eapply removal_not; eassumption|]. split; [intros _ K; exfalso; eapply change_no_creation; eassumption|]. split; [|split].
      + intros c' _ _ Hne. destruct Hk as (_ & _ & Hk). now destruct (Hne (Hk S)).
      + intros c' _ Hc' F _. destruct Hk as ((_ & Hmd) & _). rewrite (Hff F), app_nil_r in Hrest. exists x. split; [assumption|]. rewrite Hmd. cbn [snd].
        rewrite <- Hrest. eapply creation_same; eassumption.
      + congruence.
    - injection Ea as <-. split; [intros _ _; assumption|]. split; [intros _ K; exfalso; eapply change_no_removal; eassumption|]. split; [|split].
      + intros c _ K. exfalso. eapply removal_not; eassumption.
      + intros c _ K. exfalso. eapply removal_not; eassumption.
      + congruence.
    - injection Ea as <-. split; [intros _ K; exfalso; eapply removal_not; eassumption|]. split; [intros _ K; exfalso; eapply change_no_creation; eassumption|]. split; [|split].
      + intros c' _ _ _. assumption.
      + intros c' _ _ F K. now destruct (Hk F S).
      + congruence.
    - injection Ea as ->. split; [congruence|]. split; [congruence|]. split; [congruence|]. split; [congruence|]. now intros _.
  Qed.
End Open.

(* ------------------------------------------------------------------ *)
(* One run                                                             *)
(* ------------------------------------------------------------------ *)
Lemma alike_refl I : alike I I.
Proof. now repeat split. Qed.
Lemma alike_trans I J K : alike I J -> alike J K -> alike I K.
Proof. intros (H1 & H2 & H3) (K1 & K2 & K3). repeat split; [congruence|intros p; now rewrite H2|intros n; now rewrite H3]. Qed.
Lemma alike_sym I J : alike I J -> alike J I.
Proof. intros (H1 & H2 & H3). now repeat split. Qed.
Lemma alike_name I J p e : alike I J -> alike (upd_name I p e) (upd_name J p e).
Proof. intros (H1 & H2 & H3). repeat split; cbn; [assumption|intros q; now rewrite H2|assumption]. Qed.
Lemma alike_node I J n x : alike I J -> alike (upd_node I n x) (upd_node J n x).
Proof. intros (H1 & H2 & H3). repeat split; cbn; [assumption|assumption|intros k; now rewrite H3]. Qed.
Lemma alike_new I J p m : alike I J -> alike (new_file I p m) (new_file J p m).
Proof. intros (H1 & H2 & H3). repeat split; cbn; [now rewrite H1|intros q; now rewrite H1, H2|intros k; now rewrite H1, H3]. Qed.
Lemma alike_resolve I J p : alike I J -> resolve I p = resolve J p.
Proof.
  intros (_ & H & _). unfold resolve. generalize 40. intros k. revert p. induction k as [|k IH]; intros p; cbn [follow]; rewrite H; [reflexivity|].
  destruct (names J p) as [[]|]; auto.
Qed.
Lemma alike_last s s' I J : Forall2 alike s s' -> alike I J -> alike (last s I) (last s' J).
Proof. intros H. revert I J. induction H as [|x y s s' Hx H IH]; intros I J Ha; [assumption|]. destruct H; cbn [last] in *; auto. Qed.
Lemma alike_map {A} (f g : A -> ifs) l : (forall x, alike (f x) (g x)) -> Forall2 alike (map f l) (map g l).
Proof. intros H. induction l; constructor; auto. Qed.

(* the outcome depends only on which names and files there are *)
Definition respects {B} (f : fault -> ifs -> B * list ifs) : Prop :=
  forall flt I J, alike I J -> fst (f flt I) = fst (f flt J) /\ Forall2 alike (snd (f flt I)) (snd (f flt J)).
Lemma open_read_respects p : respects (i_open_read p).
Proof.
  intros flt I J H. unfold i_open_read. cbn [fst snd]. split; [|constructor]. rewrite (alike_resolve _ _ _ H). destruct flt, (resolve J p) as [q|]; try reflexivity.
  destruct H as (_ & H2 & H3). rewrite H2. destruct (names J q) as [[]|]; try reflexivity. now rewrite H3.
Qed.
Lemma read_all_respects h : respects (i_read_all h).
Proof. intros flt I J (_ & _ & H). unfold i_read_all. cbn [fst snd]. split; [|constructor]. destruct flt, h; try reflexivity. now rewrite H. Qed.
Lemma create_new_respects E p : respects (i_create_new E p).
Proof.
  intros flt I J H. unfold i_create_new. pose proof H as (H1 & H2 & _). rewrite H1, H2. destruct flt, (names J p); cbn [fst snd]; split; try reflexivity; first [apply Forall2_nil|apply Forall2_cons; [|apply Forall2_nil]]. now apply alike_new.
Qed.
Lemma create_respects E p : respects (i_create E p).
Proof.
  intros flt I J H. unfold i_create. rewrite (alike_resolve _ _ _ H). pose proof H as (H1 & H2 & H3).
  destruct flt, (resolve J p) as [q|]; try (cbn; split; constructor). rewrite H1, H2. destruct (names J q) as [[n| |]|]; cbn [fst snd]; split; try reflexivity; first [apply Forall2_nil|apply Forall2_cons; [|apply Forall2_nil]].
  - rewrite H3. now apply alike_node.
  - now apply alike_new.
Qed.
Lemma rename_respects p q : respects (i_rename p q).
Proof.
  intros flt I J H. unfold i_rename. pose proof H as (_ & H2 & _). rewrite !H2.
  destruct flt, (names J p) as [[x| |r]|], (names J q) as [[y| |s]|]; cbn [fst snd]; try (split; constructor);
    try (destruct (x =? y)); try (destruct (path_eqb p q)); split; try reflexivity; try (first [apply Forall2_nil|apply Forall2_cons; [|apply Forall2_nil]]); now repeat apply alike_name.
Qed.
Lemma remove_respects p : respects (i_remove p).
Proof.
  intros flt I J H. unfold i_remove. pose proof H as (_ & H2 & _). rewrite H2.
  destruct flt, (names J p) as [[]|]; cbn [fst snd]; split; try reflexivity; try (first [apply Forall2_nil|apply Forall2_cons; [|apply Forall2_nil]]); now apply alike_name.
Qed.
Lemma write_respects {A} n (m : io A) : respects (i_write n m).
Proof.
  intros flt I J H. unfold i_write. pose proof H as (_ & _ & H3). rewrite H3. destruct (nodes J n) as [mode d]. destruct (m _) as [r w]. cbn [fst snd]. split; [reflexivity|].
  apply alike_map. intros k. now apply alike_node.
Qed.
Inductive calm : oact -> Prop :=
| calm_end o : calm (OEnd o)
| calm_op B (f : fault -> ifs -> B * list ifs) k : respects f -> (forall b, calm (k b)) -> calm (OOp f k)
| calm_write A n (m : io A) k : (forall r, calm (k r)) -> calm (OWrite n m k)
| calm_bytes n bytes k : calm k -> calm (OBytes n bytes k).
Lemma calm_change E {A B} t items (apply : A -> io B) : calm (o_change E t items apply).
Proof.
  unfold o_change. constructor; [apply open_read_respects|]. intros [h|]; [|constructor].
  unfold o_change_read. constructor; [apply read_all_respects|]. intros [d|]; [|constructor].
  unfold o_change_apply. destruct (items d) as [[x|]| |]; cbn [o_pure]; try constructor; [apply create_new_respects|]. intros [n|]; [|constructor].
  unfold o_change_open. constructor; [apply create_respects|]. intros [k|]; [|constructor].
  unfold o_change_write. constructor. intros [b| | |]; cbn [o_written]; try constructor.
  - apply rename_respects.
  - intros []; [|constructor]. unfold o_drop. constructor; [apply remove_respects|]. constructor.
  - apply remove_respects.
  - constructor.
Qed.
Lemma calm_add E {B} t (m : io B) : calm (o_add E t m).
Proof. unfold o_add. constructor; [apply create_new_respects|]. intros [n|]; [|constructor]. constructor. constructor. Qed.
Lemma calm_del t : calm (o_del t).
Proof. unfold o_del. constructor; [apply remove_respects|]. intros []; constructor. Qed.
Lemma calm_main E patch reverse : calm (o_main E patch reverse).
Proof.
  unfold o_main. constructor; [apply open_read_respects|]. intros [h|]; [|constructor].
  unfold o_load. constructor; [apply read_all_respects|]. intros [s|]; [|constructor].
  destruct (diff_from_json s) as [[d|]| |]; cbn [o_pure]; try constructor.
  destruct d; cbn [o_diff]; try apply calm_change; destruct reverse; first [apply calm_add|apply calm_del].
Qed.

(* a run on its own *)
Definition put_bytes (I : ifs) (h : nat) (bytes : list byte) : list ifs := map (fun k => append I h (firstn k bytes)) (seq 0 (S (length bytes))).
Fixpoint whole (E : env) (a : oact) (n : nat) (I : ifs) : outcome unit * list ifs * ifs :=
  match a with
  | OEnd o => (o, [], I)
  | OOp f k =>
      let (b, states) := f (e_fault E n) I in
      let '(o, seen, J) := whole E (k b) (S n) (last states I) in (o, states ++ seen, J)
  | OWrite h m k =>
      let (r, states) := i_write h m (e_fault E n) I in
      let '(o, seen, J) := whole E (k r) (S n) (last states I) in (o, states ++ seen, J)
  | OBytes h bytes k =>
      let '(o, seen, J) := whole E k n (last (put_bytes I h bytes) I) in (o, put_bytes I h bytes ++ seen, J)
  end.
Lemma whole_drop E o n I : whole E (o_drop E o) n I = irun E (i_drop E o) n I.
Proof. unfold o_drop, i_drop. cbn [whole irun]. reflexivity. Qed.
Lemma whole_change E {A B} t items (apply : A -> io B) n I : whole E (o_change E t items apply) n I = irun E (i_change E t items apply) n I.
Proof.
  unfold o_change, i_change. cbn [whole irun]. destruct (i_open_read t (e_fault E n) I) as [[h|] st]; [|reflexivity].
  unfold o_change_read, i_change_read. cbn [whole irun]. destruct (i_read_all _ _ _) as [[d|] st1]; [|reflexivity].
  unfold o_change_apply, i_change_apply. destruct (items d) as [[x|]| |]; cbn [o_pure i_pure]; try reflexivity.
  unfold o_change_temp, i_change_temp. cbn [whole irun]. destruct (i_create_new _ _ _ _) as [[k|] st2]; [|reflexivity].
  unfold o_change_open, i_change_open. cbn [whole irun]. destruct (i_create _ _ _ _) as [[k'|] st3]; [|reflexivity].
  unfold o_change_write, i_change_write. cbn [whole irun]. destruct (i_write _ _ _ _) as [[b| | |] st4]; cbn [o_written]; try reflexivity.
  unfold o_change_end, i_change_end. cbn [whole irun]. destruct (i_rename _ _ _ _) as [[] st5]; reflexivity.
Qed.
Lemma whole_add E {B} t (m : io B) n I : whole E (o_add E t m) n I = irun E (i_add E t m) n I.
Proof. unfold o_add, i_add. cbn [whole irun]. destruct (i_create_new _ _ _ _) as [[k|] st]; reflexivity. Qed.
Lemma whole_del E t n I : whole E (o_del t) n I = irun E (i_del t) n I.
Proof. unfold o_del, i_del. cbn [whole irun]. destruct (i_remove _ _ _) as [[] st]; reflexivity. Qed.
Lemma whole_main E patch reverse I : whole E (o_main E patch reverse) 0 I = patch_links E patch reverse I.
Proof.
  unfold patch_links, o_main, i_main. cbn [whole irun]. destruct (i_open_read _ _ I) as [[h|] st]; [|reflexivity].
  unfold o_load, i_load. cbn [whole irun]. destruct (i_read_all _ _ _) as [[s|] st1]; [|reflexivity].
  destruct (diff_from_json s) as [[d|]| |]; cbn [o_pure i_pure]; try reflexivity.
  destruct d; cbn [o_diff i_diff]; rewrite ?whole_change; try reflexivity; destruct reverse; rewrite ?whole_add, ?whole_del; reflexivity.
Qed.
Lemma whole_alike E a : calm a -> forall n I J, alike I J -> fst (fst (whole E a n I)) = fst (fst (whole E a n J)) /\
  Forall2 alike (snd (fst (whole E a n I))) (snd (fst (whole E a n J))) /\ alike (snd (whole E a n I)) (snd (whole E a n J)).
Proof.
  assert (Hrec : forall B (g : fault -> ifs -> B * list ifs) (k : B -> oact) n n' I J, alike I J -> respects g ->
    (forall b n I J, alike I J -> fst (fst (whole E (k b) n I)) = fst (fst (whole E (k b) n J)) /\
       Forall2 alike (snd (fst (whole E (k b) n I))) (snd (fst (whole E (k b) n J))) /\ alike (snd (whole E (k b) n I)) (snd (whole E (k b) n J))) ->
    let r I := (let (b, states) := g (e_fault E n) I in let '(o, seen, J) := whole E (k b) n' (last states I) in (o, states ++ seen, J)) in
    fst (fst (r I)) = fst (fst (r J)) /\ Forall2 alike (snd (fst (r I))) (snd (fst (r J))) /\ alike (snd (r I)) (snd (r J))).
  { intros B g k n n' I J H Hg IH. cbv beta zeta. destruct (Hg (e_fault E n) I J H) as [G1 G2].
    destruct (g (e_fault E n) I) as [b st], (g (e_fault E n) J) as [b' st']. cbn [fst snd] in G1, G2. subst b'.
    destruct (IH b n' (last st I) (last st' J) (alike_last _ _ _ _ G2 H)) as (K1 & K2 & K3).
    destruct (whole E (k b) n' (last st I)) as [[o s] F], (whole E (k b) n' (last st' J)) as [[o' s'] F']. cbn [fst snd] in *.
    split; [assumption|]. split; [now apply Forall2_app|assumption]. }
  induction 1 as [o|B f k Hf Hk IH|A h m k Hk IH|h bytes k Hk IH]; intros n I J H.
  - cbn. split; [reflexivity|]. split; [constructor|assumption].
  - exact (Hrec B f k n (S n) I J H Hf IH).
  - exact (Hrec _ (i_write h m) k n (S n) I J H (write_respects h m) IH).
  - refine (Hrec unit (fun _ I => (tt, put_bytes I h bytes)) (fun _ => k) n n I J H _ (fun _ => IH)).
    intros flt K L HKL. cbn [fst snd]. split; [reflexivity|]. apply alike_map. intros x. unfold append. pose proof HKL as (_ & _ & H3). rewrite H3. now apply alike_node.
Qed.
Lemma last_in {A} (l : list A) d : In (last l d) (d :: l).
Proof. destruct l as [|x l] using rev_ind; [now left|]. rewrite last_last. right. apply in_or_app. right. now left. Qed.
Lemma put_bytes_last I h bytes D : last (put_bytes I h bytes) D = append I h bytes.
Proof.
  unfold put_bytes. rewrite seq_S, map_app. cbn [map Nat.add]. rewrite last_last, firstn_all. reflexivity.
Qed.
Lemma append_twice I h b bytes : alike (append (append I h b) h bytes) (append I h (b ++ bytes)).
Proof.
  repeat split. intros n. unfold append. cbn. rewrite Nat.eqb_refl. cbn [fst snd]. destruct (h =? n); [|reflexivity]. now rewrite app_assoc.
Qed.
Lemma append_none I h : alike (append I h []) I.
Proof.
  repeat split. intros n. unfold append. cbn. rewrite app_nil_r. destruct (Nat.eqb_spec h n) as [->|]; [|reflexivity]. symmetry. apply surjective_pairing.
Qed.
Definition among (s t : list ifs) : Prop := forall h, In h s -> exists h', In h' t /\ alike h h'.
Lemma among_incl s t : incl s t -> among s t.
Proof. intros H h Hh. exists h. split; [auto|apply alike_refl]. Qed.
Lemma among_trans s t u : among s t -> among t u -> among s u.
Proof. intros H K h Hh. destruct (H h Hh) as (h' & Hh' & A). destruct (K h' Hh') as (h'' & Hh'' & A'). exists h''. split; [assumption|]. eapply alike_trans; eassumption. Qed.
Lemma among_forall2 s t : Forall2 alike s t -> among s t.
Proof.
  induction 1 as [|x y s t Hx H IH]; [easy|]. intros h [<-|Hh]; [exists y; split; [now left|assumption]|]. destruct (IH h Hh) as (h' & Hh' & A). exists h'. split; [now right|assumption].
Qed.
Lemma whole_step E n a I I' n' a' : calm a -> ostep (ORun E n a) I = Some (I', ORun E n' a') ->
  calm a' /\ fst (fst (whole E a' n' I')) = fst (fst (whole E a n I)) /\ alike (snd (whole E a' n' I')) (snd (whole E a n I)) /\
  among (I' :: snd (fst (whole E a' n' I'))) (I :: snd (fst (whole E a n I))).
Proof.
  intros Hc H. unfold ostep in H. cbn [or_env or_ops or_act] in H. destruct Hc as [o|B f k Hf Hk|A h m k Hk|h [|b bytes] k Hk].
  - discriminate.
  - cbn [whole]. destruct (f (e_fault E n) I) as [b st]. injection H as <- <- <-. split; [auto|].
    destruct (whole E (k b) (S n) (last st I)) as [[o s] F]. cbn [fst snd]. split; [reflexivity|]. split; [apply alike_refl|].
    apply among_incl. intros x [<-|Hx].
    + pose proof (last_in st I) as [L|L]; [left; exact L|right; apply in_or_app; now left].
    + right. apply in_or_app. now right.
  - assert (Hr : exists r bytes, i_write h m (e_fault E n) I = (r, put_bytes I h bytes) /\ (I, ORun E (S n) (OBytes h bytes (k r))) = (I', ORun E n' a')).
    { unfold i_write. destruct (nodes I h) as [mode d] eqn:En. destruct (m _) as [r w]. exists r, (w_out w). split; [|now injection H as <- <- <-].
      unfold put_bytes, append. rewrite En. reflexivity. }
    destruct Hr as (r & bytes & Hw & E'). injection E' as <- <- <-. split; [constructor; auto|]. cbn [whole]. rewrite Hw.
    destruct (whole E (k r) (S n) _) as [[o s] F]. cbn [fst snd]. split; [reflexivity|]. split; [apply alike_refl|]. apply among_incl, incl_refl.
  - injection H as <- <- <-. split; [assumption|]. cbn [whole]. rewrite put_bytes_last.
    destruct (whole_alike E k Hk n I (append I h []) (alike_sym _ _ (append_none I h))) as (K1 & K2 & K3).
    destruct (whole E k n (append I h [])) as [[o s] F]. cbn [fst snd] in *. split; [assumption|]. split; [assumption|].
    intros x [<-|Hx]; [exists I; split; [now left|apply alike_refl]|]. destruct (among_forall2 _ _ K2 x Hx) as (y & Hy & A). exists y. split; [|assumption]. right. apply in_or_app. now right.
  - injection H as <- <- <-. split; [now constructor|]. cbn [whole]. rewrite !put_bytes_last.
    destruct (whole_alike E k Hk n _ _ (append_twice I h [b] bytes)) as (K1 & K2 & K3). cbn [app] in K1, K2, K3.
    destruct (whole E k n (append (append I h [b]) h bytes)) as [[o s] F], (whole E k n (append I h (b :: bytes))) as [[o' s'] F']. cbn [fst snd] in *.
    split; [assumption|]. split; [assumption|].
    assert (Hin : forall x, x <= length bytes -> In (append I h (firstn (S x) (b :: bytes))) (put_bytes I h (b :: bytes))).
    { intros x Hx. unfold put_bytes. apply (in_map (fun k => append I h (firstn k (b :: bytes)))). apply in_seq. cbn. lia. }
    intros x [<-|Hx].
    + exists (append I h [b]). split; [|apply alike_refl]. right. apply in_or_app. left. apply (Hin 0). lia.
    + apply in_app_or in Hx as [Hx|Hx].
      * unfold put_bytes in Hx. apply in_map_iff in Hx as (y & <- & Hy). apply in_seq in Hy. exists (append I h (firstn (S y) (b :: bytes))).
        split; [right; apply in_or_app; left; apply Hin; lia|]. apply append_twice.
      * destruct (among_forall2 _ _ K2 x Hx) as (y & Hy & A). exists y. split; [|assumption]. right. apply in_or_app. now right.
Qed.
Lemma at_once_whole I ps seen J qs : at_once I ps seen J qs -> forall E n a q o, ps = [ORun E n a] -> calm a -> qs = [q] -> over q = Some o ->
  fst (fst (whole E a n I)) = o /\ alike J (snd (whole E a n I)) /\ among seen (I :: snd (fst (whole E a n I))).
Proof.
  induction 1 as [I ps|I ps1 p ps2 I' p' seen J qs Hs H IH]; intros E n a q o Hp Hc Hq Ho.
  - subst ps. injection Hq as <-. unfold over in Ho. cbn in Ho. destruct a; try discriminate. injection Ho as ->. cbn. split; [reflexivity|]. split; [apply alike_refl|easy].
  - destruct ps1 as [|? [|]]; try discriminate. injection Hp as -> ->. destruct p' as [E' n' a'].
    assert (E' = E) as ->.
    { unfold ostep in Hs. cbn [or_env or_ops or_act] in Hs. destruct a as [|B f k|A h m k|h [|b bytes] k]; try discriminate; try (now injection Hs).
      - destruct (f _ I). now injection Hs.
      - destruct (m _). now injection Hs. }
    destruct (whole_step _ _ _ _ _ _ _ Hc Hs) as (Hc' & K1 & K2 & K3). destruct (IH E n' a' q o eq_refl Hc' Hq Ho) as (L1 & L2 & L3).
    split; [congruence|]. split; [eapply alike_trans; eassumption|]. intros x [<-|Hx]; [apply K3; now left|].
    exact (among_trans _ _ _ L3 K3 x Hx).
Qed.
Lemma at_once_ends E a : forall n I, exists seen J q, at_once I [ORun E n a] seen J [q] /\ over q <> None.
Proof.
  assert (Hstep : forall n I a I' p', ostep (ORun E n a) I = Some (I', p') -> (exists seen J q, at_once I' [p'] seen J [q] /\ over q <> None) ->
    exists seen J q, at_once I [ORun E n a] seen J [q] /\ over q <> None).
  { intros n I b I' p' Hs (seen & J & q & H & Ho). exists (I' :: seen), J, q. split; [|assumption]. eapply (at_once_step I [] _ []); eassumption. }
  assert (Hbytes : forall k, (forall n I, exists seen J q, at_once I [ORun E n k] seen J [q] /\ over q <> None) ->
    forall h bytes n I, exists seen J q, at_once I [ORun E n (OBytes h bytes k)] seen J [q] /\ over q <> None).
  { intros k Hk h bytes. induction bytes as [|b bytes IH]; intros n I; (eapply Hstep; [reflexivity|auto]). }
  induction a as [o|B f k IH|A h m k IH|h bytes k IH]; intros n I.
  - exists [], I, (ORun E n (OEnd o)). split; [constructor|discriminate].
  - destruct (f (e_fault E n) I) as [b st] eqn:Ef. eapply Hstep; [unfold ostep; cbn [or_env or_ops or_act]; rewrite Ef; reflexivity|apply IH].
  - destruct (m (Writer [] (match e_fault E n with NoFault => None | Fail => Some 0 | FailAfter k => Some k end))) as [r w] eqn:Ew.
    eapply Hstep; [unfold ostep; cbn [or_env or_ops or_act]; rewrite Ew; reflexivity|]. apply Hbytes. intros n' I'. apply IH.
  - now apply Hbytes.
Qed.

(* ------------------------------------------------------------------ *)
(* A given order                                                       *)
(* ------------------------------------------------------------------ *)
Fixpoint set_at (i : nat) (p : orun) (ps : list orun) : list orun :=
  match i, ps with
  | 0, _ :: ps => p :: ps
  | S i, q :: ps => q :: set_at i p ps
  | _, [] => []
  end.
Fixpoint take_turns (order : list nat) (I : ifs) (ps : list orun) : list ifs * ifs * list orun :=
  match order with
  | [] => ([], I, ps)
  | i :: order =>
      match nth_error ps i with
      | None => take_turns order I ps
      | Some p =>
          match ostep p I with
          | None => take_turns order I ps
          | Some (J, p') => let '(seen, K, qs) := take_turns order J (set_at i p' ps) in (J :: seen, K, qs)
          end
      end
  end.
Lemma set_at_app ps1 p ps2 p' : set_at (length ps1) p' (ps1 ++ p :: ps2) = ps1 ++ p' :: ps2.
Proof. induction ps1; cbn; congruence. Qed.
Lemma turns_at_once order : forall I ps, let r := take_turns order I ps in at_once I ps (fst (fst r)) (snd (fst r)) (snd r).
Proof.
  induction order as [|i order IH]; intros I ps; cbn [take_turns]; [constructor|].
  destruct (nth_error ps i) as [p|] eqn:En; [|apply IH]. destruct (ostep p I) as [[J p']|] eqn:Ea; [|apply IH].
  apply nth_error_split in En as (ps1 & ps2 & -> & <-). rewrite set_at_app. specialize (IH J (ps1 ++ p' :: ps2)).
  destruct (take_turns order _ _) as [[seen K] qs]. cbn [fst snd] in *. econstructor; eassumption.
Qed.

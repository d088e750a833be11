(* Proof_Group.v - more context gathers clumps (for C125). *)
From Verif Require Import Base Model_Seq Model_Changes Model_IO Model_Text Model_Bytes Spec Spec_Group Proof_Clumps Proof_Diff.

Definition opt (q : option common) : list change := match q with Some m => [NoChange m] | None => [] end.

Lemma close_run_more k k' body : k <= k' -> close_run k body -> close_run k' body.
Proof. intros Hk (H1 & H2 & H3). split; [assumption|]. split; [assumption|]. intros m Hm. specialize (H3 m Hm). lia. Qed.
Lemma close_run_join k body m rest : close_run k body -> cs_n m < 2 * k -> close_run k rest -> close_run k (body ++ NoChange m :: rest).
Proof.
  intros (H1 & H2 & H3) Hm (G1 & G2 & G3). split; [|split].
  - destruct H1 as (c & tl & -> & Hc). now exists c, (tl ++ NoChange m :: rest).
  - destruct G2 as (init & c & -> & Hc). exists (body ++ NoChange m :: init), c. split; [now rewrite <- app_assoc|assumption].
  - intros x Hx. apply in_app_or in Hx as [Hx|[Hx|Hx]]; [now apply H3|injection Hx as <-; assumption|now apply G3].
Qed.

(* the clumps are determined *)
Lemma close_run_app_inv k b1 r1 b2 r2 : close_run k b1 -> close_run k b2 -> b1 ++ r1 = b2 ++ r2 ->
  (match r1 with [] => True | NoChange m :: t => t = [] \/ 2 * k <= cs_n m | _ => False end) ->
  exists z, b1 = b2 ++ z \/ b2 = b1 ++ z.
Proof.
  intros _ _ E _. revert b2 E. induction b1 as [|x b1 IH]; intros b2 E; [exists b2; now right|].
  destruct b2 as [|y b2]; [exists (x :: b1); now left|]. cbn in E. injection E as <- E. destruct (IH b2 E) as (z & [->| ->]); exists z; [now left|now right].
Qed.
(* a run cannot go on over a block that ends one *)
Lemma run_stops k b1 t1 b2 t2 : close_run k b1 -> close_run k b2 ->
  match t1 with [] => True | NoChange m :: t => t = [] \/ 2 * k <= cs_n m | _ :: _ => False end ->
  b1 ++ t1 = b2 ++ t2 -> exists z, b1 = b2 ++ z.
Proof.
  intros H1 H2 Ht E. destruct (close_run_app_inv k b1 t1 b2 t2 H1 H2 E) as (z & [Hz|Hz]).
  - destruct t1 as [|[| | |] t]; auto.
  - now exists z.
  - subst b2. rewrite <- app_assoc in E. apply app_inv_head in E. destruct z as [|c z]; [exists []; now rewrite !app_nil_r|]. exfalso.
    subst t1. cbn [app] in Ht. destruct c as [m| | |]; try contradiction. destruct Ht as [Ht|Ht].
    + apply app_eq_nil in Ht as [-> ->]. destruct H2 as (_ & (init & c & E2 & Hc) & _). apply app_inj_tail in E2 as [_ <-]. discriminate.
    + destruct H2 as (_ & _ & H2). specialize (H2 m). rewrite in_app_iff in H2. cbn in H2. specialize (H2 (or_intror (or_introl eq_refl))). lia.
Qed.
Lemma run_unique k b1 t1 b2 t2 : close_run k b1 -> close_run k b2 ->
  match t1 with [] => True | NoChange m :: t => t = [] \/ 2 * k <= cs_n m | _ :: _ => False end ->
  match t2 with [] => True | NoChange m :: t => t = [] \/ 2 * k <= cs_n m | _ :: _ => False end ->
  b1 ++ t1 = b2 ++ t2 -> b1 = b2 /\ t1 = t2.
Proof.
  intros H1 H2 T1 T2 E. destruct (run_stops k b1 t1 b2 t2 H1 H2 T1 E) as (z & Ez). destruct (run_stops k b2 t2 b1 t1 H2 H1 T2 (eq_sym E)) as (z' & Ez').
  assert (L1 := f_equal (@length _) Ez). assert (L2 := f_equal (@length _) Ez'). rewrite app_length in L1, L2. assert (z = []) by (destruct z; [reflexivity|cbn in *; lia]). subst z. rewrite app_nil_r in Ez. subst b1. split; [reflexivity|]. now apply app_inv_head in E.
Qed.
Lemma opt_stop k q : match opt q with [] => True | NoChange m :: t => t = [] \/ 2 * k <= cs_n m | _ :: _ => False end.
Proof. destruct q; [now left|exact I]. Qed.
Lemma opt_inj q q' : opt q = opt q' -> q = q'.
Proof. destruct q, q'; try discriminate; [|reflexivity]. intros E. injection E as ->. reflexivity. Qed.
Lemma run_not_nil k body : close_run k body -> body <> [].
Proof. intros ((c & tl & -> & _) & _). discriminate. Qed.

Lemma clumping_last_inv k p body q cl : close_run k body -> clumping k p (body ++ opt q) cl -> cl = [lead k p ++ body ++ trail k q].
Proof.
  intros Hb H. remember (body ++ opt q) as cs eqn:E. destruct H as [p|p body' q' Hb'|p body' m rest clumps Hb' Hr Hm H].
  - symmetry in E. apply app_eq_nil in E as [E _]. now apply run_not_nil in Hb.
  - fold (opt q') in E. destruct (run_unique k body' (opt q') body (opt q) Hb' Hb (opt_stop k q') (opt_stop k q) E) as [-> E2]. apply opt_inj in E2. now subst.
  - destruct (run_unique k body' (NoChange m :: rest) body (opt q) Hb' Hb (or_intror Hm) (opt_stop k q) E) as [-> E2]. destruct q; cbn in E2; [|discriminate]. injection E2 as -> E2. contradiction.
Qed.
Lemma clumping_more_inv k p body m rest cl : close_run k body -> rest <> [] -> 2 * k <= cs_n m -> clumping k p (body ++ NoChange m :: rest) cl ->
  exists cl', cl = (lead k p ++ body ++ trail k (Some m)) :: cl' /\ clumping k (Some m) rest cl'.
Proof.
  intros Hb Hr Hm H. remember (body ++ NoChange m :: rest) as cs eqn:E. destruct H as [p|p body' q' Hb'|p body' m' rest' clumps Hb' Hr' Hm' H].
  - symmetry in E. apply app_eq_nil in E as [E _]. now apply run_not_nil in Hb.
  - fold (opt q') in E. destruct (run_unique k body' (opt q') body (NoChange m :: rest) Hb' Hb (opt_stop k q') (or_intror Hm) E) as [-> E2]. destruct q'; cbn in E2; [|discriminate]. injection E2 as -> E2. now subst.
  - destruct (run_unique k body' (NoChange m' :: rest') body (NoChange m :: rest) Hb' Hb (or_intror Hm') (or_intror Hm) E) as [-> E2]. injection E2 as -> ->. exists clumps. now split.
Qed.
(* a short block inside: the first clump goes on *)
Lemma clumping_join k p body m rest cl : close_run k body -> cs_n m < 2 * k -> rest <> [] -> clumping k (Some m) rest cl ->
  exists X cl', cl = (lead k (Some m) ++ X) :: cl' /\ clumping k p (body ++ NoChange m :: rest) ((lead k p ++ body ++ NoChange m :: X) :: cl').
Proof.
  intros Hb Hm Hr H. remember (Some m) as pm eqn:Ep. destruct H as [pm|pm body' q' Hb'|pm body' m' rest' clumps Hb' Hr' Hm' H]; [contradiction|..]; subst pm.
  - exists (body' ++ trail k q'), []. split; [reflexivity|]. pose proof (clumping_last k p _ q' (close_run_join k body m body' Hb Hm Hb')) as J.
    rewrite <- !app_assoc in J. cbn [app] in J. exact J.
  - exists (body' ++ trail k (Some m')), clumps. split; [reflexivity|]. pose proof (clumping_more k p _ m' rest' clumps (close_run_join k body m body' Hb Hm Hb') Hr' Hm' H) as J.
    rewrite <- !app_assoc in J. cbn [app] in J. exact J.
Qed.
Lemma clumping_det k p cs cl : clumping k p cs cl -> forall cl', clumping k p cs cl' -> cl' = cl.
Proof.
  induction 1 as [p|p body q Hb|p body m rest clumps Hb Hr Hm H IH]; intros cl' H'.
  - remember [] as cs eqn:E. destruct H' as [p|p body q Hb|p body m rest clumps Hb Hr Hm H]; [reflexivity|..]; apply app_eq_nil in E as [E _]; now apply run_not_nil in Hb.
  - now apply clumping_last_inv.
  - destruct (clumping_more_inv k p body m rest cl' Hb Hr Hm H') as (cl2 & -> & H2). now rewrite (IH _ H2).
Qed.

Definition ends_at (p : option common) i j : Prop := match p with Some b => cs_b b + cs_n b = i /\ cs_a b + cs_n b = j | None => True end.
Definition begins_at (p : option common) i j : Prop := match p with Some b => cs_b b = i /\ cs_a b = j | None => True end.

Lemma tiles_join i j l1 x y l2 n m : tiles i j l1 x y -> tiles x y l2 n m -> tiles i j (l1 ++ l2) n m.
Proof. induction 1 as [|i j c cs x y H1 H2 H3 IH]; intros H; [exact H|]. cbn. constructor; auto. Qed.
Lemma lead_tiles k p i j : ends_at p i j -> exists d, d <= k /\ tiles (i - d) (j - d) (lead k p) i j /\ d <= i /\ d <= j /\
  (forall k', k <= k' -> exists d', d <= d' /\ tiles (i - d') (j - d') (lead k' p) i j).
Proof.
  destruct p as [b|]; cbn [ends_at lead]; [intros [<- <-]|intros _; exists 0; rewrite !Nat.sub_0_r; repeat split; try lia; [constructor|intros; exists 0; rewrite !Nat.sub_0_r; split; [lia|constructor]]].
  assert (W : forall c, tiles (cs_b b + cs_n b - Nat.min c (cs_n b)) (cs_a b + cs_n b - Nat.min c (cs_n b)) [NoChange (last_items c b)] (cs_b b + cs_n b) (cs_a b + cs_n b)).
  { intros c. constructor; [cbn; lia|cbn; lia|]. destruct (last_items_end c b) as [E1 E2]. cbn [b_to a_to]. rewrite E1, E2. constructor. }
  exists (Nat.min k (cs_n b)). repeat split; try lia; [apply W|]. intros k' Hk. exists (Nat.min k' (cs_n b)). split; [lia|apply W].
Qed.
Lemma trail_tiles k q i j : begins_at q i j -> exists d, tiles i j (trail k q) (i + d) (j + d) /\ match q with Some b => d <= cs_n b | None => True end /\
  (forall k', k <= k' -> exists d', d <= d' /\ tiles i j (trail k' q) (i + d') (j + d')).
Proof.
  destruct q as [b|]; cbn [begins_at trail]; [intros [<- <-]|intros _; exists 0; rewrite !Nat.add_0_r; repeat split; try lia; [constructor|intros; exists 0; rewrite !Nat.add_0_r; split; [lia|constructor]]].
  assert (W : forall c, tiles (cs_b b) (cs_a b) [NoChange (first_items c b)] (cs_b b + Nat.min c (cs_n b)) (cs_a b + Nat.min c (cs_n b))).
  { intros c. constructor; [reflexivity|reflexivity|]. cbn. constructor. }
  exists (Nat.min k (cs_n b)). repeat split; [apply W|lia|]. intros k' Hk. exists (Nat.min k' (cs_n b)). split; [lia|apply W].
Qed.
Lemma covered_wider k k' p body q i j u v : k <= k' -> ends_at p i j -> tiles i j body u v -> begins_at q u v ->
  covered (lead k p ++ body ++ trail k q) (lead k' p ++ body ++ trail k' q).
Proof.
  intros Hk Hp Hb Hq. destruct (lead_tiles k p i j Hp) as (d & _ & L1 & _ & _ & L2). destruct (L2 k' Hk) as (d' & Hd & L3).
  destruct (trail_tiles k q u v Hq) as (e & T1 & _ & T2). destruct (T2 k' Hk) as (e' & He & T3).
  exists (i - d), (j - d), (u + e), (v + e), (i - d'), (j - d'), (u + e'), (v + e').
  split; [exact (tiles_join _ _ _ _ _ _ _ _ L1 (tiles_join _ _ _ _ _ _ _ _ Hb T1))|]. split; [exact (tiles_join _ _ _ _ _ _ _ _ L3 (tiles_join _ _ _ _ _ _ _ _ Hb T3))|]. lia.
Qed.
Lemma gathers_one k k' p body q i j u v : k <= k' -> ends_at p i j -> tiles i j body u v -> begins_at q u v ->
  gathers [lead k p ++ body ++ trail k q] (lead k' p ++ body ++ trail k' q).
Proof.
  intros Hk Hp Hb Hq. split; [discriminate|]. split.
  - cbn [map List.concat]. now rewrite !app_nil_r, !filter_app, !filter_lead, !filter_trail.
  - intros c [<-|[]]. now apply (covered_wider k k' p body q i j u v).
Qed.
Lemma clumping_forward k p cs cl : clumping k p cs cl -> Forall forward cs -> Forall (Forall forward) cl.
Proof.
  assert (L : forall p, Forall forward (lead k p)) by (intros [b|]; repeat constructor; cbn; lia).
  assert (T : forall p, Forall forward (trail k p)) by (intros [b|]; repeat constructor; cbn; lia).
  induction 1 as [p|p body q Hb|p body m rest clumps Hb Hr Hm H IH]; intros F; [constructor|..]; apply Forall_app in F as [F1 F2].
  - constructor; [|constructor]. apply Forall_app. split; [apply L|]. apply Forall_app. split; [exact F1|apply T].
  - constructor; [|apply IH; now inversion F2]. apply Forall_app. split; [apply L|]. apply Forall_app. split; [exact F1|apply T].
Qed.

Lemma gathering k k' : k <= k' -> forall p cs cl, clumping k p cs cl -> forall i j n m, tiles i j cs n m -> Forall forward cs -> ends_at p i j ->
  exists cl', clumping k' p cs cl' /\ grouped cl cl'.
Proof.
  intros Hk p cs cl H. induction H as [p|p body q Hb|p body b rest clumps Hb Hr Hm H IH]; intros i j n m Ht F Hp.
  - exists []. split; [constructor|]. exists []. split; [reflexivity|constructor].
  - fold (opt q) in *. apply tiles_app_inv in Ht as (u & v & T1 & T2). exists [lead k' p ++ body ++ trail k' q]. split; [constructor; now apply (close_run_more k)|].
    exists [[lead k p ++ body ++ trail k q]]. split; [reflexivity|]. constructor; [|constructor]. apply (gathers_one k k' p body q i j u v); auto.
    destruct q as [b|]; [|exact I]. cbn in T2. inversion T2; subst. now split.
  - apply tiles_app_inv in Ht as (u & v & T1 & T2). apply Forall_app in F as [F1 F2]. inversion F2 as [|? ? F3 F4]; subst. inversion T2 as [|? ? ? ? ? ? E1 E2 T3]; subst. cbn [b_from a_from b_to a_to] in *.
    assert (Hq : begins_at (Some b) (cs_b b) (cs_a b)) by now split.
    destruct (IH _ _ _ _ T3 F4) as (cl' & C & groups & G1 & G2); [now split|].
    destruct (Nat.le_gt_cases (2 * k') (cs_n b)) as [Hle|Hgt].
    + exists ((lead k' p ++ body ++ trail k' (Some b)) :: cl'). split; [constructor; auto; now apply (close_run_more k)|].
      exists ([lead k p ++ body ++ trail k (Some b)] :: groups). split; [cbn [List.concat app]; now rewrite G1|]. constructor; [|exact G2]. now apply (gathers_one k k' p body (Some b) i j (cs_b b) (cs_a b)).
    + pose proof (clumping_forward _ _ _ _ C F4) as FC.
      destruct (clumping_join k' p body b rest cl' (close_run_more _ _ _ Hk Hb) Hgt Hr C) as (X & cl2 & -> & C2). eexists. split; [exact C2|].
      inversion G2 as [|g ? groups' ? Hg G3]; subst. exists (((lead k p ++ body ++ trail k (Some b)) :: g) :: groups'). split; [reflexivity|]. constructor; [|exact G3].
      destruct Hg as (N & E & Hc). apply Forall_inv in FC. apply Forall_app in FC as [_ FX].
      destruct (lead_tiles k p i j Hp) as (d & _ & L1 & D1 & D2 & L2). destruct (L2 k' Hk) as (d' & Hd & L3). destruct (tiles_le _ _ _ _ _ F1 T1) as [B1 B2].
      (* the new clump starts no later and ends where the old one does *)
      assert (W : forall x y u v, tiles x y (lead k' (Some b) ++ X) u v -> cs_b b <= x /\ cs_a b <= y /\ cs_b b + cs_n b <= u /\ cs_a b + cs_n b <= v /\ tiles (i - d') (j - d') (lead k' p ++ body ++ NoChange b :: X) u v).
      { intros x y u v Hx. cbn [lead app] in Hx. inversion Hx as [|? ? ? ? ? ? X1 X2 X3]; subst. destruct (last_items_end k' b) as [L4 L5]. cbn [b_from a_from b_to a_to] in *. rewrite L4, L5 in X3.
        destruct (tiles_le _ _ _ _ _ FX X3). split; [cbn; lia|]. split; [cbn; lia|]. split; [assumption|]. split; [assumption|].
        refine (tiles_join _ _ _ _ _ _ _ _ L3 (tiles_join _ _ _ _ _ _ _ _ T1 _)). constructor; [reflexivity|reflexivity|exact X3]. }
      split; [discriminate|]. split.
      * cbn [map List.concat]. rewrite E, !filter_app, !filter_lead, filter_trail. cbn [app filter real]. now rewrite app_nil_r.
      * intros c [<-|Hin].
        -- destruct g as [|c g]; [contradiction|]. destruct (Hc c (or_introl eq_refl)) as (_ & _ & _ & _ & x & y & u & v & _ & Hx & _). destruct (W _ _ _ _ Hx) as (W1 & W2 & W3 & W4 & W5).
           destruct (trail_tiles k (Some b) _ _ Hq) as (e & Te & He & _).
           exists (i - d), (j - d), (cs_b b + e), (cs_a b + e), (i - d'), (j - d'), u, v. split; [exact (tiles_join _ _ _ _ _ _ _ _ L1 (tiles_join _ _ _ _ _ _ _ _ T1 Te))|]. split; [exact W5|]. lia.
        -- destruct (Hc c Hin) as (x1 & y1 & u1 & v1 & x & y & u & v & Hx1 & Hx & I1 & I2 & I3 & I4). destruct (W _ _ _ _ Hx) as (W1 & W2 & W3 & W4 & W5).
           exists x1, y1, u1, v1, (i - d'), (j - d'), u, v. split; [exact Hx1|]. split; [exact W5|]. lia.
Qed.

Lemma grouped_clumps k k' n m cs cl cl' : k <= k' -> proper n m cs -> clumps_of k cs cl -> clumps_of k' cs cl' -> grouped cl cl'.
Proof.
  intros Hk (Ht & _ & Hne) H H'. assert (F : Forall forward cs) by (eapply Forall_impl; [|exact Hne]; intros c; apply b_from_to).
  assert (G : forall p cs i j, tiles i j cs n m -> Forall forward cs -> ends_at p i j -> clumping k p cs cl -> clumping k' p cs cl' -> grouped cl cl').
  { intros p cs' i j T F' E C C'. destruct (gathering k k' Hk p cs' cl C i j n m T F' E) as (cl2 & C2 & G). now rewrite <- (clumping_det _ _ _ _ C' _ C2). }
  unfold clumps_of in *. destruct cs as [|[b|r x|x r|r r'] rest]; try (apply (G None _ 0 0 Ht F I H H')).
  inversion Ht as [|? ? ? ? ? ? E1 E2 T3]; subst. inversion F; subst. now apply (G (Some b) rest _ _ T3).
Qed.
Lemma grouped_length fine coarse : grouped fine coarse -> length coarse <= length fine.
Proof.
  intros (groups & <- & H). induction H as [|g c groups coarse (N & _) H IH]; [apply le_n|]. cbn [List.concat length]. rewrite app_length. destruct g; [contradiction|]. cbn. lia.
Qed.

(* ---------------- patches ---------------- *)
Definition made {T} (c : clump) (h : hunk T) : Prop :=
  let (br, ar) := clump_ranges c in
  h_b h = r_start br /\ h_a h = r_start ar /\ r_start br + length (h_old h) = r_end br /\ r_start ar + length (h_new h) = r_end ar.
Lemma extract_made {T} (s : list T) r x : extract_snippet s r = Ok x -> r_start r + length (sn_items x) = r_end r.
Proof.
  unfold extract_snippet, slice. destruct (_ && _)%bool eqn:E; [|discriminate]. cbn [bind]. intros H. injection H as <-. cbn [sn_items].
  apply andb_prop in E as [E1 E2]. apply Nat.leb_le in E1, E2. rewrite firstn_length, skipn_length. lia.
Qed.
Section Made.
  Context {T : Type} {C : Type} (of_hunk : hunk T -> C) (clump_from : list T -> list T -> clump -> res C).
  Hypothesis Hfrom : forall b a c, clump_from b a c =
    let (br, ar) := clump_ranges c in
    let (cs, ce) := clump_context_lengths c in
    let! sb := extract_snippet b br in
    let! sa := extract_snippet a ar in
    Ok (of_hunk (Hunk cs ce (r_start br) (sn_items sb) (r_start ar) (sn_items sa))).
  Hypothesis inj : forall h h', of_hunk h = of_hunk h' -> h = h'.
  Lemma all_made b a : forall clumps hs, map_res (clump_from b a) clumps = Ok (map of_hunk hs) -> Forall2 made clumps hs.
  Proof.
    induction clumps as [|c clumps IH]; intros hs E; cbn [map_res] in E; [destruct hs; [constructor|discriminate]|].
    rewrite Hfrom in E. destruct (clump_ranges c) as [br ar] eqn:Er, (clump_context_lengths c) as [x y].
    destruct (extract_snippet b br) as [sb| |] eqn:Eb; try discriminate. cbn [bind] in E. destruct (extract_snippet a ar) as [sa| |] eqn:Ea; try discriminate. cbn [bind] in E.
    destruct (map_res (clump_from b a) clumps) as [ys| |] eqn:El; try discriminate. cbn [bind] in E. injection E as E. destruct hs as [|h hs]; [discriminate|]. cbn [map] in E. injection E as Eh Et. apply inj in Eh. subst h ys.
    constructor; [|now apply IH]. unfold made. rewrite Er. cbn. now rewrite (extract_made _ _ _ Eb), (extract_made _ _ _ Ea).
  Qed.
End Made.
Lemma text_hunk_inj h h' : text_of_hunk h = text_of_hunk h' -> h = h'.
Proof. destruct h, h'. unfold text_of_hunk. cbn. intros E. injection E as E1 E2 E3 E4 E5 E6. apply Nat2Z.inj in E1, E2, E3, E5. now subst. Qed.
Lemma byte_hunk_inj h h' : byte_of_hunk h = byte_of_hunk h' -> h = h'.
Proof. destruct h, h'. unfold byte_of_hunk. cbn. intros E. injection E as E1 E2 E3 E4 E5 E6. apply Nat2Z.inj in E1, E2, E3, E5. now subst. Qed.
Lemma covered_within {T} c c' (h h' : hunk T) : c <> [] -> c' <> [] -> covered c c' -> made c h -> made c' h' -> within h h'.
Proof.
  intros N N' (i & j & n & m & i' & j' & n' & m' & T1 & T2 & H) M M'. unfold made in *. rewrite (clump_ranges_tiles _ _ _ _ _ N T1) in M. rewrite (clump_ranges_tiles _ _ _ _ _ N' T2) in M'. cbn [r_start r_end] in *. unfold within. lia.
Qed.
Lemma Forall2_concat {A B} (R : A -> B -> Prop) : forall (gs : list (list A)) l, Forall2 R (List.concat gs) l -> exists gs', List.concat gs' = l /\ Forall2 (Forall2 R) gs gs'.
Proof.
  induction gs as [|g gs IH]; intros l H; cbn in H; [inversion H; exists []; split; [reflexivity|constructor]|].
  apply Forall2_app_inv_l in H as (l1 & l2 & H1 & H2 & ->). destruct (IH l2 H2) as (gs' & <- & H3). exists (l1 :: gs'). split; [reflexivity|now constructor].
Qed.
Lemma Forall2_in_r {A B} (R : A -> B -> Prop) l l' y : Forall2 R l l' -> In y l' -> exists x, In x l /\ R x y.
Proof. induction 1 as [|a b l l' H1 H2 IH]; intros []; [subst; exists a; split; [now left|assumption]|]. destruct (IH H) as (x & Hx & HR). exists x. split; [now right|assumption]. Qed.
Lemma grouped_merged {T} fine coarse (hs hs' : list (hunk T)) : (forall c, In c fine -> c <> []) -> (forall c, In c coarse -> c <> []) ->
  grouped fine coarse -> Forall2 made fine hs -> Forall2 made coarse hs' -> merged hs hs'.
Proof.
  intros N N' (groups & <- & G) M M'. destruct (Forall2_concat _ _ _ M) as (hg & <- & MG). clear M. exists hg. split; [reflexivity|].
  revert hs' M' hg MG. induction G as [|g c' groups coarse (Hg & _ & Hc) G IH]; intros hs' M' hg MG; inversion M' as [|? h' ? hs2 H1 H2]; subst; inversion MG as [|? g' ? hg2 H3 H4]; subst; [constructor|].
  constructor; [|apply IH; auto; intros c Hin; [apply N; cbn; apply in_or_app; now right|apply N'; now right]]. split.
  - inversion H3; subst; [contradiction|discriminate].
  - intros h Hh. destruct (Forall2_in_r _ _ _ _ H3 Hh) as (c & Hin & Hm). apply (covered_within c c'); auto; [apply N; cbn; apply in_or_app; now left|apply N'; now left].
Qed.
Lemma merged_length {T} (fine coarse : list (hunk T)) : merged fine coarse -> length coarse <= length fine.
Proof.
  intros (groups & <- & H). induction H as [|g c groups coarse (N & _) H IH]; [apply le_n|]. cbn [List.concat length]. rewrite app_length. destruct g; [contradiction|]. cbn. lia.
Qed.
Lemma clumps_not_nil k cs cl c : clumps_of k cs cl -> In c cl -> c <> [].
Proof.
  intros H Hin. assert (G : exists p cs', clumping k p cs' cl) by (unfold clumps_of in H; destruct cs as [|[b|r x|x r|r r'] rest]; eauto). destruct G as (p & cs' & G).
  destruct (clumping_has_real _ _ _ _ _ G Hin) as (x & Hx & _). intros ->. destruct Hx.
Qed.
Lemma text_merged before after k k' hs hs' : k <= k' -> text_diff_clumps before after k = Ok (map text_of_hunk hs) -> text_diff_clumps before after k' = Ok (map text_of_hunk hs') -> merged hs hs'.
Proof.
  intros Hk E E'. destruct (text_changes_spec before after) as (cs & Ec & Ht & Hne & Halt & _). unfold text_diff_clumps in *. rewrite Ec in E, E'. cbn [bind] in *.
  destruct (change_clumps_spec k cs Halt) as (cl & C1 & C2). destruct (change_clumps_spec k' cs Halt) as (cl' & C1' & C2'). rewrite C1 in E. rewrite C1' in E'. cbn [bind] in *.
  apply (grouped_merged cl cl'); [intros c; now apply (clumps_not_nil k cs)|intros c; now apply (clumps_not_nil k' cs)|now apply (grouped_clumps k k' (length before) (length after) cs)|..].
  - exact (all_made text_of_hunk text_clump_from text_clump_from_hunk text_hunk_inj before after cl hs E).
  - exact (all_made text_of_hunk text_clump_from text_clump_from_hunk text_hunk_inj before after cl' hs' E').
Qed.
Lemma byte_merged before after k k' hs hs' : k <= k' -> byte_diff_clumps before after k = Ok (map byte_of_hunk hs) -> byte_diff_clumps before after k' = Ok (map byte_of_hunk hs') -> merged hs hs'.
Proof.
  intros Hk E E'. destruct (byte_changes_spec before after) as (cs & Ec & Ht & Hne & Halt & _). unfold byte_diff_clumps in *. rewrite Ec in E, E'. cbn [bind] in *.
  destruct (change_clumps_spec k cs Halt) as (cl & C1 & C2). destruct (change_clumps_spec k' cs Halt) as (cl' & C1' & C2'). rewrite C1 in E. rewrite C1' in E'. cbn [bind] in *.
  apply (grouped_merged cl cl'); [intros c; now apply (clumps_not_nil k cs)|intros c; now apply (clumps_not_nil k' cs)|now apply (grouped_clumps k k' (length before) (length after) cs)|..].
  - exact (all_made byte_of_hunk byte_clump_from byte_clump_from_hunk byte_hunk_inj before after cl hs E).
  - exact (all_made byte_of_hunk byte_clump_from byte_clump_from_hunk byte_hunk_inj before after cl' hs' E').
Qed.

(* ---------------- sizes ---------------- *)
Fixpoint spaced {T} (i j : nat) (hs : list (hunk T)) : Prop :=
  match hs with [] => True | h :: rest => i <= h_b h /\ j <= h_a h /\ spaced (h_b h + length (h_old h)) (h_a h + length (h_new h)) rest end.
Lemma spaced_app {T} : forall (l1 l2 : list (hunk T)) i j, spaced i j (l1 ++ l2) -> spaced i j l1 /\ exists i' j', spaced i' j' l2.
Proof.
  induction l1 as [|h l1 IH]; intros l2 i j H; [split; [exact I|now exists i, j]|]. destruct H as (H1 & H2 & H3). destruct (IH _ _ _ H3) as (H4 & H5). split; [now repeat split|assumption].
Qed.
Lemma cover_spaced {T} k g (b a : list T) i j hs : cover k g b a i j hs -> spaced i j hs.
Proof.
  induction 1; [exact I|]. cbn. repeat split; [lia|lia|]. rewrite !sub_length by lia. match goal with H : spaced ?x ?y _ |- spaced ?u ?v _ => replace u with x by lia; replace v with y by lia; exact H end.
Qed.
Lemma group_size {T} (h' : hunk T) : forall g i j, spaced i j g -> (forall h, In h g -> within h h') -> g <> [] ->
  Nat.max i (h_b h') + length (List.concat (map h_old g)) <= h_b h' + length (h_old h') /\
  Nat.max j (h_a h') + length (List.concat (map h_new g)) <= h_a h' + length (h_new h').
Proof.
  induction g as [|h g IH]; intros i j S W N; [contradiction|]. destruct S as (S1 & S2 & S3). destruct (W h (or_introl eq_refl)) as (W1 & W2 & W3 & W4).
  cbn [map List.concat]. rewrite !app_length. destruct g as [|h2 g]; [cbn; lia|]. destruct (IH _ _ S3) as [I1 I2]; [intros x Hx; apply W; now right|discriminate|]. lia.
Qed.
Lemma merged_size {T} (hs hs' : list (hunk T)) i j : spaced i j hs -> merged hs hs' ->
  length (List.concat (map h_old hs)) <= length (List.concat (map h_old hs')) /\ length (List.concat (map h_new hs)) <= length (List.concat (map h_new hs')).
Proof.
  intros S (groups & <- & H). revert i j S. induction H as [|g h' groups hs' (N & W) H IH]; intros i j S; [split; apply le_n|].
  cbn [List.concat map] in *. apply spaced_app in S as (S1 & i' & j' & S2). destruct (group_size h' g i j S1 W N). destruct (IH i' j' S2). rewrite !map_app, !concat_app, !app_length. lia.
Qed.
Lemma map_inj {A B} (f : A -> B) : (forall x y, f x = f y -> x = y) -> forall l l', map f l = map f l' -> l = l'.
Proof. intros H. induction l as [|x l IH]; intros [|y l'] E; try discriminate; [reflexivity|]. cbn [map] in E. pose proof (f_equal (hd (f x)) E) as E1. pose proof (f_equal (@tl _) E) as E2. cbn [hd tl] in *. f_equal; auto. Qed.
Lemma text_spaced before after k hs : k <= 255 -> text_diff_clumps before after k = Ok (map text_of_hunk hs) -> spaced 0 0 hs.
Proof.
  intros Hk E. destruct (text_diff_spec before after k Hk) as (cs & cl & hs2 & _ & _ & _ & _ & E2 & C). rewrite E in E2. assert (E3 : map text_of_hunk hs = map text_of_hunk hs2) by congruence.
  apply (map_inj _ text_hunk_inj) in E3. subst. exact (cover_spaced _ _ _ _ _ _ _ C).
Qed.
Lemma byte_spaced before after k hs : k <= 255 -> byte_diff_clumps before after k = Ok (map byte_of_hunk hs) -> spaced 0 0 hs.
Proof.
  intros Hk E. destruct (byte_diff_spec before after k Hk) as (cs & cl & hs2 & _ & _ & _ & _ & E2 & C). rewrite E in E2. assert (E3 : map byte_of_hunk hs = map byte_of_hunk hs2) by congruence.
  apply (map_inj _ byte_hunk_inj) in E3. subst. exact (cover_spaced _ _ _ _ _ _ _ C).
Qed.

(* Proof_Context.v - what a patch makes of the text it was made from, for every context. *)
From Verif Require Import Base Model_Seq Model_Changes Model_IO Model_Text Model_Bytes Spec Spec_Shape Proof_Seq Proof_Lcs Proof_Changes Proof_Clumps Proof_Diff Proof_Shape.

Lemma sub_none {T} (s : list T) i : sub s i i = [].
Proof. unfold sub. now rewrite Nat.sub_diag. Qed.

Section Context.
  Context {T : Type}.
  Variables b a : list T.
  Variable context : nat.

  (* the lines for a block reported as unchanged: new ones at its ends, next to changes, and old
     ones in the middle *)
  Definition block_lines (f t : bool) (m : common) : list T :=
    let l := if f then Nat.min context (cs_n m) else 0 in
    let r := if t then Nat.min context (cs_n m) else 0 in
    if cs_n m <=? l + r then sub a (cs_a m) (cs_a m + cs_n m)
    else sub a (cs_a m) (cs_a m + l) ++ sub b (cs_b m + l) (cs_b m + cs_n m - r) ++ sub a (cs_a m + cs_n m - r) (cs_a m + cs_n m).
  Definition nonnil {A} (l : list A) : bool := match l with [] => false | _ => true end.
  Fixpoint rebuilt (f : bool) (cs : list change) : list T :=
    match cs with
    | [] => []
    | NoChange m :: rest => block_lines f (nonnil rest) m ++ rebuilt true rest
    | c :: rest => sub a (a_from c) (a_to c) ++ rebuilt true rest
    end.
  Lemma rebuilt_real f c rest : real c = true -> rebuilt f (c :: rest) = sub a (a_from c) (a_to c) ++ rebuilt true rest.
  Proof. destruct c; [discriminate|reflexivity..]. Qed.

  (* ---------------- pointwise ---------------- *)
  Definition beyondf (f : bool) (cs : list change) (i j : nat) : Prop :=
    exists pre m post p, cs = pre ++ NoChange m :: post /\ p < cs_n m /\ i = cs_b m + p /\ j = cs_a m + p /\
      ((pre = [] /\ f = false) \/ context <= p) /\ (post = [] \/ p + context < cs_n m).
  Lemma beyondf_cons f c cs i j : beyondf f (c :: cs) i j <->
    (exists m p, c = NoChange m /\ p < cs_n m /\ i = cs_b m + p /\ j = cs_a m + p /\ (f = false \/ context <= p) /\ (cs = [] \/ p + context < cs_n m)) \/
    beyondf true cs i j.
  Proof.
    split.
    - intros (pre & m & post & p & E & H1 & H2 & H3 & H4 & H5). destruct pre as [|x pre]; cbn [app] in E; injection E as -> ->.
      + left. exists m, p. tauto.
      + right. exists pre, m, post, p. repeat (split; [tauto|]). split; [|assumption]. right. destruct H4 as [[? _]|?]; [discriminate|assumption].
    - intros [(m & p & -> & H1 & H2 & H3 & H4 & H5)|(pre & m & post & p & -> & H1 & H2 & H3 & H4 & H5)].
      + exists [], m, cs, p. tauto.
      + exists (c :: pre), m, post, p. repeat (split; [tauto|]). split; [|assumption]. right. destruct H4 as [[_ ?]|?]; [discriminate|assumption].
  Qed.
  Lemma beyondf_false cs i j : beyondf false cs i j <-> beyond_context context cs i j.
  Proof. unfold beyondf, beyond_context. split; intros (pre & m & post & p & H); exists pre, m, post, p; tauto. Qed.
  Lemma beyondf_range f cs x y n m i j : Forall non_empty cs -> tiles x y cs n m -> beyondf f cs i j -> x <= i < n /\ y <= j < m.
  Proof.
    intros Hn Ht (pre & q & post & p & -> & H1 & -> & -> & _).
    assert (Hf : Forall forward (pre ++ NoChange q :: post)) by (eapply Forall_impl; [|exact Hn]; intros; now apply b_from_to).
    apply tiles_forward_app in Ht as (u & v & T1 & T2 & U1 & U2); [|assumption]. inversion T2 as [|? ? ? ? ? ? A1 A2 A3]; subst.
    apply Forall_app in Hf as [_ Hf]. inversion Hf as [|? ? _ Hf']; subst. pose proof (tiles_le _ _ _ _ _ Hf' A3). cbn in *. lia.
  Qed.

  Lemma block_lines_nth f t m : cs_b m + cs_n m <= length b -> cs_a m + cs_n m <= length a ->
    length (block_lines f t m) = cs_n m /\
    forall p, p < cs_n m -> nth_error (block_lines f t m) p =
      if ((negb f || (context <=? p)) && (negb t || (p + context <? cs_n m)))%bool then nth_error b (cs_b m + p) else nth_error a (cs_a m + p).
  Proof.
    intros Hb Ha. unfold block_lines. set (l := if f then _ else 0). set (r := if t then _ else 0).
    destruct (Nat.leb_spec (cs_n m) (l + r)) as [Hle|Hle].
    - split; [rewrite sub_length by lia; lia|]. intros p Hp. rewrite sub_nth. replace (cs_a m + cs_n m - cs_a m) with (cs_n m) by lia.
      rewrite (proj2 (Nat.ltb_lt _ _) Hp). destruct (negb f || (context <=? p))%bool eqn:E1; [|reflexivity]. destruct (negb t || (p + context <? cs_n m))%bool eqn:E2; [|reflexivity].
      exfalso. subst l r. destruct f, t; cbn [negb orb] in E1, E2; try apply Nat.leb_le in E1; try apply Nat.ltb_lt in E2; lia.
    - assert (Hl : l <= cs_n m) by lia. split; [rewrite !app_length, !sub_length by lia; lia|]. intros p Hp.
      destruct (Nat.lt_ge_cases p l) as [L1|L1].
      { rewrite nth_error_app1 by (rewrite sub_length; lia). rewrite sub_nth. rewrite (proj2 (Nat.ltb_lt p _)) by lia.
        replace (negb f || (context <=? p))%bool with false; [reflexivity|]. subst l. destruct f; [|lia]. cbn [negb orb]. symmetry. apply Nat.leb_gt. lia. }
      rewrite nth_error_app2 by (rewrite sub_length; lia). rewrite sub_length by lia. replace (cs_a m + l - cs_a m) with l by lia.
      destruct (Nat.lt_ge_cases p (cs_n m - r)) as [L2|L2].
      + rewrite nth_error_app1 by (rewrite sub_length; lia). rewrite sub_nth. rewrite (proj2 (Nat.ltb_lt _ _)) by lia.
        replace (cs_b m + l + (p - l)) with (cs_b m + p) by lia.
        replace (negb f || (context <=? p))%bool with true; [replace (negb t || (p + context <? cs_n m))%bool with true; [reflexivity|]|]; symmetry.
        * subst r. destruct t; [|reflexivity]. cbn [negb orb]. apply Nat.ltb_lt. lia.
        * subst l. destruct f; [|reflexivity]. cbn [negb orb]. apply Nat.leb_le. destruct (Nat.le_gt_cases context (cs_n m)); lia.
      + rewrite nth_error_app2 by (rewrite sub_length; lia). rewrite sub_length, sub_nth by lia. rewrite (proj2 (Nat.ltb_lt _ _)) by lia.
        replace (cs_a m + cs_n m - r + (p - l - (cs_b m + cs_n m - r - (cs_b m + l)))) with (cs_a m + p) by lia.
        replace (negb t || (p + context <? cs_n m))%bool with false; [now rewrite Bool.andb_false_r|]. subst r. destruct t; [|lia]. cbn [negb orb]. symmetry. apply Nat.ltb_ge. lia.
  Qed.

  Lemma rebuilt_nth cs : forall f x y, Forall non_empty cs -> tiles x y cs (length b) (length a) ->
    length (rebuilt f cs) = length a - y /\
    (forall i j, beyondf f cs i j -> nth_error (rebuilt f cs) (j - y) = nth_error b i) /\
    (forall j, y <= j -> (forall i, ~ beyondf f cs i j) -> nth_error (rebuilt f cs) (j - y) = nth_error a j).
  Proof.
    induction cs as [|c cs IH]; intros f x y Hn Ht.
    - inversion Ht; subst. split; [cbn; lia|]. split.
      + intros i j (pre & m & post & p & E & _). destruct pre; discriminate.
      + intros j Hj _. cbn. rewrite (proj2 (nth_error_None a j)) by assumption. now destruct (j - length a).
    - inversion Ht as [|? ? ? ? ? ? A1 A2 A3]; subst. inversion Hn as [|? ? N1 N2]; subst. destruct (IH true _ _ N2 A3) as (L & P1 & P2).
      assert (Hf : Forall forward cs) by (eapply Forall_impl; [|exact N2]; intros; now apply b_from_to).
      pose proof (tiles_le _ _ _ _ _ Hf A3) as [B1 B2]. pose proof (b_from_to _ N1) as [C1 C2].
      set (hd := match c with NoChange m => block_lines f (nonnil cs) m | _ => sub a (a_from c) (a_to c) end).
      assert (E : rebuilt f (c :: cs) = hd ++ rebuilt true cs) by (destruct c; reflexivity). rewrite E.
      assert (Lh : length hd = a_to c - a_from c).
      { unfold hd. destruct c as [m| | |]; [|now rewrite sub_length by assumption..]. cbn in B1, B2 |- *. rewrite (proj1 (block_lines_nth f (nonnil cs) m B1 B2)). lia. }
      split; [rewrite app_length, Lh, L; lia|]. split.
      + intros i j H. apply beyondf_cons in H as [(m & p & -> & H1 & -> & -> & H2 & H3)|H].
        * cbn in B1, B2, Lh |- *. rewrite nth_error_app1 by lia. replace (cs_a m + p - cs_a m) with p by lia. unfold hd. rewrite (proj2 (block_lines_nth f (nonnil cs) m B1 B2)) by assumption.
          replace (negb f || (context <=? p))%bool with true; [replace (negb (nonnil cs) || (p + context <? cs_n m))%bool with true; [reflexivity|]|]; symmetry.
          -- destruct H3 as [->|H3]; [reflexivity|]. rewrite (proj2 (Nat.ltb_lt _ _) H3). apply Bool.orb_true_r.
          -- destruct H2 as [->|H2]; [reflexivity|]. rewrite (proj2 (Nat.leb_le _ _) H2). apply Bool.orb_true_r.
        * pose proof (beyondf_range _ _ _ _ _ _ _ _ N2 A3 H) as [_ R]. rewrite nth_error_app2 by lia. rewrite <- (P1 _ _ H). f_equal. lia.
      + intros j Hj H. destruct (Nat.lt_ge_cases j (a_to c)) as [Hlt|Hge].
        * rewrite nth_error_app1 by lia. unfold hd. destruct c as [m| | |]; cbn [a_from a_to b_to b_from] in *.
          -- rewrite (proj2 (block_lines_nth f (nonnil cs) m B1 B2)) by lia. replace (cs_a m + (j - cs_a m)) with j by lia.
             destruct (negb f || (context <=? j - cs_a m))%bool eqn:E1; [|reflexivity]. destruct (negb (nonnil cs) || (j - cs_a m + context <? cs_n m))%bool eqn:E2; [|reflexivity].
             exfalso. apply (H (cs_b m + (j - cs_a m))). apply beyondf_cons. left. exists m, (j - cs_a m). split; [reflexivity|]. split; [lia|]. split; [reflexivity|]. split; [lia|]. split.
             ++ apply Bool.orb_true_iff in E1 as [E1|E1]; [left; now destruct f|right; now apply Nat.leb_le].
             ++ apply Bool.orb_true_iff in E2 as [E2|E2]; [left; now destruct cs|right; now apply Nat.ltb_lt].
          -- rewrite sub_nth, (proj2 (Nat.ltb_lt _ _)) by lia. f_equal. lia.
          -- rewrite sub_nth, (proj2 (Nat.ltb_lt _ _)) by lia. f_equal. lia.
          -- rewrite sub_nth, (proj2 (Nat.ltb_lt _ _)) by lia. f_equal. lia.
        * rewrite nth_error_app2 by lia. rewrite <- (P2 j Hge); [f_equal; lia|]. intros i Hi. apply (H i). apply beyondf_cons. now right.
  Qed.

  (* ---------------- the hunks of the clumps ---------------- *)
  Definition hunk_from (c : clump) : res (hunk T) :=
    let (br, ar) := clump_ranges c in
    let (cs, ce) := clump_context_lengths c in
    let! sb := extract_snippet b br in
    let! sa := extract_snippet a ar in
    Ok (Hunk cs ce (r_start br) (sn_items sb) (r_start ar) (sn_items sa)).

  Lemma rebuilt_body body : forall f i j x y rest, Forall non_empty body -> tiles i j body x y ->
    (forall m, In (NoChange m) body -> cs_n m < 2 * context) -> (exists init c, body = init ++ [c] /\ real c = true) -> 
    starts_real body -> rebuilt f (body ++ rest) = sub a j y ++ rebuilt true rest.
  Proof.
    assert (G : forall body f i j x y rest, (f = false -> starts_real body) -> Forall non_empty body -> tiles i j body x y ->
      (forall m, In (NoChange m) body -> cs_n m < 2 * context) -> (exists init c, body = init ++ [c] /\ real c = true) -> 
      rebuilt f (body ++ rest) = sub a j y ++ rebuilt true rest).
    { clear body. induction body as [|c body IH]; intros f i j x y rest Hs Hn Ht Hm (init & z & E & Hz); [destruct init; discriminate|].
      inversion Ht as [|? ? ? ? ? ? A1 A2 A3]; subst. inversion Hn as [|? ? N1 N2]; subst. cbn [app].
      assert (E1 : rebuilt f (c :: body ++ rest) = sub a (a_from c) (a_to c) ++ rebuilt true (body ++ rest)).
      { destruct (real c) eqn:Er; [now apply rebuilt_real|]. destruct c as [m| | |]; try discriminate. cbn [rebuilt a_from a_to]. f_equal.
        assert (Hbn : nonnil (body ++ rest) = true) by (destruct init as [|? init]; cbn [app] in E; injection E as E0 E; [rewrite <- E0 in Hz; discriminate|rewrite E; destruct init; reflexivity]).
        rewrite Hbn. specialize (Hm m (or_introl eq_refl)). unfold block_lines. destruct f; [|specialize (Hs eq_refl); discriminate]. rewrite (proj2 (Nat.leb_le _ _)) by lia. reflexivity. }
      rewrite E1. destruct init as [|c' init]; cbn [app] in E; injection E as <- ->.
      - inversion A3; subst. reflexivity.
      - assert (Hf : Forall forward (init ++ [z])) by (eapply Forall_impl; [|exact N2]; intros; now apply b_from_to).
        pose proof (tiles_le _ _ _ _ _ Hf A3) as [B1 B2]. pose proof (b_from_to _ N1) as [C1 C2].
        rewrite (IH true _ _ _ _ rest ltac:(discriminate) N2 A3); [|intros m Hin; apply Hm; now right|exists init, z; now split].
        now rewrite app_assoc, sub_app. }
    intros f i j x y rest Hn Ht Hm Hl Hs. now apply (G body f i j x y rest (fun _ => Hs)).
  Qed.

  Hypothesis Hctx : context <= 255.

  Lemma clumping_rebuilt p cs clumps : clumping context p cs clumps -> Forall non_empty cs ->
    forall i0 j0 i, tiles i0 j0 cs (length b) (length a) -> i <= i0 ->
    match p with
    | Some m => cs_b m + cs_n m = i0 /\ cs_a m + cs_n m = j0 /\ (cs <> [] -> i + Nat.min context (cs_n m) <= i0)
    | None => i = i0 end ->
    exists hs, map_res hunk_from clumps = Ok hs /\
      patched b i hs = match p, cs with
                       | Some m, _ :: _ => sub b i (i0 - Nat.min context (cs_n m)) ++ sub a (j0 - Nat.min context (cs_n m)) j0 ++ rebuilt true cs
                       | _, _ => sub b i i0 ++ rebuilt true cs
                       end.
  Proof.
    (* one clump *)
    assert (W : forall p body q i0 j0 i x y, close_run context body -> Forall non_empty body -> tiles i0 j0 body x y -> i <= i0 ->
      match p with
      | Some m => cs_b m + cs_n m = i0 /\ cs_a m + cs_n m = j0 /\ i + Nat.min context (cs_n m) <= i0
      | None => i = i0 end ->
      match q with Some m => cs_b m = x /\ cs_a m = y /\ x + cs_n m <= length b /\ y + cs_n m <= length a | None => x <= length b /\ y <= length a end ->
      let l := match p with Some m => Nat.min context (cs_n m) | None => 0 end in
      let t := match q with Some m => Nat.min context (cs_n m) | None => 0 end in
      exists h, hunk_from (lead context p ++ body ++ trail context q) = Ok h /\
        h_b h + length (h_old h) = x + t /\ sub b i (h_b h) ++ h_new h = sub b i (i0 - l) ++ sub a (j0 - l) (y + t)).
    { clear p cs clumps. intros p body q i0 j0 i x y Hb Hn Ht Hi Hp Hq l t.
      assert (Ht2 : tiles (i0 - l) (j0 - l) (lead context p ++ body ++ trail context q) (x + t) (y + t)).
      { apply tiles_app with (x := i0) (y := j0).
        - destruct p as [m|]; cbn [lead].
          + destruct Hp as (P1 & P2 & P3). unfold l. constructor; cbn; try lia.
            replace (cs_b m + (cs_n m - context) + Nat.min context (cs_n m)) with i0 by lia. replace (cs_a m + (cs_n m - context) + Nat.min context (cs_n m)) with j0 by lia. constructor.
          + unfold l. rewrite !Nat.sub_0_r. constructor.
        - apply tiles_app with (x := x) (y := y); [assumption|]. destruct q as [m|]; cbn [trail].
          + destruct Hq as (<- & <- & _). unfold t. constructor; [reflexivity|reflexivity|]. cbn. constructor.
          + unfold t. rewrite !Nat.add_0_r. constructor. }
      assert (Hf : Forall forward body) by (eapply Forall_impl; [|exact Hn]; intros; now apply b_from_to).
      pose proof (tiles_le _ _ _ _ _ Hf Ht) as [B1 B2].
      assert (Hne : lead context p ++ body ++ trail context q <> []) by (destruct Hb as ((z & tl & -> & _) & _); destruct (lead context p); discriminate).
      assert (X : x + t <= length b /\ y + t <= length a) by (unfold t; destruct q; lia).
      exists (Hunk l t (i0 - l) (sub b (i0 - l) (x + t)) (j0 - l) (sub a (j0 - l) (y + t))). split; [|split].
      - unfold hunk_from. rewrite (clump_ranges_tiles _ _ _ _ _ Hne Ht2), clump_context_lengths_shape by assumption. fold l t. rewrite !extract_snippet_ok by lia. reflexivity.
      - cbn. rewrite sub_length by lia. lia.
      - reflexivity. }
    induction 1 as [p|p body q Hb|p body m rest clumps Hb Hr Hm H IH]; intros Hn i0 j0 i Ht Hi Hp.
    - inversion Ht; subst. exists []. split; [reflexivity|]. cbn [patched rebuilt]. rewrite app_nil_r, sub_all. destruct p; reflexivity.
    - assert (Hf : Forall forward (body ++ match q with Some m => [NoChange m] | None => [] end)) by (eapply Forall_impl; [|exact Hn]; intros; now apply b_from_to).
      apply tiles_forward_app in Ht as (x & y & T1 & T2 & X1 & X2); [|assumption]. apply Forall_app in Hn as [N1 N2].
      pose proof Hb as ((z & tl & Eb & Hz) & Hl & Hsm).
      destruct (W p body q i0 j0 i x y Hb N1 T1 Hi) as (h & E1 & E2 & E3).
      { destruct p as [m|]; [|assumption]. destruct Hp as (P1 & P2 & P3). rewrite Eb in P3. repeat (split; [assumption|]). apply P3. discriminate. }
      { destruct q as [m|]; [|lia]. inversion T2 as [|? ? ? ? ? ? A1 A2 A3]; subst. inversion A3; subst. cbn in *. lia. }
      exists [h]. cbn [map_res]. rewrite E1. split; [reflexivity|]. cbn [patched]. rewrite E2, app_assoc, E3.
      assert (Er : rebuilt true (body ++ match q with Some m => [NoChange m] | None => [] end) =
        sub a j0 y ++ rebuilt true match q with Some m => [NoChange m] | None => [] end).
      { apply rebuilt_body with (i := i0) (x := x); auto. now rewrite Eb. }
      assert (Et : sub a j0 y ++ rebuilt true match q with Some m => [NoChange m] | None => [] end =
        sub a j0 (y + match q with Some m => Nat.min context (cs_n m) | None => 0 end) ++ skipn (x + match q with Some m => Nat.min context (cs_n m) | None => 0 end) b).
      { destruct q as [m|].
        - inversion T2 as [|? ? ? ? ? ? A1 A2 A3]; subst. assert (C1 : cs_b m + cs_n m = length b) by now inversion A3. assert (C2 : cs_a m + cs_n m = length a) by now inversion A3. cbn [rebuilt nonnil a_from a_to b_from b_to] in *. rewrite app_nil_r. unfold block_lines.
          rewrite Nat.add_0_r. destruct (Nat.leb_spec (cs_n m) (Nat.min context (cs_n m))) as [Hle|Hle].
          + replace (Nat.min context (cs_n m)) with (cs_n m) by lia. rewrite C1, C2, skipn_all, app_nil_r. rewrite sub_app by lia. reflexivity.
          + rewrite !Nat.sub_0_r. unfold sub at 4. rewrite Nat.sub_diag. cbn [firstn]. rewrite app_nil_r, C1, sub_all, app_assoc, sub_app by lia. reflexivity.
        - inversion T2; subst. rewrite !Nat.add_0_r, skipn_all. reflexivity. }
      rewrite Er, Et, !app_assoc, <- !app_assoc. clear Er Et.
      set (t := match q with Some m => Nat.min context (cs_n m) | None => 0 end). destruct p as [m|].
      + destruct Hp as (P1 & P2 & P3). rewrite Eb. cbn [app]. f_equal. rewrite (app_assoc (sub a _ _)), sub_app by lia. reflexivity.
      + rewrite !Nat.sub_0_r. reflexivity.
    - assert (Hf : Forall forward (body ++ NoChange m :: rest)) by (eapply Forall_impl; [|exact Hn]; intros; now apply b_from_to).
      apply tiles_forward_app in Ht as (x & y & T1 & T2 & X1 & X2); [|assumption]. apply Forall_app in Hn as [N1 N2].
      apply Forall_app in Hf as [_ Hf]. inversion Hf as [|? ? _ Hf']; subst. inversion N2 as [|? ? _ N3]; subst.
      inversion T2 as [|? ? ? ? ? ? A1 A2 A3]; subst. pose proof (tiles_le _ _ _ _ _ Hf' A3) as [B1 B2]. cbn [a_from a_to b_from b_to] in *.
      pose proof Hb as ((z & tl & Eb & Hz) & Hl & Hsm).
      destruct (W p body (Some m) i0 j0 i (cs_b m) (cs_a m) Hb N1 T1 Hi) as (h & E1 & E2 & E3).
      { destruct p as [m'|]; [|assumption]. destruct Hp as (P1 & P2 & P3). rewrite Eb in P3. repeat (split; [assumption|]). apply P3. discriminate. }
      { repeat split; lia. }
      destruct (IH N3 _ _ (cs_b m + Nat.min context (cs_n m)) A3) as (hs & F1 & F2); [lia|repeat split; lia|].
      exists (h :: hs). cbn [map_res]. rewrite E1. cbn [bind]. rewrite F1. split; [reflexivity|]. cbn [patched]. rewrite E2, app_assoc, E3, F2.
      destruct rest as [|r rest]; [congruence|].
      rewrite (rebuilt_body body true i0 j0 (cs_b m) (cs_a m)) by (auto; rewrite Eb; assumption).
      assert (Em : rebuilt true (NoChange m :: r :: rest) = sub a (cs_a m) (cs_a m + Nat.min context (cs_n m)) ++
        sub b (cs_b m + Nat.min context (cs_n m)) (cs_b m + cs_n m - Nat.min context (cs_n m)) ++
        sub a (cs_a m + cs_n m - Nat.min context (cs_n m)) (cs_a m + cs_n m) ++ rebuilt true (r :: rest)).
      { change (rebuilt true (NoChange m :: r :: rest)) with (block_lines true true m ++ rebuilt true (r :: rest)). unfold block_lines.
        replace (Nat.min context (cs_n m)) with context by lia. destruct (Nat.leb_spec (cs_n m) (context + context)) as [Hle|Hle].
        - replace (cs_n m) with (context + context) by lia. replace (cs_b m + (context + context) - context) with (cs_b m + context) by lia.
          replace (cs_a m + (context + context) - context) with (cs_a m + context) by lia. unfold sub at 3. rewrite Nat.sub_diag. cbn [firstn app].
          rewrite app_assoc, sub_app by lia. reflexivity.
        - now rewrite <- !app_assoc. }
      rewrite Em. clear Em W IH.
      rewrite (app_assoc (sub a j0 _)), sub_app by (pose proof (tiles_le i0 j0 body _ _ ltac:(eapply Forall_impl; [|exact N1]; intros; now apply b_from_to) T1); lia).
      destruct p as [m'|].
      + destruct Hp as (P1 & P2 & P3). rewrite Eb. cbn [app]. rewrite <- !app_assoc. f_equal.
        rewrite (app_assoc (sub a _ j0)), sub_app by lia. reflexivity.
      + rewrite !Nat.sub_0_r, <- !app_assoc. reflexivity.
  Qed.

  Lemma clumps_of_rebuilt cs clumps : proper (length b) (length a) cs -> clumps_of context cs clumps ->
    exists hs, map_res hunk_from clumps = Ok hs /\ patched b 0 hs = rebuilt false cs.
  Proof.
    intros (Ht & _ & Hn) Hc. destruct cs as [|c cs].
    - destruct (clumping_rebuilt None [] clumps Hc Hn 0 0 0 Ht) as (hs & H1 & H2); [lia|reflexivity|]. exists hs. split; [assumption|]. exact H2.
    - destruct (real c) eqn:Er.
      + assert (Hc' : clumping context None (c :: cs) clumps) by (destruct c; [discriminate|assumption..]).
        destruct (clumping_rebuilt None (c :: cs) clumps Hc' Hn 0 0 0 Ht) as (hs & H1 & H2); [lia|reflexivity|]. exists hs. split; [assumption|].
        rewrite H2. rewrite !rebuilt_real by assumption. reflexivity.
      + destruct c as [m| | |]; try discriminate. inversion Ht as [|? ? ? ? ? ? A1 A2 A3]; subst. inversion Hn as [|? ? N1 N2]; subst. cbn [a_from a_to b_from b_to] in *.
        destruct (clumping_rebuilt (Some m) cs clumps Hc N2 _ _ 0 A3) as (hs & H1 & H2); [lia|repeat split; lia|]. exists hs. split; [assumption|]. rewrite H2.
        cbn in N1. destruct cs as [|c cs].
        * cbn [rebuilt nonnil]. unfold block_lines. rewrite (proj2 (Nat.leb_gt _ _)) by lia. rewrite A1, A2, !Nat.sub_0_r. cbn [Nat.add]. rewrite !app_nil_r. rewrite !sub_none, app_nil_r. reflexivity.
        * change (rebuilt false (NoChange m :: c :: cs)) with (block_lines false true m ++ rebuilt true (c :: cs)). unfold block_lines. cbn [Nat.add].
          destruct (Nat.leb_spec (cs_n m) (Nat.min context (cs_n m))) as [Hle|Hle].
          -- replace (Nat.min context (cs_n m)) with (cs_n m) by lia. rewrite A1, A2. cbn [Nat.add]. rewrite !Nat.sub_diag. reflexivity.
          -- rewrite A1, A2, !Nat.add_0_r. cbn [Nat.add]. unfold sub at 3. cbn [Nat.sub firstn app]. now rewrite <- app_assoc.
  Qed.
End Context.

(* ------------------------------------------------------------------ both directions, both kinds *)
Lemma swap_beyond context cs i j : beyond_context context (map swap_range_change cs) j i <-> beyond_context context cs i j.
Proof.
  split.
  - intros (pre & m & post & p & E & H1 & -> & -> & H4 & H5). apply map_eq_app in E as (l1 & l2 & -> & <- & E). apply map_eq_cons in E as (x & l3 & -> & E & <-).
    destruct x as [q| | |]; try discriminate. cbn in E. injection E as <-. exists l1, q, l3, p. cbn in *. repeat (split; [reflexivity || assumption|]).
    split; [destruct H4 as [H4|H4]; [left; now destruct l1|now right]|destruct H5 as [H5|H5]; [left; now destruct l3|now right]].
  - intros (pre & m & post & p & -> & H1 & -> & -> & H4 & H5). exists (map swap_range_change pre), (CS (cs_a m) (cs_b m) (cs_n m)), (map swap_range_change post), p.
    cbn. rewrite map_app. repeat (split; [reflexivity || assumption|]). split; [destruct H4 as [->|H4]; [now left|now right]|destruct H5 as [->|H5]; [now left|now right]].
Qed.
Lemma map_res_ok {A B C} (f : A -> res B) (h : B -> C) (g : A -> res C) l ys : (forall x, g x = let! y := f x in Ok (h y)) -> map_res f l = Ok ys -> map_res g l = Ok (map h ys).
Proof. intros H. apply map_res_swap. intros x y E. now rewrite H, E. Qed.

(* what the hunks of a diff make of either side *)
Lemma hunks_result {T} (b a : list T) context cs clumps hs : context <= 255 -> proper (length b) (length a) cs -> change_clumps context cs = Ok clumps ->
  map_res (hunk_from b a) clumps = Ok hs ->
  (length (patched b 0 hs) = length a /\
   (forall i j, beyond_context context cs i j -> nth_error (patched b 0 hs) j = nth_error b i) /\
   (forall j, (forall i, ~ beyond_context context cs i j) -> nth_error (patched b 0 hs) j = nth_error a j)) /\
  (length (patched a 0 (map swap_hunk hs)) = length b /\
   (forall i j, beyond_context context cs i j -> nth_error (patched a 0 (map swap_hunk hs)) i = nth_error a j) /\
   (forall i, (forall j, ~ beyond_context context cs i j) -> nth_error (patched a 0 (map swap_hunk hs)) i = nth_error b i)).
Proof.
  assert (G : forall (b a : list T) cs clumps hs, context <= 255 -> proper (length b) (length a) cs -> change_clumps context cs = Ok clumps -> map_res (hunk_from b a) clumps = Ok hs ->
    length (patched b 0 hs) = length a /\ (forall i j, beyond_context context cs i j -> nth_error (patched b 0 hs) j = nth_error b i) /\
    (forall j, (forall i, ~ beyond_context context cs i j) -> nth_error (patched b 0 hs) j = nth_error a j)).
  { clear. intros b a cs clumps hs Hc Hp E1 E2. destruct (change_clumps_spec context cs (proj1 (proj2 Hp))) as (cl & C1 & C2). rewrite E1 in C1. injection C1 as <-.
    destruct (clumps_of_rebuilt b a context Hc cs clumps Hp C2) as (hs' & H1 & H2). rewrite E2 in H1. injection H1 as <-. rewrite H2.
    destruct (rebuilt_nth b a context cs false 0 0 (proj2 (proj2 Hp)) (proj1 Hp)) as (R1 & R2 & R3). split; [lia|]. split.
    - intros i j H. apply beyondf_false in H. rewrite <- (R2 _ _ H). now rewrite Nat.sub_0_r.
    - intros j H. rewrite <- (Nat.sub_0_r j) at 1. apply R3; [lia|]. intros i Hi. apply (H i). now apply beyondf_false. }
  intros Hc Hp E1 E2. split; [now apply (G b a cs clumps hs)|].
  destruct (G a b (map swap_range_change cs) (map (map swap_range_change) clumps) (map swap_hunk hs) Hc (swap_proper _ _ _ Hp)) as (R1 & R2 & R3).
  - rewrite swap_change_clumps, E1. reflexivity.
  - rewrite map_res_map. eapply map_res_swap; [|exact E2]. intros c h H. unfold hunk_from in *. rewrite swap_ranges, swap_context.
    destruct (clump_ranges c) as [br ar]. cbn [fst snd]. destruct (clump_context_lengths c) as [c1 c2].
    destruct (extract_snippet b br) as [sb| |]; try discriminate. cbn [bind] in H. destruct (extract_snippet a ar) as [sa| |]; try discriminate. cbn [bind] in *. now injection H as <-.
  - split; [assumption|]. split.
    + intros i j H. apply R2. now apply swap_beyond.
    + intros i H. apply R3. intros j Hj. apply (H j). now apply swap_beyond.
Qed.

Lemma text_diff_result b a context cs hs : context <= 255 -> text_changes b a = Ok cs -> text_diff_clumps b a context = Ok (map text_of_hunk hs) ->
  (forall h h' : list (hunk line), map text_of_hunk h = map text_of_hunk h' -> h = h') ->
  exists clumps, change_clumps context cs = Ok clumps /\ map_res (hunk_from b a) clumps = Ok hs /\ proper (length b) (length a) cs.
Proof.
  intros Hc E1 E2 Hinj. destruct (text_changes_spec b a) as (cs' & E & Ht & Hne & Halt & _). rewrite E1 in E. injection E as <-.
  assert (Hp : proper (length b) (length a) cs) by (split; [assumption|now split]).
  destruct (change_clumps_spec context cs Halt) as (clumps & C1 & C2). exists clumps. split; [assumption|]. split; [|assumption].
  destruct (clumps_of_rebuilt b a context Hc cs clumps Hp C2) as (hs' & H1 & _). rewrite H1. f_equal. apply Hinj.
  unfold text_diff_clumps in E2. rewrite E1 in E2. cbn [bind] in E2. rewrite C1 in E2. cbn [bind] in E2.
  assert (K : map_res (text_clump_from b a) clumps = Ok (map text_of_hunk hs')); [|congruence].
  eapply map_res_ok; [|exact H1]. intros c. rewrite text_clump_from_hunk. unfold hunk_from.
  destruct (clump_ranges c), (clump_context_lengths c). destruct (extract_snippet b r); [|reflexivity..]. cbn [bind]. destruct (extract_snippet a r0); reflexivity.
Qed.
Lemma byte_diff_result b a context cs hs : context <= 255 -> byte_changes b a = Ok cs -> byte_diff_clumps b a context = Ok (map byte_of_hunk hs) ->
  (forall h h' : list (hunk byte), map byte_of_hunk h = map byte_of_hunk h' -> h = h') ->
  exists clumps, change_clumps context cs = Ok clumps /\ map_res (hunk_from b a) clumps = Ok hs /\ proper (length b) (length a) cs.
Proof.
  intros Hc E1 E2 Hinj. destruct (byte_changes_spec b a) as (cs' & E & Ht & Hne & Halt & _). rewrite E1 in E. injection E as <-.
  assert (Hp : proper (length b) (length a) cs) by (split; [assumption|now split]).
  destruct (change_clumps_spec context cs Halt) as (clumps & C1 & C2). exists clumps. split; [assumption|]. split; [|assumption].
  destruct (clumps_of_rebuilt b a context Hc cs clumps Hp C2) as (hs' & H1 & _). rewrite H1. f_equal. apply Hinj.
  unfold byte_diff_clumps in E2. rewrite E1 in E2. cbn [bind] in E2. rewrite C1 in E2. cbn [bind] in E2.
  assert (K : map_res (byte_clump_from b a) clumps = Ok (map byte_of_hunk hs')); [|congruence].
  eapply map_res_ok; [|exact H1]. intros c. rewrite byte_clump_from_hunk. unfold hunk_from.
  destruct (clump_ranges c), (clump_context_lengths c). destruct (extract_snippet b r); [|reflexivity..]. cbn [bind]. destruct (extract_snippet a r0); reflexivity.
Qed.

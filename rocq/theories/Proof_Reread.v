(* Proof_Reread.v - a written unified diff is read back whole (C133). *)
From Coq Require Import String.
From Verif Require Import Base Model_Seq Model_Changes Model_Json Model_Regex Model_IO Model_Text Model_Unified Spec Spec_Unified Spec_Nearly Spec_Carry Spec_Reread.
From Verif Require Import Proof_Seq Proof_Regex Proof_Changes Proof_Clumps Proof_Diff Proof_Unified Proof_UClump Proof_Carry Proof_Props_Gen Proof_Props_Unified Proof_Props_Carry.

Definition file_lines (t : unified_text) : list line := split_lines (written_out t).
(* the text of a clump that can be read wherever it stands *)
Definition readable (nd : char -> bool) (dbg : bool) (t : unified_text) : Prop :=
  (exists r more, file_lines t = (x40 :: r) :: more) /\ (forall rest, split_lines (written_out t ++ rest) = file_lines t ++ split_lines rest) /\
  exists body h lead trail, Forall marked_line body /\ with_marker body (ut_lines t) /\
    header_written (ut_header t) (sl_start (sls_before h)) (sl_length (sls_before h)) (sl_start (sls_after h)) (sl_length (sls_after h)) /\
    forall pre post, ~ backslash_first post -> get_from_at nd dbg (pre ++ file_lines t ++ post) (length pre) =
      Ok (DOk (Some (UClump h (old_lines body) (new_lines body) (lead, trail) (length (file_lines t))))).

Lemma header_at h : exists r, header_text h = x40 :: r.
Proof. unfold header_text. destruct (_ =? 1)%Z, (_ =? 1)%Z; eexists; reflexivity. Qed.
(* a text of whole lines *)
Lemma split_whole ls : Forall is_line ls -> Forall ends_in_newline ls ->
  split_lines (List.concat ls) = ls /\ forall rest, split_lines (List.concat ls ++ rest) = ls ++ split_lines rest.
Proof. intros H1 H2. split; [|intros rest; now apply split_full]. rewrite <- (app_nil_r (List.concat ls)). rewrite split_full by assumption. apply app_nil_r. Qed.

Lemma diff_readable nd dbg before after context : digit_table nd -> context <= 255 -> (dbg = true -> context <= 128) ->
  Forall is_line before -> Forall is_line after -> (Z.of_nat (length before) < two64)%Z -> (Z.of_nat (length after) < two64)%Z ->
  exists ts, unified_diff context before after = Ok ts /\ Forall (fun t => full_clump t \/ open_clump t -> readable nd dbg t) ts /\
    (Forall ends_in_newline before -> Forall ends_in_newline after -> Forall full_clump ts).
Proof.
  intros Hnd Hc Hd Ib Ia Lb La. destruct (unified_diff_spec before after context Hc) as (cs & hs & ts & _ & E1 & Hcov & Hf & E2 & F).
  exists ts. split; [assumption|]. pose proof (cover_header _ _ _ _ _ _ _ Hcov Lb La) as M.
  pose proof (cover_context _ _ _ _ _ _ _ Hcov) as X. clear E1 E2 Hcov.
  induction F as [|h t hs ts (body & P1 & P2 & P3 & P4 & P5 & P6 & P7 & P8) F IH]; [split; [|intros _ _]; constructor|].
  inversion M as [|? ? M1 M2]; subst. inversion X as [|? ? [X1 X2] X3]; subst. destruct (IH M2 X3) as [IH1 IH2]. pose proof (marked_as_marked _ _ _ P3) as MK.
  split; [constructor; [|assumption]|intros Nb Na; constructor; [|now apply IH2]; unfold full_clump; rewrite (newline_body _ _ _ _ P3 (body_newlines _ _ _ P8 Nb Na) P2); now apply (body_newlines _ _ _ P8)].
  assert (IL : Forall is_line body) by now apply (body_is_line _ _ _ P8).
  assert (HD : is_line (ut_header t ++ [newline])) by (exists (ut_header t); split; [rewrite P1; now apply header_no_newline|now left]).
  assert (HE : ends_in_newline (ut_header t ++ [newline])) by now exists (ut_header t).
  assert (LO : length (old_lines body) = length (h_old h)) by (rewrite <- P4; unfold unmark; now rewrite map_length).
  (* from the lines of the file to the claim *)
  assert (G : forall ls tail, (ut_header t ++ [newline]) ++ List.concat (ut_lines t) = List.concat ((ut_header t ++ [newline]) :: ls ++ tail) -> Forall is_line (ls ++ tail) -> Forall ends_in_newline (ls ++ tail) ->
    ls = map with_newline body ->
    (forall post, ~ backslash_first post -> clump_read (header_of h) (map with_newline body) (tail ++ post) (UClump (header_of h) (old_lines body) (new_lines body) (Z.of_nat (h_lead h), Z.of_nat (h_trail h)) (1 + length (ls ++ tail)))) ->
    readable nd dbg t).
  { intros ls tail E L1 L2 EL R. unfold readable, file_lines, written_out. rewrite app_assoc, E.
    destruct (split_whole ((ut_header t ++ [newline]) :: ls ++ tail)) as [S1 S2]; [now constructor|now constructor|]. rewrite S1.
    split; [destruct (header_at (header_of h)) as [r Hr]; rewrite P1, Hr; do 2 eexists; reflexivity|]. split; [exact S2|].
    exists body, (header_of h), (Z.of_nat (h_lead h)), (Z.of_nat (h_trail h)). split; [assumption|]. split; [assumption|]. split; [rewrite P1; now apply (header_text_written (header_of h))|].
    intros pre post Hpost. specialize (R post Hpost). subst ls. cbn [app]. rewrite <- app_assoc.
    apply (printed_outcome nd dbg context h t pre [newline]); auto.
    - apply Forall_map. eapply Forall_impl; [|exact MK]. intros y. apply marked_with_newline.
    - unfold old_lines. rewrite filter_with_newline, map_length by reflexivity. assumption.
    - unfold new_lines. rewrite filter_with_newline, map_length by reflexivity. assumption.
    - now apply runs_with_newline. }
  assert (CX : exists l t, context_lengths (map with_newline body) l t /\ (Z.of_nat (h_lead h), Z.of_nat (h_trail h)) = (Z.of_nat l mod 256, Z.of_nat t mod 256)%Z).
  { exists (h_lead h), (h_trail h). split; [right; now apply marked_as_with_newline|]. rewrite !Z.mod_small by lia. reflexivity. }
  assert (Fin : forall p (z : line), body = p ++ [z] -> Forall ends_in_newline p -> Forall ends_in_newline [z] -> Forall ends_in_newline body) by (intros p z -> ? ?; now apply Forall_app).
  intros [N|(pre & x & E & N & NX & CL & BX)].
  - unfold full_clump in N.
    assert (E : ut_lines t = body).
    { destruct P2 as [[_ P2]|[P2 P2']]; [assumption|]. exfalso. apply P2. rewrite P2' in N. apply Forall_app in N as [N _].
      destruct P3 as (u & v & w & E & _ & _ & _ & _ & (y & m & Q & _) & _). assert (NE : body <> []) by (subst; destruct u; discriminate).
      destruct (exists_last NE) as (p & z & EB). exists p, z. split; [assumption|]. rewrite EB in N. apply Forall_app in N as [_ N]. now inversion N. }
    rewrite E in N. apply (G body []).
    + rewrite E, app_nil_r. reflexivity.
    + now rewrite app_nil_r.
    + now rewrite app_nil_r.
    + now rewrite with_newline_id.
    + intros post Hpost. split; [reflexivity|]. cbn [uc_context uc_before uc_after uc_consumed]. split; [assumption|]. left. rewrite app_nil_r, with_newline_id by assumption. auto.
  - assert (EB : body = pre ++ [x]).
    { destruct P2 as [[(p & z & Q & Hz) W]|[_ W]].
      - exfalso. rewrite E in W. rewrite <- W in MK. apply Forall_app in MK as [_ MK]. inversion MK as [|? ? _ MK']; subst. inversion MK' as [|? ? [MX|MX] _]; subst; discriminate.
      - rewrite E in W. change [x; [newline; "\"%byte; newline]] with ([x] ++ [[newline; "\"%byte; newline]]) in W. rewrite app_assoc in W. now apply app_inj_tail in W as [<- _]. }
    assert (WX : with_newline x = x ++ [newline]).
    { unfold with_newline. destruct (ends_with_newline x) eqn:W; [|reflexivity]. apply ends_with_newline_iff in W. contradiction. }
    assert (WB : map with_newline body = pre ++ [x ++ [newline]]) by (rewrite EB, map_app, with_newline_id by assumption; cbn; now rewrite WX).
    apply (G (map with_newline body) [[x5c; newline]]).
    + rewrite WB, E. cbn [List.concat]. f_equal. rewrite !concat_app. cbn [List.concat]. rewrite !app_nil_r, <- !app_assoc. reflexivity.
    + apply Forall_app. split; [apply Forall_map; eapply Forall_impl; [|exact IL]; intros y; apply is_line_with_newline|]. constructor; [|constructor]. exists [x5c]. split; [intros [?|[]]; discriminate|now left].
    + apply Forall_app. split; [apply Forall_map, Forall_forall; intros y _; apply with_newline_ends|]. constructor; [now exists [x5c]|constructor].
    + reflexivity.
    + intros post Hpost. split; [reflexivity|]. cbn [uc_context uc_before uc_after uc_consumed]. split; [assumption|]. right.
      split; [now exists [newline], post|]. rewrite app_length, !map_length. split; [cbn; lia|].
      exists pre, (x ++ [newline]). split; [exact WB|]. rewrite WB, EB.
      assert (MX : marked_line x) by (rewrite EB in MK; apply Forall_app in MK as [_ MK]; now inversion MK).
      destruct x as [|m x']; [destruct MX; discriminate|].
      assert (OL : forall y, old_lines (pre ++ [m :: y]) = old_lines pre ++ (if existsb (Byte.eqb m) [x20; x2d] then [m :: y] else [])) by (intros y; rewrite old_lines_app; unfold old_lines; cbn [filter starts_with]; destruct (existsb (Byte.eqb m) [x20; x2d]); reflexivity).
      assert (NL : forall y, new_lines (pre ++ [m :: y]) = new_lines pre ++ (if existsb (Byte.eqb m) [x20; x2b] then [m :: y] else [])) by (intros y; rewrite new_lines_app; unfold new_lines; cbn [filter starts_with]; destruct (existsb (Byte.eqb m) [x20; x2b]); reflexivity).
      change ((m :: x') ++ [newline]) with (m :: (x' ++ [newline])). rewrite !OL, !NL.
      pose proof (trimmed_newline _ BX) as TX. change ((m :: x') ++ [newline]) with (m :: (x' ++ [newline])) in TX.
      apply marked_marker in MX. cbn [In] in MX. destruct MX as [<-|[<-|[<-|[]]]]; cbn [context_line starts_with existsb Byte.eqb orb].
      * discriminate CL.
      * right. split; [reflexivity|]. split; [|reflexivity]. exists (old_lines pre), (x2d :: x' ++ [newline]), (x2d :: x'). auto.
      * left. split; [reflexivity|]. split; [reflexivity|]. exists (new_lines pre), (x2b :: x' ++ [newline]), (x2b :: x'). auto.
Qed.

Lemma split_written nd dbg ts : Forall (readable nd dbg) ts -> split_lines (all_written ts) = List.concat (map file_lines ts).
Proof.
  induction 1 as [|t ts (_ & Ht & _) H IH]; [reflexivity|]. unfold all_written in *. cbn [map List.concat]. now rewrite Ht, IH.
Qed.

Lemma file_not_backslash nd dbg ts : Forall (readable nd dbg) ts -> ~ backslash_first (List.concat (map file_lines ts)).
Proof.
  intros H (s & more & E). destruct H as [|t ts ((r & m & Hr) & _) H]; [discriminate|]. cbn [map List.concat] in E. rewrite Hr in E. discriminate.
Qed.
Lemma with_marker_sides body printed : with_marker body printed -> old_lines printed = old_lines body /\ new_lines printed = new_lines body.
Proof. intros [[_ ->]|[_ ->]]; [auto|]. rewrite old_lines_app, new_lines_app. unfold old_lines, new_lines. cbn [filter starts_with existsb Byte.eqb orb newline]. split; apply app_nil_r. Qed.

(* reading and carrying out go together *)
Lemma reread nd dbg i j old ts new : carried lines_before i j old ts new -> Forall (readable nd dbg) ts -> forall pre,
  exists cs, clumps_from nd dbg (pre ++ List.concat (map file_lines ts)) (length pre) cs /\ carried_out i j old cs new /\
    map (fun c => (uc_before c, uc_after c)) cs = map (fun t => (old_lines (ut_lines t), new_lines (ut_lines t))) ts.
Proof.
  intros C. induction C as [i j rest|i j kept old new body t ts rest rest' MB WM Eo En HW C IH]; intros H pre.
  - exists []. split; [|split; [constructor|reflexivity]]. cbn [map List.concat]. rewrite app_nil_r. constructor.
  - inversion H as [|? ? Ht Hts]; subst. pose proof Ht as (_ & _ & body' & h & lead & trail & MK & WM' & HW' & G).
    assert (B : body' = body) by now apply (marker_body body' body (ut_lines t)). subst body'.
    destruct (header_numbers _ _ _ _ _ _ _ _ _ HW HW') as (N1 & N2 & N3 & N4). unfold lines_before in *.
    destruct (IH Hts (pre ++ file_lines t)) as (cs & R1 & R2 & R3). destruct (with_marker_sides _ _ WM) as [WO WN].
    assert (LO : length (unmark (old_lines body)) = length (old_lines body)) by (unfold unmark; now rewrite map_length).
    assert (LW : length (unmark (new_lines body)) = length (new_lines body)) by (unfold unmark; now rewrite map_length).
    exists (UClump h (old_lines body) (new_lines body) (lead, trail) (length (file_lines t)) :: cs).
    split; [|split].
    + cbn [map List.concat]. eapply clumps_more; [apply G; now apply (file_not_backslash nd dbg)|]. cbn [uc_consumed]. rewrite app_assoc, <- app_length. exact R1.
    + rewrite LO, LW in *. apply (carried_out_clump i j kept (UClump h (old_lines body) (new_lines body) (lead, trail) (length (file_lines t)))); cbn [uc_header uc_before uc_after]; [|exact R2].
      destruct h as [[? ?] [? ?]]. cbn in N1, N2, N3, N4. now subst.
    + cbn [map uc_before uc_after]. now rewrite R3, WO, WN.
Qed.
Lemma clumps_from_unique nd dbg lines i cs : clumps_from nd dbg lines i cs -> forall cs', clumps_from nd dbg lines i cs' -> cs' = cs.
Proof.
  assert (End : get_from_at nd dbg lines (length lines) = Ok (DOk None)).
  { unfold get_from_at, subsequence, range_from. cbn [r_start r_end]. unfold slice. rewrite !Nat.leb_refl. cbn [andb bind]. now rewrite Nat.sub_diag. }
  induction 1 as [|i c cs E H IH]; intros cs' H'.
  - inversion H' as [|? ? ? E' _]; [reflexivity|congruence].
  - inversion H' as [E0|? c' cs1 E' H1]; subst; [congruence|]. rewrite E in E'. injection E' as <-. f_equal. now apply IH.
Qed.

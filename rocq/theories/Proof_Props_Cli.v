(* Proof_Props_Cli.v - proofs of the properties C96 (where a patch reaches) and C97 (command
   lines). *)
From Coq Require Import String.
From Verif Require Import Base Model_Seq Model_Changes Model_IO Model_Text Model_Bytes Model_Json Model_Files Model_Log Model_Cli Spec Spec_Files Spec_Json Spec_Log Spec_Run Spec_Cli Cases Proof_Utf8 Proof_Json Proof_Files Proof_Cli Proof_Props_Json Proof_Props_Files Proof_Props_Run.

(* ------------------------------------------------------------------ auxiliary *)
Lemma patch_main_calm E f patch s d reverse : fault_free E -> content f patch = Some s -> diff_from_json s = Ok (Some d) ->
  patch_main E patch reverse (start f) = patch_diff E d reverse (World f [f] 2 []).
Proof.
  intros HE Hc Hd. unfold content in Hc. destruct (f patch) as [[m x|]|] eqn:Ef; try discriminate. destruct (N.testbit m 8) eqn:Em; [|discriminate].
  injection Hc as ->. unfold patch_main, pbnd, open_read, read_all, op, start, pure. cbn [w_ops w_fs w_seen w_stdout]. rewrite !HE, Ef. unfold readable. rewrite Em.
  cbn [last app w_ops w_fs]. rewrite !HE, Ef, Hd. cbn [last app w_seen w_stdout]. reflexivity.
Qed.
Lemma save_load d : valid_diff d -> exists s, diff_to_json d = (s, true) /\ diff_from_json s = Ok (Some d).
Proof.
  intros H. destruct (p_C42_save_load d H) as (s & Hs & Hl). exists s. split; [assumption|]. specialize (Hl []). rewrite app_nil_r in Hl. apply Hl. constructor.
Qed.
Lemma patch_main_ends E f patch reverse : exists o w, patch_main E patch reverse (start f) = (o, w).
Proof. destruct (patch_main E patch reverse (start f)) as [o w]. now exists o, w. Qed.
Definition diff_away : diff := TextRemove (PathAndLines (bs "a/../../B") []).
Definition diff_root : diff := TextChange (TextDiff (bs "/A") (bs "B") [TextClump (1, 0)%Z (Snippet 0 (L "x y ")) (Snippet 0 (L "x z w "))]).

(* ------------------------------------------------------------------ C96 *)
(* C96, full statement: whatever a patch file contains, the patch tool started in a directory
   changes no file outside of it.  It is false: the path in the patch is used as it is, also an
   absolute one and one that climbs out with "..". *)
Lemma p_C96_confined_refuted : exists E f patch w w' p q,
  patch_main E patch false (start f) = (Val tt, w) /\ outside p /\ f p <> None /\ w_fs w p = None /\
  patch_main E (bs "Q") false (start f) = (Val tt, w') /\ outside q /\ content f q = Some (bs "x y ") /\ content (w_fs w') q = Some (bs "x z w ").
Proof.
  exists (calm_env true), (files [(bs "P", saved diff_away); (bs "a/../../B", bs "x y "); (bs "Q", saved diff_root); (bs "/A", bs "x y ")]), (bs "P").
  eexists. eexists. exists (bs "a/../../B"), (bs "/A"). split; [run|]. split.
  { right. exists [word "a"; word ".."; word ".."; word "B"]. split.
    - apply (comp_more (word "a") (bs "../../B")); [now intros [[=]|[]]|]. apply (comp_more (word "..") (bs "../B")); [now intros [[=]|[[=]|[]]]|].
      apply (comp_more (word "..") (bs "B")); [now intros [[=]|[[=]|[]]]|]. apply (comp_last (word "B")). now intros [[=]|[]].
    - apply climbs_down; try discriminate. apply climbs_up. apply climbs_out. }
  split; [vm_compute; discriminate|]. split; [vr|]. split; [run|]. split; [left; now exists (bs "A")|]. split; vr.
Qed.
(* There is no path (if it is Unicode) that a patch cannot reach: one deletes the file there
   whatever it contains, and one creates a file there with any content. *)
Lemma p_C96_reach : forall p, is_utf8 p ->
  (exists d s, diff_to_json d = (s, true) /\ forall E f patch m c, fault_free E -> content f patch = Some s -> f p = Some (File m c) ->
     exists w, patch_main E patch false (start f) = (Val tt, w) /\ replaced f p None (w_fs w)) /\
  (forall c, exists d s, diff_to_json d = (s, true) /\ forall E f patch, fault_free E -> content f patch = Some s -> f p = None ->
     exists w, patch_main E patch false (start f) = (Val tt, w) /\ replaced f p (Some (File (e_mode E) c)) (w_fs w)).
Proof.
  intros p Hp. split.
  - destruct (save_load (TextRemove (PathAndLines p []))) as (s & Hs & Hl). { split; repeat constructor. exact Hp. }
    exists (TextRemove (PathAndLines p [])), s. split; [assumption|]. intros E f patch m c HE Hc Hf.
    assert (K : exists w, patch_main E patch false (start f) = (Val tt, w)).
    { rewrite (patch_main_calm E f patch s _ false HE Hc Hl). unfold patch_diff, patch_remove, pbnd, remove_file, op. cbn [w_ops w_fs pl_path]. rewrite HE, Hf. eexists. reflexivity. }
    destruct K as [w K]. exists w. split; [assumption|].
    apply (p_C40_success_remove_partial E f patch false w (TextRemove (PathAndLines p [])) K); [now exists s|reflexivity].
  - intros c. destruct (save_load (ByteAdd (PathAndBytes p false c))) as (s & Hs & Hl). { split; repeat constructor. exact Hp. }
    exists (ByteAdd (PathAndBytes p false c)), s. split; [assumption|]. intros E f patch HE Hc Hf.
    destruct (patch_main_ends E f patch false) as (o & w & K). exists w.
    destruct (p_C40_create_partial E f patch false o w (ByteAdd (PathAndBytes p false c)) c HE K) as (-> & H & _); [now exists s|now split|].
    split; [assumption|]. apply H. intros G. now apply G.
Qed.
(* What does hold: if the path named in the patch does not lead out, nothing outside is touched at
   any moment, whatever fails (the temporary file is made in the current directory).
   Missing: a check of the path. *)
Lemma p_C96_confined_partial : forall E f patch reverse o w d, ~ outside (e_tmp E) -> patch_main E patch reverse (start f) = (o, w) ->
  holds_diff f patch d -> ~ outside (target d) -> forall g p, In g (w_seen w) -> outside p -> g p = f p.
Proof.
  intros E f patch reverse o w d Ht H Hd Ho g p Hg Hp. apply (proj1 (p_C58_only_target E f patch reverse o w H) d Hd g p Hg); intros ->; contradiction.
Qed.
Lemma one_component s cs : ~ In slash s -> components s cs -> cs = [s].
Proof. intros Hs H. destruct H as [s _|s p cs _ _]; [reflexivity|]. destruct Hs. apply in_or_app. right. now left. Qed.
Lemma plain_name s : ~ In slash s -> s <> word ".." -> ~ outside s.
Proof.
  intros Hs Hn [[q ->]|(cs & Hc & H)]; [apply Hs; now left|]. apply (one_component _ _ Hs) in Hc as ->.
  inversion H; subst; try contradiction. all: match goal with K : climbs _ [] |- _ => inversion K end.
Qed.
Lemma e_C96_example :
  let f := files [(bs "A", bs "x y "); (bs "P", saved diff_ab); (bs "../A", bs "x y ")] in
  ~ outside (e_tmp (calm_env true)) /\ holds_diff f (bs "P") diff_ab /\ ~ outside (target diff_ab) /\ outside (bs "../A") /\
  (exists w, patch_main (calm_env true) (bs "P") false (start f) = (Val tt, w) /\ w_fs w (bs "A") = Some (File rw (bs "x z w ")) /\ length (w_seen w) = 11) /\
  is_utf8 (bs "../A").
Proof.
  split; [apply plain_name; [now intros [[=]|[]]|discriminate]|]. split; [eexists; split; [vr|vr]|]. split; [apply plain_name; [now intros [[=]|[]]|discriminate]|].
  split. { right. exists [word ".."; word "A"]. split; [|apply climbs_out]. apply (comp_more (word "..") (bs "A")); [now intros [[=]|[[=]|[]]]|].
    apply (comp_last (word "A")). now intros [[=]|[]]. }
  split; [eexists; split; [run|]; split; vr|]. apply utf8_valid_spec. vr.
Qed.

(* ------------------------------------------------------------------ C97 *)
(* C97: the command lines of pw_diff and pw_patch that run the program, and with what, are exactly
   those of the grammar in Spec_Cli.v; so a command line has at most one meaning. *)
Lemma p_C97_diff : forall args verbose context before after,
  diff_args args = Run (verbose, context, before, after) <-> calls_diff args verbose context before after.
Proof. exact parse_diff_run. Qed.
Lemma p_C97_patch : forall args verbose reverse patch,
  patch_args args = Run (verbose, reverse, patch) <-> calls_patch args verbose reverse patch.
Proof. exact parse_patch_run. Qed.
(* Everything else is a request for help (status 0) or refused (status 2), and touches no file. *)
Lemma p_C97_diff_program : forall E args w,
  (forall verbose context before after, calls_diff args verbose context before after ->
     diff_program E args w = let (ev, r) := diff_main_logged E before after context w in (filter (shown verbose) ev, r)) /\
  (asks_help diff_flag True 2 args -> diff_program E args w = ([], (Exit 0, w))) /\
  ((forall verbose context before after, ~ calls_diff args verbose context before after) -> ~ asks_help diff_flag True 2 args ->
     diff_program E args w = ([], (Exit 2, w))).
Proof.
  intros E args w. unfold diff_program. split; [|split].
  - intros v x b a H. apply parse_diff_run in H. now rewrite H.
  - intros H. apply parse_diff_help in H. now rewrite H.
  - intros H1 H2. destruct (diff_args args) as [[[[v x] b] a]| |] eqn:Ep; [|now apply parse_diff_help in Ep|reflexivity].
    now apply parse_diff_run, H1 in Ep.
Qed.
Lemma p_C97_patch_program : forall E args w,
  (forall verbose reverse patch, calls_patch args verbose reverse patch ->
     patch_program E args w = let (ev, r) := patch_main_logged E patch reverse w in (filter (shown verbose) ev, r)) /\
  (asks_help patch_flag False 1 args -> patch_program E args w = ([], (Exit 0, w))) /\
  ((forall verbose reverse patch, ~ calls_patch args verbose reverse patch) -> ~ asks_help patch_flag False 1 args ->
     patch_program E args w = ([], (Exit 2, w))).
Proof.
  intros E args w. unfold patch_program. split; [|split].
  - intros v r p H. apply parse_patch_run in H. now rewrite H.
  - intros H. apply parse_patch_help in H. now rewrite H.
  - intros H1 H2. destruct (patch_args args) as [[[v r] p]| |] eqn:Ep; [|now apply parse_patch_help in Ep|reflexivity].
    now apply parse_patch_run, H1 in Ep.
Qed.
(* No command line runs a program and asks for help at the same time; the context is a byte. *)
Lemma p_C97_exclusive : (forall args verbose context before after, calls_diff args verbose context before after ->
    context <= 255 /\ verbose <= 255 /\ before <> [] /\ after <> [] /\ ~ asks_help diff_flag True 2 args) /\
  (forall args verbose reverse patch, calls_patch args verbose reverse patch -> verbose <= 255 /\ patch <> [] /\ ~ asks_help patch_flag False 1 args).
Proof.
  assert (A : forall v n, amount v n -> n <= 255) by (intros v n []; lia).
  assert (L : forall (flag : byte -> string -> item -> Prop) s fs, (forall b n i, flag b n i -> i = Verbose \/ i = Reverse) -> letters flag s fs -> contexts fs = [] /\ paths fs = []).
  { intros flag s fs Hf. induction 1 as [|b n i s fs H _ [IH1 IH2]]; [now split|]. destruct (Hf _ _ _ H) as [-> | ->]; now split. }
  assert (G0 : forall (flag : byte -> string -> item -> Prop) hc args is, (forall b n i, flag b n i -> i = Verbose \/ i = Reverse) -> spelled flag hc args is ->
            Forall (fun n => n <= 255) (contexts is) /\ Forall (fun p => p <> []) (paths is)).
  { intros flag hc args is Hf.
    assert (C : forall fs is, contexts (fs ++ is) = contexts fs ++ contexts is) by (intros; apply flat_map_app).
    assert (P : forall fs is, paths (fs ++ is) = paths fs ++ paths is) by (intros; apply flat_map_app).
    induction 1 as [|p args is Hp _ [IH1 IH2]|ps Hps|b n i args is H _ IH|s fs args is Hs Hl _ [IH1 IH2]|v n args is Hc Hv _ [IH1 IH2]|v n args is Hc Hp Hv _ [IH1 IH2]
      |s fs eq v n args is Hc Hl He Hv _ [IH1 IH2]|s fs v n args is Hc Hl Hp Hv _ [IH1 IH2]].
    - split; constructor.
    - split; [assumption|]. constructor; [|assumption]. destruct Hp as [->|[Hp _]]; [discriminate|assumption].
    - split; [induction Hps; [constructor|assumption]|]. induction Hps; [constructor|constructor; assumption].
    - destruct (Hf _ _ _ H) as [-> | ->]; exact IH.
    - destruct (L flag s fs Hf Hl) as [E1 E2]. rewrite C, P, E1, E2. now split.
    - split; [constructor; [eapply A; eassumption|assumption]|assumption].
    - split; [constructor; [eapply A; eassumption|assumption]|assumption].
    - destruct (L flag s fs Hf Hl) as [E1 E2]. rewrite C, P, E1, E2. split; [constructor; [eapply A; eassumption|assumption]|assumption].
    - destruct (L flag s fs Hf Hl) as [E1 E2]. rewrite C, P, E1, E2. split; [constructor; [eapply A; eassumption|assumption]|assumption]. }
  split.
  - intros args v x b a H. assert (H' := H). destruct H' as (is & k & Hs & Hp & _ & -> & Hc).
    apply G0 in Hs as [H1 H2]; [|intros ? ? ? []; auto]. rewrite Hp in H2. inversion H2 as [|? ? Hb H3]. inversion H3 as [|? ? Ha _]. subst.
    split. { destruct Hc as [[_ ->]|Hc]; [lia|]. rewrite Hc in H1. now inversion H1. }
    split; [lia|]. split; [assumption|]. split; [assumption|]. intros G. apply parse_diff_help in G. apply parse_diff_run in H. congruence.
  - intros args v r p H. assert (H' := H). destruct H' as (is & k & Hs & Hp & _ & -> & Hc).
    apply G0 in Hs as [_ H2]; [|intros ? ? ? []; auto]. rewrite Hp in H2. inversion H2 as [|? ? Hb _]. subst.
    split; [lia|]. split; [assumption|]. intros G. apply parse_patch_help in G. apply parse_patch_run in H. congruence.
Qed.
(* Any two paths that are not empty can be given, whatever they begin with. *)
Lemma p_C97_any_path : (forall before after, before <> [] -> after <> [] -> calls_diff [word "--"; before; after] 0 2 before after) /\
  (forall patch, patch <> [] -> calls_patch [word "--"; patch] 0 false patch /\ calls_patch [word "-r"; word "--"; patch] 0 true patch).
Proof.
  split; [intros b a Hb Ha; apply parse_diff_run|intros p Hp; split; apply parse_patch_run].
  - destruct b; [contradiction|]. now destruct a.
  - now destruct p.
  - now destruct p.
Qed.
(* The programs from the command line to the end, when nothing outside of them fails (see C86 and
   C87). *)
Lemma p_C97_diff_run : forall E f args verbose context before after, calls_diff args verbose context before after ->
  fault_free E -> e_stdout E = None -> fits_file f before -> fits_file f after ->
  exists said o w code, diff_program E args (start f) = (filter (shown verbose) said, (o, w)) /\ status o = Some code /\ w_fs w = f /\
    diff_run f before after context said code (w_stdout w).
Proof.
  intros E f args v x b a H HE Ho Hb Ha. destruct (proj1 p_C97_exclusive _ _ _ _ _ H) as [Hx _].
  destruct (p_C87_run E f b a x HE Ho Hx Hb Ha) as (ev & o & w & code & K & K1 & K2 & K3). exists ev, o, w, code.
  rewrite (proj1 (p_C97_diff_program E args (start f)) v x b a H), K. now repeat split.
Qed.
Lemma p_C97_patch_run : forall E f args verbose reverse patch, calls_patch args verbose reverse patch ->
  fault_free E -> f (e_tmp E) = None ->
  (forall t, holds_diff f patch (TextChange t) ->
     (24 * fold_right (fun c n => clump_lines c + n) 0 (td_clumps t) < two63)%Z /\ fits_file f (td_before t)) ->
  exists said o w code, patch_program E args (start f) = (filter (shown verbose) said, (o, w)) /\ status o = Some code /\
    patch_run E f patch reverse said code (w_fs w).
Proof.
  intros E f args v r p H HE Ht Hf. destruct (p_C86_run E f p r HE Ht Hf) as (ev & o & w & code & K & K1 & K2). exists (filter by_program ev), o, w, code.
  rewrite (proj1 (p_C97_patch_program E args (start f)) v r p H), K, <- p_C86_shown. now repeat split.
Qed.
Lemma e_C97_example :
  calls_diff [word "-vc3"; word "-"; word "--verbose"; word "--"; word "-b"] 2 3 (word "-") (word "-b") /\
  calls_diff [word "a"; word "--context"; word "+007"; word "b"] 0 7 (word "a") (word "b") /\
  calls_diff [word "--context=-0"; word "a"; word "b"] 0 0 (word "a") (word "b") /\
  calls_patch [word "-vrv"; word "p"] 2 true (word "p") /\
  asks_help diff_flag True 2 [word "a"; word "-vhx"; word "-c"] /\ asks_help patch_flag False 1 [word "--help"] /\
  Forall (fun args => diff_program (calm_env true) (map word args) (start (files [])) = ([], (Exit 2, start (files []))))
    [[]; ["a"]; ["a"; "b"; "c"]; ["-c"; "-1"; "a"; "b"]; ["-c256"; "a"; "b"]; ["-c"; "1"; "-c"; "1"; "a"; "b"]; ["a"; ""]; ["-r"; "a"; "b"]; ["--verbose=1"; "a"; "b"];
     ["--verb"; "a"; "b"]; ["a"; "b"; "-c"]; ["a"; "b"; "c"; "-h"]; ["--"; "a"; "-h"; "b"]; ["-c"; "--"; "a"; "b"]; ["-V"]]%string /\
  (exists w, patch_program (calm_env true) [word "P"; word "-vv"] (start (files [(bs "A", bs "x y "); (bs "P", saved diff_ab)])) =
     ([Event Program Info (PatchDone (Some (Stats 1 0 0 0 0)))], (Val tt, w)) /\ w_fs w (bs "A") = Some (File rw (bs "x z w "))).
Proof.
  split; [apply parse_diff_run; vr|]. split; [apply parse_diff_run; vr|]. split; [apply parse_diff_run; vr|]. split; [apply parse_patch_run; vr|].
  split; [apply parse_diff_help; vr|]. split; [apply parse_patch_help; vr|]. split; [repeat (constructor; [vr|]); constructor|].
  assert (G : forall A B C (x : A * (B * C)) a b, fst x = a -> fst (snd x) = b -> x = (a, (b, snd (snd x)))) by (intros A B C [? [? ?]]; cbn; now intros ? ? <- <-).
  eexists. split; [apply G; vr|vr].
Qed.

(* Proof_Props_Recode.v - the property lemmas on texts with other lines. *)
From Coq Require Import String.
From Verif Require Import Base Model_Seq Model_Changes Model_IO Model_Text Model_Bytes Spec Spec_Outcome Spec_Result Spec_Shape Spec_Recode Cases Proof_Seq Proof_IO Proof_Shape Proof_Recode Proof_Props_Gen Proof_Props_Shape.

Local Ltac vr := vm_compute; reflexivity.

(* ------------------------------------------------------------------ C132 *)
(* C132, full statement: when the line ends of both texts of a diff and of the text to be patched
   are all converted to carriage return and newline, so are those of the result.  It is false: the
   marks around a conflict are always written with a newline alone. *)
Lemma p_C132_crlf_refuted : exists before_text before after_text after target_text target clumps clumps' st out out',
  lines_of before_text before /\ lines_of after_text after /\ lines_of target_text target /\
  text_diff_clumps before after 3 = Ok clumps /\ text_diff_clumps (map crlf before) (map crlf after) 3 = Ok clumps' /\
  text_apply_into true clumps target false (Writer [] None) = (Done st, Writer out None) /\
  text_apply_into true clumps' (map crlf target) false (Writer [] None) = (Done st, Writer out' None) /\ out' <> crlf out.
Proof.
  exists (bs "A B C "), (L "A B C "), (bs "A B X Y C "), (L "A B X Y C "), (bs "P Q R "), (L "P Q R ").
  eexists. eexists. eexists. eexists. eexists.
  split; [apply p_C01_split_lines; vr|]. split; [apply p_C01_split_lines; vr|]. split; [apply p_C01_split_lines; vr|].
  split; [vr|]. split; [vr|]. split; [vr|]. split; [vr|]. vm_compute. discriminate.
Qed.

(* Applying clumps looks at lines only to compare them.  Whatever the clumps and the target are and
   whatever [f] does to the lines, so long as no two different lines become equal, the run with the
   replaced lines takes the same decisions, ends the same way with the same statistics, and writes
   the same pieces in the same order, lines of the target and of the clumps, with the replaced lines
   for the lines.  Only the marks of a
   conflict stay, and there are none if no clump failed. *)
Lemma p_C132_apply : forall f dbg clumps target reverse, apart f clumps target ->
  exists r pieces,
    (forall m, In (Marker m) pieces -> In m marks) /\
    (forall l, In (Whole l) pieces -> In l target \/ exists c, In c clumps /\ (In l (sn_items (tc_before c)) \/ In l (sn_items (tc_after c)))) /\
    (forall st, r = Done st -> st_failed st = 0 -> forall m, ~ In (Marker m) pieces) /\
    (forall w, text_apply_into dbg clumps target reverse w = delivered r (pieces_as (fun l => l) pieces) w) /\
    (forall w, text_apply_into dbg (map (recode_text f) clumps) (map f target) reverse w = delivered r (pieces_as f pieces) w) /\
    text_is_already_applied dbg (map (recode_text f) clumps) (map f target) reverse = text_is_already_applied dbg clumps target reverse.
Proof.
  intros f dbg clumps target reverse Ha. assert (Ha' : forall c, In c clumps -> apart1 f target c) by (intros c Hc x y; now apply (Ha c)).
  destruct (alike_apply f (fun l => In l target \/ exists c, In c clumps /\ (In l (sn_items (tc_before c)) \/ In l (sn_items (tc_after c)))) dbg target
    (fun l H => or_introl H) reverse clumps) as (ps & r & [_ E1] & [_ E2] & H1 & H2).
  { intros c Hc. split; [now apply Ha'|]. intros l Hl. right. now exists c. }
  exists r, ps. split; [intros m Hm; exact (H1 _ Hm)|]. split; [intros l Hl; exact (H1 _ Hl)|]. split; [intros st E Hf; now apply (H2 st)|].
  split; [exact E1|]. split; [exact E2|]. now apply query_recode.
Qed.

(* The diff of the replaced lines is the diff with the lines replaced. *)
Lemma p_C132_diff : forall f before after context clumps, (forall x y, In x before -> In y after -> f x = f y -> x = y) ->
  text_diff_clumps before after context = Ok clumps -> text_diff_clumps (map f before) (map f after) context = Ok (map (recode_text f) clumps).
Proof.
  intros f b a context clumps Hf. unfold text_diff_clumps. rewrite p_C100_renaming by assumption. destruct (text_changes b a) as [cs| |]; [|discriminate..]. cbn [bind].
  destruct (change_clumps context cs) as [cl| |]; [|discriminate..]. cbn [bind]. intros E. rewrite (map_res_recode (recode_text f) (text_clump_from b a)) by apply text_from_recode. now rewrite E.
Qed.

(* Converting the line ends keeps the lines, and so it converts the diff; and it converts the
   result of applying the diff to any text so long as no clump failed.  Missing from the full
   statement: the marks of a failed clump. *)
Lemma p_C132_crlf_partial : forall dbg before_text before after_text after target_text target context clumps reverse st out,
  lines_of before_text before -> lines_of after_text after -> lines_of target_text target ->
  text_diff_clumps before after context = Ok clumps ->
  text_apply_into dbg clumps target reverse (Writer [] None) = (Done st, Writer out None) -> st_failed st = 0 ->
  exists before' after' target' clumps',
    lines_of (crlf before_text) before' /\ lines_of (crlf after_text) after' /\ lines_of (crlf target_text) target' /\
    text_diff_clumps before' after' context = Ok clumps' /\
    text_apply_into dbg clumps' target' reverse (Writer [] None) = (Done st, Writer (crlf out) None).
Proof.
  intros dbg bt b at_ a tt_ t context clumps reverse st out Hb Ha Ht Hd Hr Hf.
  exists (map crlf b), (map crlf a), (map crlf t), (map (recode_text crlf) clumps).
  split; [now apply crlf_lines|]. split; [now apply crlf_lines|]. split; [now apply crlf_lines|].
  split; [apply p_C132_diff; [intros x y _ _; apply crlf_inj|assumption]|].
  destruct (p_C132_apply crlf dbg clumps t reverse) as (r & ps & _ & _ & H2 & H3 & H4 & _); [intros c x y _ _ _; apply crlf_inj|].
  rewrite H3 in Hr. rewrite H4. unfold delivered in *. cbn [w_room w_out app] in *. injection Hr as -> <-. f_equal. f_equal.
  specialize (H2 st eq_refl Hf). clear - H2. induction ps as [|p ps IH]; [reflexivity|]. unfold pieces_as in *. cbn [map List.concat]. rewrite crlf_app, IH by (intros m Hm; apply (H2 m); now right).
  f_equal. destruct p as [l|m]; [reflexivity|]. destruct (H2 m). now left.
Qed.

(* Byte patches have no marks: with any one-to-one change of the bytes everything written changes
   in the same way, also when a clump is left out. *)
Lemma p_C132_bytes : forall (f : byte -> byte) dbg, (forall x y, f x = f y -> x = y) ->
  (forall before after context clumps, byte_diff_clumps before after context = Ok clumps ->
     byte_diff_clumps (map f before) (map f after) context = Ok (map (recode_bytes f) clumps)) /\
  (forall clumps data reverse, exists r out,
     (forall w, byte_apply_into dbg clumps data reverse w = delivered r out w) /\
     (forall w, byte_apply_into dbg (map (recode_bytes f) clumps) (map f data) reverse w = delivered r (map f out) w) /\
     byte_already_applied (map (recode_bytes f) clumps) (map f data) reverse = byte_already_applied clumps data reverse).
Proof.
  intros f dbg Hf. split.
  - intros b a context clumps. unfold byte_diff_clumps.
    replace (byte_changes (map f b) (map f a)) with (byte_changes b a).
    2: { apply p_C100_only_equality. split; [now rewrite map_length|]. split; [now rewrite map_length|]. intros x y. split; intros (v & V1 & V2).
         - exists (f v). now rewrite !nth_error_map, V1, V2.
         - rewrite nth_error_map in V1, V2. destruct (nth_error b x) as [u|] eqn:E1; [|discriminate]. destruct (nth_error a y) as [w|] eqn:E2; [|discriminate].
           cbn in V1, V2. exists u. split; [assumption|]. rewrite (Hf u w); [assumption|congruence]. }
    destruct (byte_changes b a) as [cs| |]; [|discriminate..]. cbn [bind]. destruct (change_clumps context cs) as [cl| |]; [|discriminate..]. cbn [bind]. intros E.
    rewrite (map_res_recode (recode_bytes f) (byte_clump_from b a)) by apply byte_from_recode. now rewrite E.
  - intros clumps data reverse. destruct (balike_apply f dbg data Hf reverse clumps) as (o & r & [_ E1] & [_ E2]). exists r, o. split; [exact E1|]. split; [exact E2|]. now apply bquery_recode.
Qed.

(* a clump found two lines further down, in a text with converted line ends; and the same for bytes
   of which one bit is turned over *)
Lemma e_C132_example : exists clumps flip bytes_clumps,
  text_diff_clumps (L "A B C ") (L "A B X Y C ") 3 = Ok clumps /\ apart crlf clumps (L "P Q A B C ") /\
  text_apply_into true clumps (L "P Q A B C ") false (Writer [] None) = (Done (Stats 0 1 0 0 0), Writer (bs "P Q A B X Y C ") None) /\
  crlf (bs "A B ") = [x41; x0d; x0a; x42; x0d; x0a] /\
  text_apply_into true (map (recode_text crlf) clumps) (map crlf (L "P Q A B C ")) false (Writer [] None) = (Done (Stats 0 1 0 0 0), Writer (crlf (bs "P Q A B X Y C ")) None) /\
  (forall x y : byte, flip x = flip y -> x = y) /\ flip x41 = x61 /\
  byte_diff_clumps (bs "ABC") (bs "ABXYC") 2 = Ok bytes_clumps /\
  byte_apply_into true bytes_clumps (bs "ABC") false (Writer [] None) = (Done tt, Writer (bs "ABXYC") None) /\
  byte_apply_into true (map (recode_bytes flip) bytes_clumps) (bs "abc") false (Writer [] None) = (Done tt, Writer (bs "abxyc") None).
Proof.
  eexists. exists (fun x => match Byte.of_N (N.lxor (Byte.to_N x) 32) with Some y => y | None => x end). eexists.
  split; [vr|]. split; [intros c x y _ _ _; apply crlf_inj|]. split; [vr|]. split; [vr|]. split; [vr|].
  split.
  { assert (K : forall z : byte, match Byte.of_N (N.lxor (Byte.to_N z) 32) with Some y => match Byte.of_N (N.lxor (Byte.to_N y) 32) with Some u => u | None => y end | None => z end = z) by (intros []; vm_compute; reflexivity).
    assert (S : forall z : byte, exists y, Byte.of_N (N.lxor (Byte.to_N z) 32) = Some y) by (intros []; vm_compute; eexists; reflexivity).
    intros x y E. pose proof (K x) as Kx. pose proof (K y) as Ky. destruct (S x) as [u Hu], (S y) as [v Hv]. rewrite Hu in *. rewrite Hv in *. subst v. congruence. }
  split; [vr|]. split; [vr|]. split; vr.
Qed.

(* Properties_Run.v - the property theorems and a concrete case beside each; proofs are in
   Proof_Props_Run.v.  Generated by tools/mkthms.py. *)
From Coq Require Import String.
From Verif Require Import Proof_Props_Run Base Model_Seq Model_Changes Model_IO Model_Text Model_Bytes Model_Json Model_Files Model_Log Spec Spec_Files Spec_Json Spec_Log Spec_Run Cases Proof_Seq Proof_Utf8 Proof_Arith Proof_Text Proof_Bytes Proof_Term Proof_Json Proof_Saved Proof_Unique Proof_Log Proof_LogMain Proof_Files Proof_Run Proof_Props_Json Proof_Props_Files.

(* ------------------------------------------------------------------ C86 *)
(* C86: what the patch tool says, the status it ends with and the files it leaves, completely,
   when nothing outside of it fails. *)
Theorem C86_run : forall E f patch reverse, fault_free E -> f (e_tmp E) = None ->
  (forall t, holds_diff f patch (TextChange t) ->
     (24 * fold_right (fun c n => clump_lines c + n) 0 (td_clumps t) < two63)%Z /\ fits_file f (td_before t)) ->
  exists ev o w code, patch_main_logged E patch reverse (start f) = (ev, (o, w)) /\ status o = Some code /\
    patch_run E f patch reverse (filter by_program ev) code (w_fs w).
Proof. exact p_C86_run. Qed.
Print Assumptions C86_run.

Theorem C86_determined : forall E f patch reverse said code g said' code' g',
  patch_run E f patch reverse said code g -> patch_run E f patch reverse said' code' g' ->
  said' = said /\ code' = code /\ same_files g g'.
Proof. exact p_C86_determined. Qed.
Print Assumptions C86_determined.

(* The library's messages are never shown, so what is shown follows from what the program says. *)
Theorem C86_shown : forall verbose ev, filter (shown verbose) ev = filter (shown verbose) (filter by_program ev).
Proof. exact p_C86_shown. Qed.
Print Assumptions C86_shown.

Example C86_example :
  let f := fun a => files [(bs "A", a); (bs "P", saved diff_ab); (bs "Q", saved diff_panic); (bs "N", saved diff_add)] in
  fault_free (calm_env true) /\ f (bs "x y ") (e_tmp (calm_env true)) = None /\
  (exists g, patch_run (calm_env true) (f (bs "x y ")) (bs "P") false [Event Program Info (PatchDone (Some (Stats 1 0 0 0 0)))] 0 g /\
             g (bs "A") = Some (File rw (bs "x z w "))) /\
  (exists g, patch_run (calm_env true) (f (bs "BAA")) (bs "Q") false [] 101 g) /\
  (exists g, patch_run (calm_env true) (f [xff]) (bs "P") false [Event Program Error (ReadingFailed (bs "A"))] 1 g) /\
  (exists g, patch_run (calm_env true) (f []) (bs "N") false [Event Program Error (CreationFailed (bs "A"))] 0 g) /\
  (exists g, patch_run (calm_env true) (f []) (bs "N") true [Event Program Info (Deleted (bs "A"))] 0 g /\ g (bs "A") = None) /\
  (exists g, patch_run (calm_env true) (f []) (bs "A") false [Event Program Error BadPatch] 1 g).
Proof. exact e_C86_example. Qed.

(* C87: what the diff tool says, the status it ends with and what it writes, completely, when
   nothing outside of it fails; it changes no file. *)
Theorem C87_run : forall E f before after context, fault_free E -> e_stdout E = None -> context <= 255 -> fits_file f before -> fits_file f after ->
  exists ev o w code, diff_main_logged E before after context (start f) = (ev, (o, w)) /\ status o = Some code /\ w_fs w = f /\
    diff_run f before after context ev code (w_stdout w).
Proof. exact p_C87_run. Qed.
Print Assumptions C87_run.

Theorem C87_determined : forall f before after context said code out said' code' out',
  diff_run f before after context said code out -> diff_run f before after context said' code' out' ->
  said' = said /\ code' = code /\ out' = out.
Proof. exact p_C87_determined. Qed.
Print Assumptions C87_determined.

Example C87_example :
  let f := files [(bs "A", bs "x y "); (bs "B", bs "x z w "); ([xff], [xff])] in
  e_stdout (calm_env true) = None /\ fits_file f (bs "A") /\
  diff_run f (bs "A") (bs "B") 1 [] 0 (saved diff_ab) /\
  diff_run f (bs "A") [xff] 1 [Event Program Error WritingDiffFailed] 5 (str "{
  ""ByteChange"": {
    ""before_path"": ""A"",
    ""after_path"": ") /\
  diff_run f (bs "C") (bs "D") 1 [Event Program Error DiffFailed] 1 [].
Proof. exact e_C87_example. Qed.

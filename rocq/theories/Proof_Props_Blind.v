(* Proof_Props_Blind.v - the property lemmas on what the programs look at. *)
From Coq Require Import String.
From Verif Require Import Base Model_Seq Model_Changes Model_IO Model_Text Model_Bytes Model_Json Model_Files Model_Log Spec Spec_Files Spec_Blind Cases Proof_Files Proof_Blind Proof_Props_Files.

(* ------------------------------------------------------------------ C126 *)
(* C126: the programs look at nothing but the files they are told of.  Two runs of the diff tool in
   which both files look the same - the other files, and the permissions apart from that to read,
   may be different, and operations may fail, at the same moments - give the same messages, the same
   status and the same output *)
Lemma p_C126_diff : forall E before after context f g, view f before = view g before -> view f after = view g after ->
  exists events o w w', diff_main_logged E before after context (start f) = (events, (o, w)) /\
    diff_main_logged E before after context (start g) = (events, (o, w')) /\ w_stdout w = w_stdout w'.
Proof.
  intros E before after context f g Hb Ha. unfold diff_main_logged, lpbind, silent.
  assert (A : alike (fun p => p = before \/ p = after) (start f) (start g)) by (split; [reflexivity|split; [reflexivity|]]; intros p [->| ->]; assumption).
  destruct (blind_diff E (fun p => p = before \/ p = after) before after context (or_introl eq_refl) (or_intror eq_refl) _ _ A) as (H1 & _ & H2 & _).
  destruct (diff_new E before after context (start f)) as [o w], (diff_new E before after context (start g)) as [o' w']. cbn [fst snd] in *. subst o'.
  destruct o as [[d|]| | |]; [|now do 4 eexists..]. destruct (diff_to_json d) as [out ok]. rewrite H2. destruct (ok && _)%bool; do 4 eexists; (split; [reflexivity|]; split; [reflexivity|reflexivity]).
Qed.
(* two runs of the patch tool in which the patch looks the same and the temporary file and the file
   to be patched are the same: the same messages and status, and at every moment the same content of
   these (and of all other files that were the same).  In particular the file that the patch names
   as the new one is not looked at *)
Lemma p_C126_patch : forall E patch reverse f g, view f patch = view g patch -> f (e_tmp E) = g (e_tmp E) ->
  (forall d, holds_diff f patch d -> f (target d) = g (target d)) ->
  exists events o w w', patch_main_logged E patch reverse (start f) = (events, (o, w)) /\
    patch_main_logged E patch reverse (start g) = (events, (o, w')) /\ w_stdout w = w_stdout w' /\
    keeps_pace f g (w_seen w) (w_seen w') /\ (forall p, f p = g p -> w_fs w p = w_fs w' p).
Proof.
  intros E patch reverse f g V Ht Hd. destruct (steady_main E f g patch reverse V Ht Hd (fun p => f p = g p)) as (H1 & H2 & H3 & H4 & H5 & H6); [now split|].
  destruct (patch_main_logged E patch reverse (start f)) as [ev [o w]], (patch_main_logged E patch reverse (start g)) as [ev' [o' w']]. cbn [fst snd] in *. subst.
  exists ev', o', w, w'. repeat split; assumption.
Qed.
(* the second file, the mode of the patch and a file more make no difference *)
Lemma e_C126_example :
  let f := files [(bs "A", bs "x y "); (bs "B", bs "x z w "); (bs "P", saved diff_ab)] in
  let g := upd (files [(bs "A", bs "x y "); (bs "C", bs "other "); (bs "P", saved diff_ab)]) (bs "P") (Some (File 256 (saved diff_ab))) in
  view f (bs "P") = view g (bs "P") /\ f (bs "T") = g (bs "T") /\ f (bs "A") = g (bs "A") /\ f (bs "P") <> g (bs "P") /\ f (bs "B") <> g (bs "B") /\
  holds_diff f (bs "P") diff_ab /\ target diff_ab = bs "A" /\
  content (w_fs (snd (snd (patch_main_logged (calm_env true) (bs "P") false (start g))))) (bs "A") = Some (bs "x z w ").
Proof.
  cbn zeta. split; [vm_compute; reflexivity|]. split; [vm_compute; reflexivity|]. split; [vm_compute; reflexivity|]. split; [vm_compute; discriminate|]. split; [vm_compute; discriminate|].
  split; [|split; [vm_compute; reflexivity|vm_compute; reflexivity]]. exists (saved diff_ab). split; vm_compute; reflexivity.
Qed.

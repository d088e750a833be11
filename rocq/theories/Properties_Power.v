(* Properties_Power.v - the property theorems and a concrete case beside each; proofs are in
   Proof_Props_Power.v.  Generated by tools/mkthms.py. *)
From Coq Require Import String.
From Verif Require Import Proof_Props_Power Base Model_Seq Model_Changes Model_IO Model_Text Model_Bytes Model_Json Model_Files Model_Conc Model_Links Spec Spec_Files Spec_Links Spec_Power Cases Proof_Seq Proof_Utf8 Proof_Json Proof_IO Proof_Text Proof_Bytes Proof_Term Proof_Files Proof_Conc Proof_Links Proof_Props_Files Proof_Props_Links.

(* ------------------------------------------------------------------ C122 *)
(* C122, full statement: whenever the power fails during or after a run of the patch tool, the
   target is found with its old or with its complete new content, and with the new one if the run
   has ended with status 0.  Both parts are false, since nothing is ever asked to be put on the
   disk: the name may be that of the new file, of whose content nothing need be there, ... *)
Theorem C122_torn_refuted : exists E I patch d seen J m old new, fault_free E /\ wellformed I /\ is_change d /\
  (exists ms s, seen_at I patch (Some (File ms s)) /\ diff_from_json s = Ok (Some d)) /\ patch_links E patch false I = (Val tt, seen, J) /\
  seen_at I (target d) (Some (File m old)) /\ patches_to (e_dbg E) false d old new /\
  forall c, exists K, torn (I :: seen) K /\ seen_at K (target d) (Some (File (e_mode E) c)).
Proof. exact p_C122_torn_refuted. Qed.
Print Assumptions C122_torn_refuted.

(* ... and even a more careful system may have written nothing at all after a successful run. *)
Theorem C122_lost_refuted : exists E I patch d seen J K m old new, fault_free E /\ wellformed I /\ is_change d /\
  (exists ms s, seen_at I patch (Some (File ms s)) /\ diff_from_json s = Ok (Some d)) /\ patch_links E patch false I = (Val tt, seen, J) /\
  seen_at I (target d) (Some (File m old)) /\ patches_to (e_dbg E) false d old new /\ ordered (I :: seen) K /\
  ~ seen_at K (target d) (Some (File (e_mode E) new)) /\ seen_at K (target d) (Some (File m old)).
Proof. exact p_C122_lost_refuted. Qed.
Print Assumptions C122_lost_refuted.

(* What does hold, whatever fails and whenever the power does: all files there were have their
   content and mode, all names but the target and the temporary file are what they were, and the
   target is what it was or the name of a new file - the latter only if the run succeeds.  Missing:
   the content of the new file. *)
Theorem C122_torn_partial : forall E patch reverse I m s d o seen J h rest K, wellformed I ->
  seen_at I patch (Some (File m s)) -> diff_from_json s = Ok (Some d) -> is_change d -> e_tmp E <> target d ->
  patch_links E patch reverse I = (o, seen, J) -> I :: seen = h ++ rest -> torn h K ->
  (forall n, n < used I -> nodes K n = nodes I n) /\ (forall p, p <> target d -> p <> e_tmp E -> names K p = names I p) /\
  (names K (target d) = names I (target d) \/
   o = Val tt /\ exists n, used I <= n /\ names K (target d) = Some (EFile n) /\ fst (nodes K n) = e_mode E).
Proof. exact p_C122_torn_partial. Qed.
Print Assumptions C122_torn_partial.

(* On the more careful system the new file has the complete result of the patch.  Missing: that
   after status 0 it is the new file. *)
Theorem C122_ordered_partial : forall E patch reverse I m s d o seen J h rest K, wellformed I ->
  seen_at I patch (Some (File m s)) -> diff_from_json s = Ok (Some d) -> is_change d -> e_tmp E <> target d ->
  patch_links E patch reverse I = (o, seen, J) -> I :: seen = h ++ rest -> ordered h K ->
  (forall n, n < used I -> nodes K n = nodes I n) /\ (forall p, p <> target d -> p <> e_tmp E -> names K p = names I p) /\
  (names K (target d) = names I (target d) \/
   o = Val tt /\ exists m old new n, seen_at I (target d) (Some (File m old)) /\ patches_to (e_dbg E) reverse d old new /\
     used I <= n /\ names K (target d) = Some (EFile n) /\ nodes K n = (e_mode E, new)).
Proof. exact p_C122_ordered_partial. Qed.
Print Assumptions C122_ordered_partial.

(* Removing and adding: all other names and all files there were are as they were; a removed name
   is gone or what it was, an added one not there or the name of a new file - with any content, on
   the more careful system with a beginning of the right one.  Missing: the rest of it, and that
   after status 0 the name is gone or there. *)
Theorem C122_others_partial : forall E patch reverse I m s d o seen J h rest K, wellformed I ->
  seen_at I patch (Some (File m s)) -> diff_from_json s = Ok (Some d) -> ~ is_change d ->
  patch_links E patch reverse I = (o, seen, J) -> I :: seen = h ++ rest -> torn h K \/ ordered h K ->
  (forall n, n < used I -> nodes K n = nodes I n) /\ (forall p, p <> target d -> names K p = names I p) /\
  (removes d reverse -> names K (target d) = names I (target d) \/ o = Val tt /\ names K (target d) = None) /\
  (forall c, creates d reverse c -> names K (target d) = names I (target d) \/
     names I (target d) = None /\ names K (target d) = Some (EFile (used I)) /\ (ordered h K -> exists k, nodes K (used I) = (e_mode E, firstn k c))).
Proof. exact p_C122_others_partial. Qed.
Print Assumptions C122_others_partial.

(* a file is patched, and at any moment anything may be there, or the old or the new content *)
Example C122_example :
  let f := snd (patch_links (calm_env true) (bs "U") false linked) in
  fst (fst (patch_links (calm_env true) (bs "U") false linked)) = Val tt /\
  seen_at linked (bs "F") (Some (File rwx (bs "x y "))) /\ seen_at f (bs "F") (Some (File rw (bs "x z w "))) /\
  (exists K, torn (linked :: snd (fst (patch_links (calm_env true) (bs "U") false linked))) K /\ seen_at K (bs "F") (Some (File rw (bs "??")))) /\
  (exists K, ordered (linked :: snd (fst (patch_links (calm_env true) (bs "U") false linked))) K /\ seen_at K (bs "F") (Some (File rw (bs "x z w "))) /\
     seen_at K (bs "G") (Some (File rwx (bs "x y ")))).
Proof. exact e_C122_example. Qed.

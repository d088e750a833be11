(* Properties_Links.v - the property theorems and a concrete case beside each; proofs are in
   Proof_Props_Links.v.  Generated by tools/mkthms.py. *)
From Coq Require Import String.
From Verif Require Import Proof_Props_Links Base Model_Seq Model_Changes Model_IO Model_Text Model_Bytes Model_Json Model_Files Model_Conc Model_Links Spec Spec_Files Spec_Links Cases Proof_Seq Proof_Utf8 Proof_Json Proof_IO Proof_Text Proof_Bytes Proof_Term Proof_Files Proof_Conc Proof_Links Proof_Props_Files.

(* ------------------------------------------------------------------ C99 *)
(* C99, full statement: patching a path changes the file it names, so that the new content is
   found under every name of the file, and the path stays what it is.  It is false: the path is
   made the name of a new file.  If it was a symbolic link, the link is gone and the file it led to
   has the old content, ... *)
Theorem C99_symbolic_link_refuted : exists E I patch d seen J p m old new, fault_free E /\ wellformed I /\ is_change d /\
  (exists ms s, seen_at I patch (Some (File ms s)) /\ diff_from_json s = Ok (Some d)) /\ patch_links E patch false I = (Val tt, seen, J) /\
  names I (target d) = Some (ELink p) /\ seen_at I (target d) (Some (File m old)) /\ patches_to (e_dbg E) false d old new /\
  ~ seen_at J p (Some (File m new)) /\ seen_at J p (Some (File m old)) /\ forall q, names J (target d) <> Some (ELink q).
Proof. exact p_C99_symbolic_link_refuted. Qed.
Print Assumptions C99_symbolic_link_refuted.

(* ... and if the file has another name (a hard link), it has the old content under that name. *)
Theorem C99_hard_link_refuted : exists E I patch d seen J p m old new n, fault_free E /\ wellformed I /\ is_change d /\
  (exists ms s, seen_at I patch (Some (File ms s)) /\ diff_from_json s = Ok (Some d)) /\ patch_links E patch false I = (Val tt, seen, J) /\
  names I (target d) = Some (EFile n) /\ names I p = Some (EFile n) /\ seen_at I (target d) (Some (File m old)) /\ patches_to (e_dbg E) false d old new /\
  ~ seen_at J p (Some (File m new)) /\ seen_at J p (Some (File m old)) /\ names J (target d) <> names J p.
Proof. exact p_C99_hard_link_refuted. Qed.
Print Assumptions C99_hard_link_refuted.

(* What does hold, for any links, whatever fails: at every moment all files there were at the
   beginning have their content and mode, and all names except the path in the patch and the
   temporary file are what they were; the path is what it was or the name of a new file with the
   result of the patch on what was found through it - the latter at the end exactly if the status
   is 0.  Missing: that the other names of the file follow. *)
Theorem C99_change_partial : forall E patch reverse I m s d o seen J, wellformed I ->
  seen_at I patch (Some (File m s)) -> diff_from_json s = Ok (Some d) -> is_change d -> e_tmp E <> target d ->
  patch_links E patch reverse I = (o, seen, J) ->
  let made K := exists m old new n, seen_at I (target d) (Some (File m old)) /\ patches_to (e_dbg E) reverse d old new /\
    used I <= n /\ names K (target d) = Some (EFile n) /\ nodes K n = (e_mode E, new) in
  J = last seen I /\
  (forall K, In K (I :: seen) -> (forall n, n < used I -> nodes K n = nodes I n) /\
     (forall p, p <> target d -> p <> e_tmp E -> names K p = names I p) /\ (names K (target d) = names I (target d) \/ made K)) /\
  (o = Val tt -> made J) /\ (o <> Val tt -> names J (target d) = names I (target d)).
Proof. exact p_C99_change_partial. Qed.
Print Assumptions C99_change_partial.

(* Removing a path removes this name, link or not, and nothing else. *)
Theorem C99_remove : forall E patch reverse I m s d o seen J,
  seen_at I patch (Some (File m s)) -> diff_from_json s = Ok (Some d) -> removes d reverse -> patch_links E patch reverse I = (o, seen, J) ->
  (forall K, In K (I :: seen) -> nodes K = nodes I /\ forall p, p <> target d -> names K p = names I p) /\
  (o = Val tt -> names J (target d) = None) /\ (o <> Val tt -> J = I /\ seen = []).
Proof. exact p_C99_remove. Qed.
Print Assumptions C99_remove.

(* Adding a path that is taken - if only by a link that leads nowhere - changes nothing, with
   status 0; otherwise the path becomes the name of a new file. *)
Theorem C99_add : forall E patch reverse I m s d c o seen J,
  seen_at I patch (Some (File m s)) -> diff_from_json s = Ok (Some d) -> creates d reverse c -> patch_links E patch reverse I = (o, seen, J) ->
  (names I (target d) <> None -> seen = [] /\ J = I) /\
  (forall K, In K seen -> (forall n, n < used I -> nodes K n = nodes I n) /\ (forall p, p <> target d -> names K p = names I p) /\
     names K (target d) = Some (EFile (used I)) /\ exists k, nodes K (used I) = (e_mode E, firstn k c)).
Proof. exact p_C99_add. Qed.
Print Assumptions C99_add.

(* Where nothing fails, the links stand in the way of nothing: what can be patched is patched, a
   name that is there is removed, a name that is not there is added. *)
Theorem C99_calm : forall E patch reverse I m s d, fault_free E -> wellformed I ->
  seen_at I patch (Some (File m s)) -> readable m = true -> diff_from_json s = Ok (Some d) ->
  (forall mt old new, is_change d -> e_tmp E <> target d -> names I (e_tmp E) = None ->
     seen_at I (target d) (Some (File mt old)) -> readable mt = true -> patches_to (e_dbg E) reverse d old new ->
     exists seen J, patch_links E patch reverse I = (Val tt, seen, J) /\ names J (e_tmp E) = None /\ seen_at J (target d) (Some (File (e_mode E) new))) /\
  (removes d reverse -> names I (target d) <> None -> names I (target d) <> Some EDir ->
     exists seen J, patch_links E patch reverse I = (Val tt, seen, J) /\ names J (target d) = None) /\
  (forall c, creates d reverse c -> exists seen J, patch_links E patch reverse I = (Val tt, seen, J) /\
     (names I (target d) = None -> seen_at J (target d) (Some (File (e_mode E) c)))).
Proof. exact p_C99_calm. Qed.
Print Assumptions C99_calm.

(* Where there are no links, a run is the run of Model_Files.v through states that look the same. *)
Theorem C99_linkless : forall E patch reverse I f o w, wellformed I -> linkless I -> looks_like I f -> patch_main E patch reverse (start f) = (o, w) ->
  exists seen J, patch_links E patch reverse I = (o, seen, J) /\ linkless J /\ looks_like J (w_fs w) /\
    Forall2 looks_like (I :: seen) (w_seen w) /\ Forall linkless seen.
Proof. exact p_C99_linkless. Qed.
Print Assumptions C99_linkless.

(* through the links: A is patched (by Q), removed, D is added; F is read through G *)
Example C99_example :
  seen_at linked (bs "Q") (Some (File rw (saved diff_ab))) /\ seen_at linked (bs "A") (Some (File rwx (bs "x y "))) /\ seen_at linked (bs "D") None /\
  (exists seen J, patch_links (calm_env true) (bs "Q") false linked = (Val tt, seen, J) /\ names J (bs "A") = Some (EFile 5) /\ nodes J 5 = (rw, bs "x z w ") /\
     seen_at J (bs "G") (Some (File rwx (bs "x y "))) /\ 10 <= length seen) /\
  (exists seen J, patch_links (calm_env true) (bs "R") false linked = (Val tt, seen, J) /\ names J (bs "A") = None /\ seen_at J (bs "F") (Some (File rwx (bs "x y ")))) /\
  (exists seen J, patch_links (calm_env true) (bs "S") false linked = (Val tt, seen, J) /\ names J (bs "D") = Some (ELink (bs "X")) /\ seen_at J (bs "X") None) /\
  (exists I, wellformed I /\ linkless I /\ looks_like I (files [(bs "A", bs "x y "); (bs "P", saved diff_ab)])).
Proof. exact e_C99_example. Qed.

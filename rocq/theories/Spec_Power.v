(* Spec_Power.v - what may be found on the disk after a power failure.

   This is about the system and not about the code in /repo, which never asks for anything to be
   put on the disk (no sync_all or sync_data in pw_patch/src/main.rs).  The states a run goes
   through are those other programs see; the disk follows later.  Names are written in the order
   in which they were changed (as journals do), contents of files when the system likes. *)
From Verif Require Import Base Model_Files Model_Links.

(* The names are those of some moment [G] of the history [h]; a file that was the same all the
   time is the same, any other has its mode but may have any content. *)
Definition torn (h : list ifs) (K : ifs) : Prop :=
  exists G, In G h /\ (forall p, names K p = names G p) /\ used K = used G /\
    forall n, fst (nodes K n) = fst (nodes G n) /\ ((forall X, In X h -> nodes X n = nodes G n) -> nodes K n = nodes G n).
(* A more careful system: a name is written after the contents that were there when it was given;
   every file has the content of the moment of the names or of a later one. *)
Definition ordered (h : list ifs) (K : ifs) : Prop :=
  exists h1 G h2, h = h1 ++ G :: h2 /\ (forall p, names K p = names G p) /\ used K = used G /\
    forall n, exists X, In X (G :: h2) /\ nodes K n = nodes X n.

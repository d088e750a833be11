(* Spec_Open.v - the vocabulary for several runs at the same time with open files. *)
From Verif Require Import Base Model_Seq Model_Changes Model_IO Model_Text Model_Bytes Model_Json Model_Files Model_Conc Model_Links Model_Open Spec Spec_Files Spec_Conc Spec_Links.

(* the run before its first operation *)
Definition started (j : job) : orun := patch_run (j_env j) (j_patch j) (j_reverse j).
(* the name [p] is that of a file with this content *)
Definition file_at (I : ifs) (p : path) (d : list byte) : Prop := exists n, names I p = Some (EFile n) /\ snd (nodes I n) = d.

(* Runs of any kind - to change, create or remove files.  The patch files hold the diffs; no
   target is a symbolic link or holds a patch; the names of the temporary files are different and
   nothing else's. *)
Definition assorted (I : ifs) (js : list job) : Prop :=
  wellformed I /\
  Forall (fun j => (exists s, file_at I (j_patch j) s /\ diff_from_json s = Ok (Some (j_diff j))) /\
                   (forall q, names I (target (j_diff j)) <> Some (ELink q))) js /\
  NoDup (temps js) /\
  (forall p, In p (temps js) -> ~ In p (targets js) /\ ~ In p (patches js)) /\
  (forall p, In p (targets js) -> ~ In p (patches js)).

(* [grown I js p is d]: [d] is what the changes among the jobs [is] (numbers, the last one first,
   each at most once) make, one after the other and each completely, of what [p] held at the start or of a
   beginning of what one of the jobs creates there *)
Inductive grown (I : ifs) (js : list job) (p : path) : list nat -> list byte -> Prop :=
| grown_start d : file_at I p d -> grown I js p [] d
| grown_new i j c d rest : nth_error js i = Some j -> target (j_diff j) = p -> creation j c -> c = d ++ rest -> grown I js p [i] d
| grown_change is old i j new : grown I js p is old -> ~ In i is -> nth_error js i = Some j -> target (j_diff j) = p ->
    patches_to (e_dbg (j_env j)) (j_reverse j) (j_diff j) old new -> grown I js p (i :: is) new.
(* the same names and files *)
Definition alike (I J : ifs) : Prop := used I = used J /\ (forall p, names I p = names J p) /\ forall n, nodes I n = nodes J n.

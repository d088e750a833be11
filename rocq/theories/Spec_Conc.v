(* Spec_Conc.v - the vocabulary for several runs of the patch tool at the same time. *)
From Verif Require Import Base Model_Seq Model_Changes Model_IO Model_Text Model_Bytes Model_Json Model_Files Model_Conc Spec Spec_Files.

(* a run of the patch tool: its environment, the patch file, the direction, the diff in the file *)
Record job := Job { j_env : env; j_patch : path; j_reverse : bool; j_diff : diff }.
(* the run before its first operation *)
Definition begun (j : job) : process := patch_process (j_env j) (j_patch j) (j_reverse j).
Definition targets (js : list job) : list path := map (fun j => target (j_diff j)) js.
Definition temps (js : list job) : list path := map (fun j => e_tmp (j_env j)) js.
Definition patches (js : list job) : list path := map j_patch js.

(* The patch files hold the diffs, which are changes of files; no patch file is the target of
   another patch; the names of the temporary files are different and nothing else's. *)
Definition orderly (f : fs) (js : list job) : Prop :=
  Forall (fun j => holds_diff f (j_patch j) (j_diff j) /\ is_change (j_diff j)) js /\
  NoDup (temps js) /\
  (forall p, In p (temps js) -> ~ In p (targets js) /\ ~ In p (patches js)) /\
  (forall p, In p (targets js) -> ~ In p (patches js)).

(* what the run is meant to do, if it is not to change a file *)
Definition removal (j : job) : Prop := removes (j_diff j) (j_reverse j).
Definition creation (j : job) (c : list byte) : Prop := creates (j_diff j) (j_reverse j) c.
(* As [orderly], but the runs may also remove files. *)
Definition mixed (f : fs) (js : list job) : Prop :=
  Forall (fun j => holds_diff f (j_patch j) (j_diff j) /\ (is_change (j_diff j) \/ removal j)) js /\
  NoDup (temps js) /\
  (forall p, In p (temps js) -> ~ In p (targets js) /\ ~ In p (patches js)) /\
  (forall p, In p (targets js) -> ~ In p (patches js)).
(* All of the runs are to create the file [p], which holds none of the patches. *)
Definition rivals (f : fs) (js : list job) (p : path) : Prop :=
  Forall (fun j => holds_diff f (j_patch j) (j_diff j) /\ target (j_diff j) = p /\ exists c, creation j c) js /\
  ~ In p (patches js).

(* All of them are to remove it. *)
Definition removers (f : fs) (js : list job) (p : path) : Prop :=
  Forall (fun j => holds_diff f (j_patch j) (j_diff j) /\ target (j_diff j) = p /\ removal j) js /\
  ~ In p (patches js).

(* What the path [p] holds after the jobs [is] (numbers, the last one first, each at most once)
   have been carried out on it completely, one after the other, on what [f] has there. *)
Inductive after_jobs (f : fs) (js : list job) (p : path) : list nat -> option node -> Prop :=
| aj_none : after_jobs f js p [] (f p)
| aj_job is m old i j new : after_jobs f js p is (Some (File m old)) -> ~ In i is ->
    nth_error js i = Some j -> target (j_diff j) = p -> patches_to (e_dbg (j_env j)) (j_reverse j) (j_diff j) old new ->
    after_jobs f js p (i :: is) (Some (File (e_mode (j_env j)) new)).

(* Spec_Blind.v - the vocabulary for what the programs look at. *)
From Verif Require Import Base Model_Seq Model_Changes Model_IO Model_Text Model_Bytes Model_Json Model_Files.

(* what can be seen of a path without changing anything *)
Inductive sight := Absent | Closed | Directory | Open (data : list byte).
Definition view (f : fs) (p : path) : sight :=
  match f p with
  | None => Absent
  | Some Dir => Directory
  | Some (File mode data) => if N.testbit mode 8 then Open data else Closed
  end.
(* at every moment of two runs, the paths that were the same at the beginning are the same *)
Definition keeps_pace (f g : fs) (seen seen' : list fs) : Prop :=
  Forall2 (fun h h' : fs => forall p, f p = g p -> h p = h' p) seen seen'.

(* Spec_Without.v - a patch without the hunks that were rejected (used by C138). *)
From Verif Require Import Base Model_Seq Model_Changes Model_IO Model_Text Spec Spec_Outcome.

(* the hunks that were not rejected, and their fates *)
Fixpoint accepted (hs : list (hunk line)) (fates : list fate) : list (hunk line) :=
  match hs, fates with
  | _ :: hs', Rejected :: fates' => accepted hs' fates'
  | h :: hs', _ :: fates' => h :: accepted hs' fates'
  | _, _ => []
  end.
Fixpoint without_rejected (fates : list fate) : list fate :=
  match fates with
  | Rejected :: fates' => without_rejected fates'
  | f :: fates' => f :: without_rejected fates'
  | [] => []
  end.
(* the old lines were found where they were expected: the hunk was moved no further than the one before it *)
Definition as_expected (offset : Z) (f : fate) : Prop := exists fuzzy w, f = Placed fuzzy offset w.
Definition carried (offset : Z) (f : fate) : Z :=
  match f with Placed _ shift _ | Seen _ shift _ => shift | _ => offset end.
(* a hunk followed by a rejected one was found where expected, or was rejected itself *)
Fixpoint steady (offset : Z) (fates : list fate) : Prop :=
  match fates with
  | f :: (Rejected :: _) as rest => (f = Rejected \/ as_expected offset f) /\ steady (carried offset f) rest
  | f :: rest => steady (carried offset f) rest
  | [] => True
  end.
(* the last of the hunks was found where expected *)
Fixpoint ends_as_expected (offset : Z) (fates : list fate) : Prop :=
  match fates with
  | [] => True
  | [f] => as_expected offset f
  | f :: rest => ends_as_expected (carried offset f) rest
  end.

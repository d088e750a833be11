(* Spec_Links.v - the vocabulary for file systems with links. *)
From Verif Require Import Base Model_Seq Model_Changes Model_IO Model_Text Model_Bytes Model_Json Model_Files Model_Links Spec Spec_Files.

(* [p] leads to [q] through any number (at most [k]) of symbolic links; [q] is none *)
Inductive leads_to (I : ifs) : nat -> path -> path -> Prop :=
| lt_here k p : (forall q, names I p <> Some (ELink q)) -> leads_to I k p p
| lt_link k p q r : names I p = Some (ELink q) -> leads_to I k q r -> leads_to I (S k) p r.
(* what a program sees that opens [p] *)
Inductive seen_at (I : ifs) (p : path) : option node -> Prop :=
| sa_file q n m d : leads_to I 40 p q -> names I q = Some (EFile n) -> nodes I n = (m, d) -> seen_at I p (Some (File m d))
| sa_dir q : leads_to I 40 p q -> names I q = Some EDir -> seen_at I p (Some Dir)
| sa_none q : leads_to I 40 p q -> names I q = None -> seen_at I p None
| sa_loop : (forall q, ~ leads_to I 40 p q) -> seen_at I p None.

(* names refer to files there have been *)
Definition wellformed (I : ifs) : Prop := forall p n, names I p = Some (EFile n) -> n < used I.
(* no links of either kind *)
Definition linkless (I : ifs) : Prop :=
  (forall p q, names I p <> Some (ELink q)) /\ (forall p q n, names I p = Some (EFile n) -> names I q = Some (EFile n) -> p = q).
(* the file system without links that looks the same *)
Definition looks_like (I : ifs) (f : fs) : Prop := forall p, seen_at I p (f p).

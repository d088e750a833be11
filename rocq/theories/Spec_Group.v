(* Spec_Group.v - the vocabulary for clumps made with different numbers of context items. *)
From Verif Require Import Base Model_Seq Model_Changes Spec.

(* the clump [c] covers nothing that [c'] does not cover, in either sequence *)
Definition covered (c c' : clump) : Prop := exists i j n m i' j' n' m',
  tiles i j c n m /\ tiles i' j' c' n' m' /\ i' <= i /\ n <= n' /\ j' <= j /\ m <= m'.
(* [c'] has the changes of the clumps [cs], in order, and covers each of them *)
Definition gathers (cs : list clump) (c' : clump) : Prop :=
  cs <> [] /\ List.concat (map (filter real) cs) = filter real c' /\ forall c, In c cs -> covered c c'.
(* the clumps [fine], divided into consecutive groups, give the clumps [coarse] *)
Definition grouped (fine coarse : list clump) : Prop :=
  exists groups, List.concat groups = fine /\ Forall2 gathers groups coarse.
(* everything the clump [h] of a patch covers is covered by [h'], on both sides *)
Definition within {T} (h h' : hunk T) : Prop :=
  h_b h' <= h_b h /\ h_b h + length (h_old h) <= h_b h' + length (h_old h') /\
  h_a h' <= h_a h /\ h_a h + length (h_new h) <= h_a h' + length (h_new h').
(* the same for patches: consecutive groups of [fine] lie within the clumps of [coarse] *)
Definition merged {T} (fine coarse : list (hunk T)) : Prop :=
  exists groups, List.concat groups = fine /\ Forall2 (fun g h' => g <> [] /\ forall h, In h g -> within h h') groups coarse.

(* Spec_Edit.v - the vocabulary for sequences edited in one place. *)
From Verif Require Import Base Model_Seq Model_Changes Model_Text Model_Bytes Spec.

(* [p ++ y ++ s] edited in one place: [y] is replaced by [x].  The items of each exist nowhere in the other *)
Definition fresh_edit {T} (p y x s : list T) : Prop :=
  (forall v, In v y -> ~ In v (p ++ x ++ s)) /\ (forall v, In v x -> ~ In v (p ++ y ++ s)) /\ (y <> [] \/ x <> []).
(* [s] is in [p ++ s] only at its end *)
Definition only_at_end {T} (p s : list T) : Prop := forall pre post, p ++ s = pre ++ s ++ post -> pre = p.
(* the change list of such an edit that consists of one change and the unchanged rest *)
Definition one_change (np ny nx ns : nat) : list change :=
  (if 0 <? np then [NoChange (CS 0 0 np)] else []) ++
  (match ny, nx with
   | 0, _ => Insert np (Range np (np + nx))
   | _, 0 => Delete (Range np (np + ny)) np
   | _, _ => Replace (Range np (np + ny)) (Range np (np + nx))
   end) ::
  (if 0 <? ns then [NoChange (CS (np + ny) (np + nx) ns)] else []).
(* the changes of a change list without the unchanged rest *)
Definition real_changes (cs : list change) : list change := filter (fun c => match c with NoChange _ => false | _ => true end) cs.
(* what the two have in common is in the same order in both: no item of the one equals two of the other, and none has moved *)
Definition in_order {T} (b a : list T) : Prop :=
  forall i j i' j', same_at b a i j -> same_at b a i' j' -> (i < i' /\ j < j') \/ (i' < i /\ j' < j) \/ (i = i' /\ j = j').

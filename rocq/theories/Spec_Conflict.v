(* Spec_Conflict.v - how a text with conflicts is read (used by C135). *)
From Verif Require Import Base Model_Seq Model_Changes Model_IO Model_Text Spec Spec_Outcome Spec_Result.

Definition unmarked (l : line) : Prop := ~ In l marks.
(* [conflicted text conflicts rest]: read line by line, the text has these conflicts (old and new
   lines) in it, and the other lines are [rest] *)
Inductive conflicted : list line -> list (list line * list line) -> list line -> Prop :=
| conflicted_end : conflicted [] [] []
| conflicted_line l ls cs rest : unmarked l -> conflicted ls cs rest -> conflicted (l :: ls) cs (l :: rest)
| conflicted_conflict old new ls cs rest : Forall unmarked old -> Forall unmarked new -> conflicted ls cs rest ->
    conflicted (mark x3c :: old ++ mark x3d :: new ++ mark x3e :: ls) ((old, new) :: cs) rest.

(* old and new lines of the hunks that were rejected *)
Fixpoint rejected (hs : list (hunk line)) (fates : list fate) : list (list line * list line) :=
  match hs, fates with
  | h :: hs', Rejected :: fates' => (h_old h, h_new h) :: rejected hs' fates'
  | _ :: hs', _ :: fates' => rejected hs' fates'
  | _, _ => []
  end.
(* what the other hunks make of the target from the line [from] on *)
Fixpoint settled (target : list line) (from : nat) (hs : list (hunk line)) (fates : list fate) : list line :=
  match hs, fates with
  | h :: hs', Placed _ shift w :: fates' =>
      sub target from (kept_from (h_b h) shift w) ++ written h w ++
      settled target (Nat.max from (kept_from (h_b h) shift w) + kept_count (h_old h) w) hs' fates'
  | h :: hs', Seen _ shift w :: fates' =>
      let upto := kept_from (h_a h) shift w + kept_count (h_new h) w in
      sub target from upto ++ settled target (Nat.max from upto) hs' fates'
  | _ :: hs', _ :: fates' => settled target from hs' fates'
  | _, _ => skipn from target
  end.
(* the lines are whole lines, and none of them looks like a mark *)
Definition clear (ls : list line) : Prop := Forall full_line ls /\ Forall unmarked ls.

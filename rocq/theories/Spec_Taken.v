(* Spec_Taken.v - which lines a patch takes out of a text (used by C139). *)
From Verif Require Import Base Model_Seq Model_Changes Model_IO Model_Text Spec Spec_Outcome.

(* [edited t rs out]: [out] is [t] with the pieces [rs], in this order, replaced, and nothing else changed *)
Inductive edited {T} : list T -> list (list T * list T) -> list T -> Prop :=
| edited_end : edited [] [] []
| edited_keep x t rs out : edited t rs out -> edited (x :: t) rs (x :: out)
| edited_replace old new t rs out : edited t rs out -> edited (old ++ t) ((old, new) :: rs) (new ++ out).

(* the old lines of a hunk that were looked for, without the context that was given up *)
Definition matched (h : hunk line) (w : will) : list line := sub (h_old h) (cut_lead w) (length (h_old h) - cut_trail w).
(* the lines found and what was written for them, hunk by hunk *)
Fixpoint replacements (hs : list (hunk line)) (fates : list fate) : list (list line * list line) :=
  match hs, fates with
  | h :: hs', Placed _ _ w :: fates' => (matched h w, written h w) :: replacements hs' fates'
  | _ :: hs', _ :: fates' => replacements hs' fates'
  | _, _ => []
  end.
(* no hunk was found in a part of the text that had been dealt with before *)
Fixpoint apart (from : nat) (hs : list (hunk line)) (fates : list fate) : Prop :=
  match hs, fates with
  | h :: hs', Placed _ shift w :: fates' =>
      from <= kept_from (h_b h) shift w /\ apart (kept_from (h_b h) shift w + kept_count (h_old h) w) hs' fates'
  | h :: hs', Seen _ shift w :: fates' => apart (Nat.max from (kept_from (h_a h) shift w + kept_count (h_new h) w)) hs' fates'
  | _ :: hs', _ :: fates' => apart from hs' fates'
  | _, _ => True
  end.
(* the old items of a hunk begin behind the old items, or behind the old and new items, of every earlier hunk *)
Fixpoint behind_old {T} (hs : list (hunk T)) : Prop :=
  match hs with
  | [] => True
  | h :: rest => Forall (fun g => h_b h + length (h_old h) <= h_b g) rest /\ behind_old rest
  end.
Fixpoint behind_both {T} (hs : list (hunk T)) : Prop :=
  match hs with
  | [] => True
  | h :: rest => Forall (fun g => h_b h + length (h_old h) <= h_b g /\ h_a h + length (h_new h) <= h_b g) rest /\ behind_both rest
  end.

(* bytes: a hunk is replaced if its old bytes are at their place, kept if its new ones are *)
Definition byte_replacements (target : list byte) (hs : list (hunk byte)) : list (list byte * list byte) :=
  map (fun h => (h_old h, h_new h)) (filter (fun h => matches_at target (h_old h) (h_b h)) hs).
Fixpoint byte_apart (target : list byte) (from : nat) (hs : list (hunk byte)) : Prop :=
  match hs with
  | [] => True
  | h :: rest =>
      if matches_at target (h_old h) (h_b h) then from <= h_b h /\ byte_apart target (h_b h + length (h_old h)) rest
      else if matches_at target (h_new h) (h_a h) then byte_apart target (Nat.max from (h_a h + length (h_new h))) rest
      else byte_apart target from rest
  end.

(* Spec_Commute.v - two patches of one text, applied one after the other (used by C95). *)
From Verif Require Import Base Model_Seq Spec.

(* The hunks of two patches of one text, each with the patch it belongs to. *)
Definition part (t : bool) (both : list (bool * hunk line)) : list (hunk line) :=
  map snd (filter (fun x => Bool.eqb (fst x) t) both).
(* The hunks are given in the order of their places in the text, from line [from] on, and do not
   overlap, context included. *)
Fixpoint apart (from : nat) (both : list (bool * hunk line)) : Prop :=
  match both with
  | [] => True
  | (_, h) :: rest => from <= h_b h /\ apart (h_b h + length (h_old h)) rest
  end.
(* Seen from patch [t], the other one adds little: [added] lines between the previous hunk of t
   (or the start of the text) and this one.  If lines are added at all, there must be fewer of
   them than lie between the lines this hunk changes and the next hunk of t, plus twice the
   leading context; the last hunk must have context. *)
Fixpoint little (t : bool) (added : Z) (both : list (bool * hunk line)) : Prop :=
  match both with
  | [] => True
  | (t', h) :: rest =>
      if Bool.eqb t' t then
        ((added <= 0)%Z \/
         match part t rest with
         | n :: _ => (Z.of_nat (h_b h) + added + core_length h < Z.of_nat (h_b n) + Z.of_nat (h_lead h))%Z
         | [] => 0 < h_lead h + h_trail h
         end) /\ little t 0 rest
      else little t (added + zlen (h_new h) - zlen (h_old h)) rest
  end.

(* Spec_Outcome.v - what applying a patch does to an arbitrary target, told without
   reference to the functions of the model (used by C73 - C76). *)
From Verif Require Import Base Model_Seq Model_Changes Model_IO Model_Text Model_Bytes Spec.

(* how many leading and trailing context lines are left out *)
Definition cut_lead (w : will) : nat := match w with Cleanly => 0 | WithReductions (r, _) => Z.to_nat r end.
Definition cut_trail (w : will) : nat := match w with Cleanly => 0 | WithReductions (_, s) => Z.to_nat s end.
Definition reduced (w : will) : bool := match w with Cleanly => false | WithReductions _ => true end.

(* What becomes of a hunk: its old lines are found and replaced ([Placed]) or its new lines are
   found and kept ([Seen]), with the hunk displaced by [shift] in all and trimmed as [w] says;
   [fuzzy] tells whether it counts as a fuzzy match.  Otherwise it is [Rejected], or the search
   for it does not get started because of a subtraction below zero ([Underflow]). *)
Inductive fate :=
| Placed (fuzzy : bool) (shift : Z) (w : will)
| Seen (fuzzy : bool) (shift : Z) (w : will)
| Rejected
| Underflow.

(* the debug build cannot compute the limit of the search *)
Definition underflows (h : hunk line) (target : list line) (next : option (hunk line)) (offset : Z) : Prop :=
  (match next with Some n => 0 <= Z.of_nat (h_b n) + offset + Z.of_nat (h_lead h) | None => True end /\
   search_limit h target next offset < 0)%Z.

(* Tried in this order: old lines where expected; old lines nearby; new lines where expected;
   new lines nearby.  [from]: lines of the target already dealt with. *)
Section Fate.
  Variable dbg : bool.
  Variable target : list line.
  Variables (h : hunk line) (next : option (hunk line)) (from : nat) (offset : Z).
  Let h' := swap_hunk h.
  Let next' := option_map swap_hunk next.
  Let old_pos := (Z.of_nat (h_b h) + offset)%Z.
  Let new_pos := (Z.of_nat (h_a h) + offset)%Z.
  Definition searchable (g : hunk line) (n : option (hunk line)) : Prop := dbg = true -> ~ underflows g target n offset.
  Definition old_nearby := nearest h target old_pos (Z.of_nat from) (search_limit h target next offset).
  Definition new_nearby := nearest h' target new_pos (Z.of_nat from) (search_limit h' target next' offset).
  Inductive fate_of : fate -> Prop :=
  | fate_here w : decision h target old_pos (Some w) -> fate_of (Placed (reduced w) offset w)
  | fate_near d w : decision h target old_pos None -> searchable h next -> old_nearby (Some (d, w)) ->
      fate_of (Placed true (offset + d) w)
  | fate_underflow : decision h target old_pos None -> ~ searchable h next -> fate_of Underflow
  | fate_seen w : decision h target old_pos None -> searchable h next -> old_nearby None ->
      decision h' target new_pos (Some w) -> fate_of (Seen (reduced w) offset w)
  | fate_seen_near d w : decision h target old_pos None -> searchable h next -> old_nearby None ->
      decision h' target new_pos None -> searchable h' next' -> new_nearby (Some (d, w)) ->
      fate_of (Seen true (offset + d) w)
  | fate_seen_underflow : decision h target old_pos None -> searchable h next -> old_nearby None ->
      decision h' target new_pos None -> ~ searchable h' next' -> fate_of Underflow
  | fate_rejected : decision h target old_pos None -> searchable h next -> old_nearby None ->
      decision h' target new_pos None -> searchable h' next' -> new_nearby None -> fate_of Rejected.
End Fate.

(* where the lines of a hunk that are not cut off begin, and how many there are *)
Definition kept_from (start : nat) (shift : Z) (w : will) : nat := Z.to_nat (Z.of_nat start + shift + Z.of_nat (cut_lead w)).
Definition kept_count {T} (items : list T) (w : will) : nat := length items - cut_lead w - cut_trail w.

(* what is written in place of the old lines (see C26 for the displaced window) *)
Definition writable (h : hunk line) (w : will) : Prop := w = Cleanly \/ h_a h <= cut_trail w.
Definition written (h : hunk line) (w : will) : list line :=
  match w with
  | Cleanly => h_new h
  | WithReductions _ => sub (h_new h) (h_a h + cut_lead w) (h_a h + length (h_new h) - cut_trail w)
  end.

(* [outcome dbg target from offset hs r out]: applying the hunks [hs] when the first [from]
   lines of the target have been dealt with and earlier hunks were displaced by [offset] writes
   [out] and ends with the given fates, or ([None]) with a panic. *)
Inductive outcome (dbg : bool) (target : list line) : nat -> Z -> list (hunk line) -> option (list fate) -> list byte -> Prop :=
| outcome_end from offset : from <= length target ->
    outcome dbg target from offset [] (Some []) (concat (skipn from target))
| outcome_beyond from offset : length target < from -> outcome dbg target from offset [] None []
| outcome_placed from offset h rest fuzzy shift w r out :
    fate_of dbg target h (hd_error rest) from offset (Placed fuzzy shift w) -> writable h w ->
    outcome dbg target (Nat.max from (kept_from (h_b h) shift w) + kept_count (h_old h) w) shift rest r out ->
    outcome dbg target from offset (h :: rest) (option_map (cons (Placed fuzzy shift w)) r)
      (concat (sub target from (kept_from (h_b h) shift w)) ++ concat (written h w) ++ out)
| outcome_unwritable from offset h rest fuzzy shift w :
    fate_of dbg target h (hd_error rest) from offset (Placed fuzzy shift w) -> ~ writable h w ->
    outcome dbg target from offset (h :: rest) None (concat (sub target from (kept_from (h_b h) shift w)))
| outcome_seen from offset h rest fuzzy shift w r out :
    fate_of dbg target h (hd_error rest) from offset (Seen fuzzy shift w) ->
    outcome dbg target (Nat.max from (kept_from (h_a h) shift w + kept_count (h_new h) w)) shift rest r out ->
    outcome dbg target from offset (h :: rest) (option_map (cons (Seen fuzzy shift w)) r)
      (concat (sub target from (kept_from (h_a h) shift w + kept_count (h_new h) w)) ++ out)
| outcome_rejected from offset h rest r out :
    fate_of dbg target h (hd_error rest) from offset Rejected ->
    outcome dbg target from offset rest r out ->
    outcome dbg target from offset (h :: rest) (option_map (cons Rejected) r) (conflict_block h ++ out)
| outcome_underflow from offset h rest :
    fate_of dbg target h (hd_error rest) from offset Underflow ->
    outcome dbg target from offset (h :: rest) None [].

(* the statistics that go with a list of fates *)
Definition how_many (p : fate -> bool) (l : list fate) : nat := length (filter p l).
Definition tally (l : list fate) : statistics :=
  Stats (how_many (fun f => match f with Placed false _ _ => true | _ => false end) l)
        (how_many (fun f => match f with Placed true _ _ => true | _ => false end) l)
        (how_many (fun f => match f with Seen false _ _ => true | _ => false end) l)
        (how_many (fun f => match f with Seen true _ _ => true | _ => false end) l)
        (how_many (fun f => match f with Rejected => true | _ => false end) l).

(* The already-applied query: the new lines of every hunk must be found, where expected or
   nearby (from the start of the target on), each displacement carrying over to the hunks
   that follow.  [None]: panic. *)
Inductive all_seen (dbg : bool) (target : list line) : Z -> list (hunk line) -> option bool -> Prop :=
| all_seen_nil offset : all_seen dbg target offset [] (Some true)
| all_seen_here offset h rest w r :
    decision (swap_hunk h) target (Z.of_nat (h_a h) + offset) (Some w) ->
    all_seen dbg target offset rest r -> all_seen dbg target offset (h :: rest) r
| all_seen_near offset h rest d w r :
    decision (swap_hunk h) target (Z.of_nat (h_a h) + offset) None ->
    searchable dbg target offset (swap_hunk h) (option_map swap_hunk (hd_error rest)) ->
    new_nearby target h (hd_error rest) 0 offset (Some (d, w)) ->
    all_seen dbg target (offset + d) rest r -> all_seen dbg target offset (h :: rest) r
| all_seen_not offset h rest :
    decision (swap_hunk h) target (Z.of_nat (h_a h) + offset) None ->
    searchable dbg target offset (swap_hunk h) (option_map swap_hunk (hd_error rest)) ->
    new_nearby target h (hd_error rest) 0 offset None ->
    all_seen dbg target offset (h :: rest) (Some false)
| all_seen_underflow offset h rest :
    decision (swap_hunk h) target (Z.of_nat (h_a h) + offset) None ->
    ~ searchable dbg target offset (swap_hunk h) (option_map swap_hunk (hd_error rest)) ->
    all_seen dbg target offset (h :: rest) None.

(* all old (new) lines of the hunks together are in memory *)
Definition lines_fit (hs : list (hunk line)) : Prop :=
  (24 * Z.of_nat (fold_right (fun h n => length (h_old h) + length (h_new h) + n) 0 hs)%nat < two63)%Z.

(* what is seen of a run that writes [out] and ends in [r] when the writer has only so much room *)
Definition delivered {A} (r : ores A) (out : list byte) (w : writer) : ores A * writer :=
  match w_room w with
  | None => (r, Writer (w_out w ++ out) None)
  | Some n => if length out <=? n then (r, Writer (w_out w ++ out) (Some (n - length out)))
              else (IoErr, Writer (w_out w ++ firstn n out) (Some 0))
  end.

(* ---------------- bytes ---------------- *)
(* What applying a byte patch writes, and whether it ends normally: each hunk is replaced if its
   old bytes are at their place, kept if its new bytes are, and ignored otherwise; if more bytes
   of the target were passed over than there are, writing the rest panics. *)
Fixpoint byte_outcome (target : list byte) (from : nat) (hs : list (hunk byte)) : bool * list byte :=
  match hs with
  | [] => (from <=? length target, skipn from target)
  | h :: rest =>
      if matches_at target (h_old h) (h_b h) then
        let (ok, out) := byte_outcome target (Nat.max from (h_b h) + length (h_old h)) rest in
        (ok, sub target from (h_b h) ++ h_new h ++ out)
      else if matches_at target (h_new h) (h_a h) then
        let (ok, out) := byte_outcome target (Nat.max from (h_a h + length (h_new h))) rest in
        (ok, sub target from (h_a h + length (h_new h)) ++ out)
      else byte_outcome target from rest
  end.
(* all bytes together are in memory *)
Definition bytes_fit (target : list byte) (hs : list (hunk byte)) : Prop :=
  (Z.of_nat (length target + fold_right (fun h n => length (h_old h) + length (h_new h) + n) 0 hs)%nat < two64)%Z.

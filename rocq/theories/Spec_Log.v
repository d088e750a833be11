(* Spec_Log.v - what the messages about clumps should say (used by C83 - C85). *)
From Verif Require Import Base Model_Seq Model_Changes Model_IO Model_Text Model_Bytes Model_Json Model_Files Model_Log Spec Spec_Outcome.

(* The true fates of the first hunks, as many as there are in the list: [from] lines of the
   target are dealt with, earlier hunks were displaced by [offset]. *)
Inductive fates (dbg : bool) (target : list line) : nat -> Z -> list (hunk line) -> list fate -> Prop :=
| fates_stop from offset hs : fates dbg target from offset hs []
| fates_placed from offset h rest fuzzy shift w l :
    fate_of dbg target h (hd_error rest) from offset (Placed fuzzy shift w) ->
    fates dbg target (Nat.max from (kept_from (h_b h) shift w) + kept_count (h_old h) w) shift rest l ->
    fates dbg target from offset (h :: rest) (Placed fuzzy shift w :: l)
| fates_seen from offset h rest fuzzy shift w l :
    fate_of dbg target h (hd_error rest) from offset (Seen fuzzy shift w) ->
    fates dbg target (Nat.max from (kept_from (h_a h) shift w + kept_count (h_new h) w)) shift rest l ->
    fates dbg target from offset (h :: rest) (Seen fuzzy shift w :: l)
| fates_rejected from offset h rest l :
    fate_of dbg target h (hd_error rest) from offset Rejected ->
    fates dbg target from offset rest l ->
    fates dbg target from offset (h :: rest) (Rejected :: l).

(* The report on the hunk with the given number: what happened to it, the lines left out if any,
   and how far it was displaced against its predecessor if at all. *)
Definition left_out (w : will) : option (Z * Z) :=
  if reduced w then Some (Z.of_nat (cut_lead w), Z.of_nat (cut_trail w)) else None.
Definition displaced (offset shift : Z) : option Z := if (shift =? offset)%Z then None else Some (shift - offset)%Z.
Definition report (number : nat) (offset : Z) (f : fate) : event :=
  match f with
  | Placed fuzzy shift w => Event Library (if fuzzy then Warn else Info) (AboutClump number Applies (left_out w) (displaced offset shift))
  | Seen _ shift w => Event Library Warn (AboutClump number AlreadyApplied (left_out w) (displaced offset shift))
  | _ => Event Library Error (AboutClump number NotApplied None None)
  end.
(* one report for each hunk, numbered from [number] + 1 *)
Fixpoint reports (number : nat) (offset : Z) (l : list fate) : list event :=
  match l with
  | [] => []
  | f :: l' => report (S number) offset f ::
      reports (S number) (match f with Placed _ s _ | Seen _ s _ => s | _ => offset end) l'
  end.

(* the same for byte hunks *)
Definition byte_report (target : list byte) (number : nat) (h : hunk byte) : event :=
  if matches_at target (h_old h) (h_b h) then Event Library Info (AboutClump number Applies None None)
  else if matches_at target (h_new h) (h_a h) then Event Library Warn (AboutClump number AlreadyApplied None None)
  else Event Library Error (AboutClump number NotApplied None None).
Fixpoint byte_reports (target : list byte) (number : nat) (hs : list (hunk byte)) : list event :=
  match hs with
  | [] => []
  | h :: rest => byte_report target (S number) h :: byte_reports target (S number) rest
  end.

(* The messages of the already-applied query on text, clumps numbered from [number] + 1, and its
   answer ([None]: panic); the places looked at are those of [all_seen]. *)
Inductive all_reported (dbg : bool) (target : list line) : nat -> Z -> list (hunk line) -> list event -> option bool -> Prop :=
| reported_end number offset : all_reported dbg target number offset [] [] (Some true)
| reported_here number offset h rest w ev r :
    decision (swap_hunk h) target (Z.of_nat (h_a h) + offset) (Some w) ->
    all_reported dbg target (S number) offset rest ev r ->
    all_reported dbg target number offset (h :: rest)
      (Event Library (if reduced w then Warn else Info) (AboutClump (S number) AlreadyApplied (left_out w) None) :: ev) r
| reported_near number offset h rest d w ev r :
    decision (swap_hunk h) target (Z.of_nat (h_a h) + offset) None ->
    searchable dbg target offset (swap_hunk h) (option_map swap_hunk (hd_error rest)) ->
    new_nearby target h (hd_error rest) 0 offset (Some (d, w)) ->
    all_reported dbg target (S number) (offset + d) rest ev r ->
    all_reported dbg target number offset (h :: rest)
      (Event Library Warn (AboutClump (S number) AlreadyApplied (left_out w) (Some d)) :: ev) r
| reported_not number offset h rest :
    decision (swap_hunk h) target (Z.of_nat (h_a h) + offset) None ->
    searchable dbg target offset (swap_hunk h) (option_map swap_hunk (hd_error rest)) ->
    new_nearby target h (hd_error rest) 0 offset None ->
    all_reported dbg target number offset (h :: rest)
      [Event Library Error (AboutClump (S number) NotAlreadyApplied None None)] (Some false)
| reported_underflow number offset h rest :
    decision (swap_hunk h) target (Z.of_nat (h_a h) + offset) None ->
    ~ searchable dbg target offset (swap_hunk h) (option_map swap_hunk (hd_error rest)) ->
    all_reported dbg target number offset (h :: rest) [] None.

Definition is_error (e : event) : bool := match ev_level e with Error => true | _ => false end.

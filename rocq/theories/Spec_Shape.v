(* Spec_Shape.v - the vocabulary for how a diff depends on its inputs. *)
From Verif Require Import Base Model_Seq Model_Changes Model_Text Model_Bytes Spec.

(* two pairs of sequences with equal items at the same pairs of positions *)
Definition same_pattern {T U} (b a : list T) (b' a' : list U) : Prop :=
  length b = length b' /\ length a = length a' /\ forall x y, same_at b a x y <-> same_at b' a' x y.

(* a change seen from the other side *)
Definition swap_range_change (c : change) : change :=
  match c with
  | NoChange m => NoChange (CS (cs_a m) (cs_b m) (cs_n m))
  | Delete r p => Insert p r
  | Insert p r => Delete r p
  | Replace rb ra => Replace ra rb
  end.

(* the only longest common block inside the ranges *)
Definition only_longest {T} (b a : list T) (br ar : range) (x y n : nat) : Prop :=
  0 < n /\ block_in b a br ar x y n /\
  (forall x' y' n', block_in b a br ar x' y' n' -> n' < n \/ (n' = n /\ x' = x /\ y' = y)).
(* at no step of choosing blocks (see [blocks_of]) there are two to choose from *)
Inductive untied {T} (b a : list T) : range -> range -> Prop :=
| untied_none br ar : (forall x y, inside br x 1 -> inside ar y 1 -> ~ same_at b a x y) -> untied b a br ar
| untied_some br ar x y n e :
    only_longest b a br ar x y n -> run_of b a br ar (x + n + 1) (y + n + 1) e ->
    untied b a (Range (r_start br) x) (Range (r_start ar) y) ->
    untied b a (Range (x + n + e) (r_end br)) (Range (y + n + e) (r_end ar)) ->
    untied b a br ar.

(* a common subsequence, as pairs of positions *)
Definition common_seq {T} (b a : list T) (ps : list (nat * nat)) : Prop :=
  StronglySorted (fun p q => fst p < fst q /\ snd p < snd q) ps /\ Forall (fun p => same_at b a (fst p) (snd p)) ps.
(* how many items a change list reports as unchanged *)
Definition kept_items (cs : list change) : nat :=
  list_sum (map (fun c => match c with NoChange m => cs_n m | _ => 0 end) cs).
(* two pairs of positions that are not both in one common subsequence *)
Definition crossing (i j i' j' : nat) : Prop := (i <= i' /\ j' <= j) \/ (i' <= i /\ j <= j').

(* the pair (i, j) is reported as unchanged and lies [context] or more items away from every change:
   [context] or more items of its block are on each side of it where a change follows *)
Definition beyond_context (context : nat) (cs : list change) (i j : nat) : Prop :=
  exists pre m post p, cs = pre ++ NoChange m :: post /\ p < cs_n m /\ i = cs_b m + p /\ j = cs_a m + p /\
    (pre = [] \/ context <= p) /\ (post = [] \/ p + context < cs_n m).
(* what patching [b] gives: the items of [a], except for those of [b] beyond the context *)
Definition result_of {T} (context : nat) (cs : list change) (b a out : list T) : Prop :=
  length out = length a /\
  (forall i j, beyond_context context cs i j -> nth_error out j = nth_error b i) /\
  (forall j, (forall i, ~ beyond_context context cs i j) -> nth_error out j = nth_error a j).

(* [l] divided into two lists, each in the order of [l] *)
Inductive parts {A} : list A -> list A -> list A -> Prop :=
| parts_nil : parts [] [] []
| parts_first x l c r : parts l c r -> parts (x :: l) (x :: c) r
| parts_second x l c r : parts l c r -> parts (x :: l) c (x :: r).
(* the same for hunks, where those of the first list leave the hunks of the second list where they
   are: they put in as many items as they take out, or come after all hunks of the second list *)
Inductive steady_parts {T} : list (hunk T) -> list (hunk T) -> list (hunk T) -> Prop :=
| steady_rest l : steady_parts l l []
| steady_first h l c r : length (h_old h) = length (h_new h) -> steady_parts l c r -> steady_parts (h :: l) (h :: c) r
| steady_second h l c r : steady_parts l c r -> steady_parts (h :: l) c (h :: r).

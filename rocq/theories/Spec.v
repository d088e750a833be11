(* Spec.v - the vocabulary in which the properties are stated.  It mentions the data
   types of the model (ranges, changes, clumps, snippets) but none of its functions. *)
From Verif Require Import Base Model_Seq Model_Changes Model_Text Model_Bytes Model_IO Model_Json.

(* A sequence item type with a lawful equality test (String and u8 in the code). *)
Definition lawful {T} (eqb : T -> T -> bool) : Prop := forall x y, eqb x y = true <-> x = y.

(* ---------------- lines ---------------- *)
(* a line: non-empty, newline at most at its end *)
Definition is_line (l : line) : Prop :=
  exists body, ~ In newline body /\ (l = body ++ [newline] \/ (l = body /\ body <> [])).
Definition ends_in_newline (l : line) : Prop := exists body, l = body ++ [newline].
(* the unique decomposition of a text into lines *)
Definition lines_of (content : list byte) (ls : list line) : Prop :=
  concat ls = content /\ Forall is_line ls /\
  (forall pre l post, ls = pre ++ l :: post -> post <> [] -> ends_in_newline l).

(* ---------------- UTF-8 ---------------- *)
(* Unicode scalar values and their UTF-8 encoding form (Unicode 3.9, table 3-6) *)
Definition scalar (c : N) : Prop := (c < 55296 \/ (57344 <= c /\ c < 1114112))%N.
Definition utf8_encode (c : N) : list N :=
  (if c <? 128 then [c]
   else if c <? 2048 then [192 + c / 64; 128 + c mod 64]
   else if c <? 65536 then [224 + c / 4096; 128 + c / 64 mod 64; 128 + c mod 64]
   else [240 + c / 262144; 128 + c / 4096 mod 64; 128 + c / 64 mod 64; 128 + c mod 64])%N.
Definition is_utf8 (s : list byte) : Prop :=
  exists cs, Forall scalar cs /\ map Byte.to_N s = concat (map utf8_encode cs).

(* ---------------- indices ---------------- *)
(* [o] is the complete ascending list of positions of [x] in [s] *)
Definition index_spec {T} (s : list T) (x : T) (o : option (list nat)) : Prop :=
  match o with
  | Some ps => ps <> [] /\ StronglySorted lt ps /\ (forall p, In p ps <-> nth_error s p = Some x)
  | None => ~ In x s
  end.

(* ---------------- common blocks ---------------- *)
(* position x of [b] and position y of [a] exist and hold the same item *)
Definition same_at {T} (b a : list T) (x y : nat) : Prop :=
  exists v, nth_error b x = Some v /\ nth_error a y = Some v.
Definition differ_at {T} (b a : list T) (x y : nat) : Prop :=
  exists v w, nth_error b x = Some v /\ nth_error a y = Some w /\ v <> w.
(* b[x..x+n] = a[y..y+n] item by item *)
Definition common_block {T} (b a : list T) (x y n : nat) : Prop :=
  forall t, t < n -> same_at b a (x + t) (y + t).
(* positions x..x+n lie inside the range *)
Definition inside (r : range) (x n : nat) : Prop := r_start r <= x /\ x + n <= r_end r.
Definition in_bounds {T} (s : list T) (r : range) : Prop := r_start r <= r_end r /\ r_end r <= length s.
(* a common block of b and a inside the two ranges *)
Definition block_in {T} (b a : list T) (br ar : range) (x y n : nat) : Prop :=
  inside br x n /\ inside ar y n /\ common_block b a x y n.
(* nowhere does a single differing pair sit between two equal pairs on a diagonal *)
Definition no_isolated_mismatch {T} (b a : list T) : Prop :=
  forall x y, ~ (same_at b a x y /\ differ_at b a (S x) (S y) /\ same_at b a (S (S x)) (S (S y))).

(* equal item by item except for single differing pairs, never the first of the block, each
   directly between two equal pairs *)
Definition nearly_common {T} (b a : list T) (x y n : nat) : Prop :=
  forall t, t < n -> same_at b a (x + t) (y + t) \/
    (differ_at b a (x + t) (y + t) /\ 0 < t /\
     same_at b a (x + (t - 1)) (y + (t - 1)) /\ same_at b a (x + S t) (y + S t)).

(* ---------------- change lists ---------------- *)
(* before/after extents of a change *)
Definition b_from (c : change) : nat :=
  match c with NoChange m => cs_b m | Delete r _ => r_start r | Insert p _ => p | Replace r _ => r_start r end.
Definition b_to (c : change) : nat :=
  match c with NoChange m => cs_b m + cs_n m | Delete r _ => r_end r | Insert p _ => p | Replace r _ => r_end r end.
Definition a_from (c : change) : nat :=
  match c with NoChange m => cs_a m | Delete _ p => p | Insert _ r => r_start r | Replace _ r => r_start r end.
Definition a_to (c : change) : nat :=
  match c with NoChange m => cs_a m + cs_n m | Delete _ p => p | Insert _ r => r_end r | Replace _ r => r_end r end.

(* the changes follow each other without gap or overlap from (i,j) to (n,m) *)
Inductive tiles : nat -> nat -> list change -> nat -> nat -> Prop :=
| tiles_nil i j : tiles i j [] i j
| tiles_cons i j c cs n m :
    b_from c = i -> a_from c = j -> tiles (b_to c) (a_to c) cs n m -> tiles i j (c :: cs) n m.

Definition real (c : change) : bool := match c with NoChange _ => false | _ => true end.
(* every change does what its name says to at least one item *)
Definition non_empty (c : change) : Prop :=
  match c with
  | NoChange m => 0 < cs_n m
  | Delete r _ => r_start r < r_end r
  | Insert _ r => r_start r < r_end r
  | Replace rb ra => r_start rb < r_end rb /\ r_start ra < r_end ra
  end.
(* unchanged blocks and real changes take turns *)
Definition alternating (cs : list change) : Prop :=
  forall pre x y post, cs = pre ++ x :: y :: post -> real x <> real y.
(* every block reported unchanged is unchanged *)
Definition faithful {T} (b a : list T) (cs : list change) : Prop :=
  forall m, In (NoChange m) cs -> common_block b a (cs_b m) (cs_a m) (cs_n m).

(* ---------------- which blocks are chosen ---------------- *)
(* the longest common block inside the ranges; of several the one first in after, then in before *)
Definition first_longest {T} (b a : list T) (br ar : range) (x y n : nat) : Prop :=
  0 < n /\ block_in b a br ar x y n /\
  (forall x' y' n', block_in b a br ar x' y' n' -> n' < n \/ (n' = n /\ (y < y' \/ (y = y' /\ x <= x')))).
(* exactly e equal pairs follow each other from (x,y) on inside the ranges *)
Definition run_of {T} (b a : list T) (br ar : range) (x y e : nat) : Prop :=
  (forall t, t < e -> x + t < r_end br /\ y + t < r_end ar /\ same_at b a (x + t) (y + t)) /\
  ~ (x + e < r_end br /\ y + e < r_end ar /\ same_at b a (x + e) (y + e)).
(* The blocks of two ranges, in order: none if they share no item; otherwise the first longest
   common block together with as many further pairs as there are equal pairs after the first
   differing one, and the blocks of what lies before and after it. *)
Inductive blocks_of {T} (b a : list T) : range -> range -> list common -> Prop :=
| blocks_none br ar : (forall x y, inside br x 1 -> inside ar y 1 -> ~ same_at b a x y) -> blocks_of b a br ar []
| blocks_some br ar x y n e left right :
    first_longest b a br ar x y n -> run_of b a br ar (x + n + 1) (y + n + 1) e ->
    blocks_of b a (Range (r_start br) x) (Range (r_start ar) y) left ->
    blocks_of b a (Range (x + n + e) (r_end br)) (Range (y + n + e) (r_end ar)) right ->
    blocks_of b a br ar (left ++ CS x y (n + e) :: right).
(* the pair of positions (i,j) lies in one of the blocks *)
Definition paired (l : list common) (i j : nat) : Prop :=
  exists m p, In m l /\ p < cs_n m /\ i = cs_b m + p /\ j = cs_a m + p.
(* the pair of positions (i,j) is reported as unchanged *)
Definition reported_same (cs : list change) (i j : nat) : Prop :=
  exists m p, In (NoChange m) cs /\ p < cs_n m /\ i = cs_b m + p /\ j = cs_a m + p.
(* a change list as C09 describes it *)
Definition proper (n m : nat) (cs : list change) : Prop :=
  tiles 0 0 cs n m /\ alternating cs /\ Forall non_empty cs.

(* lexicographic order of blocks: before start, then after start, then length *)
Definition block_le (x y : common) : Prop :=
  cs_b x < cs_b y \/ (cs_b x = cs_b y /\ (cs_a x < cs_a y \/ (cs_a x = cs_a y /\ cs_n x <= cs_n y))).

(* the change list for a sequence of n items found at y in one of m items, and vice versa *)
Definition after_extra (n y m : nat) : list change :=
  (if 0 <? y then [Insert 0 (Range 0 y)] else []) ++ NoChange (CS 0 y n) ::
  (if y + n <? m then [Insert n (Range (y + n) m)] else []).
Definition before_extra (n x m : nat) : list change :=
  (if 0 <? x then [Delete (Range 0 x) 0] else []) ++ NoChange (CS x 0 n) ::
  (if x + n <? m then [Delete (Range (x + n) m) n] else []).

(* ---------------- clumps ---------------- *)
(* the first/last min(k, length) items of a block, on both sides *)
Definition first_items (k : nat) (m : common) : common := CS (cs_b m) (cs_a m) (Nat.min k (cs_n m)).
Definition last_items (k : nat) (m : common) : common :=
  CS (cs_b m + (cs_n m - k)) (cs_a m + (cs_n m - k)) (Nat.min k (cs_n m)).

(* a maximal run of close changes: starts and ends with a real change, and the unchanged
   blocks inside have fewer than 2*context items *)
Definition close_run (context : nat) (body : list change) : Prop :=
  (exists c tl, body = c :: tl /\ real c = true) /\
  (exists init c, body = init ++ [c] /\ real c = true) /\
  (forall m, In (NoChange m) body -> cs_n m < 2 * context).

Definition lead (context : nat) (p : option common) : list change :=
  match p with Some m => [NoChange (last_items context m)] | None => [] end.
Definition trail (context : nat) (p : option common) : list change :=
  match p with Some m => [NoChange (first_items context m)] | None => [] end.

(* [clumping context p cs clumps]: the clumps of the change list [cs] that follows the
   unchanged block [p] (if any): runs of close changes, separated by unchanged blocks of
   at least 2*context items, each with its surrounding context *)
Inductive clumping (context : nat) : option common -> list change -> list clump -> Prop :=
| clumping_done p : clumping context p [] []
| clumping_last p body q :
    close_run context body ->
    clumping context p (body ++ match q with Some m => [NoChange m] | None => [] end)
             [lead context p ++ body ++ trail context q]
| clumping_more p body m rest clumps :
    close_run context body -> rest <> [] -> 2 * context <= cs_n m ->
    clumping context (Some m) rest clumps ->
    clumping context p (body ++ NoChange m :: rest)
             ((lead context p ++ body ++ trail context (Some m)) :: clumps).

Definition clumps_of (context : nat) (cs : list change) (clumps : list clump) : Prop :=
  match cs with
  | NoChange m :: rest => clumping context (Some m) rest clumps
  | _ => clumping context None cs clumps
  end.

(* the d items from (i,j) lie inside one block reported unchanged *)
Definition unchanged (cs : list change) (i j d : nat) : Prop :=
  d = 0 \/ exists m p, In (NoChange m) cs /\ i = cs_b m + p /\ j = cs_a m + p /\ p + d <= cs_n m.

(* clumps in increasing order, each a gap-free run over both sequences, separated by
   unchanged stretches of equal length on both sides *)
Inductive spread (cs : list change) : nat -> nat -> list clump -> nat -> nat -> Prop :=
| spread_nil i j d : unchanged cs i j d -> spread cs i j [] (i + d) (j + d)
| spread_cons i j d c i' j' rest n m :
    unchanged cs i j d -> c <> [] -> tiles (i + d) (j + d) c i' j' ->
    spread cs i' j' rest n m -> spread cs i j (c :: rest) n m.

(* ---------------- patches ---------------- *)
(* items from..to of a sequence *)
Definition sub {T} (s : list T) (from to : nat) : list T := firstn (to - from) (skipn from s).

(* A clump of a patch: old items at position h_b of before, new items at position h_a of
   after, of which the first h_lead and last h_trail are context. *)
Record hunk (T : Type) := Hunk { h_lead : nat; h_trail : nat; h_b : nat; h_old : list T; h_a : nat; h_new : list T }.
Arguments Hunk {T} _ _ _ _ _ _.
Arguments h_lead {T} _. Arguments h_trail {T} _. Arguments h_b {T} _. Arguments h_old {T} _. Arguments h_a {T} _. Arguments h_new {T} _.

Definition text_of_hunk (h : hunk line) : text_clump :=
  TextClump (Z.of_nat (h_lead h), Z.of_nat (h_trail h)) (Snippet (Z.of_nat (h_b h)) (h_old h)) (Snippet (Z.of_nat (h_a h)) (h_new h)).
Definition byte_of_hunk (h : hunk byte) : byte_clump :=
  ByteClump (Z.of_nat (h_lead h), Z.of_nat (h_trail h)) (Snippet (Z.of_nat (h_b h)) (h_old h)) (Snippet (Z.of_nat (h_a h)) (h_new h)).
Definition swap_hunk {T} (h : hunk T) : hunk T := Hunk (h_lead h) (h_trail h) (h_a h) (h_new h) (h_b h) (h_old h).

(* [cover context gap b a i j hs]: the hunks hs describe b from i on and a from j on:
   each hunk holds the exact items of both sequences between its positions, its context
   fits and is at most [context]; between hunks lie stretches of the same length d at
   (i,j) satisfying [gap i j d].  Missing context means file start/end (or context 0). *)
Inductive cover {T} (context : nat) (gap : nat -> nat -> nat -> Prop) (b a : list T) : nat -> nat -> list (hunk T) -> Prop :=
| cover_nil i j d : gap i j d -> i + d = length b -> j + d = length a -> cover context gap b a i j []
| cover_cons i j d i' j' l t rest :
    gap i j d ->
    i + d + l + t <= i' -> i' <= length b -> j + d + l + t <= j' -> j' <= length a ->
    (i + d + l + t < i' \/ j + d + l + t < j') ->
    l <= context -> t <= context ->
    (l = 0 -> context = 0 \/ (i + d = 0 /\ j + d = 0)) ->
    (t = 0 -> context = 0 \/ (i' = length b /\ j' = length a)) ->
    cover context gap b a i' j' rest ->
    cover context gap b a i j (Hunk l t (i + d) (sub b (i + d) i') (j + d) (sub a (j + d) j') :: rest).

(* the d items from i of b and from j of a are the same *)
Definition equal_gap {T} (b a : list T) (i j d : nat) : Prop := sub b i (i + d) = sub a j (j + d).

(* a clump with its two sides exchanged *)
Definition swap_clump (c : text_clump) : text_clump := TextClump (tc_context c) (tc_after c) (tc_before c).
Definition swap_bclump (c : byte_clump) : byte_clump := ByteClump (bc_context c) (bc_after c) (bc_before c).
(* the number of clumps accounted for *)
Definition stats_total (s : statistics) : nat :=
  st_clean s + st_fuzzy s + st_already s + st_already_fuzzy s + st_failed s.

(* ---------------- sizes ---------------- *)
(* Rust allocations have at most isize::MAX bytes and a String takes 24 bytes, so every
   Box<[String]> satisfies this on a 64-bit machine (and every Box<[u8]> the second). *)
Definition fits_lines (s : list line) : Prop := (24 * zlen s < two63)%Z.
Definition fits_bytes (s : list byte) : Prop := (zlen s < two63)%Z.
Definition two61 : Z := 2305843009213693952.

(* a hunk whose context fits in its items and whose positions are far from the limits of
   the machine word; all hunks of a diff of [fits_lines] texts are such *)
Definition hunk_ok {T} (h : hunk T) : Prop :=
  h_lead h + h_trail h <= length (h_old h) /\ h_lead h + h_trail h <= length (h_new h) /\
  h_lead h <= 255 /\ h_trail h <= 255 /\
  (Z.of_nat (h_b h + length (h_old h)) < two61)%Z /\ (Z.of_nat (h_a h + length (h_new h)) < two61)%Z.

(* ---------------- where text occurs ---------------- *)
Definition occurs_at {T} (target items : list T) (pos : Z) : Prop :=
  exists p, pos = Z.of_nat p /\ p + length items <= length target /\ sub target p (p + length items) = items.

(* the old lines of a hunk without the first min(k,lead) and the last min(k,trail) ones *)
Definition trimmed {T} (h : hunk T) (k : nat) : list T :=
  sub (h_old h) (Nat.min k (h_lead h)) (length (h_old h) - Nat.min k (h_trail h)).
Definition occurs_trimmed {T} (h : hunk T) (target : list T) (pos : Z) (k : nat) : Prop :=
  occurs_at target (trimmed h k) (pos + Z.of_nat (Nat.min k (h_lead h)))%Z.

(* how the hunk fits the target when its first line is placed at [pos] *)
Inductive decision (h : hunk line) (target : list line) (pos : Z) : option will -> Prop :=
| decide_cleanly : occurs_at target (h_old h) pos -> decision h target pos (Some Cleanly)
| decide_reduced k :
    ~ occurs_at target (h_old h) pos -> 1 <= k -> k < Nat.max (h_lead h) (h_trail h) ->
    occurs_trimmed h target pos k ->
    (forall k', 1 <= k' -> k' < k -> ~ occurs_trimmed h target pos k') ->
    decision h target pos (Some (WithReductions (Z.of_nat (Nat.min k (h_lead h)), Z.of_nat (Nat.min k (h_trail h)))))
| decide_none :
    ~ occurs_at target (h_old h) pos ->
    (forall k, 1 <= k -> k < Nat.max (h_lead h) (h_trail h) -> ~ occurs_trimmed h target pos k) ->
    decision h target pos None.

(* ---------------- the nearby search ---------------- *)
(* displacements d of a hunk expected at [expected]: backward while not before [lowest],
   forward while before [limit] *)
Definition in_window (expected lowest limit d : Z) : Prop :=
  (d < 0 /\ lowest <= expected + d)%Z \/ (0 < d /\ expected + d < limit)%Z.

(* the nearest displacement in the window at which the hunk fits, backward first *)
Inductive nearest (h : hunk line) (target : list line) (expected lowest limit : Z) : option (Z * will) -> Prop :=
| nearest_found d w :
    in_window expected lowest limit d ->
    decision h target (expected + d) (Some w) ->
    (forall e, in_window expected lowest limit e -> (Z.abs e < Z.abs d \/ (e = - d /\ e < 0))%Z ->
       decision h target (expected + e) None) ->
    nearest h target expected lowest limit (Some (d, w))
| nearest_none :
    (forall e, in_window expected lowest limit e -> decision h target (expected + e) None) ->
    nearest h target expected lowest limit None.

(* the lines of a hunk that are not context *)
Definition core_length {T} (h : hunk T) : Z := zlen (h_old h) - Z.of_nat (h_lead h) - Z.of_nat (h_trail h).
(* the limit of the forward search: the next hunk's expected position (after as many lines
   as this hunk has leading context), or the end of the target, less the core length *)
Definition search_limit (h : hunk line) (target : list line) (next : option (hunk line)) (offset : Z) : Z :=
  match next with
  | Some n => Z.of_nat (h_b n) + offset + Z.of_nat (h_lead h) - core_length h
  | None => zlen target - core_length h
  end.

(* ---------------- the patched text ---------------- *)
(* target from [from] on, with the old items of every hunk replaced by the new ones *)
Fixpoint patched {T} (target : list T) (from : nat) (hs : list (hunk T)) : list T :=
  match hs with
  | [] => skipn from target
  | h :: rest => sub target from (h_b h) ++ h_new h ++ patched target (h_b h + length (h_old h)) rest
  end.

(* hunks in order: each starts at or after the end of the one before it *)
Fixpoint ordered {T} (hs : list (hunk T)) : Prop :=
  match hs with
  | [] => True
  | h :: rest => match rest with [] => True | n :: _ => h_b h + length (h_old h) <= h_b n /\ h_a h + length (h_new h) <= h_a n end /\ ordered rest
  end.

(* the hunk fits the target somewhere, possibly with trimmed context *)
Definition admissible {T} (h : hunk T) (k : nat) : Prop := k = 0 \/ k < Nat.max (h_lead h) (h_trail h).
Definition fits_somewhere {T} (h : hunk T) (target : list T) : Prop :=
  exists pos k, admissible h k /\ occurs_trimmed h target pos k.

(* what is inserted for a hunk that could not be placed *)
Definition conflict_block (h : hunk line) : list byte :=
  repeat x3c 7 ++ [newline] ++ concat (h_old h) ++
  repeat x3d 7 ++ [newline] ++ concat (h_new h) ++
  repeat x3e 7 ++ [newline].

(* [rendered shown target from hs out]: [out] is target from [from] on where each hunk is
   either placed - the trimmed old lines found at or after the current position are
   replaced by [shown h k] - or has a conflict block inserted; all else is copied. *)
Inductive rendered (shown : hunk line -> nat -> list line) (target : list line) : nat -> list (hunk line) -> list byte -> Prop :=
| rendered_end from : from <= length target -> rendered shown target from [] (concat (skipn from target))
| rendered_placed from h k p rest out :
    admissible h k -> from <= p -> p + length (trimmed h k) <= length target ->
    sub target p (p + length (trimmed h k)) = trimmed h k ->
    rendered shown target (p + length (trimmed h k)) rest out ->
    rendered shown target from (h :: rest) (concat (sub target from p) ++ concat (shown h k) ++ out)
| rendered_conflict from h rest out :
    rendered shown target from rest out ->
    rendered shown target from (h :: rest) (conflict_block h ++ out).

(* the new lines of a hunk trimmed like the old ones *)
Definition trimmed_new (h : hunk line) (k : nat) : list line := trimmed (swap_hunk h) k.
(* the lines the code writes for a hunk placed with its context reduced by k > 0: the
   window is taken at positions of the after file instead of positions in the clump *)
Definition shown_window (h : hunk line) (k : nat) : list line :=
  match k with
  | O => h_new h
  | S _ => sub (h_new h) (h_a h + Nat.min k (h_lead h)) (h_a h + length (h_new h) - Nat.min k (h_trail h))
  end.

(* Conditions under which applying is shown not to panic: wherever the hunk fits only with
   its context reduced by k > 0, the reduction reaches the hunk's position in the after file
   (so always with context <= 1 or at the start of the file); the hunk is nowhere seen as
   already applied; and, for the overflow checks of a debug build, it does not move towards
   the start of the file and its changed lines are no more than the target has. *)
Definition calm (dbg : bool) (target : list line) (h : hunk line) : Prop :=
  (forall pos k, 1 <= k -> admissible h k -> occurs_trimmed h target pos k -> h_a h <= Nat.min k (h_trail h)) /\
  ~ fits_somewhere (swap_hunk h) target /\
  (dbg = true -> h_b h <= h_a h /\ (core_length h <= zlen target)%Z /\ (core_length (swap_hunk h) <= zlen target)%Z).

(* ---------------- applying byte patches ---------------- *)
(* the items are found at a position inside the target *)
Definition matches_at (target items : list byte) (p : nat) : bool :=
  (p <? length target) && list_eqb Byte.eqb (sub target p (p + length items)) items.

(* ---------------- patches from anywhere ---------------- *)
(* What Rust's types and memory guarantee of any list of text clumps: context lengths are u8,
   positions are usize, and all lines are in memory. *)
Definition clump_lines (c : text_clump) : Z := zlen (sn_items (tc_before c)) + zlen (sn_items (tc_after c)).
Definition patch_fits (clumps : list text_clump) : Prop :=
  Forall (fun c => (0 <= fst (tc_context c) <= 255 /\ 0 <= snd (tc_context c) <= 255 /\
                    0 <= sn_start (tc_before c) < two64 /\ 0 <= sn_start (tc_after c) < two64)%Z) clumps /\
  (24 * fold_right (fun c n => clump_lines c + n) 0 clumps < two63)%Z.
(* the search of [will_apply_nearby] up to [not_after] comes to an end within n rounds *)
Definition search_ends_within (n : nat) (dbg : bool) (c : text_clump) (target : list line)
    (consumed not_after offset : Z) (reverse : bool) : Prop :=
  nearby_loop dbg n c target consumed not_after offset reverse 1 false false <> OutOfFuel.

(* ---------------- saved diffs ---------------- *)
(* What Rust's types guarantee of any diff (u8, usize, String), and that its paths are Unicode. *)
Definition is_u8 (z : Z) : Prop := (0 <= z <= 255)%Z.
Definition is_usize (z : Z) : Prop := (0 <= z < two64)%Z.
Definition valid_context (c : Z * Z) : Prop := is_u8 (fst c) /\ is_u8 (snd c).
Definition valid_text_clump (c : text_clump) : Prop :=
  valid_context (tc_context c) /\ is_usize (sn_start (tc_before c)) /\ is_usize (sn_start (tc_after c)) /\
  Forall is_utf8 (sn_items (tc_before c)) /\ Forall is_utf8 (sn_items (tc_after c)).
Definition valid_byte_clump (c : byte_clump) : Prop :=
  valid_context (bc_context c) /\ is_usize (sn_start (bc_before c)) /\ is_usize (sn_start (bc_after c)).
Definition diff_paths (d : diff) : list path :=
  match d with
  | TextChange d => [td_before d; td_after d]
  | TextAdd p | TextRemove p => [pl_path p]
  | ByteChange d => [bd_before d; bd_after d]
  | ByteAdd p | ByteRemove p => [pb_path p]
  end.
Definition valid_content (d : diff) : Prop :=
  match d with
  | TextChange d => Forall valid_text_clump (td_clumps d)
  | TextAdd p | TextRemove p => Forall is_utf8 (pl_lines p)
  | ByteChange d => Forall valid_byte_clump (bd_clumps d)
  | ByteAdd _ | ByteRemove _ => True
  end.
Definition valid_diff (d : diff) : Prop := Forall is_utf8 (diff_paths d) /\ valid_content d.
(* space, tab, line feed, carriage return *)
Definition json_blank (s : list byte) : Prop := Forall (fun b => In b [x20; x09; x0a; x0d]) s.

(* Properties_Outcome.v - the property theorems and a concrete case beside each; proofs are in
   Proof_Props_Outcome.v.  Generated by tools/mkthms.py. *)
From Coq Require Import String.
From Verif Require Import Proof_Props_Outcome Base Model_Seq Model_Changes Model_IO Model_Text Model_Bytes Model_Snippet Spec Spec_Outcome Cases Proof_Seq Proof_Changes Proof_Clumps Proof_IO Proof_Diff Proof_Arith Proof_Text Proof_Nearby Proof_Apply Proof_Fuzzy Proof_Bytes Proof_Outcome.

(* ------------------------------------------------------------------ C73 *)
(* C73: for every patch (not only generated ones) and every text, [outcome] names exactly one
   result, and applying the patch has that result: the bytes written, the statistics, or the
   panic and what was written before it; a writer that runs full gets a prefix of it. *)
Theorem C73_outcome : forall dbg hs target, Forall hunk_ok hs -> lines_fit hs -> fits_lines target ->
  exists r out, outcome dbg target 0 0 hs r out /\
    (forall r' out', outcome dbg target 0 0 hs r' out' -> r' = r /\ out' = out) /\
    (forall w, text_apply_into dbg (map text_of_hunk hs) target false w =
               delivered (match r with Some l => Done (tally l) | None => Panicked end) out w).
Proof. exact p_C73_outcome. Qed.
Print Assumptions C73_outcome.

Theorem C73_outcome_reverse : forall dbg hs target, Forall hunk_ok hs -> lines_fit hs -> fits_lines target ->
  exists r out, outcome dbg target 0 0 (map swap_hunk hs) r out /\
    (forall r' out', outcome dbg target 0 0 (map swap_hunk hs) r' out' -> r' = r /\ out' = out) /\
    (forall w, text_apply_into dbg (map text_of_hunk hs) target true w =
               delivered (match r with Some l => Done (tally l) | None => Panicked end) out w).
Proof. exact p_C73_outcome_reverse. Qed.
Print Assumptions C73_outcome_reverse.

(* a displaced hunk, one that is already there, and one that fits nowhere *)
Example C73_example :
  let hs := [Hunk 1 1 0 (L "A B C ") 0 (L "A X C "); Hunk 1 1 4 (L "E F G ") 4 (L "E Y G "); Hunk 0 0 9 (L "P ") 9 (L "Q ")] in
  let target := L "Z A B C D E Y G H " in
  Forall hunk_ok hs /\ lines_fit hs /\ fits_lines target /\
  exists l, outcome true target 0 0 hs (Some l) (bs "Z A X C D E Y G <<<<<<< P ======= Q >>>>>>> H ") /\ tally l = Stats 0 1 1 0 1.
Proof. exact e_C73_example. Qed.

(* ------------------------------------------------------------------ C74 *)
(* C74: the already-applied query answers exactly what [all_seen] says, for every patch and
   text, panics included. *)
Theorem C74_query : forall dbg hs target, Forall hunk_ok hs -> fits_lines target ->
  exists r, all_seen dbg target 0 hs r /\ (forall r', all_seen dbg target 0 hs r' -> r' = r) /\
    text_is_already_applied dbg (map text_of_hunk hs) target false = match r with Some b => Ok b | None => Panic end.
Proof. exact p_C74_query. Qed.
Print Assumptions C74_query.

Theorem C74_query_reverse : forall dbg hs target, Forall hunk_ok hs -> fits_lines target ->
  exists r, all_seen dbg target 0 (map swap_hunk hs) r /\ (forall r', all_seen dbg target 0 (map swap_hunk hs) r' -> r' = r) /\
    text_is_already_applied dbg (map text_of_hunk hs) target true = match r with Some b => Ok b | None => Panic end.
Proof. exact p_C74_query_reverse. Qed.
Print Assumptions C74_query_reverse.

Example C74_example :
  let hs := [Hunk 1 1 0 (L "A B C ") 0 (L "A X C "); Hunk 1 1 4 (L "E F G ") 4 (L "E Y G ")] in
  let target := L "Z A X C D E Y G H " in
  Forall hunk_ok hs /\ fits_lines target /\ all_seen true target 0 hs (Some true) /\
  all_seen true target 0 (map swap_hunk hs) (Some false).
Proof. exact e_C74_example. Qed.

(* ------------------------------------------------------------------ C75 *)
(* C75: applying any byte patch to any bytes does what [byte_outcome] says, and nothing else. *)
Theorem C75_byte_outcome : forall dbg hs target, bytes_fit target hs ->
  (forall w, byte_apply_into dbg (map byte_of_hunk hs) target false w =
     let (ok, out) := byte_outcome target 0 hs in delivered (if ok then Done tt else Panicked) out w) /\
  (forall w, byte_apply_into dbg (map byte_of_hunk hs) target true w =
     let (ok, out) := byte_outcome target 0 (map swap_hunk hs) in delivered (if ok then Done tt else Panicked) out w).
Proof. exact p_C75_byte_outcome. Qed.
Print Assumptions C75_byte_outcome.

(* The second hunk overlaps the first and both are found: more bytes are passed over than there are. *)
Theorem C75_overlap_panics : exists hs target, bytes_fit target hs /\ forall dbg,
  byte_apply_into dbg (map byte_of_hunk hs) target false sink = (Panicked, Writer (bs "xyxy") None).
Proof. exact p_C75_overlap_panics. Qed.
Print Assumptions C75_overlap_panics.

Example C75_example :
  let hs := [Hunk 0 0 1 (bs "bc") 1 (bs "xyz"); Hunk 0 0 5 (bs "f") 6 (bs "g"); Hunk 0 0 3 (bs "q") 3 (bs "r")] in
  bytes_fit (bs "abcdefg") hs /\ byte_outcome (bs "abcdefg") 0 hs = (true, bs "axyzdegg") /\
  byte_outcome (bs "axyzdeg") 0 hs = (true, bs "axyzdeg").
Proof. exact e_C75_example. Qed.

(* C76: writing a snippet without its first [r0] and last [r1] items writes exactly the
   remaining ones, and panics having written nothing if there are fewer than r0 + r1. *)
Theorem C76_snippet_write_text : forall dbg (s : snippet line) r0 r1, (zlen (sn_items s) < two63)%Z -> r0 <= 255 -> r1 <= 255 ->
  (forall w, snippet_write_into write_lines dbg s None w = delivered (Done tt) (concat (sn_items s)) w) /\
  (r0 + r1 <= length (sn_items s) -> forall front back rest, sn_items s = front ++ rest ++ back -> length front = r0 -> length back = r1 ->
    forall w, snippet_write_into write_lines dbg s (Some (Z.of_nat r0, Z.of_nat r1)) w = delivered (Done tt) (concat rest) w) /\
  (length (sn_items s) < r0 + r1 -> forall w, snippet_write_into write_lines dbg s (Some (Z.of_nat r0, Z.of_nat r1)) w = delivered Panicked [] w).
Proof. exact p_C76_snippet_write_text. Qed.
Print Assumptions C76_snippet_write_text.

Theorem C76_snippet_write_bytes : forall dbg (s : snippet byte) r0 r1, (zlen (sn_items s) < two63)%Z -> r0 <= 255 -> r1 <= 255 ->
  (forall w, snippet_write_into write_all dbg s None w = delivered (Done tt) (sn_items s) w) /\
  (r0 + r1 <= length (sn_items s) -> forall front back rest, sn_items s = front ++ rest ++ back -> length front = r0 -> length back = r1 ->
    forall w, snippet_write_into write_all dbg s (Some (Z.of_nat r0, Z.of_nat r1)) w = delivered (Done tt) rest w) /\
  (length (sn_items s) < r0 + r1 -> forall w, snippet_write_into write_all dbg s (Some (Z.of_nat r0, Z.of_nat r1)) w = delivered Panicked [] w).
Proof. exact p_C76_snippet_write_bytes. Qed.
Print Assumptions C76_snippet_write_bytes.

Example C76_example :
  snippet_write_into write_lines true (Snippet 3 (L "A B C D ")) (Some (1, 2)%Z) sink = (Done tt, Writer (bs "B ") None) /\
  snippet_write_into write_lines false (Snippet 3 (L "A ")) (Some (0, 2)%Z) sink = (Panicked, Writer [] None).
Proof. exact e_C76_example. Qed.

(* ------------------------------------------------------------------ C77 *)
(* C77, full statement: the adjusted length is the number of items left after the reductions and
   the adjusted start the displaced position of the first of them, or there is a panic.  The
   length is wrong in a release build if there are too few items ... *)
Theorem C77_adjusted_refuted : exists (s : snippet line) l, snippet_adj_length false s (Some (1, 2)%Z) = Ok l /\ (l <> zlen (sn_items s) - 3)%Z /\ l = (two64 - 1)%Z.
Proof. exact p_C77_adjusted_refuted. Qed.
Print Assumptions C77_adjusted_refuted.

(* ... and the start if it leaves the machine word.  Otherwise both are right, and a debug build panics exactly when
   they cannot be. *)
Theorem C77_adjusted_partial : forall dbg {T} (s : snippet T) offset r0 r1,
  (zlen (sn_items s) < two63)%Z -> (0 <= sn_start s < two64)%Z -> (- two63 <= offset < two63)%Z -> (0 <= r0 <= 255)%Z -> (0 <= r1 <= 255)%Z ->
  let left := (zlen (sn_items s) - r0 - r1)%Z in
  let place := (sn_start s + offset)%Z in
  snippet_adj_length dbg s None = Ok (zlen (sn_items s)) /\
  snippet_adj_length dbg s (Some (r0, r1)) = (if (0 <=? left)%Z then Ok left else if dbg then Panic else Ok (two64 + left)%Z) /\
  snippet_adj_start dbg s offset None = (if (0 <=? place)%Z && (place <? two64)%Z then Ok place else Panic) /\
  snippet_adj_start dbg s offset (Some (r0, r1)) =
    (if (0 <=? place)%Z && (place <? two64)%Z then
       if (place + r0 <? two64)%Z then Ok (place + r0)%Z else if dbg then Panic else Ok (place + r0 - two64)%Z
     else Panic).
Proof. exact p_C77_adjusted_partial. Qed.
Print Assumptions C77_adjusted_partial.

(* The range of the items left, counted from the first item of the snippet. *)
Theorem C77_range : forall dbg {T} (s : snippet T) r0 r1, (zlen (sn_items s) < two63)%Z -> (0 <= r0 <= 255)%Z -> (0 <= r1 <= 255)%Z ->
  snippet_range dbg s None = Ok (0, zlen (sn_items s))%Z /\
  snippet_range dbg s (Some (r0, r1)) =
    (if (r1 <=? zlen (sn_items s))%Z then Ok (r0, zlen (sn_items s) - r1)%Z
     else if dbg then Panic else Ok (r0, two64 + zlen (sn_items s) - r1)%Z).
Proof. exact p_C77_range. Qed.
Print Assumptions C77_range.

Example C77_example :
  snippet_range true (Snippet 3 (L "A B C D ")) (Some (1, 2)%Z) = Ok (1, 2)%Z /\
  snippet_adj_length true (Snippet 3 (L "A B C D ")) (Some (1, 2)%Z) = Ok 1%Z /\
  snippet_adj_start true (Snippet 3 (L "A B C D ")) (-2) (Some (1, 2)%Z) = Ok 2%Z /\
  snippet_adj_start false (Snippet 3 (L "A B C D ")) (-4) (Some (1, 2)%Z) = Panic.
Proof. exact e_C77_example. Qed.

(* ------------------------------------------------------------------ C78 *)
(* C78: writing everything from a position on writes exactly that, and a position beyond the
   end is a panic with nothing written, in both builds. *)
Theorem C78_all_from : forall dbg from,
  (forall (s : list line) w, seq_write_into_all_from write_lines dbg s (Z.of_nat from) w =
     if from <=? length s then delivered (Done tt) (concat (skipn from s)) w else delivered Panicked [] w) /\
  (forall (s : list byte) w, seq_write_into_all_from write_all dbg s (Z.of_nat from) w =
     if from <=? length s then delivered (Done tt) (skipn from s) w else delivered Panicked [] w).
Proof. exact p_C78_all_from. Qed.
Print Assumptions C78_all_from.

Example C78_example :
  seq_write_into_all_from write_lines true (L "A B C ") 1 sink = (Done tt, Writer (bs "B C ") None) /\
  seq_write_into_all_from write_lines true (L "A B C ") 4 sink = (Panicked, Writer [] None).
Proof. exact e_C78_example. Qed.

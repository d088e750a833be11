(* Properties_Lines.v - the property theorems and a concrete case beside each; proofs are in
   Proof_Props_Lines.v.  Generated by tools/mkthms.py. *)
From Coq Require Import String.
From Verif Require Import Proof_Props_Lines Base Model_Seq Model_Changes Model_IO Model_Text Model_Bytes Spec Spec_Outcome Spec_Result Spec_Shape Cases Proof_Seq Proof_Changes Proof_Diff Proof_Text Proof_Bytes Proof_Shape Proof_Overlook Proof_Lines Proof_Apply Proof_Props_Gen Proof_Merge Proof_Props_Text Proof_Props_Outcome Proof_Props_Context Proof_Props_Select.

(* ------------------------------------------------------------------ C131 *)
(* C131, full statement: when every clump of a diff is applied or found applied, every line of the
   result is a line of the target or of the new text.  It is false: a diff that takes away the
   newline at the end of a text, applied cleanly to a text that goes on, makes one line of two. *)
Theorem C131_lines_refuted : exists before_text before after_text after target_text target clumps st out ls l,
  lines_of before_text before /\ lines_of after_text after /\ lines_of target_text target /\
  text_diff_clumps before after 3 = Ok clumps /\
  text_apply_into true clumps target false (Writer [] None) = (Done st, Writer out None) /\ st = Stats 1 0 0 0 0 /\
  lines_of out ls /\ In l ls /\ ~ In l target /\ ~ In l after.
Proof. exact p_C131_lines_refuted. Qed.
Print Assumptions C131_lines_refuted.

(* It is also false when all lines of the new text end in a newline but there is no context: a line
   to be added after the last one is put right behind a last line that has no newline. *)
Theorem C131_no_context_refuted : exists before_text before after_text after target_text target clumps st out ls l,
  lines_of before_text before /\ lines_of after_text after /\ Forall full_line before /\ Forall full_line after /\ before <> [] /\ lines_of target_text target /\
  text_diff_clumps before after 0 = Ok clumps /\
  text_apply_into true clumps target false (Writer [] None) = (Done st, Writer out None) /\ st = Stats 1 0 0 0 0 /\
  lines_of out ls /\ In l ls /\ ~ In l target /\ ~ In l after.
Proof. exact p_C131_no_context_refuted. Qed.
Print Assumptions C131_no_context_refuted.

(* Applied to the very text it was made for, a patch writes whole lines of the two texts, as many as
   the new text has, and the last of them is that of the new text: so the result ends in a newline
   exactly if the new text does.  The same backwards. *)
Theorem C131_own_text : forall dbg before_text before after_text after context clumps,
  lines_of before_text before -> lines_of after_text after -> context <= 255 -> fits_lines before -> fits_lines after ->
  text_diff_clumps before after context = Ok clumps ->
  (exists ls, text_apply_into dbg clumps before false (Writer [] None) = (Done (Stats (List.length clumps) 0 0 0 0), Writer (List.concat ls) None) /\
     lines_of (List.concat ls) ls /\ List.length ls = List.length after /\ (forall l, In l ls -> In l before \/ In l after) /\
     (forall j, S j = List.length after -> nth_error ls j = nth_error after j)) /\
  (exists ls, text_apply_into dbg clumps after true (Writer [] None) = (Done (Stats (List.length clumps) 0 0 0 0), Writer (List.concat ls) None) /\
     lines_of (List.concat ls) ls /\ List.length ls = List.length before /\ (forall l, In l ls -> In l after \/ In l before) /\
     (forall j, S j = List.length before -> nth_error ls j = nth_error before j)).
Proof. exact p_C131_own_text. Qed.
Print Assumptions C131_own_text.

(* Any patch and any target: the lines stay apart if every hunk has old lines and its new lines all
   end in newlines.  The last line of the target needs no newline. *)
Theorem C131_lines_partial : forall dbg hs target_text target st out, Forall hunk_ok hs -> lines_fit hs -> fits_lines target -> lines_of target_text target ->
  (Forall (fun h => h_old h <> [] /\ Forall full_line (h_new h)) hs ->
   text_apply_into dbg (map text_of_hunk hs) target false (Writer [] None) = (Done st, Writer out None) -> st_failed st = 0 ->
   exists ls, lines_of out ls /\ Forall (fun l => In l target \/ exists h, In h hs /\ In l (h_new h)) ls) /\
  (Forall (fun h => h_new h <> [] /\ Forall full_line (h_old h)) hs ->
   text_apply_into dbg (map text_of_hunk hs) target true (Writer [] None) = (Done st, Writer out None) -> st_failed st = 0 ->
   exists ls, lines_of out ls /\ Forall (fun l => In l target \/ exists h, In h hs /\ In l (h_old h)) ls).
Proof. exact p_C131_lines_partial. Qed.
Print Assumptions C131_lines_partial.

(* So the statement holds of a diff made with context, if the text that the patch leads away from is
   not empty and all lines of the text it leads to end in newlines. *)
Theorem C131_diff_partial : forall dbg before after context clumps target_text target st out,
  1 <= context <= 255 -> fits_lines (before ++ after) -> text_diff_clumps before after context = Ok clumps ->
  fits_lines target -> lines_of target_text target ->
  (before <> [] -> Forall full_line after ->
   text_apply_into dbg clumps target false (Writer [] None) = (Done st, Writer out None) -> st_failed st = 0 ->
   exists ls, lines_of out ls /\ Forall (fun l => In l target \/ In l after) ls) /\
  (after <> [] -> Forall full_line before ->
   text_apply_into dbg clumps target true (Writer [] None) = (Done st, Writer out None) -> st_failed st = 0 ->
   exists ls, lines_of out ls /\ Forall (fun l => In l target \/ In l before) ls).
Proof. exact p_C131_diff_partial. Qed.
Print Assumptions C131_diff_partial.

(* a target without a newline at its end, and with the changed line elsewhere: the patch is displaced,
   and the line that was the last one stays the last one *)
Example C131_example : let before := L "A B C D E " in let after := L "A B X Y D E " in let target := [bs "P "; bs "A "; bs "B "; bs "C "; bs "D "; bs "E "; bs "F"] in
  exists clumps out ls, text_diff_clumps before after 1 = Ok clumps /\ before <> [] /\ Forall full_line after /\ Forall full_line before /\ fits_lines (before ++ after) /\ fits_lines target /\
    lines_of (bs "P A B C D E F") target /\
    text_apply_into true clumps target false (Writer [] None) = (Done (Stats 0 1 0 0 0), Writer out None) /\
    out = bs "P A B X Y D E F" /\ lines_of out ls /\ ls = [bs "P "; bs "A "; bs "B "; bs "X "; bs "Y "; bs "D "; bs "E "; bs "F"].
Proof. exact e_C131_example. Qed.

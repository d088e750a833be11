(* Spec_Files.v - the vocabulary for properties of the two programs.  It mentions the data types
   of Model_Files (files, environments) but none of its operations. *)
From Verif Require Import Base Model_Seq Model_Changes Model_IO Model_Text Model_Bytes Model_Json Model_Files Spec.

(* the content of a file that may be read *)
Definition content (f : fs) (p : path) : option (list byte) :=
  match f p with Some (File m d) => if N.testbit m 8 then Some d else None | _ => None end.
Definition present (f : fs) (p : path) : Prop := f p <> None.
(* no operation fails for other reasons than the state of the files *)
Definition fault_free (E : env) : Prop := forall n, e_fault E n = NoFault.
(* the same files, path by path *)
Definition same_files (f g : fs) : Prop := forall p, g p = f p.

(* the file [p] holds the diff [d] as JSON *)
Definition holds_diff (f : fs) (p : path) (d : diff) : Prop :=
  exists s, content f p = Some s /\ diff_from_json s = Ok (Some d).
(* the file a diff is about *)
Definition target (d : diff) : path :=
  match d with
  | TextChange d => td_before d
  | ByteChange d => bd_before d
  | TextAdd p | TextRemove p => pl_path p
  | ByteAdd p | ByteRemove p => pb_path p
  end.
(* what applying the diff is meant to do: change the target, create it with the given content,
   or remove it *)
Definition is_change (d : diff) : Prop := match d with TextChange _ | ByteChange _ => True | _ => False end.
Definition creates (d : diff) (reverse : bool) (c : list byte) : Prop :=
  match d with
  | TextAdd p => reverse = false /\ c = concat (pl_lines p)
  | TextRemove p => reverse = true /\ c = concat (pl_lines p)
  | ByteAdd p => reverse = false /\ c = pb_bytes p
  | ByteRemove p => reverse = true /\ c = pb_bytes p
  | _ => False
  end.
Definition removes (d : diff) (reverse : bool) : Prop :=
  match d with
  | TextAdd _ | ByteAdd _ => reverse = true
  | TextRemove _ | ByteRemove _ => reverse = false
  | _ => False
  end.
(* applying the change diff to the content [old] writes [new] (what that is, is the subject of
   the properties of text and byte patches) *)
Inductive patches_to (dbg : bool) (reverse : bool) : diff -> list byte -> list byte -> Prop :=
| patches_text d old ls st new :
    is_utf8 old -> lines_of old ls ->
    text_apply_into dbg (td_clumps d) ls reverse (Writer [] None) = (Done st, Writer new None) ->
    patches_to dbg reverse (TextChange d) old new
| patches_bytes d old u new :
    byte_apply_into dbg (bd_clumps d) old reverse (Writer [] None) = (Done u, Writer new None) ->
    patches_to dbg reverse (ByteChange d) old new.
(* the state [g] is [f] with the file [p] replaced, mode and content *)
Definition replaced (f : fs) (p : path) (n : option node) (g : fs) : Prop :=
  g p = n /\ forall q, q <> p -> g q = f q.

(* the lines of a readable file of valid UTF-8 *)
Definition text_of (f : fs) (p : path) (ls : list line) : Prop := exists c, content f p = Some c /\ is_utf8 c /\ lines_of c ls.
(* the file is not too large for the memory of the machine *)
Definition fits_file (f : fs) (p : path) : Prop := forall c, content f p = Some c -> fits_bytes c /\ forall ls, lines_of c ls -> fits_lines ls.
(* the diff records the content of the files involved, or what was computed from it (the subject
   of the properties of the generator) *)
Definition describes (f : fs) (before after : path) (context : nat) (d : diff) : Prop :=
  match d with
  | TextChange d => td_before d = before /\ td_after d = after /\ exists lb la, text_of f before lb /\ text_of f after la /\
      text_diff_clumps lb la context = Ok (td_clumps d)
  | ByteChange d => bd_before d = before /\ bd_after d = after /\ bd_compressed d = false /\ exists cb ca, content f before = Some cb /\ content f after = Some ca /\
      byte_diff_clumps cb ca context = Ok (bd_clumps d)
  | TextRemove p => pl_path p = before /\ text_of f before (pl_lines p)
  | ByteRemove p => pb_path p = before /\ pb_compressed p = false /\ content f before = Some (pb_bytes p)
  | TextAdd p => pl_path p = before /\ text_of f after (pl_lines p)
  | ByteAdd p => pb_path p = before /\ pb_compressed p = false /\ content f after = Some (pb_bytes p)
  end.
(* conditions under which the generator overlooks no change and the byte patcher no clump *)
Definition tame (f : fs) (before after : path) (context : nat) : Prop :=
  (forall lb la, text_of f before lb -> text_of f after la -> no_isolated_mismatch lb la) /\
  (forall cb ca, content f before = Some cb -> content f after = Some ca -> ~ (is_utf8 cb /\ is_utf8 ca) ->
     no_isolated_mismatch cb ca /\ cb <> [] /\ ca <> [] /\ 1 <= context).

(* Spec_Run.v - what the two programs do when nothing outside of them fails: messages of the
   program, exit status, and files or output afterwards (used by C86 and C87). *)
From Coq Require Import String.
From Verif Require Import Base Model_Seq Model_Changes Model_IO Model_Text Model_Bytes Model_Json Model_Files Model_Log Spec Spec_Files Spec_Json.

Definition by_program (e : event) : bool := match ev_source e with Program => true | Library => false end.
(* the file cannot be opened for reading *)
Definition closed (f : fs) (p : path) : Prop :=
  match f p with None => True | Some (File m _) => N.testbit m 8 = false | Some Dir => False end.

(* applying the change diff to the content [old]: the statistics (none for bytes) and what is
   written, or a panic *)
Inductive changes_to (dbg reverse : bool) : diff -> list byte -> option (option statistics * list byte) -> Prop :=
| to_text d old ls st new :
    is_utf8 old -> lines_of old ls ->
    text_apply_into dbg (td_clumps d) ls reverse (Writer [] None) = (Done st, Writer new None) ->
    changes_to dbg reverse (TextChange d) old (Some (Some st, new))
| to_text_panic d old ls w :
    is_utf8 old -> lines_of old ls ->
    text_apply_into dbg (td_clumps d) ls reverse (Writer [] None) = (Panicked, w) ->
    changes_to dbg reverse (TextChange d) old None
| to_bytes d old u new :
    byte_apply_into dbg (bd_clumps d) old reverse (Writer [] None) = (Done u, Writer new None) ->
    changes_to dbg reverse (ByteChange d) old (Some (None, new))
| to_bytes_panic d old w :
    byte_apply_into dbg (bd_clumps d) old reverse (Writer [] None) = (Panicked, w) ->
    changes_to dbg reverse (ByteChange d) old None.

(* one run of the patch tool on the files [f]: messages, exit status, files afterwards *)
Inductive patch_run (E : env) (f : fs) (patch : path) (reverse : bool) : list event -> nat -> fs -> Prop :=
(* no patch *)
| run_no_patch g : closed f patch -> same_files f g ->
    patch_run E f patch reverse [Event Program Error (OpeningFailed patch)] 1 g
| run_patch_dir g : f patch = Some Dir -> same_files f g ->
    patch_run E f patch reverse [Event Program Error BadPatch] 1 g
| run_bad_patch s g : content f patch = Some s -> (forall d, ~ holds_diff f patch d) -> same_files f g ->
    patch_run E f patch reverse [Event Program Error BadPatch] 1 g
(* a change *)
| run_no_target d g : holds_diff f patch d -> is_change d -> closed f (target d) -> same_files f g ->
    patch_run E f patch reverse [Event Program Error (OpeningFailed (target d))] 1 g
| run_target_dir d g : holds_diff f patch d -> is_change d -> f (target d) = Some Dir -> same_files f g ->
    patch_run E f patch reverse [Event Program Error (ReadingFailed (target d))] 1 g
| run_not_text d old g : holds_diff f patch (TextChange d) -> content f (td_before d) = Some old -> ~ is_utf8 old -> same_files f g ->
    patch_run E f patch reverse [Event Program Error (ReadingFailed (td_before d))] 1 g
| run_changed d old st new g : holds_diff f patch d -> content f (target d) = Some old ->
    changes_to (e_dbg E) reverse d old (Some (st, new)) -> replaced f (target d) (Some (File (e_mode E) new)) g ->
    patch_run E f patch reverse [Event Program Info (PatchDone st)] 0 g
| run_panic d old g : holds_diff f patch d -> content f (target d) = Some old ->
    changes_to (e_dbg E) reverse d old None -> same_files f g ->
    patch_run E f patch reverse [] 101 g
(* a creation *)
| run_created d c g : holds_diff f patch d -> creates d reverse c -> ~ present f (target d) ->
    replaced f (target d) (Some (File (e_mode E) c)) g ->
    patch_run E f patch reverse [Event Program Info (Created (target d))] 0 g
| run_not_created d c g : holds_diff f patch d -> creates d reverse c -> present f (target d) -> same_files f g ->
    patch_run E f patch reverse [Event Program Error (CreationFailed (target d))] 0 g
(* a removal *)
| run_deleted d m c g : holds_diff f patch d -> removes d reverse -> f (target d) = Some (File m c) -> replaced f (target d) None g ->
    patch_run E f patch reverse [Event Program Info (Deleted (target d))] 0 g
| run_not_deleted d g : holds_diff f patch d -> removes d reverse -> (forall m c, f (target d) <> Some (File m c)) -> same_files f g ->
    patch_run E f patch reverse [Event Program Error (DeletionFailed (target d))] 1 g.

(* the kind of diff made from two files: binary only if there is no way to treat them as text *)
Definition right_kind (f : fs) (before after : path) (d : diff) : Prop :=
  match d with
  | TextChange _ => True
  | ByteChange _ => ~ ((exists lb, text_of f before lb) /\ (exists la, text_of f after la))
  | TextRemove _ => ~ present f after
  | ByteRemove _ => ~ present f after /\ ~ exists lb, text_of f before lb
  | TextAdd _ => ~ present f before
  | ByteAdd _ => ~ present f before /\ ~ exists la, text_of f after la
  end.
(* what is written when a path is not Unicode: the saved form up to the first such path *)
Definition kind (d : diff) : list byte :=
  match d with
  | TextChange _ => chars "TextChange" | TextAdd _ => chars "TextAdd" | TextRemove _ => chars "TextRemove"
  | ByteChange _ => chars "ByteChange" | ByteAdd _ => chars "ByteAdd" | ByteRemove _ => chars "ByteRemove"
  end.
Definition path_fields (d : diff) : list (list byte * path) :=
  match d with
  | TextChange d => [(chars "before_path", td_before d); (chars "after_path", td_after d)]
  | ByteChange d => [(chars "before_path", bd_before d); (chars "after_path", bd_after d)]
  | TextAdd p | TextRemove p => [(chars "path", pl_path p)]
  | ByteAdd p | ByteRemove p => [(chars "path", pb_path p)]
  end.
Definition label (level : nat) (name : list byte) : list byte := newline level ++ quoted name ++ chars ": ".
Definition cut_short (d : diff) (out : list byte) : Prop :=
  exists good name bad rest, path_fields d = good ++ (name, bad) :: rest /\ Forall (fun g => is_utf8 (snd g)) good /\ ~ is_utf8 bad /\
  out = chars "{" ++ label 1 (kind d) ++ chars "{" ++ flat_map (fun g => label 2 (fst g) ++ quoted (spell (snd g)) ++ chars ",") good ++ label 2 name.
(* one run of the diff tool: messages, exit status, output *)
Inductive diff_run (f : fs) (before after : path) (context : nat) : list event -> nat -> list byte -> Prop :=
| run_no_diff :
    (~ present f before /\ ~ present f after) \/ (present f before /\ content f before = None) \/ (present f after /\ content f after = None) ->
    diff_run f before after context [Event Program Error DiffFailed] 1 []
| run_diff d j :
    describes f before after context d -> right_kind f before after d -> Forall is_utf8 (diff_paths d) -> saved_json d j ->
    diff_run f before after context [] 0 (pretty 0 j)
| run_bad_path d out :
    describes f before after context d -> right_kind f before after d -> cut_short d out ->
    diff_run f before after context [Event Program Error WritingDiffFailed] 5 out.

(* Model_Open.v - several runs of pw_patch (pw_patch/src/main.rs) at the same time, with open files.

   As Model_Conc.v, but on the file system of Model_Links.v: an open file is the file, not the name,
   so what is written to it or read from it does not depend on what has happened to the name in
   between.  Writing is divided: what is to be written is determined by one operation (which may
   fail), and the bytes are then appended to the file one by one, with any operations of the other
   runs in between.  Reading takes place at one moment: since files are only ever appended to after
   they have been opened, reading to the end in pieces gives the content at the moment of the last
   piece.  What one run does alone is as in Model_Links.v (theorem C129_alone). *)
From Verif Require Import Base Model_Seq Model_Changes Model_IO Model_Text Model_Bytes Model_Json Model_Files Model_Links.

(* what is left to do: nothing, an operation of Model_Links.v, to write to an open file, or to
   append these bytes to it *)
Inductive oact : Type :=
| OEnd (o : outcome unit)
| OOp (B : Type) (f : fault -> ifs -> B * list ifs) (k : B -> oact)
| OWrite (A : Type) (n : nat) (m : io A) (k : ores A -> oact)
| OBytes (n : nat) (bytes : list byte) (k : oact).
Arguments OOp {B} f k.
Arguments OWrite {A} n m k.
Definition o_pure {A} (m : res A) (k : A -> oact) : oact :=
  match m with Ok a => k a | Panic => OEnd Abort | OutOfFuel => OEnd Stuck end.

Section Acts.
  Variable E : env.

  (* pw_patch/src/main.rs:52-99 (text) and 148-195 (bytes), from the end *)
  Definition o_drop (o : outcome unit) : oact := OOp (i_remove (e_tmp E)) (fun _ => OEnd o).
  Definition o_change_end (target : path) : oact :=
    OOp (i_rename (e_tmp E) target) (fun moved => if moved then o_drop (Val tt) else OEnd (Exit 1)).
  Definition o_written {B} (target : path) (r : ores B) : oact :=
    match r with
    | Done _ => o_change_end target
    | IoErr => OEnd (Exit 1)
    | Panicked => o_drop Abort
    | NoFuel => OEnd Stuck
    end.
  Definition o_change_write {B} (target : path) (m : io B) (n : nat) : oact := OWrite n m (o_written target).
  Definition o_change_open {B} (target : path) (m : io B) : oact :=
    OOp (i_create E (e_tmp E)) (fun h => match h with Some n => o_change_write target m n | None => OEnd (Exit 1) end).
  Definition o_change_temp {B} (target : path) (m : io B) : oact :=
    OOp (i_create_new E (e_tmp E)) (fun h => match h with Some _ => o_change_open target m | None => OEnd (Exit 1) end).
  Definition o_change_apply {A B} (target : path) (items : list byte -> res (option A)) (apply : A -> io B) (d : list byte) : oact :=
    o_pure (items d) (fun x => match x with None => OEnd (Exit 1) | Some x => o_change_temp target (apply x) end).
  Definition o_change_read {A B} (target : path) (items : list byte -> res (option A)) (apply : A -> io B) (h : option nat) : oact :=
    OOp (i_read_all h) (fun content => match content with None => OEnd (Exit 1) | Some d => o_change_apply target items apply d end).
  Definition o_change {A B} (target : path) (items : list byte -> res (option A)) (apply : A -> io B) : oact :=
    OOp (i_open_read target) (fun h => match h with Some h => o_change_read target items apply h | None => OEnd (Exit 1) end).
  (* 110-122, 126-137, 206-218, 222-233 *)
  Definition o_add {B} (target : path) (content : io B) : oact :=
    OOp (i_create_new E target) (fun h =>
      match h with Some n => OWrite n content (fun _ => OEnd (Val tt)) | None => OEnd (Val tt) end).
  (* 102-109, 138-146, 198-205, 234-242 *)
  Definition o_del (target : path) : oact :=
    OOp (i_remove target) (fun ok => if ok then OEnd (Val tt) else OEnd (Exit 1)).
  Definition o_diff (d : diff) (reverse : bool) : oact :=
    match d with
    | TextChange d => o_change (td_before d) read_lines (fun ls => text_apply_into (e_dbg E) (td_clumps d) ls reverse)
    | TextAdd p => if reverse then o_del (pl_path p) else o_add (pl_path p) (write_lines (pl_lines p))
    | TextRemove p => if reverse then o_add (pl_path p) (write_lines (pl_lines p)) else o_del (pl_path p)
    | ByteChange d => o_change (bd_before d) (fun b => Ok (Some b)) (fun b => byte_apply_into (e_dbg E) (bd_clumps d) b reverse)
    | ByteAdd p => if reverse then o_del (pb_path p) else o_add (pb_path p) (write_all (pb_bytes p))
    | ByteRemove p => if reverse then o_add (pb_path p) (write_all (pb_bytes p)) else o_del (pb_path p)
    end.
  (* 35-50 *)
  Definition o_load (reverse : bool) (h : option nat) : oact :=
    OOp (i_read_all h) (fun content =>
      match content with
      | None => OEnd (Exit 1)
      | Some s => o_pure (diff_from_json s) (fun d => match d with None => OEnd (Exit 1) | Some d => o_diff d reverse end)
      end).
  Definition o_main (patch : path) (reverse : bool) : oact :=
    OOp (i_open_read patch) (fun h => match h with Some h => o_load reverse h | None => OEnd (Exit 1) end).
End Acts.

(* a run: its environment, the operations so far, what is left to do *)
Record orun := ORun { or_env : env; or_ops : nat; or_act : oact }.
Definition patch_run (E : env) (patch : path) (reverse : bool) : orun := ORun E 0 (o_main E patch reverse).
Definition append (I : ifs) (n : nat) (bytes : list byte) : ifs := upd_node I n (fst (nodes I n), snd (nodes I n) ++ bytes).
(* the next step of a run: the state after it, and the run after it *)
Definition ostep (p : orun) (I : ifs) : option (ifs * orun) :=
  let E := or_env p in let n := or_ops p in
  match or_act p with
  | OEnd _ => None
  | OOp f k => let (b, states) := f (e_fault E n) I in Some (last states I, ORun E (S n) (k b))
  | OWrite h m k =>
      let (r, w) := m (Writer [] (match e_fault E n with NoFault => None | Fail => Some 0 | FailAfter k => Some k end)) in
      Some (I, ORun E (S n) (OBytes h (w_out w) (k r)))
  | OBytes h [] k => Some (I, ORun E n k)
  | OBytes h (b :: bytes) k => Some (append I h [b], ORun E n (OBytes h bytes k))
  end.
(* what happens to the files and the runs; the states in between *)
Inductive at_once : ifs -> list orun -> list ifs -> ifs -> list orun -> Prop :=
| at_once_none I ps : at_once I ps [] I ps
| at_once_step I ps1 p ps2 J p' seen K qs :
    ostep p I = Some (J, p') -> at_once J (ps1 ++ p' :: ps2) seen K qs -> at_once I (ps1 ++ p :: ps2) (J :: seen) K qs.
Definition over (p : orun) : option (outcome unit) := match or_act p with OEnd o => Some o | _ => None end.

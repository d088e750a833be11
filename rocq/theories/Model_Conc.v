(* Model_Conc.v - several runs of pw_patch (pw_patch/src/main.rs) at the same time.

   A run is the sequence of its file operations; the operations of different runs are interleaved
   arbitrarily, and a run may be killed between any two of them (it is then never continued).  An
   operation takes place at one moment; a sequence of writes lets the others see all of its states
   but is not interleaved with theirs.  A file that is opened and then read gives its content at the
   opening, even if another file has taken its place by then; nothing here writes into a file that
   someone else may have opened, except one that is just being created (110-122 and so on), whose
   content would really be that at the reading.  What one run does is as in Model_Files.v (theorem
   C98_alone). *)
From Verif Require Import Base Model_Seq Model_Changes Model_IO Model_Text Model_Bytes Model_Json Model_Files.

(* what is left to do: nothing any more, or an operation (what it answers and the states it goes
   through, from its fault and the state) and what to do with the answer *)
Inductive act : Type :=
| AEnd (o : outcome unit)
| AOp (B : Type) (f : fault -> fs -> B * list fs) (k : B -> act).
Arguments AOp {B} f k.
Definition a_pure {A} (m : res A) (k : A -> act) : act :=
  match m with Ok a => k a | Panic => AEnd Abort | OutOfFuel => AEnd Stuck end.

Section Acts.
  Variable E : env.

  (* the operations of Model_Files.v *)
  (* the open file: its content, or none for a directory *)
  Definition o_open_read (p : path) (flt : fault) (f : fs) : option (option (list byte)) * list fs :=
    (match flt, f p with
     | NoFault, Some (File m d) => if readable m then Some (Some d) else None
     | NoFault, Some Dir => Some None
     | _, _ => None
     end, []).
  Definition o_read_all (h : option (list byte)) (flt : fault) (f : fs) : option (list byte) * list fs :=
    (match flt with NoFault => h | _ => None end, []).
  Definition o_create_new (p : path) (flt : fault) (f : fs) : bool * list fs :=
    match flt, f p with
    | NoFault, None => (true, [upd f p (Some (File (e_mode E) []))])
    | _, _ => (false, [])
    end.
  Definition o_create (p : path) (flt : fault) (f : fs) : bool * list fs :=
    match flt, f p with
    | NoFault, None => (true, [upd f p (Some (File (e_mode E) []))])
    | NoFault, Some (File m _) => (true, [upd f p (Some (File m []))])
    | _, _ => (false, [])
    end.
  Definition o_write {A} (p : path) (m : io A) (flt : fault) (f : fs) : ores A * list fs :=
    match f p with
    | Some (File mode d) =>
        let (r, w) := m (Writer [] (match flt with NoFault => None | Fail => Some 0 | FailAfter n => Some n end)) in
        (r, map (fun k => upd f p (Some (File mode (d ++ firstn k (w_out w))))) (seq 0 (S (length (w_out w)))))
    | _ => (IoErr, [])
    end.
  Definition o_rename (p q : path) (flt : fault) (f : fs) : bool * list fs :=
    match flt, f p, f q with
    | NoFault, Some (File m d), Some Dir => (false, [])
    | NoFault, Some (File m d), _ => (true, if path_eqb p q then [] else [upd (upd f p None) q (Some (File m d))])
    | _, _, _ => (false, [])
    end.
  Definition o_remove (p : path) (flt : fault) (f : fs) : bool * list fs :=
    match flt, f p with
    | NoFault, Some (File _ _) => (true, [upd f p None])
    | _, _ => (false, [])
    end.

  (* pw_patch/src/main.rs:52-99 (text) and 148-195 (bytes), from the end *)
  Definition a_drop (o : outcome unit) : act := AOp (o_remove (e_tmp E)) (fun _ => AEnd o).
  Definition a_rename (target : path) : act :=
    AOp (o_rename (e_tmp E) target) (fun moved => if moved then a_drop (Val tt) else AEnd (Exit 1)).
  Definition a_write {B} (target : path) (m : io B) : act :=
    AOp (o_write (e_tmp E) m) (fun r =>
      match r with
      | Done _ => a_rename target
      | IoErr => AEnd (Exit 1)
      | Panicked => a_drop Abort
      | NoFuel => AEnd Stuck
      end).
  Definition a_open_temp {B} (target : path) (m : io B) : act :=
    AOp (o_create (e_tmp E)) (fun opened => if opened then a_write target m else AEnd (Exit 1)).
  Definition a_make_temp {B} (target : path) (m : io B) : act :=
    AOp (o_create_new (e_tmp E)) (fun made => if made then a_open_temp target m else AEnd (Exit 1)).
  Definition a_apply {A B} (target : path) (items : list byte -> res (option A)) (apply : A -> io B) (d : list byte) : act :=
    a_pure (items d) (fun x => match x with None => AEnd (Exit 1) | Some x => a_make_temp target (apply x) end).
  Definition a_read {A B} (target : path) (items : list byte -> res (option A)) (apply : A -> io B) (h : option (list byte)) : act :=
    AOp (o_read_all h) (fun content => match content with None => AEnd (Exit 1) | Some d => a_apply target items apply d end).
  Definition a_change {A B} (target : path) (items : list byte -> res (option A)) (apply : A -> io B) : act :=
    AOp (o_open_read target) (fun h => match h with Some h => a_read target items apply h | None => AEnd (Exit 1) end).
  (* 110-122, 126-137, 206-218, 222-233 *)
  Definition a_create {B} (target : path) (content : io B) : act :=
    AOp (o_create_new target) (fun made =>
      if made then AOp (o_write target content) (fun _ => AEnd (Val tt)) else AEnd (Val tt)).
  (* 102-109, 138-146, 198-205, 234-242 *)
  Definition a_remove (target : path) : act :=
    AOp (o_remove target) (fun ok => if ok then AEnd (Val tt) else AEnd (Exit 1)).
  Definition a_diff (d : diff) (reverse : bool) : act :=
    match d with
    | TextChange d => a_change (td_before d) read_lines (fun ls => text_apply_into (e_dbg E) (td_clumps d) ls reverse)
    | TextAdd p => if reverse then a_remove (pl_path p) else a_create (pl_path p) (write_lines (pl_lines p))
    | TextRemove p => if reverse then a_create (pl_path p) (write_lines (pl_lines p)) else a_remove (pl_path p)
    | ByteChange d => a_change (bd_before d) (fun b => Ok (Some b)) (fun b => byte_apply_into (e_dbg E) (bd_clumps d) b reverse)
    | ByteAdd p => if reverse then a_remove (pb_path p) else a_create (pb_path p) (write_all (pb_bytes p))
    | ByteRemove p => if reverse then a_create (pb_path p) (write_all (pb_bytes p)) else a_remove (pb_path p)
    end.
  (* 35-50 *)
  Definition a_load (reverse : bool) (h : option (list byte)) : act :=
    AOp (o_read_all h) (fun content =>
      match content with
      | None => AEnd (Exit 1)
      | Some s => a_pure (diff_from_json s) (fun d => match d with None => AEnd (Exit 1) | Some d => a_diff d reverse end)
      end).
  Definition a_main (patch : path) (reverse : bool) : act :=
    AOp (o_open_read patch) (fun h => match h with Some h => a_load reverse h | None => AEnd (Exit 1) end).
End Acts.

(* a run: its environment, the operations so far, what is left to do *)
Record process := Process { pr_env : env; pr_ops : nat; pr_act : act }.
Definition patch_process (E : env) (patch : path) (reverse : bool) : process := Process E 0 (a_main E patch reverse).
(* the next operation of a run: the states it goes through, and the run after it *)
Definition advance (p : process) (f : fs) : option (list fs * process) :=
  match pr_act p with
  | AEnd _ => None
  | AOp g k => let (b, states) := g (e_fault (pr_env p) (pr_ops p)) f in Some (states, Process (pr_env p) (S (pr_ops p)) (k b))
  end.
(* what happens to the files and the runs; the states in between *)
Inductive together : fs -> list process -> list fs -> fs -> list process -> Prop :=
| together_none f ps : together f ps [] f ps
| together_step f ps1 p ps2 states p' seen g qs :
    advance p f = Some (states, p') -> together (last states f) (ps1 ++ p' :: ps2) seen g qs ->
    together f (ps1 ++ p :: ps2) (states ++ seen) g qs.
Definition ended (p : process) : option (outcome unit) := match pr_act p with AEnd o => Some o | AOp _ _ => None end.

(* Model_Files.v - the file system as the tools see it, Diff::new (pw_diff_lib/src/diff.rs:22-58)
   and the two programs pw_diff/src/main.rs and pw_patch/src/main.rs.

   A path stands for the file it denotes: two spellings of one file, symbolic and hard links are
   not modelled.  One process at a time; states are those other processes (or the next boot)
   would see after a kill; what a power loss does to data not yet synced is in Spec_Power.v.
   Command lines are in Model_Cli.v, log messages in Model_Log.v. *)
From Coq Require Import NArith.
From Verif Require Import Base Model_Seq Model_Changes Model_IO Model_Text Model_Bytes Model_Json.

(* ------------------------------------------------------------------ *)
(* Files                                                               *)
(* ------------------------------------------------------------------ *)
(* a regular file with its permission bits, or a directory *)
Inductive node :=
| File (mode : N) (data : list byte)
| Dir.
Definition fs : Type := path -> option node.
Definition path_eqb : path -> path -> bool := list_eqb Byte.eqb.
Definition upd (f : fs) (p : path) (n : option node) : fs := fun q => if path_eqb p q then n else f q.
(* the owner's read permission *)
Definition readable (mode : N) : bool := N.testbit mode 8.

(* What may go wrong in one operation, besides what the state of the file system rules out.
   [FailAfter n]: a sequence of writes fails after n bytes. *)
Inductive fault := NoFault | Fail | FailAfter (n : nat).
(* What is outside the programs: build mode, the name the temporary file gets, the mode of
   created files, the fault of each operation, how much stdout accepts. *)
Record env := Env {
  e_dbg : bool;
  e_tmp : path;
  e_mode : N;
  e_fault : nat -> fault;
  e_stdout : option nat
}.
(* current state, all states so far (oldest first), operations so far, bytes on stdout *)
Record world := World { w_fs : fs; w_seen : list fs; w_ops : nat; w_stdout : list byte }.
Definition start (f : fs) : world := World f [f] 0 [].

(* [Exit]: std::process::exit; [Abort]: a panic reached the top (exit status 101); [Stuck]: the
   model ran out of fuel *)
Inductive outcome (A : Type) : Type :=
| Val (a : A)
| Exit (code : nat)
| Abort
| Stuck.
Arguments Val {A} a.
Arguments Exit {A} code.
Arguments Abort {A}.
Arguments Stuck {A}.
Definition prog (A : Type) : Type := world -> outcome A * world.
Definition pret {A} (a : A) : prog A := fun w => (Val a, w).
Definition exit {A} (code : nat) : prog A := fun w => (Exit code, w).
Definition pbnd {A B} (m : prog A) (k : A -> prog B) : prog B := fun w =>
  match m w with
  | (Val a, w') => k a w'
  | (Exit c, w') => (Exit c, w')
  | (Abort, w') => (Abort, w')
  | (Stuck, w') => (Stuck, w')
  end.
Notation "'run!' x ':=' e 'in' k" := (pbnd e (fun x => k))
  (at level 200, x pattern, e at level 200, k at level 200, right associativity).
(* a computation without files *)
Definition pure {A} (m : res A) : prog A := fun w =>
  match m with
  | Ok a => (Val a, w)
  | Panic => (Abort, w)
  | OutOfFuel => (Stuck, w)
  end.

Section Ops.
  Variable E : env.

  (* one operation: from the fault and the state, its result and the states it goes through *)
  Definition op {A} (f : fault -> fs -> A * list fs) : prog A := fun w =>
    let (a, states) := f (e_fault E (w_ops w)) (w_fs w) in
    (Val a, World (last states (w_fs w)) (w_seen w ++ states) (S (w_ops w)) (w_stdout w)).

  (* Path::exists: false also if the metadata cannot be had *)
  Definition path_exists (p : path) : prog bool := op (fun flt f =>
    (match flt, f p with NoFault, Some _ => true | _, _ => false end, [])).
  (* File::open (for reading; works on directories) *)
  Definition open_read (p : path) : prog bool := op (fun flt f =>
    (match flt, f p with
     | NoFault, Some (File m _) => readable m
     | NoFault, Some Dir => true
     | _, _ => false
     end, [])).
  (* reading the opened file to its end *)
  Definition read_all (p : path) : prog (option (list byte)) := op (fun flt f =>
    (match flt, f p with NoFault, Some (File _ d) => Some d | _, _ => None end, [])).
  (* File::create_new *)
  Definition create_new (p : path) : prog bool := op (fun flt f =>
    match flt, f p with
    | NoFault, None => (true, [upd f p (Some (File (e_mode E) []))])
    | _, _ => (false, [])
    end).
  (* File::create *)
  Definition create (p : path) : prog bool := op (fun flt f =>
    match flt, f p with
    | NoFault, None => (true, [upd f p (Some (File (e_mode E) []))])
    | NoFault, Some (File m _) => (true, [upd f p (Some (File m []))])
    | _, _ => (false, [])
    end).
  (* writing through the handle of the open file [p], bytes arriving one after the other *)
  Definition write_file {A} (p : path) (m : io A) : prog (ores A) := op (fun flt f =>
    match f p with
    | Some (File mode d) =>
        let (r, w) := m (Writer [] (match flt with NoFault => None | Fail => Some 0 | FailAfter n => Some n end)) in
        (r, map (fun k => upd f p (Some (File mode (d ++ firstn k (w_out w))))) (seq 0 (S (length (w_out w)))))
    | _ => (IoErr, [])
    end).
  (* fs::rename *)
  Definition rename (p q : path) : prog bool := op (fun flt f =>
    match flt, f p, f q with
    | NoFault, Some (File m d), Some Dir => (false, [])
    | NoFault, Some (File m d), _ => (true, if path_eqb p q then [] else [upd (upd f p None) q (Some (File m d))])
    | _, _, _ => (false, [])
    end).
  (* fs::remove_file *)
  Definition remove_file (p : path) : prog bool := op (fun flt f =>
    match flt, f p with
    | NoFault, Some (File _ _) => (true, [upd f p None])
    | _, _ => (false, [])
    end).

  (* ---------------------------------------------------------------- *)
  (* pw_diff_lib                                                       *)
  (* ---------------------------------------------------------------- *)
  (* Seq::<String>::read(File::open(p)?)?, and PathAndLines::new (text_diff.rs:141-157); [None]: an error *)
  Definition read_text (p : path) : prog (option (list line)) :=
    run! ok := open_read p in
    if ok then
      run! content := read_all p in
      match content with
      | Some d => pure (read_lines d)
      | None => pret None
      end
    else pret None.
  (* Seq::<u8>::read(File::open(p)?)?, and PathAndBytes::new (byte_diff.rs:147-158) *)
  Definition read_bytes (p : path) : prog (option (list byte)) :=
    run! ok := open_read p in
    if ok then read_all p else pret None.

  (* text_diff.rs:93-107 *)
  Definition text_change_new (before after : path) (context : nat) : prog (option text_diff) :=
    run! b := read_text before in
    match b with
    | None => pret None
    | Some b =>
        run! a := read_text after in
        match a with
        | None => pret None
        | Some a =>
            run! clumps := pure (text_diff_clumps b a context) in
            pret (Some (TextDiff before after clumps))
        end
    end.
  (* byte_diff.rs:97-112 *)
  Definition byte_change_new (before after : path) (context : nat) : prog (option byte_diff) :=
    run! b := read_bytes before in
    match b with
    | None => pret None
    | Some b =>
        run! a := read_bytes after in
        match a with
        | None => pret None
        | Some a =>
            run! clumps := pure (byte_diff_clumps b a context) in
            pret (Some (ByteDiff before after false clumps))
        end
    end.
  (* diff.rs:23-58 *)
  Definition diff_new (before after : path) (context : nat) : prog (option diff) :=
    run! be := path_exists before in
    if be then
      run! ae := path_exists after in
      if ae then
        run! t := text_change_new before after context in
        match t with
        | Some d => pret (Some (TextChange d))
        | None =>
            run! d := byte_change_new before after context in
            pret (option_map' ByteChange d)
        end
      else
        run! t := read_text before in
        match t with
        | Some ls => pret (Some (TextRemove (PathAndLines before ls)))
        | None =>
            run! d := read_bytes before in
            pret (option_map' (fun b => ByteRemove (PathAndBytes before false b)) d)
        end
    else
      run! ae := path_exists after in
      if ae then
        run! t := read_text after in
        match t with
        | Some ls => pret (Some (TextAdd (PathAndLines before ls)))
        | None =>
            run! d := read_bytes after in
            pret (option_map' (fun b => ByteAdd (PathAndBytes before false b)) d)
        end
      else pret None.

  (* ---------------------------------------------------------------- *)
  (* pw_diff/src/main.rs:30-54                                         *)
  (* ---------------------------------------------------------------- *)
  (* the part of the output up to its last newline *)
  Fixpoint upto_newline (s : list byte) : list byte :=
    match s with
    | [] => []
    | c :: s' =>
        match upto_newline s' with
        | [] => if is_newline c then [c] else []
        | l => c :: l
        end
    end.
  (* stdout is line buffered: to_writer learns of an error in everything up to the last newline;
     the rest is written when the process ends, where errors are ignored *)
  Definition diff_main (before after : path) (context : nat) : prog unit :=
    run! d := diff_new before after context in
    match d with
    | None => exit 1
    | Some d =>
        let (out, ok) := diff_to_json d in
        fun w =>
          let delivered := match e_stdout E with None => out | Some n => firstn n out end in
          let noticed := match e_stdout E with None => false | Some n => n <? length (upto_newline out) end in
          (if ok && negb noticed then Val tt else Exit 5,
           World (w_fs w) (w_seen w) (w_ops w) (w_stdout w ++ delivered))
    end.

  (* ---------------------------------------------------------------- *)
  (* pw_patch/src/main.rs:26-245                                       *)
  (* ---------------------------------------------------------------- *)
  (* temp_file's Drop: remove the file, ignoring errors.  Not run by process::exit. *)
  Definition drop_temp : prog unit := run! _ := remove_file (e_tmp E) in pret tt.
  (* 52-99 (text) and 148-195 (bytes): [items] is how the content is read, [apply] what is written *)
  Definition patch_change {A B} (target : path) (items : list byte -> res (option A)) (apply : A -> io B) : prog unit :=
    run! ok := open_read target in
    if ok then
      run! content := read_all target in
      match content with
      | None => exit 1
      | Some d =>
          run! x := pure (items d) in
          match x with
          | None => exit 1
          | Some x =>
              (* TempFile::in_dir("."), then File::create on its path *)
              run! made := create_new (e_tmp E) in
              if made then
                run! opened := create (e_tmp E) in
                if opened then
                  run! r := write_file (e_tmp E) (apply x) in
                  match r with
                  | Done _ =>
                      run! moved := rename (e_tmp E) target in
                      if moved then drop_temp else exit 1
                  | IoErr => exit 1
                  | Panicked => run! _ := drop_temp in fun w => (Abort, w)
                  | NoFuel => fun w => (Stuck, w)
                  end
                else exit 1
              else exit 1
          end
      end
    else exit 1.
  (* 110-122 and 126-137 (text), 206-218 and 222-233 (bytes): failures are only logged *)
  Definition patch_create {B} (target : path) (content : io B) : prog unit :=
    run! made := create_new target in
    if made then run! _ := write_file target content in pret tt
    else pret tt.
  (* 102-109 and 138-146 (text), 198-205 and 234-242 (bytes) *)
  Definition patch_remove (target : path) : prog unit :=
    run! ok := remove_file target in
    if ok then pret tt else exit 1.

  Definition patch_diff (d : diff) (reverse : bool) : prog unit :=
    match d with
    | TextChange d => patch_change (td_before d) read_lines (fun ls => text_apply_into (e_dbg E) (td_clumps d) ls reverse)
    | TextAdd p => if reverse then patch_remove (pl_path p) else patch_create (pl_path p) (write_lines (pl_lines p))
    | TextRemove p => if reverse then patch_create (pl_path p) (write_lines (pl_lines p)) else patch_remove (pl_path p)
    | ByteChange d => patch_change (bd_before d) (fun b => Ok (Some b)) (fun b => byte_apply_into (e_dbg E) (bd_clumps d) b reverse)
    | ByteAdd p => if reverse then patch_remove (pb_path p) else patch_create (pb_path p) (write_all (pb_bytes p))
    | ByteRemove p => if reverse then patch_create (pb_path p) (write_all (pb_bytes p)) else patch_remove (pb_path p)
    end.
  (* 35-50 *)
  Definition patch_main (patch : path) (reverse : bool) : prog unit :=
    run! ok := open_read patch in
    if ok then
      run! content := read_all patch in
      match content with
      | None => exit 1
      | Some s =>
          run! d := pure (diff_from_json s) in
          match d with
          | None => exit 1
          | Some d => patch_diff d reverse
          end
      end
    else exit 1.
End Ops.

(* the exit status the caller of a program sees *)
Definition status {A} (o : outcome A) : option nat :=
  match o with Val _ => Some 0 | Exit c => Some c | Abort => Some 101 | Stuck => None end.

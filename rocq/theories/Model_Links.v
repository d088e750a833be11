(* Model_Links.v - pw_patch (pw_patch/src/main.rs) on a file system with links.

   In Model_Files.v a path is a file.  Here a path is the name of a file, of a directory or of a
   symbolic link, and a file may have several names (hard links).  std::fs::File::open and
   File::create follow symbolic links, OpenOptions::create_new, std::fs::rename and
   std::fs::remove_file do not.  A symbolic link contains the path it leads to as pw_patch would
   write it; links in directories on the way are not considered.  As in Model_Files.v permission
   to write is not modelled, and operations fail as [e_fault] says. *)
From Verif Require Import Base Model_Seq Model_Changes Model_IO Model_Text Model_Bytes Model_Json Model_Files.

Inductive entry : Type :=
| EFile (n : nat)
| EDir
| ELink (to : path).
(* the names, the files (mode and content), and how many files there have been *)
Record ifs := Ifs { names : path -> option entry; nodes : nat -> N * list byte; used : nat }.
Definition upd_name (I : ifs) (p : path) (e : option entry) : ifs :=
  Ifs (fun q => if path_eqb p q then e else names I q) (nodes I) (used I).
Definition upd_node (I : ifs) (n : nat) (x : N * list byte) : ifs :=
  Ifs (names I) (fun k => if n =? k then x else nodes I k) (used I).
(* a new file under the name [p] *)
Definition new_file (I : ifs) (p : path) (mode : N) : ifs :=
  let J := upd_name (upd_node I (used I) (mode, [])) p (Some (EFile (used I))) in Ifs (names J) (nodes J) (S (used I)).

(* where a path leads; the system gives up after 40 links *)
Fixpoint follow (k : nat) (nm : path -> option entry) (p : path) : option path :=
  match nm p with
  | Some (ELink q) => match k with 0 => None | S k => follow k nm q end
  | _ => Some p
  end.
Definition resolve (I : ifs) (p : path) : option path := follow 40 (names I) p.

(* what is left to do, as in Model_Conc.v *)
Inductive iact : Type :=
| IEnd (o : outcome unit)
| IOp (B : Type) (f : fault -> ifs -> B * list ifs) (k : B -> iact).
Arguments IOp {B} f k.
Definition i_pure {A} (m : res A) (k : A -> iact) : iact :=
  match m with Ok a => k a | Panic => IEnd Abort | OutOfFuel => IEnd Stuck end.
(* the outcome, the states on the way, the state at the end; [n]: the number of the operation *)
Fixpoint irun (E : env) (a : iact) (n : nat) (I : ifs) : outcome unit * list ifs * ifs :=
  match a with
  | IEnd o => (o, [], I)
  | IOp f k =>
      let (b, states) := f (e_fault E n) I in
      let '(o, seen, J) := irun E (k b) (S n) (last states I) in (o, states ++ seen, J)
  end.

Section Acts.
  Variable E : env.

  (* an open file is the file, not the name; none for a directory *)
  Definition i_open_read (p : path) (flt : fault) (I : ifs) : option (option nat) * list ifs :=
    (match flt, resolve I p with
     | NoFault, Some q =>
         match names I q with
         | Some (EFile n) => if readable (fst (nodes I n)) then Some (Some n) else None
         | Some EDir => Some None
         | _ => None
         end
     | _, _ => None
     end, []).
  Definition i_read_all (h : option nat) (flt : fault) (I : ifs) : option (list byte) * list ifs :=
    (match flt, h with NoFault, Some n => Some (snd (nodes I n)) | _, _ => None end, []).
  Definition i_create_new (p : path) (flt : fault) (I : ifs) : option nat * list ifs :=
    match flt, names I p with
    | NoFault, None => (Some (used I), [new_file I p (e_mode E)])
    | _, _ => (None, [])
    end.
  Definition i_create (p : path) (flt : fault) (I : ifs) : option nat * list ifs :=
    match flt, resolve I p with
    | NoFault, Some q =>
        match names I q with
        | None => (Some (used I), [new_file I q (e_mode E)])
        | Some (EFile n) => (Some n, [upd_node I n (fst (nodes I n), [])])
        | _ => (None, [])
        end
    | _, _ => (None, [])
    end.
  Definition i_write {A} (n : nat) (m : io A) (flt : fault) (I : ifs) : ores A * list ifs :=
    let (mode, d) := nodes I n in
    let (r, w) := m (Writer [] (match flt with NoFault => None | Fail => Some 0 | FailAfter k => Some k end)) in
    (r, map (fun k => upd_node I n (mode, d ++ firstn k (w_out w))) (seq 0 (S (length (w_out w))))).
  (* two names of one file: nothing happens (rename(2)) *)
  Definition i_rename (p q : path) (flt : fault) (I : ifs) : bool * list ifs :=
    match flt, names I p, names I q with
    | NoFault, Some (EFile n), Some (EFile k) => (true, if n =? k then [] else [upd_name (upd_name I p None) q (Some (EFile n))])
    | NoFault, Some EDir, _ | NoFault, _, Some EDir => (false, [])
    | NoFault, Some e, _ => (true, if path_eqb p q then [] else [upd_name (upd_name I p None) q (Some e)])
    | _, _, _ => (false, [])
    end.
  Definition i_remove (p : path) (flt : fault) (I : ifs) : bool * list ifs :=
    match flt, names I p with
    | NoFault, Some (EFile _ | ELink _) => (true, [upd_name I p None])
    | _, _ => (false, [])
    end.

  (* pw_patch/src/main.rs:52-99 (text) and 148-195 (bytes), from the end *)
  Definition i_drop (o : outcome unit) : iact := IOp (i_remove (e_tmp E)) (fun _ => IEnd o).
  Definition i_change_end (target : path) : iact :=
    IOp (i_rename (e_tmp E) target) (fun moved => if moved then i_drop (Val tt) else IEnd (Exit 1)).
  Definition i_change_write {B} (target : path) (m : io B) (n : nat) : iact :=
    IOp (i_write n m) (fun r =>
      match r with
      | Done _ => i_change_end target
      | IoErr => IEnd (Exit 1)
      | Panicked => i_drop Abort
      | NoFuel => IEnd Stuck
      end).
  Definition i_change_open {B} (target : path) (m : io B) : iact :=
    IOp (i_create (e_tmp E)) (fun h => match h with Some n => i_change_write target m n | None => IEnd (Exit 1) end).
  Definition i_change_temp {B} (target : path) (m : io B) : iact :=
    IOp (i_create_new (e_tmp E)) (fun h => match h with Some _ => i_change_open target m | None => IEnd (Exit 1) end).
  Definition i_change_apply {A B} (target : path) (items : list byte -> res (option A)) (apply : A -> io B) (d : list byte) : iact :=
    i_pure (items d) (fun x => match x with None => IEnd (Exit 1) | Some x => i_change_temp target (apply x) end).
  Definition i_change_read {A B} (target : path) (items : list byte -> res (option A)) (apply : A -> io B) (h : option nat) : iact :=
    IOp (i_read_all h) (fun content => match content with None => IEnd (Exit 1) | Some d => i_change_apply target items apply d end).
  Definition i_change {A B} (target : path) (items : list byte -> res (option A)) (apply : A -> io B) : iact :=
    IOp (i_open_read target) (fun h => match h with Some h => i_change_read target items apply h | None => IEnd (Exit 1) end).
  (* 110-122, 126-137, 206-218, 222-233 *)
  Definition i_add {B} (target : path) (content : io B) : iact :=
    IOp (i_create_new target) (fun h =>
      match h with Some n => IOp (i_write n content) (fun _ => IEnd (Val tt)) | None => IEnd (Val tt) end).
  (* 102-109, 138-146, 198-205, 234-242 *)
  Definition i_del (target : path) : iact :=
    IOp (i_remove target) (fun ok => if ok then IEnd (Val tt) else IEnd (Exit 1)).
  Definition i_diff (d : diff) (reverse : bool) : iact :=
    match d with
    | TextChange d => i_change (td_before d) read_lines (fun ls => text_apply_into (e_dbg E) (td_clumps d) ls reverse)
    | TextAdd p => if reverse then i_del (pl_path p) else i_add (pl_path p) (write_lines (pl_lines p))
    | TextRemove p => if reverse then i_add (pl_path p) (write_lines (pl_lines p)) else i_del (pl_path p)
    | ByteChange d => i_change (bd_before d) (fun b => Ok (Some b)) (fun b => byte_apply_into (e_dbg E) (bd_clumps d) b reverse)
    | ByteAdd p => if reverse then i_del (pb_path p) else i_add (pb_path p) (write_all (pb_bytes p))
    | ByteRemove p => if reverse then i_add (pb_path p) (write_all (pb_bytes p)) else i_del (pb_path p)
    end.
  (* 35-50 *)
  Definition i_load (reverse : bool) (h : option nat) : iact :=
    IOp (i_read_all h) (fun content =>
      match content with
      | None => IEnd (Exit 1)
      | Some s => i_pure (diff_from_json s) (fun d => match d with None => IEnd (Exit 1) | Some d => i_diff d reverse end)
      end).
  Definition i_main (patch : path) (reverse : bool) : iact :=
    IOp (i_open_read patch) (fun h => match h with Some h => i_load reverse h | None => IEnd (Exit 1) end).
End Acts.
Definition patch_links (E : env) (patch : path) (reverse : bool) (I : ifs) : outcome unit * list ifs * ifs :=
  irun E (i_main E patch reverse) 0 I.

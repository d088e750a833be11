(* Model_Log.v - the messages given to the log crate by pw_diff_lib/src/apply_text.rs and
   apply_bytes.rs and by the programs pw_diff/src/main.rs and pw_patch/src/main.rs, and which of
   them stderrlog shows.  Everything else is as in Model_Text.v, Model_Bytes.v and Model_Files.v
   (the theorems of Properties_Log.v say that leaving out the messages gives those models). *)
From Coq Require Import String.
From Verif Require Import Base Model_Seq Model_Changes Model_IO Model_Text Model_Bytes Model_Json Model_Files.
Local Open Scope Z_scope.

(* log::error!, log::warn!, log::info! *)
Inductive level := Error | Warn | Info.
(* What is said about a clump.  (The number is an i32 in the source, which overflows with the
   clump 2^31; here it is a natural number.) *)
Inductive verdict := Applies | AlreadyApplied | NotApplied | NotAlreadyApplied.
Inductive message :=
(* "Clump #{number} ...", the reductions and the offset if the text contains them *)
| AboutClump (number : nat) (v : verdict) (reductions : option (Z * Z)) (offset : option Z)
(* pw_diff/src/main.rs:42, 50 *)
| DiffFailed
| WritingDiffFailed
(* pw_patch/src/main.rs:38, 46 *)
| OpeningFailed (p : path)
| BadPatch
(* 64/160, 74/170, 83/179, 89/185, 95/191; 57/153 is an [OpeningFailed] too *)
| ReadingFailed (p : path)
| TempOpenFailed
| RenameFailed
| PatchFailed
| TempFailed
(* 81/177: the statistics; for byte patches "()" *)
| PatchDone (stats : option statistics)
(* 104, 106, 113, 115/119 and the three repetitions of them *)
| Deleted (p : path)
| DeletionFailed (p : path)
| Created (p : path)
| CreationFailed (p : path).
(* the module a message comes from: the library or the program (the target of the log record) *)
Inductive source := Library | Program.
Record event := Event { ev_source : source; ev_level : level; ev_message : message }.

(* stderrlog::new().module(module_path!()).verbosity(LogLevelNum::from(verbose)): messages of
   this program's own modules, errors always, warnings from -v, information from -vv.
   (stderrlog is not part of /repo; modelled from knowledge of its behaviour.) *)
Definition shown (verbose : nat) (e : event) : bool :=
  match ev_source e with
  | Library => false
  | Program => match ev_level e with Error => true | Warn => (1 <=? verbose)%nat | Info => (2 <=? verbose)%nat end
  end.

(* ------------------------------------------------------------------ *)
(* Writing with messages                                               *)
(* ------------------------------------------------------------------ *)
Definition lio (A : Type) : Type := writer -> list event * (ores A * writer).
Definition mute {A} (m : io A) : lio A := fun w => ([], m w).
Definition lret {A} (a : A) : lio A := mute (ret a).
Definition say (e : event) : lio unit := fun w => ([e], (Done tt, w)).
Definition lbind {A B} (m : lio A) (k : A -> lio B) : lio B := fun w =>
  match m w with
  | (ev, (Done a, w')) => let (ev', x) := k a w' in (ev ++ ev', x)
  | (ev, (IoErr, w')) => (ev, (IoErr, w'))
  | (ev, (Panicked, w')) => (ev, (Panicked, w'))
  | (ev, (NoFuel, w')) => (ev, (NoFuel, w'))
  end.
Notation "'log!' x ':=' e 'in' k" := (lbind e (fun x => k))
  (at level 200, x pattern, e at level 200, k at level 200, right associativity).

Section Text.
  Variable dbg : bool.

  (* apply_text.rs:269-348, as [apply_step]; the clump has the number [num] *)
  Definition apply_step_logged (patchable : list line) (reverse : bool) (c : text_clump) (next : option text_clump)
             (num : nat) (consumed offset : Z) (stats : statistics) : lio (Z * Z * statistics) :=
    log! w := mute (lift (will_apply dbg c patchable offset reverse)) in
    match w with
    | Some Cleanly =>
        log! consumed' := mute (clump_apply_into dbg c patchable consumed offset None reverse) in
        log! _ := say (Event Library Info (AboutClump num Applies None None)) in
        lret (consumed', offset, add_clean stats)
    | Some (WithReductions r) =>
        log! consumed' := mute (clump_apply_into dbg c patchable consumed offset (Some r) reverse) in
        log! _ := say (Event Library Warn (AboutClump num Applies (Some r) None)) in
        lret (consumed', offset, add_fuzzy stats)
    | None =>
    log! n := mute (lift (will_apply_nearby dbg c patchable consumed next offset reverse)) in
    match n with
    | Some (offset_adj, w) =>
        log! offset' := mute (lift (iadd dbg offset offset_adj)) in
        log! consumed' := mute (clump_apply_into dbg c patchable consumed offset' (reductions_of w) reverse) in
        log! _ := say (Event Library Warn (AboutClump num Applies (reductions_of w) (Some offset_adj))) in
        lret (consumed', offset', add_fuzzy stats)
    | None =>
    log! a := mute (lift (is_already_applied dbg c patchable offset reverse)) in
    match a with
    | Some Cleanly =>
        log! consumed' := mute (already_applied_into dbg c patchable consumed offset None reverse) in
        log! _ := say (Event Library Warn (AboutClump num AlreadyApplied None None)) in
        lret (consumed', offset, add_already stats)
    | Some (WithReductions r) =>
        log! consumed' := mute (already_applied_into dbg c patchable consumed offset (Some r) reverse) in
        log! _ := say (Event Library Warn (AboutClump num AlreadyApplied (Some r) None)) in
        lret (consumed', offset, add_already_fuzzy stats)
    | None =>
    log! n := mute (lift (is_already_applied_nearby dbg c patchable consumed next offset reverse)) in
    match n with
    | Some (offset_adj, w) =>
        log! offset' := mute (lift (iadd dbg offset offset_adj)) in
        log! consumed' := mute (already_applied_into dbg c patchable consumed offset' (reductions_of w) reverse) in
        log! _ := say (Event Library Warn (AboutClump num AlreadyApplied (reductions_of w) (Some offset_adj))) in
        lret (consumed', offset', add_already_fuzzy stats)
    | None =>
        log! _ := mute (write_failure_data_into dbg c reverse) in
        log! _ := say (Event Library Error (AboutClump num NotApplied None None)) in
        lret (consumed, offset, add_failed stats)
    end end end end.

  Fixpoint apply_clumps_logged (patchable : list line) (reverse : bool) (clumps : list text_clump)
           (num : nat) (consumed offset : Z) (stats : statistics) : lio (Z * statistics) :=
    match clumps with
    | [] => lret (consumed, stats)
    | c :: rest =>
        log! (consumed', offset', stats') :=
          apply_step_logged patchable reverse c (hd_error rest) (S num) consumed offset stats in
        apply_clumps_logged patchable reverse rest (S num) consumed' offset' stats'
    end.

  (* apply_text.rs:258-351 *)
  Definition text_apply_logged (clumps : list text_clump) (patchable : list line) (reverse : bool) : lio statistics :=
    log! (consumed, stats) := apply_clumps_logged patchable reverse clumps 0 0 0 stats0 in
    log! _ := mute (write_remainder write_lines dbg patchable consumed) in
    lret stats.

  (* apply_text.rs:353-389: the messages, and the answer *)
  Fixpoint text_query_logged (clumps : list text_clump) (patchable : list line) (reverse : bool)
           (num : nat) (offset : Z) : list event * res bool :=
    match clumps with
    | [] => ([], Ok true)
    | c :: rest =>
        match is_already_applied dbg c patchable offset reverse with
        | Ok (Some w) =>
            let (ev, r) := text_query_logged rest patchable reverse (S num) offset in
            let lv := match w with Cleanly => Info | WithReductions _ => Warn end in
            (Event Library lv (AboutClump (S num) AlreadyApplied (reductions_of w) None) :: ev, r)
        | Ok None =>
            match is_already_applied_nearby dbg c patchable 0 (hd_error rest) offset reverse with
            | Ok (Some (offset_adj, w)) =>
                match iadd dbg offset offset_adj with
                | Ok offset' =>
                    let (ev, r) := text_query_logged rest patchable reverse (S num) offset' in
                    (Event Library Warn (AboutClump (S num) AlreadyApplied (reductions_of w) (Some offset_adj)) :: ev, r)
                | Panic => ([], Panic)
                | OutOfFuel => ([], OutOfFuel)
                end
            | Ok None => ([Event Library Error (AboutClump (S num) NotAlreadyApplied None None)], Ok false)
            | Panic => ([], Panic)
            | OutOfFuel => ([], OutOfFuel)
            end
        | Panic => ([], Panic)
        | OutOfFuel => ([], OutOfFuel)
        end
    end.
End Text.

Section Bytes.
  Variable dbg : bool.

  (* apply_bytes.rs:43-54 *)
  Fixpoint byte_clumps_logged (patchable : list byte) (reverse : bool) (clumps : list byte_clump)
           (num : nat) (consumed : Z) : lio Z :=
    match clumps with
    | [] => lret consumed
    | c :: rest =>
        log! consumed' :=
          (if byte_will_apply c patchable reverse then
             log! consumed' := mute (byte_clump_apply_into dbg c patchable consumed reverse) in
             log! _ := say (Event Library Info (AboutClump (S num) Applies None None)) in
             lret consumed'
           else if byte_is_already_applied c patchable reverse then
             log! consumed' := mute (byte_already_applied_into dbg c patchable consumed reverse) in
             log! _ := say (Event Library Warn (AboutClump (S num) AlreadyApplied None None)) in
             lret consumed'
           else
             log! _ := say (Event Library Error (AboutClump (S num) NotApplied None None)) in
             lret consumed) in
        byte_clumps_logged patchable reverse rest (S num) consumed'
    end.

  (* apply_bytes.rs:34-56 *)
  Definition byte_apply_logged (clumps : list byte_clump) (patchable : list byte) (reverse : bool) : lio unit :=
    log! consumed := byte_clumps_logged patchable reverse clumps 0 0 in
    log! _ := mute (write_remainder write_all dbg patchable consumed) in
    lret tt.
End Bytes.

(* apply_bytes.rs:58-71 *)
Fixpoint byte_query_logged (clumps : list byte_clump) (patchable : list byte) (reverse : bool) (num : nat) : list event * bool :=
  match clumps with
  | [] => ([], true)
  | c :: rest =>
      if byte_is_already_applied c patchable reverse then
        let (ev, r) := byte_query_logged rest patchable reverse (S num) in
        (Event Library Info (AboutClump (S num) AlreadyApplied None None) :: ev, r)
      else ([Event Library Error (AboutClump (S num) NotAlreadyApplied None None)], false)
  end.

(* ------------------------------------------------------------------ *)
(* The programs with their messages                                    *)
(* ------------------------------------------------------------------ *)
Definition lprog (A : Type) : Type := world -> list event * (outcome A * world).
Definition silent {A} (m : prog A) : lprog A := fun w => ([], m w).
Definition tell (lv : level) (m : message) : lprog unit := fun w => ([Event Program lv m], (Val tt, w)).
Definition lpbind {A B} (m : lprog A) (k : A -> lprog B) : lprog B := fun w =>
  match m w with
  | (ev, (Val a, w')) => let (ev', x) := k a w' in (ev ++ ev', x)
  | (ev, (Exit c, w')) => (ev, (Exit c, w'))
  | (ev, (Abort, w')) => (ev, (Abort, w'))
  | (ev, (Stuck, w')) => (ev, (Stuck, w'))
  end.
Notation "'then!' x ':=' e 'in' k" := (lpbind e (fun x => k))
  (at level 200, x pattern, e at level 200, k at level 200, right associativity).
(* log::error!(..); std::process::exit(code) *)
Definition fail_with {A} (m : message) (code : nat) : lprog A :=
  then! _ := tell Error m in silent (exit code).

Section Programs.
  Variable E : env.

  (* writing to a file, with the messages of [m] *)
  Definition write_file_logged {A} (p : path) (m : lio A) : lprog (ores A) := fun w =>
    (match w_fs w p with
     | Some (File _ _) =>
         fst (m (Writer [] (match e_fault E (w_ops w) with NoFault => None | Fail => Some 0%nat | FailAfter n => Some n end)))
     | _ => []
     end,
     write_file E p (fun wr => snd (m wr)) w).

  (* pw_diff/src/main.rs:38-53 *)
  Definition diff_main_logged (before after : path) (context : nat) : lprog unit :=
    then! d := silent (diff_new E before after context) in
    match d with
    | None => fail_with DiffFailed 1
    | Some d => fun w =>
        let (out, ok) := diff_to_json d in
        let delivered := match e_stdout E with None => out | Some n => firstn n out end in
        let noticed := match e_stdout E with None => false | Some n => (n <? length (upto_newline out))%nat end in
        let w' := World (w_fs w) (w_seen w) (w_ops w) (w_stdout w ++ delivered) in
        if ok && negb noticed then ([], (Val tt, w')) else fail_with WritingDiffFailed 5 w'
    end.

  (* pw_patch/src/main.rs:52-99 (text) and 148-195 (bytes) *)
  Definition patch_change_logged {A B} (target : path) (items : list byte -> res (option A)) (apply : A -> lio B)
             (report : B -> option statistics) : lprog unit :=
    then! ok := silent (open_read E target) in
    if ok then
      then! content := silent (read_all E target) in
      match content with
      | None => fail_with (ReadingFailed target) 1
      | Some d =>
          then! x := silent (pure (items d)) in
          match x with
          | None => fail_with (ReadingFailed target) 1
          | Some x =>
              then! made := silent (create_new E (e_tmp E)) in
              if made then
                then! opened := silent (create E (e_tmp E)) in
                if opened then
                  then! r := write_file_logged (e_tmp E) (apply x) in
                  match r with
                  | Done stats =>
                      then! moved := silent (rename E (e_tmp E) target) in
                      if moved then
                        then! _ := tell Info (PatchDone (report stats)) in
                        silent (drop_temp E)
                      else fail_with RenameFailed 1
                  | IoErr => fail_with PatchFailed 1
                  | Panicked => silent (run! _ := drop_temp E in fun w => (Abort, w))
                  | NoFuel => fun w => ([], (Stuck, w))
                  end
                else fail_with TempOpenFailed 1
              else fail_with TempFailed 1
          end
      end
    else fail_with (OpeningFailed target) 1.
  (* 110-122 and 126-137 (text), 206-218 and 222-233 (bytes) *)
  Definition patch_create_logged {B} (target : path) (content : io B) : lprog unit :=
    then! made := silent (create_new E target) in
    if made then
      then! r := silent (write_file E target content) in
      match r with
      | Done _ => tell Info (Created target)
      | _ => tell Error (CreationFailed target)
      end
    else tell Error (CreationFailed target).
  (* 102-109 and 138-146 (text), 198-205 and 234-242 (bytes) *)
  Definition patch_remove_logged (target : path) : lprog unit :=
    then! ok := silent (remove_file E target) in
    if ok then tell Info (Deleted target) else fail_with (DeletionFailed target) 1.

  Definition patch_diff_logged (d : diff) (reverse : bool) : lprog unit :=
    match d with
    | TextChange d => patch_change_logged (td_before d) read_lines (fun ls => text_apply_logged (e_dbg E) (td_clumps d) ls reverse) Some
    | TextAdd p => if reverse then patch_remove_logged (pl_path p) else patch_create_logged (pl_path p) (write_lines (pl_lines p))
    | TextRemove p => if reverse then patch_create_logged (pl_path p) (write_lines (pl_lines p)) else patch_remove_logged (pl_path p)
    | ByteChange d => patch_change_logged (bd_before d) (fun b => Ok (Some b)) (fun b => byte_apply_logged (e_dbg E) (bd_clumps d) b reverse) (fun _ => None)
    | ByteAdd p => if reverse then patch_remove_logged (pb_path p) else patch_create_logged (pb_path p) (write_all (pb_bytes p))
    | ByteRemove p => if reverse then patch_create_logged (pb_path p) (write_all (pb_bytes p)) else patch_remove_logged (pb_path p)
    end.
  (* 35-50 *)
  Definition patch_main_logged (patch : path) (reverse : bool) : lprog unit :=
    then! ok := silent (open_read E patch) in
    if ok then
      then! content := silent (read_all E patch) in
      match content with
      | None => fail_with BadPatch 1
      | Some s =>
          then! d := silent (pure (diff_from_json s)) in
          match d with
          | None => fail_with BadPatch 1
          | Some d => patch_diff_logged d reverse
          end
      end
    else fail_with (OpeningFailed patch) 1.
End Programs.

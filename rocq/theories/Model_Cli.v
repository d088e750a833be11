(* Model_Cli.v - the command lines of the two programs, pw_diff/src/main.rs:13-37 and
   pw_patch/src/main.rs:16-33, and the programs as they are called.

   The parsers are generated by the derive macro of clap 4.5, which is not part of /repo: modelled
   from knowledge of its behaviour, for systems where arguments are byte strings.  An argument
   list has three possible effects: the program runs; it prints its help on stdout and ends with
   status 0; or it prints a message on stderr and ends with status 2.  The texts printed are not
   modelled. *)
From Coq Require Import String.
From Verif Require Import Base Model_Seq Model_Changes Model_IO Model_Text Model_Bytes Model_Json Model_Files Model_Log.

Inductive parsed (A : Type) : Type := Run (a : A) | Help | Usage.
Arguments Run {A} a.
Arguments Help {A}.
Arguments Usage {A}.
Definition pthen {A B} (m : parsed A) (k : A -> parsed B) : parsed B :=
  match m with Run a => k a | Help => Help | Usage => Usage end.

(* the options of the two programs, and the one clap adds *)
Inductive option_id := OVerbose | OContext | OReverse | OHelp.
(* letter and name (#[arg(short, long)]: from the field's name), and the number of paths *)
Record command := Command { c_options : list (byte * list byte * option_id); c_paths : nat }.
Definition name (s : string) : list byte := list_byte_of_string s.
(* pw_diff/src/main.rs:13-28 *)
Definition diff_command : command :=
  Command [(x76, name "verbose", OVerbose); (x63, name "context", OContext); (x68, name "help", OHelp)] 2.
(* pw_patch/src/main.rs:16-24 *)
Definition patch_command : command :=
  Command [(x76, name "verbose", OVerbose); (x72, name "reverse", OReverse); (x68, name "help", OHelp)] 1.
Definition takes_value (o : option_id) : bool := match o with OContext => true | _ => false end.
Definition by_letter (c : command) (b : byte) : option option_id :=
  match find (fun x : byte * list byte * option_id => Byte.eqb (fst (fst x)) b) (c_options c) with Some x => Some (snd x) | None => None end.
Definition by_name (c : command) (n : list byte) : option option_id :=
  match find (fun x : byte * list byte * option_id => list_eqb Byte.eqb (snd (fst x)) n) (c_options c) with Some x => Some (snd x) | None => None end.

(* what has been found on the command line so far *)
Record found := Found { f_verbose : nat; f_reverse : bool; f_context : option nat; f_paths : list path }.
Definition nothing : found := Found 0 false None [].

(* ArgAction::Count (saturating u8), ArgAction::SetTrue (an error the second time), help *)
Definition see_flag (o : option_id) (m : found) : parsed found :=
  match o with
  | OVerbose => Run (Found (Nat.min 255 (S (f_verbose m))) (f_reverse m) (f_context m) (f_paths m))
  | OReverse => if f_reverse m then Usage else Run (Found (f_verbose m) true (f_context m) (f_paths m))
  | OHelp => Help
  | OContext => Usage
  end.

(* value_parser!(u8): i64::from_str, then the range 0..=255 *)
Definition digit_of (b : byte) : option Z :=
  let n := Z.of_N (Byte.to_N b) in if ((48 <=? n) && (n <=? 57))%Z then Some (n - 48)%Z else None.
Definition i64_max : Z := 9223372036854775807.
Fixpoint i64_digits (neg : bool) (acc : Z) (s : list byte) : option Z :=
  match s with
  | [] => Some acc
  | b :: s' =>
      match digit_of b with
      | None => None
      | Some d =>
          let acc' := (if neg then acc * 10 - d else acc * 10 + d)%Z in
          if ((- i64_max - 1 <=? acc') && (acc' <=? i64_max))%Z then i64_digits neg acc' s' else None
      end
  end.
Definition i64_from_str (s : list byte) : option Z :=
  match s with
  | [] => None
  | b :: s' =>
      if Byte.eqb b x2b (* + *) then match s' with [] => None | _ => i64_digits false 0 s' end
      else if Byte.eqb b x2d (* - *) then match s' with [] => None | _ => i64_digits true 0 s' end
      else i64_digits false 0 s
  end.
Definition u8_value (s : list byte) : option nat :=
  match i64_from_str s with
  | Some n => if ((0 <=? n) && (n <=? 255))%Z then Some (Z.to_nat n) else None
  | None => None
  end.
(* ArgAction::Set: an error the second time *)
Definition see_context (v : list byte) (m : found) : parsed found :=
  match f_context m, u8_value v with
  | None, Some n => Run (Found (f_verbose m) (f_reverse m) (Some n) (f_paths m))
  | _, _ => Usage
  end.
(* the next path; an empty one is refused by the value parser of PathBuf *)
Definition see_path (c : command) (p : list byte) (m : found) : parsed found :=
  match p with
  | [] => Usage
  | _ => if length (f_paths m) <? c_paths c then Run (Found (f_verbose m) (f_reverse m) (f_context m) (f_paths m ++ [p])) else Usage
  end.

(* the letters after "-"; the flag says that the value of the context is still to come *)
Fixpoint see_letters (c : command) (s : list byte) (m : found) : parsed (found * bool) :=
  match s with
  | [] => Run (m, false)
  | b :: s' =>
      match by_letter c b with
      | None => Usage
      | Some o =>
          if takes_value o then
            match s' with
            | [] => Run (m, true)
            | b' :: v => pthen (see_context (if Byte.eqb b' x3d (* = *) then v else s') m) (fun m => Run (m, false))
            end
          else pthen (see_flag o m) (see_letters c s')
      end
  end.
(* the text after "--", up to the first "=", and what follows that *)
Fixpoint at_equals (s : list byte) : list byte * option (list byte) :=
  match s with
  | [] => ([], None)
  | b :: s' => if Byte.eqb b x3d then ([], Some s') else let (n, v) := at_equals s' in (b :: n, v)
  end.
Definition see_name (c : command) (s : list byte) (m : found) : parsed (found * bool) :=
  let (n, v) := at_equals s in
  match by_name c n with
  | None => Usage
  | Some o =>
      match takes_value o, v with
      | true, Some v => pthen (see_context v m) (fun m => Run (m, false))
      | true, None => Run (m, true)
      | false, Some _ => Usage
      | false, None => pthen (see_flag o m) (fun m => Run (m, false))
      end
  end.

(* the kinds of arguments: "--", "--name...", "-letters", others (also "-" and the empty one) *)
Inductive kind := KEnd | KName (s : list byte) | KLetters (s : list byte) | KOther.
Definition kind_of (a : list byte) : kind :=
  match a with
  | b :: ((b' :: s) as t) =>
      if Byte.eqb b x2d then
        if Byte.eqb b' x2d then match s with [] => KEnd | _ => KName s end else KLetters t
      else KOther
  | _ => KOther
  end.
(* The arguments one after the other.  [waiting]: an option awaits its value; an argument that
   begins with "-" does not supply it, and then it is missing. *)
Fixpoint see_paths (c : command) (args : list (list byte)) (m : found) : parsed found :=
  match args with
  | [] => Run m
  | a :: args' => pthen (see_path c a m) (see_paths c args')
  end.
Fixpoint see_args (c : command) (args : list (list byte)) (m : found) (waiting : bool) : parsed found :=
  match args with
  | [] => if waiting then Usage else Run m
  | a :: args' =>
      match kind_of a with
      | KOther => pthen (if waiting then see_context a m else see_path c a m) (fun m => see_args c args' m false)
      | k =>
          if waiting then Usage else
          match k with
          | KName s => pthen (see_name c s m) (fun x => see_args c args' (fst x) (snd x))
          | KLetters s => pthen (see_letters c s m) (fun x => see_args c args' (fst x) (snd x))
          | _ => see_paths c args' m
          end
      end
  end.

(* Cli::parse(); the arguments without the program's name *)
Definition parse_command (c : command) (args : list (list byte)) : parsed found :=
  pthen (see_args c args nothing false) (fun m => if length (f_paths m) =? c_paths c then Run m else Usage).
(* pw_diff/src/main.rs:14-28, 31: verbose, context (default 2), before, after *)
Definition diff_args (args : list (list byte)) : parsed (nat * nat * path * path) :=
  pthen (parse_command diff_command args) (fun m =>
    match f_paths m with
    | [before; after] => Run (f_verbose m, match f_context m with Some n => n | None => 2 end, before, after)
    | _ => Usage
    end).
(* pw_patch/src/main.rs:17-24, 27: verbose, reverse, patch *)
Definition patch_args (args : list (list byte)) : parsed (nat * bool * path) :=
  pthen (parse_command patch_command args) (fun m =>
    match f_paths m with [patch] => Run (f_verbose m, f_reverse m, patch) | _ => Usage end).

(* The programs: messages shown on stderr (those of clap left out), result and state.
   pw_diff/src/main.rs:30-54, pw_patch/src/main.rs:26-245 *)
Section Programs.
  Variable E : env.
  Definition diff_program (args : list (list byte)) : lprog unit := fun w =>
    match diff_args args with
    | Run (verbose, context, before, after) =>
        let (ev, r) := diff_main_logged E before after context w in (filter (shown verbose) ev, r)
    | Help => ([], (Exit 0, w))
    | Usage => ([], (Exit 2, w))
    end.
  Definition patch_program (args : list (list byte)) : lprog unit := fun w =>
    match patch_args args with
    | Run (verbose, reverse, patch) =>
        let (ev, r) := patch_main_logged E patch reverse w in (filter (shown verbose) ev, r)
    | Help => ([], (Exit 0, w))
    | Usage => ([], (Exit 2, w))
    end.
End Programs.

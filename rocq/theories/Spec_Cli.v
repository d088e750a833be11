(* Spec_Cli.v - how the two programs are to be called, and where a patch may reach.  Nothing of
   Model_Cli is mentioned. *)
From Coq Require Import String.
From Verif Require Import Base Model_Seq.

Definition argument : Type := list byte.
Definition word (s : string) : argument := list_byte_of_string s.

(* ------------------------------------------------------------------ *)
(* Numbers                                                             *)
(* ------------------------------------------------------------------ *)
(* a string of decimal digits and its value *)
Inductive decimal : list byte -> nat -> Prop :=
| decimal_one b d : d <= 9 -> Byte.to_nat b = 48 + d -> decimal [b] d
| decimal_more s n b d : decimal s n -> d <= 9 -> Byte.to_nat b = 48 + d -> decimal (s ++ [b]) (10 * n + d).
(* a number of lines of context: up to 255; a sign is allowed, minus only with zero *)
Inductive amount : argument -> nat -> Prop :=
| amount_plain s n : decimal s n -> n <= 255 -> amount s n
| amount_plus s n : decimal s n -> n <= 255 -> amount (word "+" ++ s) n
| amount_minus s : decimal s 0 -> amount (word "-" ++ s) 0.

(* ------------------------------------------------------------------ *)
(* Command lines                                                       *)
(* ------------------------------------------------------------------ *)
(* what can be said on a command line *)
Inductive item := Verbose | Reverse | Context (n : nat) | Path (p : argument).
(* not taken for an option: does not begin with "-", or is "-" itself *)
Definition plain (a : argument) : Prop := a = word "-" \/ (a <> [] /\ forall s, a <> word "-" ++ s).

Section Grammar.
  (* the flags: letter, name, meaning; and does the program have the option -c, --context? *)
  Variable flag : byte -> string -> item -> Prop.
  Variable has_context : Prop.

  (* one or more flags by their letters *)
  Inductive letters : list byte -> list item -> Prop :=
  | letters_none : letters [] []
  | letters_flag b n i s is : flag b n i -> letters s is -> letters (b :: s) (i :: is).

  Inductive spelled : list argument -> list item -> Prop :=
  | sp_none : spelled [] []
  (* a path *)
  | sp_path p rest is : plain p -> spelled rest is -> spelled (p :: rest) (Path p :: is)
  (* after "--" there are only paths, also those that begin with "-" *)
  | sp_end ps : Forall (fun p => p <> []) ps -> spelled (word "--" :: ps) (map Path ps)
  (* --verbose *)
  | sp_name b n i rest is : flag b n i -> spelled rest is -> spelled (word ("--" ++ n) :: rest) (i :: is)
  (* -vv *)
  | sp_letters s fs rest is : s <> [] -> letters s fs -> spelled rest is -> spelled ((word "-" ++ s) :: rest) (fs ++ is)
  (* --context=3 *)
  | sp_context_is v n rest is : has_context -> amount v n -> spelled rest is -> spelled ((word "--context=" ++ v) :: rest) (Context n :: is)
  (* --context 3 *)
  | sp_context v n rest is : has_context -> plain v -> amount v n -> spelled rest is -> spelled (word "--context" :: v :: rest) (Context n :: is)
  (* -vc3, -vc=3 *)
  | sp_c_is s fs eq v n rest is : has_context -> letters s fs -> eq = [] \/ eq = word "=" -> amount v n -> spelled rest is ->
      spelled ((word "-" ++ s ++ word "c" ++ eq ++ v) :: rest) (fs ++ Context n :: is)
  (* -vc 3 *)
  | sp_c s fs v n rest is : has_context -> letters s fs -> plain v -> amount v n -> spelled rest is ->
      spelled ((word "-" ++ s ++ word "c") :: v :: rest) (fs ++ Context n :: is).
End Grammar.

Definition paths (is : list item) : list argument := flat_map (fun i => match i with Path p => [p] | _ => [] end) is.
Definition contexts (is : list item) : list nat := flat_map (fun i => match i with Context n => [n] | _ => [] end) is.
Definition times (is : list item) (x : item) (n : nat) : Prop := (* x stands n times in the list *)
  exists rest, Permutation is (repeat x n ++ rest) /\ ~ In x rest.

Inductive diff_flag : byte -> string -> item -> Prop := df_verbose : diff_flag x76 "verbose" Verbose.
Inductive patch_flag : byte -> string -> item -> Prop :=
| pf_verbose : patch_flag x76 "verbose" Verbose
| pf_reverse : patch_flag x72 "reverse" Reverse.

(* pw_diff [-v]... [-c <n>] <before> <after>, options anywhere; without -c, the context is 2;
   more than 255 times -v count as 255 *)
Definition calls_diff (args : list argument) (verbose context : nat) (before after : argument) : Prop :=
  exists is v, spelled diff_flag True args is /\ paths is = [before; after] /\
    times is Verbose v /\ verbose = Nat.min v 255 /\
    (contexts is = [] /\ context = 2 \/ contexts is = [context]).
(* pw_patch [-v]... [-r] <patch> *)
Definition calls_patch (args : list argument) (verbose : nat) (reverse : bool) (patch : argument) : Prop :=
  exists is v, spelled patch_flag False args is /\ paths is = [patch] /\
    times is Verbose v /\ verbose = Nat.min v 255 /\ times is Reverse (if reverse then 1 else 0).

(* Nothing contradictory or superfluous has been said: at most n paths, one context, one -r. *)
Definition allowed (n : nat) (is : list item) : Prop :=
  length (paths is) <= n /\ length (contexts is) <= 1 /\ exists k, k <= 1 /\ times is Reverse k.
(* Asking for help: "--help" or "-h" (also after other letters, and with anything behind it)
   where an option may stand, if nothing wrong comes before it; what follows does not matter. *)
Definition asks_help (flag : byte -> string -> item -> Prop) (has_context : Prop) (n : nat) (args : list argument) : Prop :=
  exists pre a post is, args = pre ++ a :: post /\ ~ In (word "--") pre /\ spelled flag has_context pre is /\
    (a = word "--help" /\ allowed n is \/
     exists s fs t, a = word "-" ++ s ++ word "h" ++ t /\ letters flag s fs /\ allowed n (is ++ fs)).

(* ------------------------------------------------------------------ *)
(* Paths                                                               *)
(* ------------------------------------------------------------------ *)
Definition slash : byte := x2f.
Inductive components : argument -> list argument -> Prop :=
| comp_last s : ~ In slash s -> components s [s]
| comp_more s p cs : ~ In slash s -> components p cs -> components (s ++ slash :: p) (s :: cs).
(* following the components from a directory d levels below the current one leads out of the
   current one (symbolic links aside) *)
Inductive climbs : nat -> list argument -> Prop :=
| climbs_out rest : climbs 0 (word ".." :: rest)
| climbs_up d rest : climbs d rest -> climbs (S d) (word ".." :: rest)
| climbs_stay d s rest : s = [] \/ s = word "." -> climbs d rest -> climbs d (s :: rest)
| climbs_down d s rest : s <> [] -> s <> word "." -> s <> word ".." -> climbs (S d) rest -> climbs d (s :: rest).
(* a path that leads out of the current directory *)
Definition outside (p : argument) : Prop :=
  (exists q, p = slash :: q) \/ exists cs, components p cs /\ climbs 0 cs.

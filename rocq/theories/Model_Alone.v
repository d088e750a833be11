(* Model_Alone.v - saving and loading a change diff on its own, without the enumeration
   [Diff] around it (pw_diff_lib/src/text_diff.rs, byte_diff.rs).  The programs save and load
   [Diff]s; these are offered to other users of the library. *)
From Coq Require Import String.
From Verif Require Import Base Model_IO Model_Text Model_Bytes Model_Json.

(* text_diff.rs:85-90, fields in the order of declaration *)
Definition val_of_text_diff (d : text_diff) : val :=
  VStruct [VStr (td_before d); VStr (td_after d); VSeq (map val_of_text_clump (td_clumps d))].
Definition text_diff_of_val (v : val) : option text_diff :=
  match v with
  | VStruct [VStr b; VStr a; VSeq vs] => option_map' (TextDiff b a) (map_opt text_clump_of_val vs)
  | _ => None
  end.
(* byte_diff.rs:88-94 *)
Definition val_of_byte_diff (d : byte_diff) : val :=
  VStruct [VStr (bd_before d); VStr (bd_after d); VBool (bd_compressed d); VSeq (map val_of_byte_clump (bd_clumps d))].
Definition byte_diff_of_val (v : val) : option byte_diff :=
  match v with
  | VStruct [VStr b; VStr a; VBool c; VSeq vs] => option_map' (ByteDiff b a c) (map_opt byte_clump_of_val vs)
  | _ => None
  end.

(* text_diff.rs:120-122, byte_diff.rs:125-127  to_writer: to_writer_pretty *)
Definition text_diff_to_json (d : text_diff) : out := print text_diff_ty (val_of_text_diff d) 0.
Definition byte_diff_to_json (d : byte_diff) : out := print byte_diff_ty (val_of_byte_diff d) 0.
(* text_diff.rs:108-110, byte_diff.rs:113-115  from_reader; [None] inside [Ok]: an error *)
Definition load {A} (t : ty) (of_val : val -> option A) (s : list byte) : res (option A) :=
  match parse_document t s with
  | POk v _ => Ok (of_val v)
  | PErr => Ok None
  | PFuel => OutOfFuel
  end.
Definition text_diff_from_json : list byte -> res (option text_diff) := load text_diff_ty text_diff_of_val.
Definition byte_diff_from_json : list byte -> res (option byte_diff) := load byte_diff_ty byte_diff_of_val.

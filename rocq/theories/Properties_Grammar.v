(* Properties_Grammar.v - the property theorems and a concrete case beside each; proofs are in
   Proof_Props_Grammar.v.  Generated by tools/mkthms.py. *)
From Coq Require Import String.
From Verif Require Import Proof_Props_Grammar Base Model_Seq Model_Changes Model_IO Model_Text Model_Bytes Model_Json Spec Spec_Json Cases Proof_Utf8 Proof_Json Proof_Accepts Proof_Saved Proof_Unique Proof_Alone Proof_Props_Json.

(* ------------------------------------------------------------------ C79 *)
(* C79: loading succeeds with a diff exactly on the texts that are JSON according to RFC 8259
   and whose tree stands for that diff: fields in any order, each exactly once; other members
   ignored whatever they contain; arrays in place of records; any escapes. *)
Theorem C79_accepts : forall s d, diff_from_json s = Ok (Some d) <-> exists j, json_text j s /\ diff_json d j.
Proof. exact p_C79_accepts. Qed.
Print Assumptions C79_accepts.

(* Everything else is rejected, without a panic. *)
Theorem C79_rejects : forall s, diff_from_json s = Ok None <-> ~ exists j d, json_text j s /\ diff_json d j.
Proof. exact p_C79_rejects. Qed.
Print Assumptions C79_rejects.

(* The grammar is unambiguous: a text has at most one tree. *)
Theorem C79_one_tree : forall s j j', json_text j s -> json_text j' s -> j = j'.
Proof. exact p_C79_one_tree. Qed.
Print Assumptions C79_one_tree.

(* One text stands for at most one diff. *)
Theorem C79_unambiguous : forall s j j' d d', json_text j s -> diff_json d j -> json_text j' s -> diff_json d' j' -> d = d'.
Proof. exact p_C79_unambiguous. Qed.
Print Assumptions C79_unambiguous.

(* Members out of order, unknown members with nested values and with numbers no type could
   hold, escapes, surrogate pairs; rejected: a field twice (also if spelled differently), a lone
   surrogate, a field missing, a number too large, an array with an item too many, a comma too
   many, a leading zero, two variants at once. *)
Example C79_example :
  (exists j, json_text j (str "{ ""TextAdd"" :{""lines"":[""a\n"",""\u00e9\ud83d\ude00""],""x"":[1,{""y"":-2.5e+3}, null],""path"":""p""} } ") /\
     diff_json (TextAdd (PathAndLines (str "p") [[x61; x0a]; [xc3; xa9; xf0; x9f; x98; x80]])) j) /\
  (exists j, json_text j (str "{""ByteAdd"":[""p"",false,[0,255]]}") /\ diff_json (ByteAdd (PathAndBytes (str "p") false [x00; xff])) j) /\
  Forall (fun s => ~ exists j d, json_text j (str s) /\ diff_json d j)
    ["{""TextAdd"":{""lines"":[],""path"":""p"",""\u0070ath"":""p""}}"%string; "{""TextAdd"":{""lines"":[""\ud83d""],""path"":""p""}}"%string;
     "{""TextAdd"":{""lines"":[]}}"%string; "{""ByteAdd"":[""p"",false,[0,256]]}"%string; "{""ByteAdd"":[""p"",false,[],1]}"%string;
     "{""ByteAdd"":[""p"",false,[1,]]}"%string; "{""ByteAdd"":[""p"",false,[01]]}"%string;
     "{""TextAdd"":[""p"",[]],""TextRemove"":[""p"",[]]}"%string; ""%string].
Proof. exact e_C79_example. Qed.

(* The tree of one of these, spelled out. *)
Example C79_tree : json_text (JObj [(chars "ByteAdd", JArr [JStr (chars "\u0070"); JFalse; JArr [JNum (chars "0"); JNum (chars "255")]])]) (str "{""ByteAdd"":[""\u0070"",false,[0, 255]]}") /\
  diff_json (ByteAdd (PathAndBytes (str "p") false [x00; xff])) (JObj [(chars "ByteAdd", JArr [JStr (chars "\u0070"); JFalse; JArr [JNum (chars "0"); JNum (chars "255")]])]).
Proof. exact e_C79_tree. Qed.

(* ------------------------------------------------------------------ C80 *)
(* C80: what is written when a diff is saved is exactly the JSON tree with the fields in the
   order in which they are declared, two blanks per level, everything on a line of its own; it
   is JSON according to RFC 8259, in UTF-8, and stands for the diff. *)
Theorem C80_saved : forall d, valid_diff d -> exists j, saved_json d j /\ diff_to_json d = (pretty 0 j, true) /\
  json_text j (pretty 0 j) /\ diff_json d j /\ is_utf8 (pretty 0 j).
Proof. exact p_C80_saved. Qed.
Print Assumptions C80_saved.

(* There is only one such tree. *)
Theorem C80_unique : forall d j j', saved_json d j -> saved_json d j' -> j = j'.
Proof. exact p_C80_unique. Qed.
Print Assumptions C80_unique.

Example C80_example : valid_diff odd_diff /\ diff_to_json odd_diff = (str "{
  ""TextChange"": {
    ""before_path"": ""a\\b\""c"",
    ""after_path"": """ ++ [xc3; xa9] ++ str """,
    ""clumps"": [
      {
        ""context_lengths"": [
          1,
          255
        ],
        ""before"": {
          ""start"": 18446744073709551615,
          ""items"": [
            ""\u0000\n"",
            ""\u001f" ++ [x7f] ++ str "\r\n""
          ]
        },
        ""after"": {
          ""start"": 0,
          ""items"": [
            """ ++ [xf0; x9f; x98; x80] ++ str "\n"",
            """"
          ]
        }
      }
    ]
  }
}", true).
Proof. exact e_C80_example. Qed.

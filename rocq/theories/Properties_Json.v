(* Properties_Json.v - the property theorems and a concrete case beside each; proofs are in
   Proof_Props_Json.v.  Generated by tools/mkthms.py. *)
From Coq Require Import String.
From Verif Require Import Proof_Props_Json Base Model_Seq Model_Changes Model_IO Model_Text Model_Bytes Model_Json Spec Cases Proof_Utf8 Proof_Json.

(* ------------------------------------------------------------------ C42 *)
(* C42: writing any diff whose paths are Unicode as JSON succeeds, and reading the result
   back, also with blanks or newlines appended, yields the same diff. *)
Theorem C42_save_load : forall d, valid_diff d -> exists s, diff_to_json d = (s, true) /\
  forall blanks, json_blank blanks -> diff_from_json (s ++ blanks) = Ok (Some d).
Proof. exact p_C42_save_load. Qed.
Print Assumptions C42_save_load.

(* Different diffs have different saved forms. *)
Theorem C42_save_injective : forall d d', valid_diff d -> valid_diff d' -> fst (diff_to_json d) = fst (diff_to_json d') -> d = d'.
Proof. exact p_C42_save_injective. Qed.
Print Assumptions C42_save_injective.

(* A path that is not Unicode makes writing fail, and what was written so far cannot be read
   back as a diff. *)
Theorem C42_bad_path : forall d, valid_content d -> ~ Forall is_utf8 (diff_paths d) ->
  snd (diff_to_json d) = false /\ diff_from_json (fst (diff_to_json d)) = Ok None.
Proof. exact p_C42_bad_path. Qed.
Print Assumptions C42_bad_path.

Example C42_example : valid_diff odd_diff /\ valid_diff raw_diff /\
  diff_from_json (fst (diff_to_json odd_diff)) = Ok (Some odd_diff) /\
  diff_to_json raw_diff = (str "{
  ""ByteChange"": {
    ""before_path"": ""x"",
    ""after_path"": ""y z"",
    ""compressed"": true,
    ""clumps"": [
      {
        ""context_lengths"": [
          0,
          3
        ],
        ""before"": {
          ""start"": 7,
          ""items"": [
            0,
            255,
            128
          ]
        },
        ""after"": {
          ""start"": 10,
          ""items"": []
        }
      }
    ]
  }
}", true) /\
  diff_to_json (TextAdd (PathAndLines [x61; xff] [[x61; x0a]])) = (str "{
  ""TextAdd"": {
    ""path"": ", false).
Proof. exact e_C42_example. Qed.

(* ------------------------------------------------------------------ C56 *)
(* C56: a saved diff that was cut short anywhere is rejected when it is loaded. *)
Theorem C56_truncated : forall d kept lost, valid_diff d -> fst (diff_to_json d) = kept ++ lost -> lost <> [] ->
  diff_from_json kept = Ok None.
Proof. exact p_C56_truncated. Qed.
Print Assumptions C56_truncated.

(* Anything after a document other than blanks makes it unacceptable, whoever wrote it, so of
   two accepted documents neither continues the other except by blanks. *)
Theorem C56_trailing : forall s more d, diff_from_json s = Ok (Some d) ->
  (json_blank more -> diff_from_json (s ++ more) = Ok (Some d)) /\ (~ json_blank more -> diff_from_json (s ++ more) = Ok None).
Proof. exact p_C56_trailing. Qed.
Print Assumptions C56_trailing.

Example C56_example :
  diff_from_json (fst (diff_to_json raw_diff)) = Ok (Some raw_diff) /\
  diff_from_json (removelast (fst (diff_to_json raw_diff))) = Ok None /\
  diff_from_json (fst (diff_to_json raw_diff) ++ str " x") = Ok None /\
  diff_from_json (fst (diff_to_json raw_diff) ++ [x0a]) = Ok (Some raw_diff).
Proof. exact e_C56_example. Qed.

(* ------------------------------------------------------------------ C57 *)
(* C57: loading any bytes at all ends with an error or with a diff whose context lengths fit
   u8, whose positions fit usize and whose lines and paths are UTF-8. *)
Theorem C57_load : forall s, diff_from_json s = Ok None \/ exists d, diff_from_json s = Ok (Some d) /\ valid_diff d.
Proof. exact p_C57_load. Qed.
Print Assumptions C57_load.

(* An accepted document whose fields are in a different order, with unknown fields, as a JSON
   array, or with escapes loads as well; numbers out of range, duplicate fields, missing fields,
   unknown variants and lone surrogates are rejected. *)
Example C57_example :
  diff_from_json (str "{""TextAdd"":{""lines"":[""a\n"",""\u00e9\ud83d\ude00""],""x"":[1,{""y"":-2.5e3}],""path"":""p""}} ") =
    Ok (Some (TextAdd (PathAndLines (str "p") [[x61; x0a]; [xc3; xa9; xf0; x9f; x98; x80]]))) /\
  diff_from_json (str "{""ByteAdd"":[""p"",false,[0,255]]}") = Ok (Some (ByteAdd (PathAndBytes (str "p") false [x00; xff]))) /\
  diff_from_json (str "{""ByteAdd"":[""p"",false,[0,256]]}") = Ok None /\
  diff_from_json (str "{""TextAdd"":{""lines"":[],""lines"":[],""path"":""p""}}") = Ok None /\
  diff_from_json (str "{""TextAdd"":{""lines"":[]}}") = Ok None /\
  diff_from_json (str "{""TextOther"":{""lines"":[],""path"":""p""}}") = Ok None /\
  diff_from_json (str "{""TextAdd"":{""lines"":[""\ud83d""],""path"":""p""}}") = Ok None /\
  diff_from_json (str "") = Ok None.
Proof. exact e_C57_example. Qed.

(* Properties_Alone.v - the property theorems and a concrete case beside each; proofs are in
   Proof_Props_Alone.v.  Generated by tools/mkthms.py. *)
From Coq Require Import String.
From Verif Require Import Proof_Props_Alone Base Model_Seq Model_Changes Model_IO Model_Text Model_Bytes Model_Json Model_Alone Spec Spec_Json Spec_Alone Cases Proof_Seq Proof_Utf8 Proof_Diff Proof_Json Proof_Accepts Proof_Saved Proof_Unique Proof_Alone.

(* ------------------------------------------------------------------ C88 *)
(* C88: a change diff on its own is loaded from exactly the JSON texts (RFC 8259) whose tree
   stands for it. *)
Theorem C88_accepts : (forall s d, text_diff_from_json s = Ok (Some d) <-> exists j, json_text j s /\ text_change_json d j) /\
  (forall s d, byte_diff_from_json s = Ok (Some d) <-> exists j, json_text j s /\ byte_change_json d j).
Proof. exact p_C88_accepts. Qed.
Print Assumptions C88_accepts.

(* Everything else is rejected, without a panic. *)
Theorem C88_rejects : (forall s, text_diff_from_json s = Ok None <-> ~ exists j d, json_text j s /\ text_change_json d j) /\
  (forall s, byte_diff_from_json s = Ok None <-> ~ exists j d, json_text j s /\ byte_change_json d j).
Proof. exact p_C88_rejects. Qed.
Print Assumptions C88_rejects.

(* What is written is the tree with the fields in the order of declaration, in the pretty form,
   as UTF-8; loading it gives back the diff. *)
Theorem C88_saved : (forall d, valid_text_diff d -> exists j, saved_text_change d j /\ (forall j', saved_text_change d j' -> j' = j) /\
     text_diff_to_json d = (pretty 0 j, true) /\ is_utf8 (pretty 0 j) /\ text_diff_from_json (pretty 0 j) = Ok (Some d)) /\
  (forall d, valid_byte_diff d -> exists j, saved_byte_change d j /\ (forall j', saved_byte_change d j' -> j' = j) /\
     byte_diff_to_json d = (pretty 0 j, true) /\ is_utf8 (pretty 0 j) /\ byte_diff_from_json (pretty 0 j) = Ok (Some d)).
Proof. exact p_C88_saved. Qed.
Print Assumptions C88_saved.

(* The relation to whole diffs: the text of a change diff with the name of its kind in front is
   the text of a whole diff, and only then. *)
Theorem C88_wrapped : (forall s d, text_diff_from_json s = Ok (Some d) <-> diff_from_json (wrapped (chars "TextChange") s) = Ok (Some (TextChange d))) /\
  (forall s d, byte_diff_from_json s = Ok (Some d) <-> diff_from_json (wrapped (chars "ByteChange") s) = Ok (Some (ByteChange d))).
Proof. exact p_C88_wrapped. Qed.
Print Assumptions C88_wrapped.

(* No text stands for both a whole diff and a change diff on its own. *)
Theorem C88_not_both : forall s d, diff_from_json s = Ok (Some d) -> text_diff_from_json s = Ok None /\ byte_diff_from_json s = Ok None.
Proof. exact p_C88_not_both. Qed.
Print Assumptions C88_not_both.

Example C88_example : valid_text_diff alone_text /\ valid_byte_diff alone_bytes /\
  text_diff_from_json (str "{""clumps"": [[[0,1],{""items"":[""x"",""\n""],""start"":7},[7,[""\u000a""]]]],""x"":{""y"":[null,1e9]},""after_path"":""é"",""before_path"":""a\\""}") = Ok (Some alone_text) /\
  byte_diff_to_json alone_bytes = (str "{
  ""before_path"": ""a"",
  ""after_path"": ""b"",
  ""compressed"": false,
  ""clumps"": [
    {
      ""context_lengths"": [
        0,
        0
      ],
      ""before"": {
        ""start"": 3,
        ""items"": [
          0,
          255
        ]
      },
      ""after"": {
        ""start"": 3,
        ""items"": []
      }
    }
  ]
}", true) /\
  byte_diff_from_json (str "[""a"",""b"",false,[[[0,0],[3,[0,255]],[3,[]]]]] ") = Ok (Some alone_bytes) /\
  Forall (fun s => byte_diff_from_json (str s) = Ok None)
    ["{""before_path"":""a"",""after_path"":""b"",""clumps"":[]}"%string; "[""a"",""b"",false,[],1]"%string; "[""a"",""b"",false,[[[0,256],[0,[]],[0,[]]]]]"%string;
     "{""ByteChange"":[""a"",""b"",false,[]]}"%string].
Proof. exact e_C88_example. Qed.

(* ------------------------------------------------------------------ C89 *)
(* C89, full statement: a saved change diff of one kind is not loaded as one of the other kind.
   It is false: the change diff of two equal binary files, saved, is loaded as a change of
   text, the member "compressed" being ignored. *)
Theorem C89_kinds_refuted : exists b a d, byte_diff_clumps b a 3 = Ok (bd_clumps d) /\ valid_byte_diff d /\ bd_compressed d = false /\
  text_diff_from_json (fst (byte_diff_to_json d)) = Ok (Some (TextDiff (bd_before d) (bd_after d) [])).
Proof. exact p_C89_kinds_refuted. Qed.
Print Assumptions C89_kinds_refuted.

Theorem C89_kinds_partial : (forall d, valid_text_diff d -> byte_diff_from_json (fst (text_diff_to_json d)) = Ok None) /\
  (forall d, valid_byte_diff d -> (exists d', text_diff_from_json (fst (byte_diff_to_json d)) = Ok (Some d')) <-> Forall no_items (bd_clumps d)) /\
  (forall before after context d, (context <= 255)%nat -> byte_diff_clumps before after context = Ok (bd_clumps d) -> valid_byte_diff d ->
     (text_diff_from_json (fst (byte_diff_to_json d)) = Ok None <-> bd_clumps d <> [])).
Proof. exact p_C89_kinds_partial. Qed.
Print Assumptions C89_kinds_partial.

Example C89_example : valid_byte_diff alone_bytes /\ ~ Forall no_items (bd_clumps alone_bytes) /\ text_diff_from_json (fst (byte_diff_to_json alone_bytes)) = Ok None /\
  byte_diff_clumps [x01; x02; x03; x00; xff; x05; x06] [x01; x02; x03; x05; x06] 0 = Ok (bd_clumps alone_bytes).
Proof. exact e_C89_example. Qed.

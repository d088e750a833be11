(* Proof_Props_Grammar.v - the property lemmas on the JSON accepted and written. *)
From Coq Require Import String.
From Verif Require Import Base Model_Seq Model_Changes Model_IO Model_Text Model_Bytes Model_Json Spec Spec_Json Cases Proof_Utf8 Proof_Json Proof_Accepts Proof_Saved Proof_Unique Proof_Alone Proof_Props_Json.

(* ------------------------------------------------------------------ C79 *)
(* C79: loading succeeds with a diff exactly on the texts that are JSON according to RFC 8259
   and whose tree stands for that diff: fields in any order, each exactly once; other members
   ignored whatever they contain; arrays in place of records; any escapes. *)
Lemma p_C79_accepts : forall s d, diff_from_json s = Ok (Some d) <-> exists j, json_text j s /\ diff_json d j.
Proof. exact accepts. Qed.
(* Everything else is rejected, without a panic. *)
Lemma p_C79_rejects : forall s, diff_from_json s = Ok None <-> ~ exists j d, json_text j s /\ diff_json d j.
Proof.
  intros s. split.
  - intros E (j & d & H). assert (A : diff_from_json s = Ok (Some d)) by (apply accepts; eauto). congruence.
  - intros H. destruct (p_C57_load s) as [E|(d & E & _)]; [exact E|]. elim H. apply accepts in E as (j & E). eauto.
Qed.
(* The grammar is unambiguous: a text has at most one tree. *)
Lemma p_C79_one_tree : forall s j j', json_text j s -> json_text j' s -> j = j'.
Proof. exact one_tree. Qed.
(* One text stands for at most one diff. *)
Lemma p_C79_unambiguous : forall s j j' d d', json_text j s -> diff_json d j -> json_text j' s -> diff_json d' j' -> d = d'.
Proof.
  intros s j j' d d' T D T' D'. assert (A : diff_from_json s = Ok (Some d)) by (apply accepts; eauto).
  assert (A' : diff_from_json s = Ok (Some d')) by (apply accepts; eauto). congruence.
Qed.
(* Members out of order, unknown members with nested values and with numbers no type could
   hold, escapes, surrogate pairs; rejected: a field twice (also if spelled differently), a lone
   surrogate, a field missing, a number too large, an array with an item too many, a comma too
   many, a leading zero, two variants at once. *)
Lemma e_C79_example :
  (exists j, json_text j (str "{ ""TextAdd"" :{""lines"":[""a\n"",""\u00e9\ud83d\ude00""],""x"":[1,{""y"":-2.5e+3}, null],""path"":""p""} } ") /\
     diff_json (TextAdd (PathAndLines (str "p") [[x61; x0a]; [xc3; xa9; xf0; x9f; x98; x80]])) j) /\
  (exists j, json_text j (str "{""ByteAdd"":[""p"",false,[0,255]]}") /\ diff_json (ByteAdd (PathAndBytes (str "p") false [x00; xff])) j) /\
  Forall (fun s => ~ exists j d, json_text j (str s) /\ diff_json d j)
    ["{""TextAdd"":{""lines"":[],""path"":""p"",""\u0070ath"":""p""}}"%string; "{""TextAdd"":{""lines"":[""\ud83d""],""path"":""p""}}"%string;
     "{""TextAdd"":{""lines"":[]}}"%string; "{""ByteAdd"":[""p"",false,[0,256]]}"%string; "{""ByteAdd"":[""p"",false,[],1]}"%string;
     "{""ByteAdd"":[""p"",false,[1,]]}"%string; "{""ByteAdd"":[""p"",false,[01]]}"%string;
     "{""TextAdd"":[""p"",[]],""TextRemove"":[""p"",[]]}"%string; ""%string].
Proof.
  split; [|split].
  - apply accepts. vm_compute. reflexivity.
  - apply accepts. vm_compute. reflexivity.
  - repeat (apply Forall_cons; [apply p_C79_rejects; vm_compute; reflexivity|]). apply Forall_nil.
Qed.
(* The tree of one of these, spelled out. *)
Lemma e_C79_tree : json_text (JObj [(chars "ByteAdd", JArr [JStr (chars "\u0070"); JFalse; JArr [JNum (chars "0"); JNum (chars "255")]])]) (str "{""ByteAdd"":[""\u0070"",false,[0, 255]]}") /\
  diff_json (ByteAdd (PathAndBytes (str "p") false [x00; xff])) (JObj [(chars "ByteAdd", JArr [JStr (chars "\u0070"); JFalse; JArr [JNum (chars "0"); JNum (chars "255")]])]).
Proof.
  assert (B : json_blank []) by constructor.
  assert (N : forall n, integer_form n -> number_form n) by exact Proof_Grammar.integer_number.
  assert (I1 : integer_form (chars "0")) by now left.
  assert (I2 : integer_form (chars "255")) by (right; split; [split; [discriminate|repeat constructor; cbn; lia]|discriminate]).
  assert (P : forall s, forallb (fun b => (32 <=? Byte.to_N b)%N && negb (Byte.eqb b x22) && negb (Byte.eqb b x5c)) s = true -> meaning s s).
  { induction s as [|b s IH]; intros H; [constructor|]. cbn [forallb] in H. apply andb_true_iff in H as [H1 H2]. apply andb_true_iff in H1 as [H1 H3]. apply andb_true_iff in H1 as [H1 H4].
    apply meaning_plain; [|auto]. split; [now apply N.leb_le|]. split; intros ->; [discriminate H4|discriminate H3]. }
  assert (U : unit_of (chars "0070") 112) by (exists x30, x30, x37, x30, 0%N, 0%N, 7%N, 0%N; unfold hex; cbn; repeat split; lia).
  assert (M : meaning (chars "\u0070") (chars "p")) by (apply (meaning_unit (chars "0070") 112 (chars "p") [] []); [exact U|unfold scalar; lia|reflexivity|constructor]).
  split.
  - exists [], (str "{""ByteAdd"":[""\u0070"",false,[0, 255]]}"), []. split; [exact B|]. split; [|split; [exact B|now rewrite app_nil_r]].
    apply (value_obj _ (str """ByteAdd"":[""\u0070"",false,[0, 255]]")). apply (members_one (chars "ByteAdd") [] [] _ [] (str "[""\u0070"",false,[0, 255]]") []); auto.
    { apply (Proof_Grammar.meaning_form _ (chars "ByteAdd")). now apply P. }
    apply (value_arr _ (str """\u0070"",false,[0, 255]")). apply (items_more _ [] (str """\u0070""") [] _ (str "false,[0, 255]")); auto.
    { apply (value_str (chars "\u0070")). now apply (Proof_Grammar.meaning_form _ (chars "p")). }
    apply (items_more _ [] (str "false") [] _ (str "[0, 255]")); auto; [constructor|].
    apply (items_one _ [] (str "[0, 255]") []); auto. apply (value_arr _ (str "0, 255")). apply (items_more _ [] (str "0") [] _ (str " 255")); auto; [apply value_num; auto|].
    apply (items_one _ (str " ") (str "255") []); auto; [repeat constructor|apply value_num; auto].
  - assert (T : is_utf8 (chars "p") /\ is_utf8 (chars "ByteAdd")) by (split; apply utf8_valid_spec; reflexivity). destruct T as [T1 T2].
    exists (chars "ByteAdd"), (JArr [JStr (chars "\u0070"); JFalse; JArr [JNum (chars "0"); JNum (chars "255")]]).
    split; [reflexivity|]. split; [split; [now apply P|exact T2]|]. left. eexists. split; [reflexivity|]. constructor; [|constructor; [|constructor; [|constructor]]].
    + cbn [snd]. exists (chars "\u0070"). split; [reflexivity|]. split; assumption.
    + reflexivity.
    + eexists. split; [reflexivity|]. cbn [pb_bytes]. constructor; [|constructor; [|constructor]].
      * exists (chars "0"). split; [reflexivity|]. split; [exact I1|]. split; [reflexivity|]. unfold max_u8. cbn. lia.
      * exists (chars "255"). split; [reflexivity|]. split; [exact I2|]. split; [reflexivity|]. unfold max_u8. cbn. lia.
Qed.

(* ------------------------------------------------------------------ C80 *)
(* C80: what is written when a diff is saved is exactly the JSON tree with the fields in the
   order in which they are declared, two blanks per level, everything on a line of its own; it
   is JSON according to RFC 8259, in UTF-8, and stands for the diff. *)
Lemma p_C80_saved : forall d, valid_diff d -> exists j, saved_json d j /\ diff_to_json d = (pretty 0 j, true) /\
  json_text j (pretty 0 j) /\ diff_json d j /\ is_utf8 (pretty 0 j).
Proof. exact saved_form. Qed.
(* There is only one such tree. *)
Lemma p_C80_unique : forall d j j', saved_json d j -> saved_json d j' -> j = j'.
Proof. exact saved_json_single. Qed.
Lemma e_C80_example : valid_diff odd_diff /\ diff_to_json odd_diff = (str "{
  ""TextChange"": {
    ""before_path"": ""a\\b\""c"",
    ""after_path"": """ ++ [xc3; xa9] ++ str """,
    ""clumps"": [
      {
        ""context_lengths"": [
          1,
          255
        ],
        ""before"": {
          ""start"": 18446744073709551615,
          ""items"": [
            ""\u0000\n"",
            ""\u001f" ++ [x7f] ++ str "\r\n""
          ]
        },
        ""after"": {
          ""start"": 0,
          ""items"": [
            """ ++ [xf0; x9f; x98; x80] ++ str "\n"",
            """"
          ]
        }
      }
    ]
  }
}", true).
Proof. split; [apply e_C42_example|vm_compute; reflexivity]. Qed.

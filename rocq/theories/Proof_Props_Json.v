(* Proof_Props_Json.v - the property lemmas on saved diffs. *)
From Coq Require Import String.
From Verif Require Import Base Model_Seq Model_Changes Model_IO Model_Text Model_Bytes Model_Json Spec Cases Proof_Utf8 Proof_Json.

(* a diff with awkward content: quotes, backslashes, control characters, non-ASCII text *)
Definition odd_diff : diff :=
  TextChange (TextDiff (str "a\b""c") [xc3; xa9] [TextClump (1, 255)%Z (Snippet 18446744073709551615%Z [[x00; x0a]; [x1f; x7f; x0d; x0a]]) (Snippet 0%Z [[xf0; x9f; x98; x80; x0a]; []])]).
Definition raw_diff : diff :=
  ByteChange (ByteDiff (str "x") (str "y z") true [ByteClump (0, 3)%Z (Snippet 7%Z [x00; xff; x80]) (Snippet 10%Z [])]).

(* ------------------------------------------------------------------ C42 *)
(* C42: writing any diff whose paths are Unicode as JSON succeeds, and reading the result
   back, also with blanks or newlines appended, yields the same diff. *)
Lemma p_C42_save_load : forall d, valid_diff d -> exists s, diff_to_json d = (s, true) /\
  forall blanks, json_blank blanks -> diff_from_json (s ++ blanks) = Ok (Some d).
Proof.
  intros d Hd. exists (fst (diff_to_json d)). split.
  - rewrite (surjective_pairing (diff_to_json d)) at 1. now rewrite diff_to_json_ok.
  - intros q Hq. destruct (diff_from_json_app _ q d (diff_round_trip d Hd)) as [[_ H]|[H _]]; [exact H|contradiction].
Qed.
(* Different diffs have different saved forms. *)
Lemma p_C42_save_injective : forall d d', valid_diff d -> valid_diff d' -> fst (diff_to_json d) = fst (diff_to_json d') -> d = d'.
Proof.
  intros d d' Hd Hd' E. pose proof (diff_round_trip d Hd) as H. rewrite E, (diff_round_trip d' Hd') in H. congruence.
Qed.
(* the written forms in question *)
Definition text_start (b : path) : list byte := str "{
  ""TextChange"": {
    ""before_path"": " ++ print_str b ++ str ",
    ""after_path"": ".
Definition byte_start (b : path) : list byte := str "{
  ""ByteChange"": {
    ""before_path"": " ++ print_str b ++ str ",
    ""after_path"": ".
Lemma text_empty b : utf8_valid b = true -> fst (diff_to_json (TextChange (TextDiff b [] []))) = text_start b ++ str """"",
    ""clumps"": []
  }
}".
Proof. intros Hb. unfold diff_to_json. cbn. rewrite Hb. unfold text_start, print_str. cbn. now rewrite <- !app_assoc. Qed.
Lemma text_bad b a cl : utf8_valid b = true -> utf8_valid a = false -> fst (diff_to_json (TextChange (TextDiff b a cl))) = text_start b.
Proof. intros Hb Ha. unfold diff_to_json. cbn -[map]. rewrite Hb. cbn -[map]. rewrite Ha. unfold text_start, print_str. cbn. now rewrite <- ?app_assoc, ?app_nil_r. Qed.
Lemma byte_empty b : utf8_valid b = true -> fst (diff_to_json (ByteChange (ByteDiff b [] true []))) = byte_start b ++ str """"",
    ""compressed"": true,
    ""clumps"": []
  }
}".
Proof. intros Hb. unfold diff_to_json. cbn. rewrite Hb. unfold byte_start, print_str. cbn. now rewrite <- !app_assoc. Qed.
Lemma byte_bad b a c cl : utf8_valid b = true -> utf8_valid a = false -> fst (diff_to_json (ByteChange (ByteDiff b a c cl))) = byte_start b.
Proof. intros Hb Ha. unfold diff_to_json. cbn -[map]. rewrite Hb. cbn -[map]. rewrite Ha. unfold byte_start, print_str. cbn. now rewrite <- ?app_assoc, ?app_nil_r. Qed.
Lemma path_cases p : {is_utf8 p} + {~ is_utf8 p}.
Proof. destruct (utf8_valid p) eqn:E; [left; now apply utf8_valid_spec|right; intros H; apply utf8_valid_spec in H; congruence]. Qed.
Lemma not_utf8 p : ~ is_utf8 p -> utf8_valid p = false.
Proof. intros H. destruct (utf8_valid p) eqn:E; [|reflexivity]. elim H. now apply utf8_valid_spec. Qed.
(* A path that is not Unicode makes writing fail, and what was written so far cannot be read
   back as a diff. *)
Lemma p_C42_bad_path : forall d, valid_content d -> ~ Forall is_utf8 (diff_paths d) ->
  snd (diff_to_json d) = false /\ diff_from_json (fst (diff_to_json d)) = Ok None.
Proof.
  intros d _ Hp.
  destruct d as [[b a cl]|[p l]|[p l]|[b a c cl]|[p c l]|[p c l]]; cbn [diff_paths td_before td_after bd_before bd_after pl_path pb_path] in Hp.
  all: try (assert (Hb : ~ is_utf8 p) by (intros H; apply Hp; auto); apply not_utf8 in Hb; unfold diff_to_json; cbn -[diff_from_json map]; rewrite Hb; cbn -[diff_from_json]; split; [reflexivity|vm_compute; reflexivity]).
  - destruct (path_cases b) as [Hb|Hb].
    + assert (Ha : ~ is_utf8 a) by (intros H; apply Hp; auto). apply not_utf8 in Ha. split.
      * unfold diff_to_json. cbn -[map]. apply utf8_valid_spec in Hb. rewrite Hb. cbn. now rewrite Ha.
      * apply (diff_prefix_rejected (TextChange (TextDiff b [] [])) _ (str """"",
    ""clumps"": []
  }
}")); [split; [apply Forall_cons; [exact Hb|apply Forall_cons; [now exists []|apply Forall_nil]]|apply Forall_nil]| |discriminate].
        apply utf8_valid_spec in Hb. rewrite text_empty, text_bad by assumption. reflexivity.
    + apply not_utf8 in Hb. unfold diff_to_json. cbn -[diff_from_json map]. rewrite Hb. cbn -[diff_from_json]. split; [reflexivity|vm_compute; reflexivity].
  - destruct (path_cases b) as [Hb|Hb].
    + assert (Ha : ~ is_utf8 a) by (intros H; apply Hp; auto). apply not_utf8 in Ha. split.
      * unfold diff_to_json. cbn -[map]. apply utf8_valid_spec in Hb. rewrite Hb. cbn. now rewrite Ha.
      * apply (diff_prefix_rejected (ByteChange (ByteDiff b [] true [])) _ (str """"",
    ""compressed"": true,
    ""clumps"": []
  }
}")); [split; [apply Forall_cons; [exact Hb|apply Forall_cons; [now exists []|apply Forall_nil]]|apply Forall_nil]| |discriminate].
        apply utf8_valid_spec in Hb. rewrite byte_empty, byte_bad by assumption. reflexivity.
    + apply not_utf8 in Hb. unfold diff_to_json. cbn -[diff_from_json map]. rewrite Hb. cbn -[diff_from_json]. split; [reflexivity|vm_compute; reflexivity].
Qed.
Lemma e_C42_example : valid_diff odd_diff /\ valid_diff raw_diff /\
  diff_from_json (fst (diff_to_json odd_diff)) = Ok (Some odd_diff) /\
  diff_to_json raw_diff = (str "{
  ""ByteChange"": {
    ""before_path"": ""x"",
    ""after_path"": ""y z"",
    ""compressed"": true,
    ""clumps"": [
      {
        ""context_lengths"": [
          0,
          3
        ],
        ""before"": {
          ""start"": 7,
          ""items"": [
            0,
            255,
            128
          ]
        },
        ""after"": {
          ""start"": 10,
          ""items"": []
        }
      }
    ]
  }
}", true) /\
  diff_to_json (TextAdd (PathAndLines [x61; xff] [[x61; x0a]])) = (str "{
  ""TextAdd"": {
    ""path"": ", false).
Proof.
  split; [|split; [|vm_compute; repeat split; reflexivity]].
  - split; [apply utf8_all; repeat constructor|]. constructor; [|constructor]. unfold valid_text_clump, valid_context, is_u8, is_usize, two64.
    cbn [tc_context tc_before tc_after sn_start sn_items fst snd]. rewrite !utf8_all. repeat split; try lia; repeat constructor.
  - split; [apply utf8_all; repeat constructor|]. constructor; [|constructor]. unfold valid_byte_clump, valid_context, is_u8, is_usize, two64.
    cbn [bc_context bc_before bc_after sn_start fst snd]. repeat split; lia.
Qed.

(* ------------------------------------------------------------------ C56 *)
(* C56: a saved diff that was cut short anywhere is rejected when it is loaded. *)
Lemma p_C56_truncated : forall d kept lost, valid_diff d -> fst (diff_to_json d) = kept ++ lost -> lost <> [] ->
  diff_from_json kept = Ok None.
Proof. exact diff_prefix_rejected. Qed.
(* Anything after a document other than blanks makes it unacceptable, whoever wrote it, so of
   two accepted documents neither continues the other except by blanks. *)
Lemma p_C56_trailing : forall s more d, diff_from_json s = Ok (Some d) ->
  (json_blank more -> diff_from_json (s ++ more) = Ok (Some d)) /\ (~ json_blank more -> diff_from_json (s ++ more) = Ok None).
Proof. intros s q d H. destruct (diff_from_json_app s q d H) as [[H1 H2]|[H1 H2]]; split; intros; auto; contradiction. Qed.
Lemma e_C56_example :
  diff_from_json (fst (diff_to_json raw_diff)) = Ok (Some raw_diff) /\
  diff_from_json (removelast (fst (diff_to_json raw_diff))) = Ok None /\
  diff_from_json (fst (diff_to_json raw_diff) ++ str " x") = Ok None /\
  diff_from_json (fst (diff_to_json raw_diff) ++ [x0a]) = Ok (Some raw_diff).
Proof. vm_compute. repeat split; reflexivity. Qed.

(* ------------------------------------------------------------------ C57 *)
(* C57: loading any bytes at all ends with an error or with a diff whose context lengths fit
   u8, whose positions fit usize and whose lines and paths are UTF-8. *)
Lemma p_C57_load : forall s, diff_from_json s = Ok None \/ exists d, diff_from_json s = Ok (Some d) /\ valid_diff d.
Proof.
  intros s. destruct (diff_from_json_cases s) as [(d & r & _ & Hd & [(_ & E)|(_ & E)])|(_ & E)]; eauto.
Qed.
(* An accepted document whose fields are in a different order, with unknown fields, as a JSON
   array, or with escapes loads as well; numbers out of range, duplicate fields, missing fields,
   unknown variants and lone surrogates are rejected. *)
Lemma e_C57_example :
  diff_from_json (str "{""TextAdd"":{""lines"":[""a\n"",""\u00e9\ud83d\ude00""],""x"":[1,{""y"":-2.5e3}],""path"":""p""}} ") =
    Ok (Some (TextAdd (PathAndLines (str "p") [[x61; x0a]; [xc3; xa9; xf0; x9f; x98; x80]]))) /\
  diff_from_json (str "{""ByteAdd"":[""p"",false,[0,255]]}") = Ok (Some (ByteAdd (PathAndBytes (str "p") false [x00; xff]))) /\
  diff_from_json (str "{""ByteAdd"":[""p"",false,[0,256]]}") = Ok None /\
  diff_from_json (str "{""TextAdd"":{""lines"":[],""lines"":[],""path"":""p""}}") = Ok None /\
  diff_from_json (str "{""TextAdd"":{""lines"":[]}}") = Ok None /\
  diff_from_json (str "{""TextOther"":{""lines"":[],""path"":""p""}}") = Ok None /\
  diff_from_json (str "{""TextAdd"":{""lines"":[""\ud83d""],""path"":""p""}}") = Ok None /\
  diff_from_json (str "") = Ok None.
Proof. vm_compute. repeat split; reflexivity. Qed.

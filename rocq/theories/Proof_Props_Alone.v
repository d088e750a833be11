(* Proof_Props_Alone.v - the property lemmas on change diffs saved and loaded on their own. *)
From Coq Require Import String.
From Verif Require Import Base Model_Seq Model_Changes Model_IO Model_Text Model_Bytes Model_Json Model_Alone Spec Spec_Json Spec_Alone Cases Proof_Seq Proof_Utf8 Proof_Diff Proof_Json Proof_Accepts Proof_Saved Proof_Unique Proof_Alone.

(* ------------------------------------------------------------------ C88 *)
(* C88: a change diff on its own is loaded from exactly the JSON texts (RFC 8259) whose tree
   stands for it. *)
Lemma p_C88_accepts : (forall s d, text_diff_from_json s = Ok (Some d) <-> exists j, json_text j s /\ text_change_json d j) /\
  (forall s d, byte_diff_from_json s = Ok (Some d) <-> exists j, json_text j s /\ byte_change_json d j).
Proof. split; [exact text_accepts|exact byte_accepts]. Qed.
(* Everything else is rejected, without a panic. *)
Lemma p_C88_rejects : (forall s, text_diff_from_json s = Ok None <-> ~ exists j d, json_text j s /\ text_change_json d j) /\
  (forall s, byte_diff_from_json s = Ok None <-> ~ exists j d, json_text j s /\ byte_change_json d j).
Proof. split; [exact text_rejects|exact byte_rejects]. Qed.
(* What is written is the tree with the fields in the order of declaration, in the pretty form,
   as UTF-8; loading it gives back the diff. *)
Lemma p_C88_saved : (forall d, valid_text_diff d -> exists j, saved_text_change d j /\ (forall j', saved_text_change d j' -> j' = j) /\
     text_diff_to_json d = (pretty 0 j, true) /\ is_utf8 (pretty 0 j) /\ text_diff_from_json (pretty 0 j) = Ok (Some d)) /\
  (forall d, valid_byte_diff d -> exists j, saved_byte_change d j /\ (forall j', saved_byte_change d j' -> j' = j) /\
     byte_diff_to_json d = (pretty 0 j, true) /\ is_utf8 (pretty 0 j) /\ byte_diff_from_json (pretty 0 j) = Ok (Some d)).
Proof.
  split; intros d V.
  - destruct (text_saved d V) as (j & S & E & T & J & U). exists j. split; [assumption|]. split.
    + assert (G : forall j, saved_text_change d j -> saved_json (TextChange d) (JObj [(spell (chars "TextChange"), j)])).
      { intros x Hx. exists [x]. split; [reflexivity|]. constructor; [exact Hx|constructor]. }
      intros j' S'. assert (X := saved_json_single _ _ _ (G _ S') (G _ S)). now injection X.
    + split; [assumption|]. split; [assumption|]. apply text_accepts. eauto.
  - destruct (byte_saved d V) as (j & S & E & T & J & U). exists j. split; [assumption|]. split.
    + assert (G : forall j, saved_byte_change d j -> saved_json (ByteChange d) (JObj [(spell (chars "ByteChange"), j)])).
      { intros x Hx. exists [x]. split; [reflexivity|]. constructor; [exact Hx|constructor]. }
      intros j' S'. assert (X := saved_json_single _ _ _ (G _ S') (G _ S)). now injection X.
    + split; [assumption|]. split; [assumption|]. apply byte_accepts. eauto.
Qed.
(* The relation to whole diffs: the text of a change diff with the name of its kind in front is
   the text of a whole diff, and only then. *)
Lemma p_C88_wrapped : (forall s d, text_diff_from_json s = Ok (Some d) <-> diff_from_json (wrapped (chars "TextChange") s) = Ok (Some (TextChange d))) /\
  (forall s d, byte_diff_from_json s = Ok (Some d) <-> diff_from_json (wrapped (chars "ByteChange") s) = Ok (Some (ByteChange d))).
Proof. split; [exact text_wrapped|exact byte_wrapped]. Qed.
(* No text stands for both a whole diff and a change diff on its own. *)
Lemma p_C88_not_both : forall s d, diff_from_json s = Ok (Some d) -> text_diff_from_json s = Ok None /\ byte_diff_from_json s = Ok None.
Proof. exact diff_not_alone. Qed.
(* "a", "b", a clump without context that removes one line or byte, odd names *)
Definition alone_text : text_diff := TextDiff (chars "a\") [xc3; xa9] [TextClump (0, 1)%Z (Snippet 7 [chars "x"; [x0a]]) (Snippet 7 [[x0a]])].
Definition alone_bytes : byte_diff := ByteDiff (chars "a") (chars "b") false [ByteClump (0, 0)%Z (Snippet 3 [x00; xff]) (Snippet 3 [])].
Lemma alone_valid : valid_text_diff alone_text /\ valid_byte_diff alone_bytes.
Proof.
  assert (U : forall s, utf8_valid s = true -> is_utf8 s) by (intros s; apply utf8_valid_spec).
  split; (split; [now apply U|]); (split; [now apply U|]); (constructor; [|constructor]); unfold valid_text_clump, valid_byte_clump, valid_context, is_u8, is_usize, two64; cbn [tc_context tc_before tc_after bc_context bc_before bc_after sn_start sn_items fst snd].
  - split; [lia|]. split; [lia|]. split; [lia|]. split; repeat constructor; now apply U.
  - lia.
Qed.
Lemma e_C88_example : valid_text_diff alone_text /\ valid_byte_diff alone_bytes /\
  text_diff_from_json (str "{""clumps"": [[[0,1],{""items"":[""x"",""\n""],""start"":7},[7,[""\u000a""]]]],""x"":{""y"":[null,1e9]},""after_path"":""é"",""before_path"":""a\\""}") = Ok (Some alone_text) /\
  byte_diff_to_json alone_bytes = (str "{
  ""before_path"": ""a"",
  ""after_path"": ""b"",
  ""compressed"": false,
  ""clumps"": [
    {
      ""context_lengths"": [
        0,
        0
      ],
      ""before"": {
        ""start"": 3,
        ""items"": [
          0,
          255
        ]
      },
      ""after"": {
        ""start"": 3,
        ""items"": []
      }
    }
  ]
}", true) /\
  byte_diff_from_json (str "[""a"",""b"",false,[[[0,0],[3,[0,255]],[3,[]]]]] ") = Ok (Some alone_bytes) /\
  Forall (fun s => byte_diff_from_json (str s) = Ok None)
    ["{""before_path"":""a"",""after_path"":""b"",""clumps"":[]}"%string; "[""a"",""b"",false,[],1]"%string; "[""a"",""b"",false,[[[0,256],[0,[]],[0,[]]]]]"%string;
     "{""ByteChange"":[""a"",""b"",false,[]]}"%string].
Proof.
  split; [apply alone_valid|]. split; [apply alone_valid|]. split; [vm_compute; reflexivity|]. split; [vm_compute; reflexivity|]. split; [vm_compute; reflexivity|].
  repeat (apply Forall_cons; [vm_compute; reflexivity|]). apply Forall_nil.
Qed.

(* ------------------------------------------------------------------ C89 *)
(* C89, full statement: a saved change diff of one kind is not loaded as one of the other kind.
   It is false: the change diff of two equal binary files, saved, is loaded as a change of
   text, the member "compressed" being ignored. *)
Lemma p_C89_kinds_refuted : exists b a d, byte_diff_clumps b a 3 = Ok (bd_clumps d) /\ valid_byte_diff d /\ bd_compressed d = false /\
  text_diff_from_json (fst (byte_diff_to_json d)) = Ok (Some (TextDiff (bd_before d) (bd_after d) [])).
Proof.
  exists [x00; xff], [x00; xff], (ByteDiff (chars "a") (chars "b") false []). split; [vm_compute; reflexivity|]. split; [|split; [reflexivity|vm_compute; reflexivity]].
  split; [now apply utf8_valid_spec|]. split; [now apply utf8_valid_spec|constructor].
Qed.
(* What holds: it happens exactly if no clump of the byte diff has an item, for generated ones
   if there are no clumps; a saved text change is never loaded as a byte change.
   Missing: the rest. *)
Lemma cover_items context g (b a : list byte) : forall hs i j, cover context g b a i j hs -> Forall no_items (map byte_of_hunk hs) -> hs = [].
Proof.
  intros hs i j H N. destruct H as [|i j d i' j' l t rest Hg L1 L2 L3 L4 L5 _ _ _ _ _]; [reflexivity|]. exfalso. inversion N as [|? ? [N1 N2] _]; subst. cbn in N1, N2.
  apply (f_equal (@length _)) in N1, N2. rewrite sub_length in N1, N2 by lia. cbn in N1, N2. lia.
Qed.
Lemma p_C89_kinds_partial : (forall d, valid_text_diff d -> byte_diff_from_json (fst (text_diff_to_json d)) = Ok None) /\
  (forall d, valid_byte_diff d -> (exists d', text_diff_from_json (fst (byte_diff_to_json d)) = Ok (Some d')) <-> Forall no_items (bd_clumps d)) /\
  (forall before after context d, (context <= 255)%nat -> byte_diff_clumps before after context = Ok (bd_clumps d) -> valid_byte_diff d ->
     (text_diff_from_json (fst (byte_diff_to_json d)) = Ok None <-> bd_clumps d <> [])).
Proof.
  split; [exact text_not_byte|]. split; [exact byte_as_text|]. intros b a context d Hc E V.
  assert (N : Forall no_items (bd_clumps d) <-> bd_clumps d = []).
  { split; [|intros ->; constructor]. destruct (byte_diff_spec b a context Hc) as (cs & cl & hs & _ & _ & _ & _ & E1 & C). rewrite E in E1. injection E1 as ->. intros N. now rewrite (cover_items _ _ _ _ _ _ _ C N). }
  rewrite <- N, <- (byte_as_text d V). destruct (text_total (fst (byte_diff_to_json d))) as [X|(d' & X & _)]; rewrite X.
  - split; [|reflexivity]. intros _ (d' & Y). discriminate Y.
  - split; [discriminate|]. intros H. elim H. eauto.
Qed.
Lemma e_C89_example : valid_byte_diff alone_bytes /\ ~ Forall no_items (bd_clumps alone_bytes) /\ text_diff_from_json (fst (byte_diff_to_json alone_bytes)) = Ok None /\
  byte_diff_clumps [x01; x02; x03; x00; xff; x05; x06] [x01; x02; x03; x05; x06] 0 = Ok (bd_clumps alone_bytes).
Proof.
  split; [apply alone_valid|]. split; [intros N; inversion N as [|? ? [N1 _] _]; discriminate N1|]. split; vm_compute; reflexivity.
Qed.

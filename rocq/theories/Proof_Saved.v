(* Proof_Saved.v - what is written when a diff is saved (C80). *)
From Coq Require Import String ZifyBool.
From Verif Require Import Base Model_Seq Model_Changes Model_IO Model_Text Model_Bytes Model_Json Spec Spec_Json Proof_Utf8 Proof_Json Proof_Grammar Proof_Values Proof_Accepts.
Local Open Scope Z_scope.

(* ---------------- trees of values ---------------- *)
Fixpoint tree (t : ty) (v : val) {struct t} : json :=
  match t, v with
  | TNum _, VNum z => JNum (dec z)
  | TBool, VBool b => if b then JTrue else JFalse
  | TStr, VStr s | TPath, VStr s => JStr (spell s)
  | TSeq t', VSeq vs => JArr (map (tree t') vs)
  | TPair t1 t2, VPair v1 v2 => JArr [tree t1 v1; tree t2 v2]
  | TStruct fs, VStruct vs =>
      JObj ((fix fields (fs : list (list byte * ty)) (vs : list val) :=
         match fs, vs with (n, t') :: fs', v :: vs' => (spell n, tree t' v) :: fields fs' vs' | _, _ => [] end) fs vs)
  | TEnum ts, VEnum i v => (fix go (ts : list (list byte * ty)) (i : nat) : json :=
         match ts, i with
         | (n, t') :: _, O => JObj [(spell n, tree t' v)]
         | _ :: ts', S i' => go ts' i'
         | [], _ => JNull
         end) ts i
  | _, _ => JNull
  end.
Fixpoint tree_fields (fs : list (list byte * ty)) (vs : list val) : list (list byte * json) :=
  match fs, vs with (n, t') :: fs', v :: vs' => (spell n, tree t' v) :: tree_fields fs' vs' | _, _ => [] end.
Lemma tree_struct fs vs : tree (TStruct fs) (VStruct vs) = JObj (tree_fields fs vs).
Proof. reflexivity. Qed.
Lemma tree_enum ts i v n t : nth_error ts i = Some (n, t) -> tree (TEnum ts) (VEnum i v) = JObj [(spell n, tree t v)].
Proof.
  cbn [tree]. revert i. induction ts as [|[n' t'] ts IH]; intros [|i] H; try discriminate; [now injection H as -> ->|now apply IH].
Qed.

(* ---------------- the text written ---------------- *)
Lemma spell_escape b : spell_byte b = escape_byte b.
Proof. destruct b; reflexivity. Qed.
Lemma spell_print s : print_str s = quoted (spell s).
Proof.
  unfold print_str, quoted, spell. cbn [app]. f_equal. f_equal. induction s as [|b s IH]; cbn; [reflexivity|]. now rewrite IH, spell_escape.
Qed.
Lemma oapp_lit a b : oapp (lit a) (b, true) = (a ++ b, true).
Proof. reflexivity. Qed.
Lemma print_values_pretty level : forall its ts first, Forall2 (fun it t => it (S level) = (t, true)) its ts ->
  print_values first level its = ((match ts with [] => [] | _ => if first then [] else [x2c] end) ++ commas (map (fun x => newline (S level) ++ x) ts), true).
Proof.
  induction its as [|it its IH]; intros ts first H; inversion H as [|? t ? ts' E H']; subst; [reflexivity|].
  cbn [print_values]. rewrite E, (IH ts' false H'). unfold oapp, lit. cbn [fst snd map commas]. f_equal.
  destruct ts' as [|t' ts']; cbn [map commas].
  - rewrite !app_nil_r. unfold newline, indent. destruct first; cbn [app]; reflexivity.
  - unfold newline at 1. unfold indent. destruct first; cbn [app]; repeat (rewrite <- ?app_assoc; cbn [app]); reflexivity.
Qed.
Lemma print_body_pretty o c level its ts : Forall2 (fun it t => it (S level) = (t, true)) its ts -> print_body o c its level = (block o c level ts, true).
Proof.
  intros H. unfold print_body, block. inversion H as [|it t its' ts' E H']; subst; [reflexivity|].
  rewrite (print_values_pretty level _ (t :: ts') true H). unfold oapp, lit. cbn [fst snd app]. reflexivity.
Qed.
Lemma print_tree : forall t v n, has_type t v -> print t v n = (pretty n (tree t v), true).
Proof.
  induction t as [max| | | |t IH|t1 t2 IH1 IH2|fs IH|ts IH] using ty_ind'; intros v n Ht; destruct v; try contradiction.
  - reflexivity.
  - destruct b; reflexivity.
  - cbn [print tree pretty]. now rewrite spell_print.
  - cbn [print tree pretty has_type] in *. now rewrite Ht, spell_print.
  - cbn [print tree pretty has_type] in *. apply print_body_pretty. rewrite map_map. induction Ht; cbn; constructor; auto.
  - cbn [print tree pretty has_type] in *. destruct Ht. apply print_body_pretty. repeat constructor; auto.
  - rewrite print_struct, tree_struct. apply has_type_struct in Ht. cbn [pretty]. apply print_body_pretty. unfold typed_fields in Ht.
    induction Ht as [|[m t] v fs vs Hfv HF IHF]; [constructor|]. inversion IH; subst. cbn [field_prints tree_fields map fst snd] in *. constructor; [|auto].
    unfold print_field. rewrite H1 by assumption. rewrite oapp_lit, spell_print. now rewrite <- app_assoc.
  - apply has_type_enum in Ht as (m & t & Ei & Ht). rewrite (print_enum _ _ _ _ _ Ei), (tree_enum _ _ _ _ _ Ei). cbn [pretty map fst snd]. apply print_body_pretty.
    rewrite Forall_forall in IH. specialize (IH _ (nth_error_In _ _ Ei)). constructor; [|constructor].
    unfold print_field. cbn [snd] in IH. rewrite IH by assumption. rewrite oapp_lit, spell_print. now rewrite <- app_assoc.
Qed.

(* ---------------- spelling ---------------- *)
Lemma spell_byte_cases b : plain b /\ spell_byte b = [b] \/ (exists e, In (e, b) short_escapes /\ spell_byte b = [x5c; e]) \/
  exists u, unit_of u (Byte.to_N b) /\ scalar (Byte.to_N b) /\ (Byte.to_N b < 128)%N /\ spell_byte b = x5c :: x75 :: u.
Proof.
  destruct (spell_byte b) as [|x [|e [|y l]]] eqn:E.
  - destruct b; discriminate E.
  - left. assert (x = b) as -> by (destruct b; try discriminate E; now injection E as <-). split; [|reflexivity].
    destruct b; try discriminate E; unfold plain; cbn; (split; [lia|split; discriminate]).
  - right. left. exists e. assert (x = x5c) as -> by (destruct b; try discriminate E; now injection E as <-). split; [|reflexivity].
    destruct b; try discriminate E; injection E as <-; cbn; tauto.
  - right. right. exists (y :: l). assert (x = x5c /\ e = x75) as [-> ->] by (destruct b; try discriminate E; now injection E as <- <-).
    split; [|split; [|split; [|reflexivity]]]; try (destruct b; try discriminate E; unfold scalar; cbn; lia).
    destruct b; try discriminate E; injection E as <- <-; eapply hex4_spec; reflexivity.
Qed.
Lemma spell_meaning s : meaning (spell s) s.
Proof.
  induction s as [|b s IH]; [constructor|]. cbn [spell flat_map]. change (flat_map spell_byte s) with (spell s).
  destruct (spell_byte_cases b) as [[P ->]|[(e & I & ->)|(u & U & S & L & ->)]]; cbn [app].
  - now apply meaning_plain.
  - now apply meaning_short.
  - change (b :: s) with ([b] ++ s). eapply meaning_unit; eauto. unfold utf8_encode. destruct (N.ltb_spec (Byte.to_N b) 128); [reflexivity|lia].
Qed.
Lemma spell_form s : string_form (spell s).
Proof. apply (meaning_form _ s), spell_meaning. Qed.
Lemma spell_stands s : is_utf8 s -> stands_for (spell s) s.
Proof. intros H. split; [apply spell_meaning|assumption]. Qed.
Lemma is_utf8_app s t : is_utf8 s -> is_utf8 t -> is_utf8 (s ++ t).
Proof.
  intros (cs & F & E) (ds & G & H). exists (cs ++ ds). split; [now apply Forall_app|]. now rewrite map_app, E, H, map_app, concat_app.
Qed.
Lemma is_utf8_ascii s : Forall (fun b => (Byte.to_N b < 128)%N) s -> is_utf8 s.
Proof.
  induction 1 as [|b s H F IH]; [now exists []|]. change (b :: s) with ([b] ++ s). apply (is_utf8_cons (Byte.to_N b)); [left; lia| |assumption].
  unfold utf8_encode. destruct (N.ltb_spec (Byte.to_N b) 128); [reflexivity|lia].
Qed.
Lemma encode_high c : (128 <= c)%N -> Forall (fun n => (128 <= n)%N) (utf8_encode c).
Proof.
  intros H. unfold utf8_encode. destruct (N.ltb_spec c 128); [lia|]. destruct (N.ltb_spec c 2048); [|destruct (N.ltb_spec c 65536)]; repeat constructor; lia.
Qed.
Lemma spell_high b : (128 <= Byte.to_N b)%N -> spell_byte b = [b].
Proof. intros H. destruct (spell_byte_cases b) as [[_ E]|[(e & I & _)|(u & _ & _ & L & _)]]; [exact E| |lia]. cbn in I. decompose [or] I; try contradiction; congruence || (injection H0 as <- <-; cbn in H; lia) || (injection H1 as <- <-; cbn in H; lia). Qed.
Lemma spell_ascii b : (Byte.to_N b < 128)%N -> is_utf8 (spell_byte b).
Proof. intros H. apply is_utf8_ascii. destruct b; cbn in H; try lia; repeat constructor. Qed.
Lemma spell_utf8 s : is_utf8 s -> is_utf8 (spell s).
Proof.
  intros (cs & F & E). revert s E. induction F as [|c cs S F IH]; intros s E; cbn in E; [destruct s; [now exists []|discriminate]|].
  apply map_eq_app in E as (s1 & s2 & -> & E1 & E2). unfold spell. rewrite flat_map_app. apply is_utf8_app; [|now apply IH].
  destruct (N.lt_ge_cases c 128) as [L|L].
  - unfold utf8_encode in E1. destruct (N.ltb_spec c 128); [|lia]. destruct s1 as [|b [|]]; try discriminate. injection E1 as E1. cbn. rewrite app_nil_r. apply spell_ascii. lia.
  - pose proof (encode_high c L) as H. rewrite <- E1 in H. replace (flat_map spell_byte s1) with s1; [exists [c]; split; [apply Forall_cons; [assumption|apply Forall_nil]|]; cbn; now rewrite app_nil_r|].
    clear E1. induction s1 as [|b s1 IH1]; [reflexivity|]. cbn in H. inversion H; subst. cbn. rewrite spell_high by assumption. cbn. f_equal. now apply IH1.
Qed.

(* ---------------- the text is JSON in UTF-8 ---------------- *)
Lemma json_ind' (P : json -> Prop) : P JNull -> P JTrue -> P JFalse -> (forall s, P (JNum s)) -> (forall s, P (JStr s)) ->
  (forall js, Forall P js -> P (JArr js)) -> (forall ms, Forall (fun m => P (snd m)) ms -> P (JObj ms)) -> forall j, P j.
Proof.
  intros H1 H2 H3 H4 H5 H6 H7. fix go 1. intros [| | |s|s|js|ms]; [exact H1|exact H2|exact H3|apply H4|apply H5|apply H6|apply H7].
  - induction js as [|j js IH]; constructor; [apply go|exact IH].
  - induction ms as [|[k j] ms IH]; constructor; [apply go|exact IH].
Qed.
Fixpoint clean (j : json) : Prop :=
  match j with
  | JNull | JTrue | JFalse => True
  | JNum s => number_form s /\ is_utf8 s
  | JStr s => string_form s /\ is_utf8 s
  | JArr js => (fix all (js : list json) : Prop := match js with [] => True | j :: js' => clean j /\ all js' end) js
  | JObj ms => (fix all (ms : list (list byte * json)) : Prop :=
      match ms with [] => True | (k, j) :: ms' => (string_form k /\ is_utf8 k /\ clean j) /\ all ms' end) ms
  end.
Lemma clean_arr js : clean (JArr js) <-> Forall clean js.
Proof. induction js as [|j js IH]; cbn in *; split; auto; [intros [H1 H2]; constructor; tauto|inversion 1; subst; tauto]. Qed.
Lemma clean_obj ms : clean (JObj ms) <-> Forall (fun m => string_form (fst m) /\ is_utf8 (fst m) /\ clean (snd m)) ms.
Proof. induction ms as [|[k j] ms IH]; cbn in *; split; auto; [intros [H1 H2]; constructor; cbn; tauto|inversion 1; subst; cbn in *; tauto]. Qed.
Lemma newline_blank n : json_blank (newline n).
Proof. unfold newline. constructor; [cbn; tauto|]. apply Forall_forall. intros b H. apply repeat_spec in H as ->. cbn. tauto. Qed.
Lemma items_pretty n l : forall js, js <> [] -> Forall2 (fun j t => value_text j t) js l -> items_text js (commas (map (fun x => newline n ++ x) l) ++ newline (pred n)).
Proof.
  intros js H F. induction F as [|j t js l V F IH]; [congruence|]. cbn [map commas]. inversion F as [|j' t' js' l' V' F']; subst.
  - cbn [map commas]. rewrite <- app_assoc. apply items_one; auto using newline_blank.
  - cbn [map commas] in *. rewrite <- app_assoc. cbn [app]. rewrite <- (app_assoc (newline n)).
    change (x2c :: ?a) with ([] ++ x2c :: a). apply (items_more j (newline n) t []); auto using newline_blank, blank_nil. apply IH. discriminate.
Qed.
Lemma blank_space : json_blank [x20].
Proof. repeat constructor. Qed.
Lemma commas_cons x y l : commas (x :: y :: l) = x ++ x2c :: commas (y :: l).
Proof. reflexivity. Qed.
Lemma members_pretty n l : forall ms, ms <> [] -> Forall (fun m => string_form (fst m)) ms -> Forall2 (fun m t => value_text (snd m) t) ms l ->
  members_text ms (commas (map (fun x => newline n ++ x) (map (fun p => quoted (fst (fst p)) ++ chars ": " ++ snd p) (combine ms l))) ++ newline (pred n)).
Proof.
  intros ms H K F. induction F as [|[k j] t ms l V F IH]; [congruence|]. inversion K; subst. change (chars ": ") with [x3a; x20] in *.
  inversion F as [|[k' j'] t' ms' l' V' F']; subst; cbn [combine map fst snd] in *.
  - cbn [commas]. unfold quoted. repeat (rewrite <- ?app_assoc; cbn [app]).
    apply (members_one k (newline n) [] j [x20] t (newline (pred n))); auto using newline_blank, blank_nil, blank_space.
  - rewrite commas_cons. set (R := commas _) in *. unfold quoted. repeat (rewrite <- ?app_assoc; cbn [app]).
    apply (members_more k (newline n) [] j [x20] t []); auto using newline_blank, blank_nil, blank_space. apply IH; [discriminate|assumption].
Qed.
Lemma block_some o c n l : l <> [] -> block o c n l = o :: (commas (map (fun x => newline (S n) ++ x) l) ++ newline n) ++ [c].
Proof. destruct l; [congruence|]. intros _. unfold block. now rewrite app_assoc. Qed.
Lemma members_zip n ms : map (fun m => quoted (fst m) ++ chars ": " ++ pretty n (snd m)) ms =
  map (fun p : list byte * json * list byte => quoted (fst (fst p)) ++ chars ": " ++ snd p) (combine ms (map (fun m => pretty n (snd m)) ms)).
Proof. induction ms as [|m ms IH]; cbn [map combine fst snd]; [reflexivity|]. now rewrite IH. Qed.
Lemma pretty_text : forall j n, clean j -> value_text j (pretty n j).
Proof.
  induction j as [| | |s|s|js IH|ms IH] using json_ind'; intros n C; cbn [pretty]; try (constructor; fail).
  - constructor. apply C.
  - constructor. apply C.
  - apply clean_arr in C. destruct js as [|j js]; [apply (value_arr0 []), blank_nil|]. rewrite block_some by discriminate. apply value_arr.
    apply (items_pretty (S n)); [discriminate|]. induction IH as [|x l Hx IH' IHl]; cbn; constructor; inversion C; subst; auto.
  - apply clean_obj in C. destruct ms as [|m ms]; [apply (value_obj0 []), blank_nil|]. rewrite block_some by discriminate. apply value_obj.
    rewrite members_zip. apply (members_pretty (S n)); [discriminate|eapply Forall_impl; [|exact C]; cbn; tauto|].
    induction IH as [|x l Hx IH' IHl]; cbn; constructor; inversion C; subst; [apply Hx; tauto|auto].
Qed.
Lemma ascii_chars s : forallb (fun b => (Byte.to_N b <? 128)%N) s = true -> is_utf8 s.
Proof. intros H. apply is_utf8_ascii. apply Forall_forall. intros b Hb. rewrite forallb_forall in H. specialize (H b Hb). cbn in H. lia. Qed.
Lemma utf8_cons b s : (Byte.to_N b < 128)%N -> is_utf8 s -> is_utf8 (b :: s).
Proof. intros H Hs. apply (is_utf8_app [b]); [|assumption]. apply is_utf8_ascii. now constructor. Qed.
Lemma utf8_newline n : is_utf8 (newline n).
Proof. apply utf8_cons; [cbn; lia|]. apply is_utf8_ascii. apply Forall_forall. intros b H. apply repeat_spec in H as ->. cbn. lia. Qed.
Lemma utf8_block o c n l : (Byte.to_N o < 128)%N -> (Byte.to_N c < 128)%N -> Forall is_utf8 l -> is_utf8 (block o c n l).
Proof.
  intros Ho Hc F. assert (Hc' : is_utf8 [c]) by (apply utf8_cons; [assumption|now exists []]). destruct l as [|x l]; [apply utf8_cons; assumption|].
  rewrite block_some by discriminate. apply utf8_cons; [assumption|]. apply is_utf8_app; [|assumption]. apply is_utf8_app; [|apply utf8_newline].
  clear Ho Hc Hc'. induction F as [|y l' Hy F IH]; [now exists []|]. destruct l' as [|z l'].
  - cbn [map commas]. apply is_utf8_app; [apply utf8_newline|assumption].
  - cbn [map] in *. rewrite commas_cons. apply is_utf8_app; [|apply utf8_cons; [cbn; lia|exact IH]]. apply is_utf8_app; [apply utf8_newline|assumption].
Qed.
Lemma utf8_quoted s : is_utf8 s -> is_utf8 (quoted s).
Proof. intros H. apply utf8_cons; [cbn; lia|]. apply is_utf8_app; [assumption|]. now apply ascii_chars. Qed.
Lemma pretty_utf8 : forall j n, clean j -> is_utf8 (pretty n j).
Proof.
  induction j as [| | |s|s|js IH|ms IH] using json_ind'; intros n C; cbn [pretty]; try (now apply ascii_chars).
  - apply C.
  - apply utf8_quoted. apply C.
  - apply clean_arr in C. apply utf8_block; [cbn; lia|cbn; lia|]. induction IH; cbn; constructor; inversion C; subst; auto.
  - apply clean_obj in C. apply utf8_block; [cbn; lia|cbn; lia|]. induction IH as [|m ms Hm IH' IHl]; cbn [map]; constructor; inversion C as [|? ? (K1 & K2 & K3) C']; subst; auto.
    apply is_utf8_app; [now apply utf8_quoted|]. apply is_utf8_app; [now apply ascii_chars|auto].
Qed.

(* ---------------- trees of typed values ---------------- *)
Lemma dec_form z : 0 <= z -> integer_form (dec z) /\ value 0 (dec z) = z.
Proof.
  intros Hz. destruct (dec_spec z Hz) as (D & V & b & l & E & H). split; [|assumption]. unfold is_dec in D. rewrite E in *. destruct (Byte.eqb b x30) eqn:Eb.
  - apply eqb_eq in Eb as ->. destruct (H eq_refl) as [_ ->]. now left.
  - right. split; [split; [discriminate|]|].
    + apply Forall_forall. intros c Hc. apply is_digit_spec. rewrite forallb_forall in D. now apply D.
    + cbn. intros [= ->]. now rewrite eqb_refl in Eb.
Qed.
Lemma integer_ascii s : integer_form s -> is_utf8 s.
Proof.
  intros [->|[[_ F] _]]; [now apply ascii_chars|]. apply is_utf8_ascii. eapply Forall_impl; [|exact F]. cbv beta. unfold decimal_digit. intros b H. lia.
Qed.
Lemma tree_clean : forall t v, wf_ty t -> has_type t v -> clean (tree t v).
Proof.
  induction t as [max| | | |t IH|t1 t2 IH1 IH2|fs IH|ts IH] using ty_ind'; intros v Hw Ht; destruct v; try contradiction.
  - cbn in *. destruct (dec_form z ltac:(lia)) as [I _]. split; [now apply integer_number|now apply integer_ascii].
  - now destruct b.
  - cbn in *. split; [apply spell_form|]. apply spell_utf8. now apply utf8_valid_spec.
  - cbn in *. split; [apply spell_form|]. apply spell_utf8. now apply utf8_valid_spec.
  - cbn [tree has_type] in *. apply clean_arr. induction Ht; cbn; constructor; auto.
  - cbn [tree has_type wf_ty] in *. apply clean_arr. constructor; [apply IH1; tauto|constructor; [apply IH2; tauto|constructor]].
  - rewrite tree_struct. apply has_type_struct in Ht. apply clean_obj. destruct Hw as [[_ HN] Hw]. unfold typed_fields in Ht.
    induction Ht as [|[m t] v fs vs Hfv HF IHF]; [constructor|]. inversion IH; inversion HN; subst. destruct Hw as [Hw1 Hw2]. cbn [tree_fields fst snd] in *. constructor; [|auto].
    cbn [fst snd]. split; [apply spell_form|]. split; [apply spell_utf8; now apply utf8_valid_spec|auto].
  - apply has_type_enum in Ht as (m & t & Ei & Ht). rewrite (tree_enum _ _ _ _ _ Ei). destruct Hw as [[_ HN] Hw].
    assert (W : wf_ty t /\ utf8_valid m = true).
    { clear - Ei Hw HN. revert i Ei. induction ts as [|[n' t'] ts IHt]; intros [|i] Ei; try discriminate; inversion HN; subst; cbn in *; [injection Ei as -> ->; tauto|apply (IHt H2) with (i := i); tauto]. }
    rewrite Forall_forall in IH. specialize (IH _ (nth_error_In _ _ Ei)). apply clean_obj. constructor; [|constructor]. cbn [fst snd].
    split; [apply spell_form|]. split; [apply spell_utf8; now apply utf8_valid_spec|]. apply IH; tauto.
Qed.
Lemma exact_names (fields : list (list byte * (json -> Prop))) (js : list json) m : Forall is_utf8 (map fst fields) -> In m (combine (map (fun f : list byte * (json -> Prop) => spell (fst f)) fields) js) ->
  exists name, In name (map fst fields) /\ stands_for (fst m) name.
Proof.
  intros U H. destruct m as [k j]. apply in_combine_l in H. apply in_map_iff in H as (f & <- & Hf). cbn [fst]. exists (fst f).
  assert (I : In (fst f) (map fst fields)) by now apply in_map. split; [assumption|]. apply spell_stands. rewrite Forall_forall in U. now apply U.
Qed.
Lemma exact_is_record (fields : list (list byte * (json -> Prop))) j : NoDup (map fst fields) -> Forall is_utf8 (map fst fields) -> exact_record fields j -> record fields j.
Proof.
  intros D U (js & -> & F). right. eexists. split; [reflexivity|]. split.
  - apply Forall_forall. intros m Hm. destruct (exact_names _ _ _ U Hm) as (name & _ & H). eauto.
  - induction F as [|[n P] x fields js Hx F IH]; [constructor|]. cbn [map fst snd combine] in *. inversion D as [|? ? D1 D2]; subst. inversion U as [|? ? U1 U2]; subst. constructor.
    + cbn [fst snd]. exists [], (spell n), x, (combine (map (fun f : list byte * (json -> Prop) => spell (fst f)) fields) js). cbn [app]. split; [reflexivity|].
      split; [now apply spell_stands|]. split; [assumption|]. apply Forall_forall. intros m Hm S.
      destruct (exact_names _ _ _ U2 Hm) as (name & I & S'). rewrite (stands_for_unique _ _ _ S S') in D1. contradiction.
    + specialize (IH D2 U2). rewrite Forall_forall in *. intros f Hf. apply one_member_other; [|now apply IH]. intros S.
      pose proof (stands_for_unique _ _ _ S (spell_stands n U1)) as E. apply D1. rewrite <- E. now apply in_map.
Qed.
Lemma tree_fields_exact fs vs : typed_fields fs vs -> Forall (fun f => forall v, has_type (snd f) v -> shape (snd f) v (tree (snd f) v)) fs ->
  exact_record (zip (map fst fs) (map (fun f => shape (snd f)) fs) vs) (JObj (tree_fields fs vs)).
Proof.
  intros Ht IH. unfold typed_fields in Ht. induction Ht as [|[m t] v fs vs Hfv HF IHF]; [exists []; split; [reflexivity|constructor]|].
  inversion IH; subst. destruct (IHF H2) as (js & E & F). injection E as E. cbn [fst snd] in *. exists (tree t v :: js). cbn [map zip fst snd tree_fields combine]. rewrite E.
  split; [reflexivity|]. constructor; [cbn; auto|assumption].
Qed.
Lemma zip_names fs (vs : list val) (Ps : list shape_of) : length vs = length fs -> length Ps = length fs -> map fst (zip fs Ps vs) = fs.
Proof. revert vs Ps. induction fs as [|n fs IH]; intros [|v vs] [|P Ps] H1 H2; try discriminate; cbn; [reflexivity|]. f_equal. apply IH; cbn in *; lia. Qed.
Lemma tree_shape : forall t v, wf_ty t -> has_type t v -> shape t v (tree t v).
Proof.
  induction t as [max| | | |t IH|t1 t2 IH1 IH2|fs IH|ts IH] using ty_ind'; intros v Hw Ht; destruct v; try contradiction.
  - cbn in *. destruct (dec_form z ltac:(lia)) as [I V]. exists (dec z). split; [reflexivity|]. split; [assumption|]. split; [symmetry; exact V|lia].
  - reflexivity.
  - cbn in *. eexists. split; [reflexivity|]. apply spell_stands. now apply utf8_valid_spec.
  - cbn in *. eexists. split; [reflexivity|]. apply spell_stands. now apply utf8_valid_spec.
  - cbn [tree shape has_type] in *. eexists. split; [reflexivity|]. induction Ht; cbn; constructor; auto.
  - cbn [tree shape has_type wf_ty] in *. eexists; eexists. split; [reflexivity|]. split; [apply IH1; tauto|apply IH2; tauto].
  - rewrite tree_struct. apply has_type_struct in Ht. apply shape_struct. assert (L : length vs = length fs) by (clear - Ht; unfold typed_fields in Ht; induction Ht; cbn; congruence).
    split; [assumption|]. destruct Hw as [[HD HN] Hw]. apply exact_is_record.
    + rewrite zip_names; [assumption|now rewrite map_length|now rewrite !map_length].
    + rewrite zip_names; [|now rewrite map_length|now rewrite !map_length]. apply Forall_map. eapply Forall_impl; [|exact HN]. cbv beta. intros f. apply utf8_valid_spec.
    + apply tree_fields_exact; [assumption|]. clear - IH Hw. induction IH as [|[n t] fs H IH' IHF]; constructor; [intros v; cbn in *; apply H; tauto|apply IHF; cbn in Hw; tauto].
  - apply has_type_enum in Ht as (m & t & Ei & Ht). rewrite (tree_enum _ _ _ _ _ Ei). apply shape_enum. exists m, t. split; [assumption|]. destruct Hw as [[_ HN] Hw].
    assert (W : wf_ty t /\ utf8_valid m = true).
    { clear - Ei Hw HN. revert i Ei. induction ts as [|[n' t'] ts IHt]; intros [|i] Ei; try discriminate; inversion HN; subst; cbn in *; [injection Ei as -> ->; tauto|apply (IHt H2) with (i := i); tauto]. }
    rewrite Forall_forall in IH. specialize (IH _ (nth_error_In _ _ Ei)). eexists; eexists. split; [reflexivity|]. split; [apply spell_stands; now apply utf8_valid_spec|]. apply IH; tauto.
Qed.

(* ---------------- trees of diffs ---------------- *)
Lemma exact_array {A} (t : ty) (f : A -> val) (P : A -> json -> Prop) (Q : A -> Prop) l : (forall a, Q a -> P a (tree t (f a))) -> Forall Q l ->
  array P l (tree (TSeq t) (VSeq (map f l))).
Proof. intros H F. eexists. split; [reflexivity|]. induction F; cbn; constructor; auto. Qed.
Lemma exact_fields fs vs gs : Forall2 (fun (fv : list byte * ty * val) (g : list byte * (json -> Prop)) => fst (fst fv) = fst g /\ snd g (tree (snd (fst fv)) (snd fv))) (combine fs vs) gs -> length vs = length fs ->
  exact_record gs (tree (TStruct fs) (VStruct vs)).
Proof.
  rewrite tree_struct. revert vs gs. induction fs as [|[n t] fs IH]; intros [|v vs] gs F L; try discriminate; cbn [combine] in F; inversion F as [|? g ? gs' [E H] F']; subst.
  - exists []. split; [reflexivity|constructor].
  - destruct (IH vs gs' F') as (js & E' & G); [cbn in L; lia|]. injection E' as E'. cbn [fst snd] in *. exists (tree t v :: js). cbn [map combine tree_fields]. rewrite E', E.
    split; [reflexivity|]. now constructor.
Qed.
Lemma num_tree max z : 0 <= z <= max -> number max z (tree (TNum max) (VNum z)).
Proof. intros H. destruct (dec_form z ltac:(lia)) as [I V]. exists (dec z). split; [reflexivity|]. split; [assumption|]. split; [symmetry; exact V|lia]. Qed.
Ltac exact_fields := apply exact_fields; [cbn [combine]; repeat apply Forall2_cons; try apply Forall2_nil; (split; [reflexivity|]); cbn [fst snd]|reflexivity].
Lemma snippet_tree {T} (f : T -> val) t (P : T -> json -> Prop) (Q : T -> Prop) s : (forall a, Q a -> P a (tree t (f a))) -> is_usize (sn_start s) -> Forall Q (sn_items s) ->
  snippet_form exact_record P s (tree (snippet_ty t) (val_of_snippet f s)).
Proof.
  intros H U F. unfold snippet_form, snippet_ty, val_of_snippet. exact_fields.
  - apply num_tree. unfold is_usize, two64 in *. unfold max_usize. lia.
  - now apply (exact_array t f P Q).
Qed.
Lemma text_clump_tree c : valid_text_clump c -> text_clump_form exact_text exact_record c (tree (clump_ty TStr) (val_of_text_clump c)).
Proof.
  intros ([C1 C2] & U1 & U2 & F1 & F2). unfold text_clump_form, clump_ty, val_of_text_clump. exact_fields.
  - eexists; eexists. split; [reflexivity|]. split; apply num_tree; assumption.
  - now apply (snippet_tree VStr TStr exact_text is_utf8).
  - now apply (snippet_tree VStr TStr exact_text is_utf8).
Qed.
Lemma byte_tree b : True -> one_byte b (tree TU8 (val_of_byte b)).
Proof. intros _. apply num_tree. pose proof (to_N_255 b). unfold max_u8. lia. Qed.
Lemma all_true {A} (l : list A) : Forall (fun _ => True) l.
Proof. induction l; constructor; auto. Qed.
Lemma byte_clump_tree c : valid_byte_clump c -> byte_clump_form exact_record c (tree (clump_ty TU8) (val_of_byte_clump c)).
Proof.
  intros ([C1 C2] & U1 & U2). unfold byte_clump_form, clump_ty, val_of_byte_clump. exact_fields.
  - eexists; eexists. split; [reflexivity|]. split; apply num_tree; assumption.
  - apply (snippet_tree val_of_byte TU8 one_byte (fun _ => True)); auto using byte_tree, all_true.
  - apply (snippet_tree val_of_byte TU8 one_byte (fun _ => True)); auto using byte_tree, all_true.
Qed.
Lemma lines_tree p : Forall is_utf8 (pl_lines p) -> lines_form exact_text exact_record p (tree path_lines_ty (val_of_lines p)).
Proof. intros F. unfold lines_form, path_lines_ty, val_of_lines. exact_fields; [reflexivity|]. now apply (exact_array TStr VStr exact_text is_utf8). Qed.
Lemma bytes_tree p : bytes_form exact_text exact_record p (tree path_bytes_ty (val_of_bytes p)).
Proof. unfold bytes_form, path_bytes_ty, val_of_bytes. exact_fields; [reflexivity|reflexivity|]. apply (exact_array TU8 val_of_byte one_byte (fun _ => True)); auto using byte_tree, all_true. Qed.
Lemma saved_tree d : valid_diff d -> saved_json d (tree diff_ty (val_of_diff d)).
Proof.
  assert (G : forall i v n t (P : json -> Prop), nth_error [(str "TextChange", text_diff_ty); (str "TextAdd", path_lines_ty); (str "TextRemove", path_lines_ty);
         (str "ByteChange", byte_diff_ty); (str "ByteAdd", path_bytes_ty); (str "ByteRemove", path_bytes_ty)] i = Some (n, t) ->
      P (tree t v) -> exact_variant n P (tree diff_ty (VEnum i v))).
  { intros i v n t P H HP. unfold diff_ty. rewrite (tree_enum _ _ _ _ _ H). exists [tree t v]. split; [reflexivity|]. constructor; [exact HP|constructor]. }
  intros [_ C]. unfold saved_json. destruct d as [d|p|p|d|p|p]; cbn [diff_form val_of_diff valid_content] in *; (eapply G; [reflexivity|]).
  - unfold text_diff_ty. exact_fields; [reflexivity|reflexivity|]. now apply (exact_array _ val_of_text_clump _ valid_text_clump _ text_clump_tree).
  - now apply lines_tree.
  - now apply lines_tree.
  - unfold byte_diff_ty. exact_fields; [reflexivity|reflexivity|reflexivity|]. now apply (exact_array _ val_of_byte_clump _ valid_byte_clump _ byte_clump_tree).
  - apply bytes_tree.
  - apply bytes_tree.
Qed.
Theorem saved_form d : valid_diff d -> exists j, saved_json d j /\ diff_to_json d = (pretty 0 j, true) /\
  json_text j (pretty 0 j) /\ diff_json d j /\ is_utf8 (pretty 0 j).
Proof.
  intros V. exists (tree diff_ty (val_of_diff d)). pose proof (typed_diff d V) as T. pose proof (tree_clean _ _ diff_ty_wf T) as C.
  split; [now apply saved_tree|]. split; [now apply print_tree|]. split.
  - exists [], (pretty 0 (tree diff_ty (val_of_diff d))), []. split; [apply blank_nil|]. split; [now apply pretty_text|]. split; [apply blank_nil|]. now rewrite app_nil_r.
  - split; [apply diff_shape, tree_shape; [apply diff_ty_wf|assumption]|now apply pretty_utf8].
Qed.

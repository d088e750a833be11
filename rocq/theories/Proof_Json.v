(* Proof_Json.v - what is printed is parsed back; parsing terminates and yields well-typed
   values; truncated documents are rejected. *)
From Coq Require Import String ZifyBool.
From Verif Require Import Base Model_Seq Model_Changes Model_IO Model_Text Model_Bytes Model_Json Spec Proof_Utf8.
Local Open Scope Z_scope.

Section TyInd.
  Variable P : ty -> Prop.
  Hypothesis HNum : forall m, P (TNum m).
  Hypothesis HBool : P TBool.
  Hypothesis HStr : P TStr.
  Hypothesis HPath : P TPath.
  Hypothesis HSeq : forall t, P t -> P (TSeq t).
  Hypothesis HPair : forall t u, P t -> P u -> P (TPair t u).
  Hypothesis HStruct : forall fs, Forall (fun f => P (snd f)) fs -> P (TStruct fs).
  Hypothesis HEnum : forall fs, Forall (fun f => P (snd f)) fs -> P (TEnum fs).
  Fixpoint ty_ind' (t : ty) : P t :=
    let fields := fix fields (fs : list (list byte * ty)) : Forall (fun f => P (snd f)) fs :=
      match fs with
      | [] => Forall_nil _
      | f :: fs' => Forall_cons _ (match f return P (snd f) with (n, t) => ty_ind' t end) (fields fs')
      end in
    match t with
    | TNum m => HNum m | TBool => HBool | TStr => HStr | TPath => HPath
    | TSeq t => HSeq t (ty_ind' t)
    | TPair t u => HPair t u (ty_ind' t) (ty_ind' u)
    | TStruct fs => HStruct fs (fields fs)
    | TEnum fs => HEnum fs (fields fs)
    end.
End TyInd.

(* ---------------- bytes ---------------- *)
Lemma eqb_refl b : Byte.eqb b b = true.
Proof. now apply Byte.byte_dec_lb. Qed.
Lemma eqb_eq b c : Byte.eqb b c = true -> b = c.
Proof. apply Byte.byte_dec_bl. Qed.
Lemma eqb_neq b c : b <> c -> Byte.eqb b c = false.
Proof. intros H. destruct (Byte.eqb b c) eqn:E; [|reflexivity]. now apply eqb_eq in E. Qed.
Lemma bytes_eqb_spec (l r : list byte) : list_eqb Byte.eqb l r = true <-> l = r.
Proof.
  revert r. induction l as [|x l IH]; intros [|y r]; cbn; try (split; congruence). rewrite andb_true_iff, IH. split.
  - intros [H ->]. apply eqb_eq in H. congruence.
  - intros [= -> ->]. split; [apply eqb_refl|reflexivity].
Qed.

(* ---------------- whitespace ---------------- *)
Lemma skip_ws_stop b s : is_ws b = false -> skip_ws (b :: s) = b :: s.
Proof. intros H. cbn. now rewrite H. Qed.
Lemma skip_ws_app w s : forallb is_ws w = true -> skip_ws (w ++ s) = skip_ws s.
Proof. induction w as [|b w IH]; cbn; [reflexivity|]. rewrite andb_true_iff. intros [-> H]. now apply IH. Qed.
Lemma skip_ws_head s b r : skip_ws s = b :: r -> is_ws b = false.
Proof. induction s as [|c s IH]; cbn; [discriminate|]. destruct (is_ws c) eqn:E; [exact IH|]. now intros [= -> _]. Qed.
Lemma skip_ws_length s : (length (skip_ws s) <= length s)%nat.
Proof. induction s as [|c s IH]; cbn; [lia|]. destruct (is_ws c); cbn; lia. Qed.
Lemma skip_ws_idem s : skip_ws (skip_ws s) = skip_ws s.
Proof. induction s as [|c s IH]; cbn; [reflexivity|]. destruct (is_ws c) eqn:E; [exact IH|]. cbn. now rewrite E. Qed.
Lemma skip_ws_app_stop s b r q : skip_ws s = b :: r -> skip_ws (s ++ q) = b :: r ++ q.
Proof. induction s as [|c s IH]; cbn; [discriminate|]. destruct (is_ws c); [exact IH|]. now intros [= -> ->]. Qed.
Lemma indent_ws n : forallb is_ws (indent n) = true.
Proof. unfold indent. generalize (2 * n)%nat. intros k. induction k; cbn; auto. Qed.
Lemma expect_here b r : is_ws b = false -> expect b (b :: r) = POk tt r.
Proof. intros H. unfold expect. rewrite skip_ws_stop by assumption. now rewrite eqb_refl. Qed.
Lemma expect_ws w b r : forallb is_ws w = true -> is_ws b = false -> expect b (w ++ b :: r) = POk tt r.
Proof. intros Hw H. unfold expect. rewrite skip_ws_app, skip_ws_stop, eqb_refl by assumption. reflexivity. Qed.

(* ---------------- numbers ---------------- *)
Definition is_dec (l : list byte) : Prop := forallb is_digit l = true.
Definition value (v : Z) (l : list byte) : Z := fold_left (fun v b => 10 * v + digit_value b) l v.
Lemma digit_spec n : 0 <= n < 10 -> is_digit (digit n) = true /\ digit_value (digit n) = n /\ (digit n = x30 -> n = 0).
Proof.
  intros H. assert (C : n = 0 \/ n = 1 \/ n = 2 \/ n = 3 \/ n = 4 \/ n = 5 \/ n = 6 \/ n = 7 \/ n = 8 \/ n = 9) by lia.
  repeat destruct C as [->|C]; try (subst n); vm_compute; repeat split; try reflexivity; discriminate.
Qed.
Lemma value_app v l m : value v (l ++ m) = value (value v l) m.
Proof. apply fold_left_app. Qed.
Lemma dec_loop_spec : forall fuel z, 0 <= z < 2 ^ Z.of_nat fuel -> (0 < fuel)%nat ->
  is_dec (dec_loop fuel z) /\ value 0 (dec_loop fuel z) = z /\
  exists b l, dec_loop fuel z = b :: l /\ (b = x30 -> z = 0 /\ l = []).
Proof.
  induction fuel as [|fuel IH]; intros z Hz Hf; [lia|]. cbn [dec_loop]. destruct (Z.ltb_spec z 10) as [Hs|Hs].
  - destruct (digit_spec z) as (D1 & D2 & D3); [lia|]. unfold is_dec. cbn [forallb value fold_left]. rewrite D1, D2.
    repeat split; try lia. exists (digit z), []. split; [reflexivity|]. auto.
  - assert (Hq : 0 < z / 10) by (apply Z.div_str_pos; lia).
    assert (Hf' : (0 < fuel)%nat) by (destruct fuel; [change (2 ^ Z.of_nat 1) with 2 in Hz; lia|lia]).
    destruct (IH (z / 10)) as (I1 & I2 & b & l & I3 & I4).
    { split; [lia|]. apply Z.div_lt_upper_bound; [lia|]. rewrite Nat2Z.inj_succ, Z.pow_succ_r in Hz by lia. lia. }
    { exact Hf'. }
    destruct (digit_spec (z mod 10)) as (D1 & D2 & _); [apply Z.mod_pos_bound; lia|].
    split; [|split].
    + unfold is_dec in *. rewrite forallb_app, I1. cbn. now rewrite D1.
    + rewrite value_app, I2. unfold value. cbn [fold_left]. rewrite D2. pose proof (Z.div_mod z 10). lia.
    + rewrite I3. exists b, (l ++ [digit (z mod 10)]). split; [reflexivity|]. intros Hb. destruct (I4 Hb). lia.
Qed.
Lemma dec_spec z : 0 <= z -> is_dec (dec z) /\ value 0 (dec z) = z /\
  exists b l, dec z = b :: l /\ (b = x30 -> z = 0 /\ l = []).
Proof.
  intros Hz. apply dec_loop_spec; [|lia]. split; [assumption|]. pose proof (Z.log2_nonneg z). rewrite Nat2Z.inj_succ, Z2Nat.id by assumption.
  destruct (Z.eq_dec z 0) as [->|Hn]; [reflexivity|]. apply Z.log2_spec. lia.
Qed.
Lemma parse_digits_app l rest v : is_dec l -> digit_follows rest = false -> parse_digits (l ++ rest) v = (value v l, rest).
Proof.
  unfold is_dec. revert v. induction l as [|b l IH]; intros v Hd Hr.
  - destruct rest as [|b rest]; [reflexivity|]. cbn in *. now rewrite Hr.
  - cbn in Hd |- *. apply andb_true_iff in Hd as [Hb Hd]. rewrite Hb. now apply IH.
Qed.
Definition num_end (rest : list byte) : Prop := digit_follows rest = false /\ float_follows rest = false.
Lemma parse_num_dec z max rest : 0 <= z <= max -> num_end rest -> parse_num max (dec z ++ rest) = POk z rest.
Proof.
  intros Hz [Hd Hf]. destruct (dec_spec z) as (D1 & D2 & b & l & D3 & D4); [lia|]. rewrite D3 in *. unfold parse_num.
  cbn [app]. unfold is_dec in D1. cbn in D1. apply andb_true_iff in D1 as [Db Dl].
  assert (Hw : is_ws b = false) by (destruct b; try reflexivity; discriminate). rewrite skip_ws_stop, Db by assumption.
  destruct (Byte.eqb b x30) eqn:E0.
  - apply eqb_eq in E0. destruct (D4 E0) as [-> ->]. cbn [app]. now rewrite Hd, Hf.
  - rewrite parse_digits_app by assumption. rewrite Hf. change (value 0 (b :: l)) with (value (10 * 0 + digit_value b) l) in D2.
    replace (10 * 0 + digit_value b) with (digit_value b) in D2 by lia. rewrite D2. destruct (Z.leb_spec z max); [reflexivity|lia].
Qed.

(* ---------------- strings ---------------- *)
Lemma parse_escaped b s acc : parse_chars (escape_byte b ++ s) acc = parse_chars s (acc ++ [b]).
Proof. destruct b; reflexivity. Qed.
Lemma parse_chars_print s rest acc : utf8_valid (acc ++ s) = true ->
  parse_chars (flat_map escape_byte s ++ [x22] ++ rest) acc = POk (acc ++ s) rest.
Proof.
  revert acc. induction s as [|b s IH]; intros acc H.
  - rewrite app_nil_r in *. cbn. now rewrite H.
  - cbn [flat_map]. rewrite <- app_assoc, parse_escaped. rewrite IH; rewrite <- app_assoc; [reflexivity|assumption].
Qed.
Lemma parse_string_print s rest : utf8_valid s = true -> parse_string (print_str s ++ rest) = POk s rest.
Proof. intros H. unfold print_str, parse_string. rewrite <- !app_assoc. cbn [app]. rewrite skip_ws_stop by reflexivity. exact (parse_chars_print s rest [] H). Qed.

(* ---------------- well-typed values ---------------- *)
Fixpoint has_type (t : ty) (v : val) {struct t} : Prop :=
  match t, v with
  | TNum max, VNum z => 0 <= z <= max
  | TBool, VBool _ => True
  | TStr, VStr s | TPath, VStr s => utf8_valid s = true
  | TSeq t', VSeq vs => Forall (has_type t') vs
  | TPair t1 t2, VPair v1 v2 => has_type t1 v1 /\ has_type t2 v2
  | TStruct fs, VStruct vs =>
      (fix fields (fs : list (list byte * ty)) (vs : list val) : Prop :=
         match fs, vs with
         | [], [] => True
         | (_, t') :: fs', v' :: vs' => has_type t' v' /\ fields fs' vs'
         | _, _ => False
         end) fs vs
  | TEnum ts, VEnum i v' =>
      (fix variant (ts : list (list byte * ty)) (i : nat) : Prop :=
         match ts, i with
         | (_, t') :: _, O => has_type t' v'
         | _ :: ts', S i' => variant ts' i'
         | [], _ => False
         end) ts i
  | _, _ => False
  end.
(* field names are different from each other and UTF-8 *)
Definition names_ok (fs : list (list byte * ty)) : Prop :=
  NoDup (map fst fs) /\ Forall (fun f => utf8_valid (fst f) = true) fs.
Fixpoint wf_ty (t : ty) : Prop :=
  match t with
  | TSeq t' => wf_ty t'
  | TPair t1 t2 => wf_ty t1 /\ wf_ty t2
  | TStruct fs | TEnum fs =>
      names_ok fs /\ (fix all (fs : list (list byte * ty)) : Prop :=
                        match fs with [] => True | (_, t') :: fs' => wf_ty t' /\ all fs' end) fs
  | _ => True
  end.
Lemma wf_fields fs : (fix all (fs : list (list byte * ty)) : Prop :=
                        match fs with [] => True | (_, t') :: fs' => wf_ty t' /\ all fs' end) fs <->
  Forall (fun f => wf_ty (snd f)) fs.
Proof. induction fs as [|[n t] fs IH]; [split; auto|]. rewrite IH, Forall_cons_iff. reflexivity. Qed.
Definition typed_fields (fs : list (list byte * ty)) (vs : list val) : Prop := Forall2 (fun f v => has_type (snd f) v) fs vs.
Lemma has_type_struct fs vs : has_type (TStruct fs) (VStruct vs) <-> typed_fields fs vs.
Proof.
  cbn [has_type]. unfold typed_fields. revert vs. induction fs as [|[n t] fs IH]; intros [|v vs].
  - split; auto.
  - split; [easy|]. intros H. inversion H.
  - split; [easy|]. intros H. inversion H.
  - rewrite IH. split; [intros [? ?]; now constructor|]. intros H. inversion H; subst. auto.
Qed.
Lemma has_type_enum ts i v : has_type (TEnum ts) (VEnum i v) <-> exists n t, nth_error ts i = Some (n, t) /\ has_type t v.
Proof.
  cbn [has_type]. revert i. induction ts as [|[n t] ts IH]; intros [|i].
  - split; [easy|]. intros (? & ? & ? & _). discriminate.
  - split; [easy|]. intros (? & ? & ? & _). discriminate.
  - cbn. split; [intros H; eauto|]. intros (? & ? & [= <- <-] & H). exact H.
  - apply IH.
Qed.
Fixpoint field_prints (fs : list (list byte * ty)) (vs : list val) : list (nat -> out) :=
  match fs, vs with
  | (n, t') :: fs', v' :: vs' => print_field n (print t' v') :: field_prints fs' vs'
  | _, _ => []
  end.
Lemma print_struct fs vs : print (TStruct fs) (VStruct vs) = print_body x7b x7d (field_prints fs vs).
Proof.
  reflexivity.
Qed.
Lemma print_enum ts i v n t : nth_error ts i = Some (n, t) -> print (TEnum ts) (VEnum i v) = print_body x7b x7d [print_field n (print t v)].
Proof.
  cbn [print]. revert i. induction ts as [|[n' t'] ts IH]; intros [|i] H; try discriminate.
  - now injection H as -> ->.
  - now apply IH.
Qed.

(* ---------------- reading back what was printed ---------------- *)
Lemma oapp_ok x y : snd (oapp x y) = true -> snd x = true /\ snd y = true /\ fst (oapp x y) = fst x ++ fst y.
Proof. unfold oapp. destruct x as [a []]; cbn; [auto|discriminate]. Qed.
Definition starts_ok (s : list byte) : Prop :=
  exists c r, s = c :: r /\ is_ws c = false /\ c <> x5d /\ c <> x7d /\ c <> x2c.
Lemma starts_lit c r : is_ws c = false -> c <> x5d -> c <> x7d -> c <> x2c -> starts_ok (c :: r).
Proof. intros. exists c, r. auto. Qed.
Lemma print_body_starts o c its ind : (o = x5b \/ o = x7b) -> starts_ok (fst (print_body o c its ind)).
Proof.
  intros Ho. unfold print_body. destruct its; [|destruct (print_values true ind (o0 :: its)) as [x []]]; cbn;
    destruct Ho as [-> | ->]; apply starts_lit; try reflexivity; discriminate.
Qed.
Lemma print_starts t v ind : has_type t v -> snd (print t v ind) = true -> starts_ok (fst (print t v ind)).
Proof.
  intros Ht Hs. destruct t, v; try (now destruct Ht); cbn [print] in *.
  - cbn [has_type] in Ht. destruct (dec_spec z) as (D1 & _ & b & l & E & _); [lia|]. cbn [lit fst]. rewrite E in *. unfold is_dec in D1. cbn in D1.
    apply andb_true_iff in D1 as [D1 _]. exists b, l. split; [reflexivity|]. destruct b; try discriminate; repeat split; discriminate.
  - destruct b; apply starts_lit; try reflexivity; discriminate.
  - apply starts_lit; try reflexivity; discriminate.
  - destruct (utf8_valid s); [|discriminate]. apply starts_lit; try reflexivity; discriminate.
  - apply print_body_starts. auto.
  - apply print_body_starts. auto.
  - apply print_body_starts. auto.
  - apply has_type_enum in Ht as (n & t & E & _). match goal with |- starts_ok (fst (?f ind)) => change f with (print (TEnum variants) (VEnum i v)) end.
    rewrite (print_enum _ _ _ _ _ E). apply print_body_starts. auto.
Qed.

Lemma next_item_sep close first n s : starts_ok s -> (close = x5d \/ close = x7d) ->
  next_item close first ((if first then [x0a] else [x2c; x0a]) ++ indent n ++ s) = NItem s.
Proof.
  intros (c & r & -> & Hw & H1 & H2 & H3) Hc. unfold next_item.
  assert (Ec : Byte.eqb c close = false) by (apply eqb_neq; destruct Hc; congruence).
  destruct first; cbn [app].
  - change (skip_ws (x0a :: indent n ++ c :: r)) with (skip_ws (indent n ++ c :: r)).
    rewrite skip_ws_app, skip_ws_stop by (auto using indent_ws). rewrite Ec, (eqb_neq c x2c) by assumption. reflexivity.
  - change (skip_ws (x2c :: x0a :: indent n ++ c :: r)) with (x2c :: x0a :: indent n ++ c :: r). cbn iota beta.
    rewrite (eqb_neq x2c close), eqb_refl by (destruct Hc; subst; discriminate). cbn [andb negb].
    change (skip_ws (x0a :: indent n ++ c :: r)) with (skip_ws (indent n ++ c :: r)).
    rewrite skip_ws_app, skip_ws_stop by (auto using indent_ws). now rewrite Ec.
Qed.
Lemma next_item_end close first n rest : (close = x5d \/ close = x7d) ->
  next_item close first (([x0a] ++ indent n ++ [close]) ++ rest) = NEnd (close :: rest).
Proof.
  intros Hc. unfold next_item. assert (Hw : is_ws close = false) by (destruct Hc; subst; reflexivity).
  rewrite <- !app_assoc. cbn [app]. change (skip_ws (x0a :: indent n ++ close :: rest)) with (skip_ws (indent n ++ close :: rest)).
  rewrite skip_ws_app, skip_ws_stop, eqb_refl by (auto using indent_ws). reflexivity.
Qed.
Lemma next_item_close close first rest : (close = x5d \/ close = x7d) -> next_item close first (close :: rest) = NEnd (close :: rest).
Proof. intros Hc. unfold next_item. rewrite skip_ws_stop by (destruct Hc; subst; reflexivity). now rewrite eqb_refl. Qed.

(* [p] reads the bytes [o] as [v], whatever follows (but a number must end) *)
Definition reads (p : parser) (o : list byte) (v : val) : Prop := forall rest, num_end rest -> p (o ++ rest) = POk v rest.
(* what may follow a value inside brackets *)
Definition follows (s : list byte) : Prop := exists r, s = x0a :: r \/ s = x2c :: r.
Lemma follows_num_end s rest : follows s -> num_end (s ++ rest).
Proof. intros (r & [-> | ->]); split; reflexivity. Qed.
Lemma print_values_follows ind its close rest : snd (print_values false ind its) = true ->
  num_end (fst (print_values false ind its) ++ ([x0a] ++ indent ind ++ [close]) ++ rest).
Proof.
  intros H. destruct its as [|it its]; [split; reflexivity|]. cbn [print_values] in *. apply oapp_ok in H as (_ & _ & ->). split; reflexivity.
Qed.
Definition item_ok (p : parser) (ind : nat) (it : nat -> out) (v : val) : Prop :=
  snd (it (S ind)) = true -> starts_ok (fst (it (S ind))) /\ reads p (fst (it (S ind))) v.

Lemma parse_elems_print p ind close : (close = x5d) -> forall vs its first fuel rest acc,
  Forall2 (item_ok p ind) its vs -> snd (print_values first ind its) = true -> (length vs < fuel)%nat ->
  parse_elems fuel p first (fst (print_values first ind its) ++ ([x0a] ++ indent ind ++ [close]) ++ rest) acc = POk (acc ++ vs) (close :: rest).
Proof.
  intros Hc. induction vs as [|v vs IH]; intros its first fuel rest acc HF Hs Hf; inversion HF as [|it ? its' ? Hit HF']; subst;
    (destruct fuel as [|fuel]; [cbn in Hf; lia|]); cbn [parse_elems print_values].
  - cbn [lit fst app]. change (x0a :: (indent ind ++ [x5d]) ++ rest) with (([x0a] ++ indent ind ++ [x5d]) ++ rest).
    rewrite next_item_end by auto. now rewrite app_nil_r.
  - cbn [print_values] in Hs. apply oapp_ok in Hs as (_ & Hs & E). rewrite E. apply oapp_ok in Hs as (S1 & S2 & E2). rewrite E2.
    cbn [lit fst]. rewrite <- (app_assoc _ (fst _ ++ _)), <- (app_assoc _ (indent _)). destruct (Hit S1) as [St Rd].
    rewrite <- (app_assoc (fst (it (S ind)))).
    rewrite next_item_sep by (auto; destruct St as (c & r & -> & ?); now exists c, (r ++ (fst (print_values false ind its') ++ ([x0a] ++ indent ind ++ [x5d]) ++ rest))).
    rewrite Rd by now apply print_values_follows. cbn [pbind]. rewrite IH; auto; [|cbn in Hf; lia]. now rewrite <- app_assoc.
Qed.
Lemma starts_app s t : starts_ok s -> starts_ok (s ++ t).
Proof. intros (c & r & -> & H). now exists c, (r ++ t). Qed.
Lemma print_values_length ind its : forall first, snd (print_values first ind its) = true -> (length its <= length (fst (print_values first ind its)))%nat.
Proof.
  induction its as [|it its IH]; intros first H; [cbn; lia|]. cbn [print_values] in *. apply oapp_ok in H as (_ & H & ->).
  apply oapp_ok in H as (_ & H & ->). rewrite !app_length. specialize (IH _ H). cbn [lit fst length]. destruct first; cbn [app length]; lia.
Qed.
Lemma print_values_in ind its it : forall first, In it its -> snd (print_values first ind its) = true ->
  snd (it (S ind)) = true /\ (length (fst (it (S ind))) <= length (fst (print_values first ind its)))%nat.
Proof.
  induction its as [|it' its IH]; intros first Hin H; [destruct Hin|]. cbn [print_values] in *; apply oapp_ok in H as (_ & H & ->);
    apply oapp_ok in H as (H1 & H2 & ->); rewrite !app_length. destruct Hin as [->|Hin].
  - split; [assumption|lia].
  - destruct (IH false Hin H2). split; [assumption|lia].
Qed.
Lemma parse_fixed_print ind : forall ps its vs first rest, length ps = length its ->
  Forall2 (fun p '(it, v) => item_ok p ind it v) ps (combine its vs) -> length its = length vs -> snd (print_values first ind its) = true ->
  parse_fixed ps first (fst (print_values first ind its) ++ ([x0a] ++ indent ind ++ [x5d]) ++ rest) = POk vs (([x0a] ++ indent ind ++ [x5d]) ++ rest).
Proof.
  induction ps as [|p ps IH]; intros [|it its] [|v vs] first rest E1 HF E2 Hs; try discriminate; [reflexivity|].
  cbn [combine] in HF. inversion HF as [|? ? ? ? Hit HF']; subst. cbn [parse_fixed print_values] in *.
  apply oapp_ok in Hs as (_ & Hs & E). rewrite E. apply oapp_ok in Hs as (S1 & S2 & E3). rewrite E3.
  cbn [lit fst]. rewrite <- (app_assoc _ (fst _ ++ _)), <- (app_assoc _ (indent _)). destruct (Hit S1) as [St Rd].
  rewrite <- (app_assoc (fst (it (S ind)))). rewrite next_item_sep by auto using starts_app.
  rewrite Rd by now apply print_values_follows. cbn [pbind]. cbn in E1, E2. rewrite (IH its vs) by (auto; lia). reflexivity.
Qed.

Lemma parse_skip fuel t s : parse fuel t (skip_ws s) = parse fuel t s.
Proof.
  destruct t; cbn [parse]; unfold parse_num, parse_bool, parse_string, expect, parse_struct, parse_enum, expect; now rewrite skip_ws_idem.
Qed.
Lemma parse_space fuel t s : parse fuel t (x20 :: s) = parse fuel t s.
Proof. rewrite <- (parse_skip fuel t s). rewrite <- parse_skip. reflexivity. Qed.

Lemma set_nth_done done v l : set_nth (length done) v (map Some done ++ None :: l) = map Some (done ++ [v]) ++ l.
Proof. induction done as [|x done IH]; cbn; [reflexivity|]. now rewrite IH. Qed.
Lemma nth_done done (l : list (option val)) : nth (length done) (map Some done ++ None :: l) None = None.
Proof. induction done as [|x done IH]; cbn; [reflexivity|exact IH]. Qed.
Lemma all_some_map vs : all_some (map Some vs) = Some vs.
Proof. induction vs as [|v vs IH]; cbn; [reflexivity|]. now rewrite IH. Qed.

Lemma parse_map_print ps ind fuelp : forall fs vs first fuel rest done,
  (forall j n t, nth_error fs j = Some (n, t) -> find_field ps n = Some (length done + j, parse fuelp t)%nat) ->
  Forall (fun f => utf8_valid (fst f) = true) fs ->
  Forall2 (fun f v => item_ok (parse fuelp (snd f)) ind (print (snd f) v) v) fs vs ->
  snd (print_values first ind (field_prints fs vs)) = true -> (length vs < fuel)%nat ->
  parse_map fuel ps first (fst (print_values first ind (field_prints fs vs)) ++ ([x0a] ++ indent ind ++ [x7d]) ++ rest)
    (map Some done ++ map (fun _ => None) fs) = POk (map Some (done ++ vs)) (x7d :: rest).
Proof.
  induction fs as [|[n t] fs IH]; intros vs first fuel rest done Hfind Hu HF Hs Hf; inversion HF as [|? v ? vs' Hit HF']; subst;
    (destruct fuel as [|fuel]; [cbn in Hf; lia|]); cbn [parse_map print_values field_prints].
  - cbn [lit fst app map]. change (x0a :: (indent ind ++ [x7d]) ++ rest) with (([x0a] ++ indent ind ++ [x7d]) ++ rest).
    rewrite next_item_end by auto. now rewrite !app_nil_r.
  - cbn [print_values field_prints] in Hs. apply oapp_ok in Hs as (_ & Hs & E). rewrite E. apply oapp_ok in Hs as (S1 & S2 & E2). rewrite E2.
    unfold print_field in *. apply oapp_ok in S1 as (_ & S1 & E3). rewrite E3. cbn [fst snd] in *.
    destruct (Hit S1) as [St Rd]. inversion Hu as [|? ? Hn Hu']; subst. cbn [fst] in Hn.
    set (tl := ([x0a] ++ indent ind ++ [x7d]) ++ rest) in *. pose proof (print_values_follows ind _ x7d rest S2) as Hend. fold tl in Hend.
    cbn [lit fst]. rewrite <- !app_assoc.
    rewrite next_item_sep by (auto; apply starts_lit; try reflexivity; discriminate).
    unfold print_str. rewrite <- !app_assoc. cbn [app]. rewrite expect_here by reflexivity. cbn [pbind].
    change (x22 :: str ": " ++ fst (print t v (S ind)) ++ fst (print_values false ind (field_prints fs vs')) ++ tl) with
      ([x22] ++ str ": " ++ fst (print t v (S ind)) ++ fst (print_values false ind (field_prints fs vs')) ++ tl).
    rewrite (parse_chars_print n _ []) by assumption. cbn [pbind app].
    rewrite (Hfind O n t eq_refl), Nat.add_0_r. cbn [map]. rewrite nth_done.
    match goal with |- context [str ": " ++ ?x] => change (str ": " ++ x) with (x3a :: x20 :: x) end.
    rewrite expect_here by reflexivity. cbn [pbind]. rewrite parse_space, Rd by assumption. cbn [pbind]. rewrite set_nth_done. subst tl.
    rewrite (IH vs' false fuel rest (done ++ [v])); auto.
    + now rewrite <- app_assoc.
    + intros j n' t' Hj. rewrite (Hfind (S j) n' t' Hj), app_length. cbn. f_equal. f_equal. lia.
    + cbn in Hf. lia.
Qed.

Lemma find_field_map fuelp : forall fs j n t, NoDup (map fst fs) -> nth_error fs j = Some (n, t) ->
  find_field (map (fun f => match f with (n, t') => (n, parse fuelp t') end) fs) n = Some (j, parse fuelp t).
Proof.
  induction fs as [|[n0 t0] fs IH]; intros [|j] n t Hd Hj; try discriminate; cbn [map find_field].
  - injection Hj as -> ->. now rewrite (proj2 (bytes_eqb_spec n n) eq_refl).
  - inversion Hd as [|? ? Hn Hd']; subst. destruct (list_eqb Byte.eqb n0 n) eqn:E.
    + apply bytes_eqb_spec in E as ->. cbn [nth_error] in Hj. apply nth_error_In in Hj. destruct Hn. now apply (in_map fst) in Hj.
    + now rewrite (IH j n t Hd' Hj).
Qed.

Definition delim (t : ty) (rest : list byte) : Prop := match t with TNum _ => num_end rest | _ => True end.
Lemma body_ok o c its ind : its <> [] -> snd (print_body o c its ind) = true ->
  snd (print_values true ind its) = true /\ fst (print_body o c its ind) = o :: fst (print_values true ind its) ++ [x0a] ++ indent ind ++ [c].
Proof.
  intros Hn. unfold print_body. destruct its as [|it its]; [congruence|]. intros H. apply oapp_ok in H as (_ & H & ->). apply oapp_ok in H as (H1 & _ & ->).
  split; [assumption|reflexivity].
Qed.
Lemma num_end_delim t rest : num_end rest -> delim t rest.
Proof. destruct t; cbn; auto. Qed.
Lemma field_prints_nil fs vs : length fs = length vs -> field_prints fs vs = [] -> fs = [] /\ vs = [].
Proof. destruct fs as [|[n t] fs], vs; cbn; intros; try discriminate. auto. Qed.
Lemma field_prints_in fs vs : typed_fields fs vs -> forall f v, In (f, v) (combine fs vs) -> In (print_field (fst f) (print (snd f) v)) (field_prints fs vs).
Proof.
  induction 1 as [|[n t] v fs vs H HF IH]; intros f w Hin; [destruct Hin|]. cbn [combine field_prints] in *. destruct Hin as [[= <- <-]|Hin]; [now left|right; auto].
Qed.

Lemma body_app (o : byte) a b r : (o :: a ++ b) ++ r = o :: a ++ b ++ r.
Proof. cbn [app]. now rewrite <- app_assoc. Qed.
Lemma parse_print : forall t v ind fuel rest, wf_ty t -> has_type t v -> snd (print t v ind) = true ->
  (length (fst (print t v ind)) <= fuel)%nat -> delim t rest -> parse fuel t (fst (print t v ind) ++ rest) = POk v rest.
Proof.
  induction t as [max| | | |t IH|t1 t2 IH1 IH2|fs IH|ts IH] using ty_ind'; intros v ind fuel rest Hw Ht Hs Hf Hd.
  - destruct v; try now destruct Ht. cbn [print lit fst parse has_type] in *. now rewrite parse_num_dec.
  - destruct v; try now destruct Ht. now destruct b.
  - destruct v; try now destruct Ht. cbn [print lit fst parse has_type] in *. now rewrite parse_string_print.
  - destruct v; try now destruct Ht. cbn [print parse] in *. destruct (utf8_valid s) eqn:E; [|discriminate]. cbn [lit fst]. now rewrite parse_string_print.
  - destruct v as [| | |vs| | |]; try now destruct Ht. cbn [print parse has_type wf_ty] in *. destruct vs as [|v vs].
    + cbn [map print_body lit fst app]. rewrite expect_here by reflexivity. cbn [pbind]. destruct fuel as [|fuel]; [cbn in Hf; lia|].
      cbn [parse_elems]. rewrite next_item_close by auto. cbn [pbind]. now rewrite expect_here.
    + apply body_ok in Hs as [Hs E]; [|discriminate]. rewrite E in *. rewrite body_app. rewrite expect_here by reflexivity. cbn [pbind].
      pose proof (print_values_length ind _ true Hs) as Hl. rewrite map_length in Hl. cbn [length] in Hf. rewrite !app_length in Hf.
      rewrite (parse_elems_print (parse fuel t) ind x5d eq_refl (v :: vs)).
      * cbn [pbind app]. now rewrite expect_here.
      * assert (Hin : forall it, In it (map (print t) (v :: vs)) -> (length (fst (it (S ind))) <= fuel)%nat).
        { intros it Hin. apply (print_values_in ind _ it true Hin) in Hs as [_ Hs]. lia. }
        clear E Hf Hl Hs. revert Ht Hin. generalize (v :: vs). intros l. induction l as [|x l IHl]; intros Ht Hin; constructor.
        -- inversion Ht; subst. intros Hx. split; [now apply print_starts|]. intros r Hr. apply IH; auto using num_end_delim.
           apply Hin. now left.
        -- apply IHl; [now inversion Ht|]. intros it Hit. apply Hin. now right.
      * exact Hs.
      * lia.
  - destruct v as [| | | |v1 v2| |]; try now destruct Ht. cbn [print parse has_type wf_ty] in *. destruct Ht as [Ht1 Ht2]. destruct Hw as [Hw1 Hw2].
    apply body_ok in Hs as [Hs E]; [|discriminate]. rewrite E in *. rewrite body_app. rewrite expect_here by reflexivity. cbn [pbind].
    cbn [length] in Hf. rewrite !app_length in Hf.
    destruct (print_values_in ind [print t1 v1; print t2 v2] (print t1 v1) true) with (2 := Hs) as [_ L1]; [now left|].
    destruct (print_values_in ind [print t1 v1; print t2 v2] (print t2 v2) true) with (2 := Hs) as [_ L2]; [now right; left|].
    rewrite (parse_fixed_print ind _ _ [v1; v2]); auto.
    + cbn [pbind]. rewrite <- !app_assoc. cbn [app]. change (x0a :: indent ind ++ x5d :: rest) with ((x0a :: indent ind) ++ x5d :: rest).
      now rewrite expect_ws by (try apply (indent_ws ind); reflexivity).
    + cbn [combine]. repeat apply Forall2_cons; try apply Forall2_nil; intros Hx; (split; [now apply print_starts|]); intros r Hr;
        [apply IH1|apply IH2]; auto using num_end_delim; lia.
  - destruct v as [| | | | |vs|]; try now destruct Ht. pose proof Ht as Ht'. apply has_type_struct in Ht. rewrite print_struct in *. cbn [parse].
    cbn [wf_ty] in Hw. destruct Hw as [[Hn Hu] Hw]. apply wf_fields in Hw. unfold parse_struct.
    set (ps := map _ fs). assert (Hlen : length fs = length vs) by (clear -Ht; induction Ht; cbn; auto).
    destruct (field_prints fs vs) as [|it its] eqn:Efp.
    + apply field_prints_nil in Efp as [-> ->]; [|assumption]. cbn [print_body lit fst app]. rewrite skip_ws_stop by reflexivity.
      destruct fuel as [|fuel]; [cbn in Hf; lia|]. cbn [parse_map ps map]. rewrite next_item_close by auto. cbn [pbind all_some]. now rewrite expect_here.
    + rewrite <- Efp in *. assert (Hne : field_prints fs vs <> []) by congruence. clear Efp it its.
      apply body_ok in Hs as [Hs E]; [|assumption]. rewrite E in *. rewrite body_app. rewrite skip_ws_stop by reflexivity.
      pose proof (print_values_length ind _ true Hs) as Hl. cbn [length] in Hf. rewrite !app_length in Hf.
      assert (Hl2 : length (field_prints fs vs) = length vs).
      { clear -Ht. induction Ht as [|[n t] v fs vs]; cbn; auto. }
      replace (map (fun _ => None) ps) with (map Some (@nil val) ++ map (fun _ => None) fs) by (unfold ps; cbn [app map]; rewrite map_map; apply map_ext; now intros []).
      rewrite (parse_map_print ps ind fuel fs vs true fuel rest []); auto.
      * cbn [app pbind]. rewrite all_some_map. now rewrite expect_here.
      * intros j n t Hj. now apply find_field_map.
      * assert (Hin : forall f v, In (f, v) (combine fs vs) -> snd (print (snd f) v (S ind)) = true -> (length (fst (print (snd f) v (S ind))) <= fuel)%nat).
        { intros f v Hfv Hok. apply (field_prints_in fs vs Ht) in Hfv. apply (print_values_in ind _ _ true Hfv) in Hs as [Hs1 Hs2].
          unfold print_field in Hs1, Hs2. apply oapp_ok in Hs1 as (_ & _ & E'). rewrite E', app_length in Hs2. lia. }
        clear -IH Hw Ht Hin. unfold typed_fields in Ht. induction Ht as [|f v fs vs Hfv HF IHF]; constructor.
        -- intros Hx. inversion IH; inversion Hw; subst. split; [now apply print_starts|]. intros r Hr. apply H1; auto using num_end_delim.
           apply Hin; [now left|assumption].
        -- inversion IH; inversion Hw; subst. apply IHF; auto. intros f' v' Hin' Hok. apply Hin; [now right|assumption].
      * lia.
  - destruct v as [| | | | | |i v]; try now destruct Ht. apply has_type_enum in Ht as (n & t & Ei & Ht). rewrite (print_enum _ _ _ _ _ Ei) in *. cbn [parse].
    cbn [wf_ty] in Hw. destruct Hw as [[Hn Hu] Hw]. apply wf_fields in Hw. unfold parse_enum.
    apply body_ok in Hs as [Hs E]; [|discriminate]. rewrite E in *. rewrite body_app. rewrite expect_here by reflexivity. cbn [pbind].
    cbn [print_values] in *. apply oapp_ok in Hs as (_ & Hs & E1). rewrite E1 in *. apply oapp_ok in Hs as (S1 & _ & E2). rewrite E2 in *. unfold print_field in *.
    apply oapp_ok in S1 as (_ & S1 & E3). rewrite E3 in *. cbn [lit fst] in *. rewrite <- !app_assoc. cbn [app].
    pose proof (nth_error_In _ _ Ei) as Hin. rewrite Forall_forall in Hu, Hw, IH. specialize (Hu _ Hin). specialize (Hw _ Hin). specialize (IH _ Hin). cbn [fst snd] in *.
    assert (Ews : forall s, parse_string (x0a :: indent (S ind) ++ s) = parse_string s).
    { intros s. unfold parse_string. change (skip_ws (x0a :: indent (S ind) ++ s)) with (skip_ws (indent (S ind) ++ s)). now rewrite skip_ws_app by apply indent_ws. }
    rewrite Ews, parse_string_print by assumption. cbn [pbind]. rewrite (find_field_map fuel ts i n t Hn Ei).
    match goal with |- context [str ": " ++ ?x] => change (str ": " ++ x) with (x3a :: x20 :: x) end.
    rewrite expect_here by reflexivity. cbn [pbind]. rewrite parse_space. rewrite IH; auto.
    + cbn [pbind]. change (x0a :: indent ind ++ x7d :: rest) with ((x0a :: indent ind) ++ x7d :: rest).
      now rewrite expect_ws by (try apply (indent_ws ind); reflexivity).
    + cbn [length] in Hf. rewrite !app_length in Hf. lia.
    + apply num_end_delim. split; reflexivity.
Qed.

(* printing a well-typed value always succeeds *)
Lemma oapp_true x y : snd x = true -> snd y = true -> snd (oapp x y) = true.
Proof. unfold oapp. now intros -> ->. Qed.
Lemma print_values_ok ind its : Forall (fun it => snd (it (S ind)) = true) its -> forall first, snd (print_values first ind its) = true.
Proof. induction 1; intros first; [reflexivity|]. cbn [print_values]. apply oapp_true; [reflexivity|]. apply oapp_true; auto. Qed.
Lemma print_body_ok o c its ind : Forall (fun it => snd (it (S ind)) = true) its -> snd (print_body o c its ind) = true.
Proof. intros H. unfold print_body. destruct its; [reflexivity|]. apply oapp_true; [reflexivity|]. apply oapp_true; [|reflexivity]. now apply print_values_ok. Qed.
Lemma print_total : forall t v ind, has_type t v -> snd (print t v ind) = true.
Proof.
  induction t as [max| | | |t IH|t1 t2 IH1 IH2|fs IH|ts IH] using ty_ind'; intros v ind Ht; destruct v; try contradiction; try reflexivity.
  - cbn [print has_type] in *. now rewrite Ht.
  - cbn [print has_type] in *. apply print_body_ok. induction Ht; constructor; auto.
  - cbn [print has_type] in *. destruct Ht. apply print_body_ok. repeat constructor; auto.
  - rewrite print_struct. apply has_type_struct in Ht. apply print_body_ok. unfold typed_fields in Ht.
    induction Ht as [|[n t] v fs vs Hfv HF IHF]; [constructor|]. inversion IH; subst. cbn [field_prints]. constructor; auto.
    unfold print_field. apply oapp_true; auto.
  - apply has_type_enum in Ht as (n & t & Ei & Ht). rewrite (print_enum _ _ _ _ _ Ei). apply print_body_ok.
    rewrite Forall_forall in IH. specialize (IH _ (nth_error_In _ _ Ei)). repeat constructor. unfold print_field. apply oapp_true; auto.
Qed.

(* ---------------- parsing consumes, ends, and yields well-typed values ---------------- *)
Local Open Scope nat_scope.
Definition shrinks {A} (m : pres A) (s : list byte) (Q : A -> Prop) : Prop :=
  match m with POk a r => length r < length s /\ Q a | PErr => True | PFuel => False end.
Lemma shrinks_bind {A B} (m : pres A) (k : A -> list byte -> pres B) s Q R :
  shrinks m s Q -> (forall a r, length r < length s -> Q a -> shrinks (k a r) s R) -> shrinks (pbind m k) s R.
Proof. destruct m; cbn; try easy. intros [H1 H2] H. now apply H. Qed.
Lemma shrinks_le {A} (m : pres A) s s' Q : shrinks m s Q -> length s <= length s' -> shrinks m s' Q.
Proof. destruct m; cbn; try easy. intros [H1 H2] H. split; [lia|assumption]. Qed.
Lemma expect_shrinks b s : shrinks (expect b s) s (fun _ => True).
Proof.
  unfold expect. pose proof (skip_ws_length s). destruct (skip_ws s); [exact I|]. destruct (Byte.eqb _ _); [|exact I]. cbn in *. split; [lia|exact I].
Qed.
Lemma parse_ident_shrinks : forall w s, match parse_ident w s with POk _ r => length r <= length s | PErr => True | PFuel => False end.
Proof.
  induction w as [|x w IH]; intros [|c s]; cbn; try easy. destruct (Byte.eqb c x); [|exact I]. specialize (IH s). destruct (parse_ident w s); try easy. lia.
Qed.
Lemma parse_digits_length : forall s v, length (snd (parse_digits s v)) <= length s.
Proof. induction s as [|b s IH]; intros v; cbn [parse_digits length]; [cbn; lia|]. destruct (is_digit b); [|cbn; lia]. specialize (IH (10 * v + digit_value b)%Z). lia. Qed.
Lemma parse_digits_nonneg : forall s v, (0 <= v)%Z -> (0 <= fst (parse_digits s v))%Z.
Proof.
  induction s as [|b s IH]; intros v Hv; cbn [parse_digits]; [exact Hv|]. destruct (is_digit b) eqn:E; [|cbn; lia]. apply IH.
  unfold is_digit, byte_in, digit_value in *. apply andb_true_iff in E as [E _]. apply N.leb_le in E. lia.
Qed.
Lemma parse_num_shrinks max s : (0 <= max)%Z -> shrinks (parse_num max s) s (fun z => (0 <= z <= max)%Z).
Proof.
  intros Hm. unfold parse_num. pose proof (skip_ws_length s). destruct (skip_ws s) as [|b r]; [exact I|]. cbn in H. destruct (is_digit b) eqn:Eb; [|exact I].
  destruct (Byte.eqb b x30).
  - destruct (_ || _); [exact I|]. cbn. lia.
  - pose proof (parse_digits_length r (digit_value b)). pose proof (parse_digits_nonneg r (digit_value b)) as Hn.
    destruct (parse_digits r (digit_value b)) as [v r']. cbn [fst snd] in *. destruct (float_follows r'); [exact I|].
    destruct (Z.leb_spec v max); [|exact I]. cbn. split; [lia|]. split; [|assumption]. apply Hn.
    unfold is_digit, byte_in, digit_value in *. apply andb_true_iff in Eb as [Eb _]. apply N.leb_le in Eb. lia.
Qed.
Lemma parse_bool_shrinks s : shrinks (parse_bool s) s (fun _ => True).
Proof.
  unfold parse_bool. pose proof (skip_ws_length s) as H. destruct (skip_ws s) as [|b r]; [exact I|]. cbn in H. destruct b; try exact I.
  - pose proof (parse_ident_shrinks (str "alse") r) as H1. destruct (parse_ident _ r); try easy. cbn. split; [lia|exact I].
  - pose proof (parse_ident_shrinks (str "rue") r) as H1. destruct (parse_ident _ r); try easy. cbn. split; [lia|exact I].
Qed.
Lemma parse_chars_shrinks : forall n s acc, length s <= n -> shrinks (parse_chars s acc) s (fun x => utf8_valid x = true).
Proof.
  induction n as [|n IH]; intros s acc Hn; (destruct s as [|c s1]; [exact I|]); [cbn in Hn; lia|].
  cbn [parse_chars]. cbn in Hn.
  assert (IH' : forall s' acc', length s' <= length s1 -> shrinks (parse_chars s' acc') (c :: s1) (fun x => utf8_valid x = true)).
  { intros s' acc' H. apply (shrinks_le _ s'); [apply IH; lia|cbn; lia]. }
  destruct (Byte.eqb c x22).
  { destruct (utf8_valid acc) eqn:E; [|exact I]. cbn. split; [lia|assumption]. }
  destruct (Byte.eqb c x5c).
  2: { destruct (_ <? _)%N; [exact I|]. apply IH'. lia. }
  destruct s1 as [|e s2]; [exact I|]. destruct (simple_escape e); [apply IH'; cbn; lia|]. destruct (Byte.eqb e x75); [|exact I].
  destruct s2 as [|h1 [|h2 [|h3 [|h4 s3]]]]; try exact I. destruct (hex4 h1 h2 h3 h4) as [n1|]; [|exact I].
  destruct (_ && _)%N; [exact I|]. destruct (_ && _)%N; [|apply IH'; cbn; lia].
  destruct s3 as [|y1 s3]; [exact I|]. destruct y1; try exact I. destruct s3 as [|y2 s3]; [exact I|]. destruct y2; try exact I.
  destruct s3 as [|g1 [|g2 [|g3 [|g4 s4]]]]; try exact I. destruct (hex4 g1 g2 g3 g4); [|exact I]. destruct (_ || _)%N; [exact I|]. apply IH'. cbn. lia.
Qed.
Lemma parse_string_shrinks s : shrinks (parse_string s) s (fun x => utf8_valid x = true).
Proof.
  unfold parse_string. pose proof (skip_ws_length s). destruct (skip_ws s) as [|b r]; [exact I|]. destruct b; try exact I.
  apply (shrinks_le _ r); [eapply parse_chars_shrinks; apply Nat.le_refl|]. cbn in H. lia.
Qed.
Lemma ignore_chars_shrinks : forall n s, length s <= n -> shrinks (ignore_chars s) s (fun _ => True).
Proof.
  induction n as [|n IH]; intros s Hn; (destruct s as [|c s1]; [exact I|]); [cbn in Hn; lia|]. cbn [ignore_chars]. cbn in Hn.
  assert (IH' : forall s', length s' <= length s1 -> shrinks (ignore_chars s') (c :: s1) (fun _ => True)).
  { intros s' H. apply (shrinks_le _ s'); [apply IH; lia|cbn; lia]. }
  destruct (Byte.eqb c x22); [cbn; split; [lia|exact I]|].
  destruct (Byte.eqb c x5c).
  2: { destruct (_ <? _)%N; [exact I|]. apply IH'. lia. }
  destruct s1 as [|e s2]; [exact I|]. destruct (simple_escape e); [apply IH'; cbn; lia|]. destruct (Byte.eqb e x75); [|exact I].
  destruct s2 as [|h1 [|h2 [|h3 [|h4 s3]]]]; try exact I. destruct (hex4 h1 h2 h3 h4); [|exact I]. apply IH'. cbn. lia.
Qed.
Lemma skip_digits_length s : length (skip_digits s) <= length s.
Proof. apply parse_digits_length. Qed.
Definition le_result (m : pres unit) (s : list byte) : Prop := match m with POk _ r => length r <= length s | PErr => True | PFuel => False end.
Lemma ignore_exponent_le s : le_result (ignore_exponent s) s.
Proof.
  unfold ignore_exponent, le_result. set (s' := match s with x2b :: r | x2d :: r => r | _ => s end).
  assert (H : length s' <= length s) by (subst s'; destruct s as [|b s]; [cbn; lia|]; destruct b; cbn; lia).
  destruct (digit_follows s'); [|exact I]. pose proof (skip_digits_length s'). lia.
Qed.
Lemma ignore_fraction_le s : le_result (ignore_fraction s) s.
Proof.
  unfold ignore_fraction. destruct s as [|b r]; [cbn; lia|].
  assert (H : le_result (ignore_exponent r) (b :: r)) by (pose proof (ignore_exponent_le r); unfold le_result in *; destruct (ignore_exponent r); cbn; try easy; lia).
  destruct b; try exact H; try (cbn; lia). destruct (digit_follows r); [|exact I].
  pose proof (skip_digits_length r) as Hl. destruct (skip_digits r) as [|b r']; [cbn; lia|]. cbn in Hl.
  assert (H' : le_result (ignore_exponent r') (x2e :: r)) by (pose proof (ignore_exponent_le r'); unfold le_result in *; destruct (ignore_exponent r'); cbn; try easy; lia).
  destruct b; try exact H'; cbn; lia.
Qed.
Lemma ignore_integer_shrinks s : shrinks (ignore_integer s) s (fun _ => True).
Proof.
  unfold ignore_integer. destruct s as [|b r]; [exact I|]. destruct (is_digit b); [|exact I].
  pose proof (skip_digits_length r). destruct (Byte.eqb b x30); [destruct (digit_follows r); [exact I|]|].
  - pose proof (ignore_fraction_le r) as H1. unfold le_result in H1. destruct (ignore_fraction r); cbn; try easy. split; [lia|exact I].
  - pose proof (ignore_fraction_le (skip_digits r)) as H1. unfold le_result in H1. destruct (ignore_fraction _); cbn; try easy. split; [lia|exact I].
Qed.
Lemma ignore_start_shrinks s : match ignore_start s with Scalar r | Opened _ r => length r < length s | OErr => True end.
Proof.
  unfold ignore_start. pose proof (skip_ws_length s) as H. destruct (skip_ws s) as [|b r]; [exact I|]. cbn in H.
  assert (Hid : forall w, match scalar_of (parse_ident w r) with Scalar r' | Opened _ r' => length r' < length s | OErr => True end).
  { intros w. pose proof (parse_ident_shrinks w r) as H1. destruct (parse_ident w r); cbn; try easy. lia. }
  assert (Hint : forall s', length s' <= S (length r) -> match scalar_of (ignore_integer s') with Scalar r' | Opened _ r' => length r' < length s | OErr => True end).
  { intros s' Hs'. pose proof (ignore_integer_shrinks s') as H1. destruct (ignore_integer s'); cbn in *; try easy. lia. }
  assert (Hch : match scalar_of (ignore_chars r) with Scalar r' | Opened _ r' => length r' < length s | OErr => True end).
  { pose proof (ignore_chars_shrinks (length r) r (Nat.le_refl _)) as H1. destruct (ignore_chars r); cbn in *; try easy. lia. }
  destruct b; try exact I; try apply Hid; try exact Hch; try (apply Hint; cbn; lia); lia.
Qed.
Lemma close_frames_shrinks : forall stack acc f s, match close_frames acc f stack s with Break _ _ r | Return r => length r <= length s | CErr => True end.
Proof.
  induction stack as [|f' stack IH]; intros acc f s; cbn [close_frames]; pose proof (skip_ws_length s) as H; (destruct (skip_ws s) as [|c r]; [exact I|]); cbn in H.
  - destruct (_ && _); [lia|]. destruct (Byte.eqb _ _); [lia|]. destruct acc; [exact I|cbn; lia].
  - destruct (_ && _); [lia|]. destruct (Byte.eqb _ _).
    + specialize (IH true f' r). destruct (close_frames true f' stack r); try easy; lia.
    + destruct acc; [exact I|cbn; lia].
Qed.
Lemma ignore_loop_shrinks : forall fuel stack s, length s < fuel -> shrinks (ignore_loop fuel stack s) s (fun _ => True).
Proof.
  induction fuel as [|fuel IH]; intros stack s Hf; [lia|]. cbn [ignore_loop].
  set (m := match ignore_start s with OErr => CErr | Opened f r => close_frames false f stack r | Scalar r => match stack with [] => Return r | f :: stack' => close_frames true f stack' r end end).
  assert (Hm : match m with Break _ _ r | Return r => length r < length s | CErr => True end).
  { subst m. pose proof (ignore_start_shrinks s) as H. destruct (ignore_start s) as [r|f r|]; [|pose proof (close_frames_shrinks stack false f r) as H1; destruct (close_frames false f stack r); try easy; lia|exact I].
    destruct stack as [|f stack]; [exact H|]. pose proof (close_frames_shrinks stack true f r) as H1. destruct (close_frames true f stack r); try easy; lia. }
  destruct m as [f stack' r|r|]; [|cbn; split; [lia|exact I]|exact I].
  destruct f.
  - apply (shrinks_le _ r); [apply IH; lia|lia].
  - eapply shrinks_bind; [apply (shrinks_le _ r); [apply expect_shrinks|lia]|]. intros _ r1 H1 _.
    eapply shrinks_bind; [apply (shrinks_le _ r1); [eapply ignore_chars_shrinks; apply Nat.le_refl|lia]|]. intros _ r2 H2 _.
    eapply shrinks_bind; [apply (shrinks_le _ r2); [apply expect_shrinks|lia]|]. intros _ r3 H3 _.
    apply (shrinks_le _ r3); [apply IH; lia|lia].
Qed.
Lemma next_item_shrinks close first s : match next_item close first s with NEnd r | NItem r => length r <= length s | NErr => True end.
Proof.
  unfold next_item. pose proof (skip_ws_length s) as H. destruct (skip_ws s) as [|c r]; [exact I|]. cbn in H.
  destruct (Byte.eqb c close); [cbn; lia|]. destruct (_ && _).
  - pose proof (skip_ws_length r) as H1. destruct (skip_ws r) as [|c' r']; [exact I|]. destruct (Byte.eqb _ _); [exact I|]. cbn in *. lia.
  - destruct first; [cbn; lia|exact I].
Qed.

Definition good (fuel : nat) (p : parser) (Q : val -> Prop) : Prop := forall s, length s < fuel -> shrinks (p s) s Q.
(* like [shrinks], but possibly consuming nothing *)
Definition keeps {A} (m : pres A) (s : list byte) (Q : A -> Prop) : Prop :=
  match m with POk a r => length r <= length s /\ Q a | PErr => True | PFuel => False end.
Lemma parse_elems_keeps F p Q : good F p Q -> forall fuel first s acc, length s < fuel -> length s < F -> Forall Q acc ->
  keeps (parse_elems fuel p first s acc) s (Forall Q).
Proof.
  intros Hp. induction fuel as [|fuel IH]; intros first s acc Hf HF Ha; [lia|]. cbn [parse_elems].
  pose proof (next_item_shrinks x5d first s) as Hn. destruct (next_item x5d first s) as [r|r|]; [cbn; auto| |exact I].
  specialize (Hp r ltac:(lia)). destruct (p r) as [v r'| |]; cbn [pbind]; try easy. cbn in Hp. destruct Hp as [H1 H2].
  specialize (IH false r' (acc ++ [v])). assert (Hk : keeps (parse_elems fuel p false r' (acc ++ [v])) r' (Forall Q)).
  { apply IH; try lia. apply Forall_app. auto. }
  destruct (parse_elems fuel p false r' (acc ++ [v])); cbn in *; try easy. split; [lia|tauto].
Qed.
Lemma parse_fixed_keeps F : forall ps Qs first s, Forall2 (good F) ps Qs -> length s < F ->
  keeps (parse_fixed ps first s) s (fun vs => Forall2 (fun (Q : val -> Prop) v => Q v) Qs vs).
Proof.
  induction ps as [|p ps IH]; intros Qs first s HF Hs; inversion HF as [|? Q ? Qs' Hp HF']; subst; cbn [parse_fixed].
  - cbn. auto.
  - pose proof (next_item_shrinks x5d first s) as Hn. destruct (next_item x5d first s) as [r|r|]; try exact I.
    specialize (Hp r ltac:(lia)). destruct (p r) as [v r'| |]; cbn [pbind]; try easy. cbn in Hp. destruct Hp as [H1 H2].
    specialize (IH Qs' false r' HF' ltac:(lia)). destruct (parse_fixed ps false r'); cbn in *; try easy. split; [lia|]. constructor; tauto.
Qed.
Definition got_ok (Q : val -> Prop) (o : option val) : Prop := match o with Some v => Q v | None => True end.
Lemma find_field_nth fs key i p : find_field fs key = Some (i, p) -> exists n, nth_error fs i = Some (n, p).
Proof.
  revert i. induction fs as [|[n q] fs IH]; intros i H; cbn in H; [discriminate|]. destruct (list_eqb _ _ _); [injection H as <- <-; now exists n|].
  destruct (find_field fs key) as [[j p']|]; [|discriminate]. injection H as <- <-. now apply IH.
Qed.
Lemma set_nth_ok : forall Qs got i v Q, Forall2 got_ok Qs got -> nth_error Qs i = Some Q -> Q v -> Forall2 got_ok Qs (set_nth i v got).
Proof.
  induction Qs as [|Q0 Qs IH]; intros got i v Q HF Hi Hv; inversion HF; subst; [destruct i; discriminate|].
  destruct i; cbn in Hi |- *; constructor; auto; [now injection Hi as ->|eauto].
Qed.
Lemma parse_map_keeps F fs Qs : Forall2 (good F) (map snd fs) Qs -> forall fuel first s got, length s < fuel -> length s < F ->
  Forall2 got_ok Qs got -> keeps (parse_map fuel fs first s got) s (Forall2 got_ok Qs).
Proof.
  intros Hps. induction fuel as [|fuel IH]; intros first s got Hf HF Hg; [lia|]. cbn [parse_map].
  pose proof (next_item_shrinks x7d first s) as Hn. destruct (next_item x7d first s) as [r|r|]; [cbn; auto| |exact I].
  pose proof (expect_shrinks x22 r) as H0. destruct (expect x22 r) as [_u r0| |]; cbn [pbind]; try easy. destruct H0 as [H0 _].
  pose proof (parse_chars_shrinks (length r0) r0 [] (Nat.le_refl _)) as H1. destruct (parse_chars r0 []) as [key r1| |]; cbn [pbind]; try easy. destruct H1 as [H1 _].
  assert (Hcont : forall r3 got', length r3 < length s -> Forall2 got_ok Qs got' -> keeps (parse_map fuel fs false r3 got') s (Forall2 got_ok Qs)).
  { intros r3 got' H3 Hg'. specialize (IH false r3 got' ltac:(lia) ltac:(lia) Hg'). destruct (parse_map fuel fs false r3 got'); cbn in *; try easy. split; [lia|tauto]. }
  pose proof (expect_shrinks x3a r1) as H2.
  destruct (find_field fs key) as [[i p]|] eqn:Ef.
  - destruct (nth i got None); [exact I|]. destruct (expect x3a r1) as [_u2 r2| |]; cbn [pbind]; try easy. destruct H2 as [H2 _].
    apply find_field_nth in Ef as (n & Ef). assert (Ep : nth_error (map snd fs) i = Some p) by (rewrite nth_error_map, Ef; reflexivity).
    assert (HQ : exists Q, nth_error Qs i = Some Q /\ good F p Q).
    { clear -Hps Ep. revert i Ep. induction Hps; intros [|i] Ep; try discriminate; [injection Ep as ->; eexists; split; [reflexivity|assumption]|]. now apply IHHps. }
    destruct HQ as (Q & EQ & Hp). specialize (Hp r2 ltac:(lia)). destruct (p r2) as [v r3| |]; cbn [pbind]; try easy. destruct Hp as [H3 Hv].
    apply Hcont; [lia|]. eapply set_nth_ok; eauto.
  - destruct (expect x3a r1) as [_u2 r2| |]; cbn [pbind]; try easy. destruct H2 as [H2 _].
    pose proof (ignore_loop_shrinks (S fuel) [] r2 ltac:(lia)) as H3. destruct (ignore_loop (S fuel) [] r2) as [_u3 r3| |]; cbn [pbind]; try easy. destruct H3 as [H3 _].
    apply Hcont; [lia|assumption].
Qed.
Lemma all_some_ok Qs got vs : Forall2 got_ok Qs got -> all_some got = Some vs -> Forall2 (fun (Q : val -> Prop) v => Q v) Qs vs.
Proof.
  intros HF. revert vs. induction HF as [|Q o Qs got Ho HF IH]; intros vs E; cbn in E; [injection E as <-; constructor|].
  destruct o as [v|]; [|discriminate]. destruct (all_some got) as [vs'|]; [|discriminate]. injection E as <-. constructor; auto.
Qed.
Lemma typed_fields_Qs fs vs : Forall2 (fun (Q : val -> Prop) v => Q v) (map (fun f => has_type (snd f)) fs) vs -> typed_fields fs vs.
Proof. unfold typed_fields. revert vs. induction fs; intros vs H; inversion H; subst; constructor; auto. Qed.
(* the number types have room for 0 *)
Fixpoint nums_ok (t : ty) : Prop :=
  match t with
  | TNum max => (0 <= max)%Z
  | TSeq t' => nums_ok t'
  | TPair t1 t2 => nums_ok t1 /\ nums_ok t2
  | TStruct fs | TEnum fs => (fix all (fs : list (list byte * ty)) : Prop :=
                        match fs with [] => True | (_, t') :: fs' => nums_ok t' /\ all fs' end) fs
  | _ => True
  end.
Lemma nums_fields fs : (fix all (fs : list (list byte * ty)) : Prop :=
                        match fs with [] => True | (_, t') :: fs' => nums_ok t' /\ all fs' end) fs <->
  Forall (fun f => nums_ok (snd f)) fs.
Proof. induction fs as [|[n t] fs IH]; [split; auto|]. rewrite IH, Forall_cons_iff. reflexivity. Qed.

Lemma parse_good fuel : forall t, nums_ok t -> good fuel (parse fuel t) (has_type t).
Proof.
  induction t as [max| | | |t IH|t1 t2 IH1 IH2|fs IH|ts IH] using ty_ind'; intros Hn s Hs; cbn [parse].
  - eapply shrinks_bind; [apply parse_num_shrinks; exact Hn|]. intros z r H1 H2. cbn. auto.
  - eapply shrinks_bind; [apply parse_bool_shrinks|]. intros z r H1 H2. cbn. auto.
  - eapply shrinks_bind; [apply parse_string_shrinks|]. intros z r H1 H2. cbn. auto.
  - eapply shrinks_bind; [apply parse_string_shrinks|]. intros z r H1 H2. cbn. auto.
  - eapply shrinks_bind; [apply expect_shrinks|]. intros _ r H1 _.
    pose proof (parse_elems_keeps fuel _ _ (IH Hn) fuel true r [] ltac:(lia) ltac:(lia) (Forall_nil _)) as Hk.
    destruct (parse_elems fuel (parse fuel t) true r []) as [vs r1| |]; cbn [pbind]; try easy. destruct Hk as [Hk HQ].
    eapply shrinks_bind; [apply (shrinks_le _ r1); [apply expect_shrinks|lia]|]. intros _ r2 H2 _. cbn. split; [lia|exact HQ].
  - destruct Hn as [Hn1 Hn2]. eapply shrinks_bind; [apply expect_shrinks|]. intros _ r H1 _.
    pose proof (parse_fixed_keeps fuel [parse fuel t1; parse fuel t2] [has_type t1; has_type t2] true r) as Hk.
    destruct (parse_fixed [parse fuel t1; parse fuel t2] true r) as [vs r1| |]; cbn [pbind]; try easy; [|apply Hk; [auto|lia]].
    destruct Hk as [Hk HQ]; [auto|lia|]. destruct vs as [|v [|w [|]]]; try exact I.
    inversion HQ as [|? ? ? ? Q1 HQ']; subst. inversion HQ' as [|? ? ? ? Q2 _]; subst.
    eapply shrinks_bind; [apply (shrinks_le _ r1); [apply expect_shrinks|lia]|]. intros _ r2 H2 _. cbn. split; [lia|auto].
  - cbn [nums_ok] in Hn. apply nums_fields in Hn. unfold parse_struct. set (ps := map _ fs).
    assert (HF : Forall2 (good fuel) (map snd ps) (map (fun f => has_type (snd f)) fs)).
    { unfold ps. clear -IH Hn. induction fs as [|[n t] fs IHf]; [constructor|]. inversion IH; inversion Hn; subst. cbn [map]. constructor; auto. }
    pose proof (skip_ws_length s) as Hl. destruct (skip_ws s) as [|b r]; [exact I|]. cbn in Hl. destruct b; try exact I.
    + pose proof (parse_fixed_keeps fuel (map snd ps) _ true r HF ltac:(lia)) as Hk.
      destruct (parse_fixed (map snd ps) true r) as [vs r1| |]; cbn [pbind]; try easy. destruct Hk as [Hk HQ].
      eapply shrinks_bind; [apply (shrinks_le _ r1); [apply expect_shrinks|lia]|]. intros _ r2 H2 _. cbn -[has_type]. split; [lia|].
      apply has_type_struct, typed_fields_Qs, HQ.
    + pose proof (parse_map_keeps fuel ps _ HF fuel true r (map (fun _ => None) ps) ltac:(lia) ltac:(lia)) as Hk.
      assert (Hg0 : Forall2 got_ok (map (fun f => has_type (snd f)) fs) (map (fun _ => None) ps)).
      { unfold ps. rewrite map_map. clear. induction fs as [|[n t] fs IHf]; constructor; [exact I|exact IHf]. }
      specialize (Hk Hg0). destruct (parse_map fuel ps true r (map (fun _ => None) ps)) as [got r1| |]; cbn [pbind]; try easy. destruct Hk as [Hk HQ].
      destruct (all_some got) as [vs|] eqn:Eg; [|exact I]. apply (all_some_ok _ _ _ HQ) in Eg.
      eapply shrinks_bind; [apply (shrinks_le _ r1); [apply expect_shrinks|lia]|]. intros _ r2 H2 _. cbn -[has_type]. split; [lia|].
      apply has_type_struct, typed_fields_Qs, Eg.
  - cbn [nums_ok] in Hn. apply nums_fields in Hn. unfold parse_enum.
    eapply shrinks_bind; [apply expect_shrinks|]. intros _ r H1 _.
    eapply shrinks_bind; [apply (shrinks_le _ r); [apply parse_string_shrinks|lia]|]. intros name r1 H2 _.
    set (ps := map _ ts). destruct (find_field ps name) as [[i p]|] eqn:Ef; [|exact I]. apply find_field_nth in Ef as (n & Ef). unfold ps in Ef. rewrite nth_error_map in Ef.
    destruct (nth_error ts i) as [[n' t]|] eqn:Ei; [|discriminate]. cbn in Ef. injection Ef as <- <-.
    pose proof (nth_error_In _ _ Ei) as Hin. rewrite Forall_forall in IH, Hn. specialize (IH _ Hin (Hn _ Hin)). cbn [snd] in IH.
    eapply shrinks_bind; [apply (shrinks_le _ r1); [apply expect_shrinks|lia]|]. intros _ r2 H3 _.
    eapply shrinks_bind; [apply (shrinks_le _ r2); [apply IH; lia|lia]|]. intros v r3 H4 Hv.
    eapply shrinks_bind; [apply (shrinks_le _ r3); [apply expect_shrinks|lia]|]. intros _ r4 H5 _.
    cbn -[has_type]. split; [lia|]. apply has_type_enum. eauto.
Qed.

(* ---------------- what was read stays the same when more input follows ---------------- *)
Lemma skip_ws_more s c r q : skip_ws s = c :: r -> skip_ws (s ++ q) = c :: r ++ q.
Proof. induction s as [|b s IH]; cbn; [discriminate|]. destruct (is_ws b); [exact IH|]. now intros [= -> ->]. Qed.
Lemma expect_more b s u r q : expect b s = POk u r -> expect b (s ++ q) = POk u (r ++ q).
Proof.
  unfold expect. destruct (skip_ws s) as [|c r'] eqn:E; [discriminate|]. rewrite (skip_ws_more _ _ _ q E).
  destruct (Byte.eqb c b); [|discriminate]. now intros [= <- <-].
Qed.
Lemma parse_ident_more : forall w s u r q, parse_ident w s = POk u r -> parse_ident w (s ++ q) = POk u (r ++ q).
Proof.
  induction w as [|x w IH]; intros s u r q; [cbn; now intros [= <- <-]|]. destruct s as [|c s]; [discriminate|]. cbn. destruct (Byte.eqb c x); [apply IH|discriminate].
Qed.
Lemma parse_digits_more : forall s v z r q, parse_digits s v = (z, r) -> r <> [] -> parse_digits (s ++ q) v = (z, r ++ q).
Proof.
  induction s as [|b s IH]; intros v z r q; cbn [parse_digits app]; [intros [= <- <-]; congruence|]. destruct (is_digit b); [apply IH|]. now intros [= <- <-].
Qed.
Lemma float_follows_more r q : r <> [] -> float_follows (r ++ q) = float_follows r.
Proof. destruct r; [congruence|reflexivity]. Qed.
Lemma digit_follows_more r q : r <> [] -> digit_follows (r ++ q) = digit_follows r.
Proof. destruct r; [congruence|reflexivity]. Qed.
Lemma parse_num_more max s z r q : parse_num max s = POk z r -> r <> [] -> parse_num max (s ++ q) = POk z (r ++ q).
Proof.
  unfold parse_num. destruct (skip_ws s) as [|b s'] eqn:E; [discriminate|]. rewrite (skip_ws_more _ _ _ q E). intros H Hr.
  destruct (is_digit b); [|discriminate]. destruct (Byte.eqb b x30).
  - destruct (digit_follows s' || float_follows s') eqn:E1; [discriminate|]. injection H as <- <-. now rewrite digit_follows_more, float_follows_more, E1 by assumption.
  - destruct (parse_digits s' (digit_value b)) as [v r'] eqn:Ed. destruct (float_follows r') eqn:Ef; [discriminate|]. destruct (v <=? max)%Z eqn:El; [|discriminate].
    injection H as <- <-. rewrite (parse_digits_more _ _ _ _ q Ed Hr), float_follows_more, Ef, El by assumption. reflexivity.
Qed.
Lemma parse_bool_more s z r q : parse_bool s = POk z r -> parse_bool (s ++ q) = POk z (r ++ q).
Proof.
  unfold parse_bool. destruct (skip_ws s) as [|b s'] eqn:E; [discriminate|]. rewrite (skip_ws_more _ _ _ q E). destruct b; try discriminate.
  - destruct (parse_ident (str "alse") s') as [u r'| |] eqn:Ei; try discriminate. rewrite (parse_ident_more _ _ _ _ q Ei). cbn. now intros [= <- <-].
  - destruct (parse_ident (str "rue") s') as [u r'| |] eqn:Ei; try discriminate. rewrite (parse_ident_more _ _ _ _ q Ei). cbn. now intros [= <- <-].
Qed.
Lemma parse_chars_more q : forall n s acc x r, length s <= n -> parse_chars s acc = POk x r -> parse_chars (s ++ q) acc = POk x (r ++ q).
Proof.
  induction n as [|n IH]; intros s acc x r Hn; (destruct s as [|c s1]; [discriminate|]); [cbn in Hn; lia|].
  cbn [parse_chars app]. cbn in Hn.
  destruct (Byte.eqb c x22).
  { destruct (utf8_valid acc); [|discriminate]. now intros [= <- <-]. }
  destruct (Byte.eqb c x5c).
  2: { destruct (_ <? _)%N; [discriminate|]. apply IH. lia. }
  destruct s1 as [|e s2]; [discriminate|]. cbn [app]. cbn in Hn. destruct (simple_escape e); [apply IH; lia|]. destruct (Byte.eqb e x75); [|discriminate].
  destruct s2 as [|h1 [|h2 [|h3 [|h4 s3]]]]; try discriminate. cbn [app]. cbn in Hn. destruct (hex4 h1 h2 h3 h4) as [n1|]; [|discriminate].
  destruct (_ && _)%N; [discriminate|]. destruct (_ && _)%N; [|apply IH; lia].
  destruct s3 as [|y1 s3]; [discriminate|]. destruct y1; try discriminate. destruct s3 as [|y2 s3]; [discriminate|]. destruct y2; try discriminate.
  destruct s3 as [|g1 [|g2 [|g3 [|g4 s4]]]]; try discriminate. cbn [app]. cbn in Hn. destruct (hex4 g1 g2 g3 g4); [|discriminate].
  destruct (_ || _)%N; [discriminate|]. apply IH. lia.
Qed.
Lemma parse_string_more s x r q : parse_string s = POk x r -> parse_string (s ++ q) = POk x (r ++ q).
Proof.
  unfold parse_string. destruct (skip_ws s) as [|b s'] eqn:E; [discriminate|]. rewrite (skip_ws_more _ _ _ q E). destruct b; try discriminate.
  eapply parse_chars_more, Nat.le_refl.
Qed.
Lemma ignore_chars_more q : forall n s u r, length s <= n -> ignore_chars s = POk u r -> ignore_chars (s ++ q) = POk u (r ++ q).
Proof.
  induction n as [|n IH]; intros s u r Hn; (destruct s as [|c s1]; [discriminate|]); [cbn in Hn; lia|]. cbn [ignore_chars app]. cbn in Hn.
  destruct (Byte.eqb c x22); [now intros [= <- <-]|].
  destruct (Byte.eqb c x5c).
  2: { destruct (_ <? _)%N; [discriminate|]. apply IH. lia. }
  destruct s1 as [|e s2]; [discriminate|]. cbn [app]. cbn in Hn. destruct (simple_escape e); [apply IH; lia|]. destruct (Byte.eqb e x75); [|discriminate].
  destruct s2 as [|h1 [|h2 [|h3 [|h4 s3]]]]; try discriminate. cbn [app]. cbn in Hn. destruct (hex4 h1 h2 h3 h4); [|discriminate]. apply IH. lia.
Qed.
Lemma skip_digits_more s q : skip_digits s <> [] -> skip_digits (s ++ q) = skip_digits s ++ q.
Proof.
  unfold skip_digits. intros H. destruct (parse_digits s 0) as [z r] eqn:E. cbn [snd] in *. now rewrite (parse_digits_more _ _ _ _ q E H).
Qed.
Lemma ignore_exponent_more s u r q : ignore_exponent s = POk u r -> r <> [] -> ignore_exponent (s ++ q) = POk u (r ++ q).
Proof.
  unfold ignore_exponent. intros H Hr. set (s' := match s with x2b :: r | x2d :: r => r | _ => s end) in *.
  destruct (digit_follows s') eqn:Ed; [|discriminate]. injection H as <- <-.
  assert (Hs' : s' <> []) by (intros E; rewrite E in Ed; discriminate).
  assert (E : match s ++ q with x2b :: r | x2d :: r => r | _ => s ++ q end = s' ++ q).
  { subst s'. destruct s as [|b s]; [congruence|]. now destruct b. }
  cbv zeta. rewrite E. now rewrite digit_follows_more, Ed, skip_digits_more by assumption.
Qed.
Lemma ignore_fraction_more s u r q : ignore_fraction s = POk u r -> r <> [] -> ignore_fraction (s ++ q) = POk u (r ++ q).
Proof.
  unfold ignore_fraction. intros H Hr. destruct s as [|b s]; [injection H as _ <-; congruence|]. cbn [app].
  destruct b; try (injection H as <- <-; reflexivity); try (now apply ignore_exponent_more).
  destruct (digit_follows s) eqn:Ed; [|discriminate].
  assert (Hs : s <> []) by (intros E; rewrite E in Ed; discriminate). rewrite digit_follows_more, Ed by assumption.
  destruct (skip_digits s) as [|b s'] eqn:E; [injection H as _ <-; congruence|]. rewrite skip_digits_more by congruence. rewrite E. cbn [app].
  destruct b; try (injection H as <- <-; reflexivity); now apply ignore_exponent_more.
Qed.
Lemma ignore_exponent_nil u : forall r, ignore_exponent [] = POk u r -> False.
Proof. discriminate. Qed.
Lemma ignore_fraction_end s u r : ignore_fraction s = POk u r -> s = [] -> r = [].
Proof. intros H ->. cbn in H. congruence. Qed.
Lemma ignore_integer_more s u r q : ignore_integer s = POk u r -> r <> [] -> ignore_integer (s ++ q) = POk u (r ++ q).
Proof.
  unfold ignore_integer. intros H Hr. destruct s as [|b s]; [discriminate|]. cbn [app]. destruct (is_digit b); [|discriminate].
  destruct (Byte.eqb b x30).
  - assert (Hs : s <> []) by (intros ->; cbn in H; congruence). rewrite digit_follows_more by assumption. destruct (digit_follows s); [discriminate|]. now apply ignore_fraction_more.
  - assert (Hs : skip_digits s <> []) by (intros E; rewrite E in H; cbn in H; congruence). rewrite skip_digits_more by assumption. now apply ignore_fraction_more.
Qed.
Definition more_opened (q : list byte) (o : opened) : opened :=
  match o with Scalar r => Scalar (r ++ q) | Opened f r => Opened f (r ++ q) | OErr => OErr end.
Lemma ignore_start_more s q : ignore_start s <> OErr -> ignore_start s <> Scalar [] -> ignore_start (s ++ q) = more_opened q (ignore_start s).
Proof.
  unfold ignore_start. destruct (skip_ws s) as [|b s'] eqn:E; [congruence|]. rewrite (skip_ws_more _ _ _ q E). intros H1 H2.
  assert (Hid : forall w, scalar_of (parse_ident w s') <> OErr -> scalar_of (parse_ident w (s' ++ q)) = more_opened q (scalar_of (parse_ident w s'))).
  { intros w H. destruct (parse_ident w s') as [u r| |] eqn:Ei; cbn in H; try congruence. now rewrite (parse_ident_more _ _ _ _ q Ei). }
  assert (Hint : forall x, scalar_of (ignore_integer x) <> OErr -> scalar_of (ignore_integer x) <> Scalar [] ->
            scalar_of (ignore_integer (x ++ q)) = more_opened q (scalar_of (ignore_integer x))).
  { intros x Ha Hb. destruct (ignore_integer x) as [u r| |] eqn:Ei; cbn in Ha, Hb; try congruence. rewrite (ignore_integer_more _ _ _ q Ei); [reflexivity|congruence]. }
  destruct b; try (cbn in H1; congruence); try (apply Hid; assumption); try (apply (Hint (_ :: s')); assumption); try (apply Hint; assumption); try reflexivity.
  destruct (ignore_chars s') as [u r| |] eqn:Ei; cbn in H1; try congruence. now rewrite (ignore_chars_more q _ _ _ _ (Nat.le_refl _) Ei).
Qed.
Definition more_closing (q : list byte) (c : closing) : closing :=
  match c with Break f st r => Break f st (r ++ q) | Return r => Return (r ++ q) | CErr => CErr end.
Lemma close_frames_more q : forall stack acc f s, close_frames acc f stack s <> CErr -> close_frames acc f stack (s ++ q) = more_closing q (close_frames acc f stack s).
Proof.
  induction stack as [|f' stack IH]; intros acc f s; cbn [close_frames]; (destruct (skip_ws s) as [|c r] eqn:E; [congruence|]); rewrite (skip_ws_more _ _ _ q E).
  - destruct (_ && _); [reflexivity|]. destruct (Byte.eqb _ _); [reflexivity|]. destruct acc; [congruence|reflexivity].
  - destruct (_ && _); [reflexivity|]. destruct (Byte.eqb _ _); [apply IH|]. destruct acc; [congruence|reflexivity].
Qed.
Lemma close_frames_nil acc f stack : close_frames acc f stack [] = CErr.
Proof. now destruct stack. Qed.
Lemma ignore_loop_more q : forall fuel fuel' stack s u r, fuel <= fuel' -> ignore_loop fuel stack s = POk u r -> r <> [] ->
  ignore_loop fuel' stack (s ++ q) = POk u (r ++ q).
Proof.
  induction fuel as [|fuel IH]; intros fuel' stack s u r Hf H Hr; [discriminate|]. destruct fuel' as [|fuel']; [lia|]. cbn [ignore_loop] in *.
  set (m := match ignore_start s with OErr => CErr | Opened f r => close_frames false f stack r | Scalar r => match stack with [] => Return r | f :: stack' => close_frames true f stack' r end end) in *.
  assert (Hm : m <> CErr) by (intros E; rewrite E in H; discriminate).
  assert (Hm' : m <> Return []) by (intros E; rewrite E in H; congruence).
  assert (Em : match ignore_start (s ++ q) with OErr => CErr | Opened f r => close_frames false f stack r | Scalar r => match stack with [] => Return r | f :: stack' => close_frames true f stack' r end end = more_closing q m).
  { subst m. rewrite ignore_start_more.
    - destruct (ignore_start s) as [x|f x|]; cbn [more_opened]; [|now apply close_frames_more|reflexivity]. destruct stack; [reflexivity|now apply close_frames_more].
    - intros E. rewrite E in Hm. congruence.
    - intros E. rewrite E in Hm, Hm'. destruct stack; [congruence|]. rewrite close_frames_nil in Hm. congruence. }
  rewrite Em. clear Em. destruct m as [f stack' x|x|]; cbn [more_closing]; [|injection H as <- <-; reflexivity|congruence].
  destruct f; [eapply IH; eauto; lia|].
  destruct (expect x22 x) as [u1 r1| |] eqn:E1; cbn [pbind] in H; try discriminate. rewrite (expect_more _ _ _ _ q E1). cbn [pbind].
  destruct (ignore_chars r1) as [u2 r2| |] eqn:E2; cbn [pbind] in H; try discriminate. rewrite (ignore_chars_more q _ _ _ _ (Nat.le_refl _) E2). cbn [pbind].
  destruct (expect x3a r2) as [u3 r3| |] eqn:E3; cbn [pbind] in H; try discriminate. rewrite (expect_more _ _ _ _ q E3). cbn [pbind].
  eapply IH; eauto; lia.
Qed.
Definition more_next (q : list byte) (n : next) : next := match n with NEnd r => NEnd (r ++ q) | NItem r => NItem (r ++ q) | NErr => NErr end.
Lemma next_item_more close first s q : next_item close first s <> NErr -> next_item close first (s ++ q) = more_next q (next_item close first s).
Proof.
  unfold next_item. destruct (skip_ws s) as [|c r] eqn:E; [congruence|]. rewrite (skip_ws_more _ _ _ q E).
  destruct (Byte.eqb c close); [reflexivity|]. destruct (_ && _).
  - destruct (skip_ws r) as [|c' r'] eqn:E'; [congruence|]. rewrite (skip_ws_more _ _ _ q E'). destruct (Byte.eqb _ _); [congruence|reflexivity].
  - destruct first; [reflexivity|congruence].
Qed.
Lemma next_item_nonnil close first s : match next_item close first s with NEnd r | NItem r => r <> [] | NErr => True end.
Proof.
  unfold next_item. destruct (skip_ws s) as [|c r]; [exact I|]. destruct (Byte.eqb c close); [congruence|]. destruct (_ && _).
  - destruct (skip_ws r); [exact I|]. destruct (Byte.eqb _ _); [exact I|congruence].
  - destruct first; [congruence|exact I].
Qed.

(* [p'] is [p] with more fuel *)
Definition extends (p p' : parser) : Prop := forall s v r q, p s = POk v r -> r <> [] -> p' (s ++ q) = POk v (r ++ q).
Lemma expect_nonnil {b s u r} : expect b s = POk u r -> s <> [].
Proof. intros H ->. discriminate. Qed.
Lemma parse_elems_nonnil fuel p first s acc vs r : parse_elems fuel p first s acc = POk vs r -> s <> [] /\ r <> [].
Proof.
  revert first s acc. induction fuel as [|fuel IH]; intros first s acc H; [discriminate|]. cbn [parse_elems] in H.
  split; [intros ->; discriminate|]. pose proof (next_item_nonnil x5d first s) as Hn. destruct (next_item x5d first s) as [x|x|]; try discriminate; [congruence|].
  destruct (p x); cbn [pbind] in H; try discriminate. eapply IH. eassumption.
Qed.
Lemma parse_elems_more p p' q : extends p p' -> forall fuel fuel' first s acc vs r, fuel <= fuel' -> parse_elems fuel p first s acc = POk vs r ->
  parse_elems fuel' p' first (s ++ q) acc = POk vs (r ++ q).
Proof.
  intros Hp. induction fuel as [|fuel IH]; intros fuel' first s acc vs r Hf H; [discriminate|]. destruct fuel' as [|fuel']; [lia|]. cbn [parse_elems] in *.
  rewrite next_item_more by (intros E; rewrite E in H; discriminate). destruct (next_item x5d first s) as [x|x|]; cbn [more_next]; try discriminate.
  - now injection H as <- <-.
  - destruct (p x) as [v x'| |] eqn:E; cbn [pbind] in H; try discriminate. pose proof (parse_elems_nonnil _ _ _ _ _ _ _ H) as [Hx _].
    rewrite (Hp _ _ _ q E Hx). cbn [pbind]. apply IH; [lia|assumption].
Qed.
Lemma parse_fixed_nonnil ps first s vs r : parse_fixed ps first s = POk vs r -> r <> [] -> s <> [].
Proof. destruct ps; cbn; [congruence|]. intros H _ ->. discriminate. Qed.
Lemma parse_fixed_more q : forall ps ps' first s vs r, Forall2 extends ps ps' -> parse_fixed ps first s = POk vs r -> r <> [] ->
  parse_fixed ps' first (s ++ q) = POk vs (r ++ q).
Proof.
  induction ps as [|p ps IH]; intros ps' first s vs r HF H Hr; inversion HF as [|? p' ? ps2 Hp HF']; subst; cbn [parse_fixed] in *; [now injection H as <- <-|].
  rewrite next_item_more by (intros E; rewrite E in H; discriminate). destruct (next_item x5d first s) as [x|x|]; cbn [more_next]; try discriminate.
  destruct (p x) as [v x'| |] eqn:E; cbn [pbind] in H; try discriminate.
  destruct (parse_fixed ps false x') as [vs' r'| |] eqn:E'; cbn [pbind] in H; try discriminate. injection H as <- <-.
  rewrite (Hp _ _ _ q E (parse_fixed_nonnil _ _ _ _ _ E' Hr)). cbn [pbind]. now rewrite (IH _ _ _ _ _ HF' E' Hr).
Qed.
Definition same_field (f f' : list byte * parser) : Prop := fst f = fst f' /\ extends (snd f) (snd f').
Lemma find_field_more fs fs' key : Forall2 same_field fs fs' ->
  match find_field fs key with
  | Some (i, p) => exists p', find_field fs' key = Some (i, p') /\ extends p p'
  | None => find_field fs' key = None
  end.
Proof.
  induction 1 as [|[n p] [n' p'] fs fs' [Hn Hp] HF IH]; cbn; [reflexivity|]. cbn in Hn, Hp. subst n'.
  destruct (list_eqb _ _ _); [eauto|]. destruct (find_field fs key) as [[i x]|].
  - destruct IH as (x' & -> & Hx). eauto.
  - now rewrite IH.
Qed.
Lemma parse_map_nonnil fuel fs first s got g r : parse_map fuel fs first s got = POk g r -> s <> [].
Proof. destruct fuel; cbn; [discriminate|]. intros H ->. discriminate. Qed.
Lemma parse_map_more fs fs' q : Forall2 same_field fs fs' -> forall fuel fuel' first s got g r, fuel <= fuel' -> parse_map fuel fs first s got = POk g r ->
  parse_map fuel' fs' first (s ++ q) got = POk g (r ++ q).
Proof.
  intros HF. induction fuel as [|fuel IH]; intros fuel' first s got g r Hf H; [discriminate|]. destruct fuel' as [|fuel']; [lia|].
  cbn [parse_map] in H |- *.
  rewrite next_item_more by (intros E; rewrite E in H; discriminate). destruct (next_item x7d first s) as [x|x|]; cbn [more_next]; try discriminate.
  { now injection H as <- <-. }
  destruct (expect x22 x) as [u1 r1| |] eqn:E1; cbn [pbind] in H; try discriminate. rewrite (expect_more _ _ _ _ q E1). cbn [pbind].
  destruct (parse_chars r1 []) as [key r2| |] eqn:E2; cbn [pbind] in H; try discriminate. rewrite (parse_chars_more q _ _ _ _ _ (Nat.le_refl _) E2). cbn [pbind].
  pose proof (find_field_more fs fs' key HF) as Hff. destruct (find_field fs key) as [[i p]|].
  - destruct Hff as (p' & -> & Hp). destruct (nth i got None); [discriminate|].
    destruct (expect x3a r2) as [u3 r3| |] eqn:E3; cbn [pbind] in H; try discriminate. rewrite (expect_more _ _ _ _ q E3). cbn [pbind].
    destruct (p r3) as [v r4| |] eqn:E4; cbn [pbind] in H; try discriminate. rewrite (Hp _ _ _ q E4 (parse_map_nonnil _ _ _ _ _ _ _ H)). cbn [pbind].
    apply IH; [lia|assumption].
  - rewrite Hff. destruct (expect x3a r2) as [u3 r3| |] eqn:E3; cbn [pbind] in H; try discriminate. rewrite (expect_more _ _ _ _ q E3). cbn [pbind].
    destruct (ignore_loop (S fuel) [] r3) as [v r4| |] eqn:E4; cbn [pbind] in H; try discriminate.
    rewrite (ignore_loop_more q _ (S fuel') _ _ _ _ Hf E4 (parse_map_nonnil _ _ _ _ _ _ _ H)). cbn [pbind]. apply IH; [lia|assumption].
Qed.
Definition self_delimiting (t : ty) : Prop := match t with TNum _ => False | _ => True end.
Lemma parse_more : forall t fuel fuel' s v r q, fuel <= fuel' -> parse fuel t s = POk v r -> self_delimiting t \/ r <> [] ->
  parse fuel' t (s ++ q) = POk v (r ++ q).
Proof.
  induction t as [max| | | |t IH|t1 t2 IH1 IH2|fs IH|ts IH] using ty_ind'; intros fuel fuel' s v r q Hf H Hr; cbn [parse] in *.
  - destruct Hr as [[]|Hr]. destruct (parse_num max s) as [z r'| |] eqn:E; cbn [pbind] in H; try discriminate. injection H as <- <-. now rewrite (parse_num_more _ _ _ _ q E Hr).
  - destruct (parse_bool s) as [z r'| |] eqn:E; cbn [pbind] in H; try discriminate. injection H as <- <-. now rewrite (parse_bool_more _ _ _ q E).
  - destruct (parse_string s) as [z r'| |] eqn:E; cbn [pbind] in H; try discriminate. injection H as <- <-. now rewrite (parse_string_more _ _ _ q E).
  - destruct (parse_string s) as [z r'| |] eqn:E; cbn [pbind] in H; try discriminate. injection H as <- <-. now rewrite (parse_string_more _ _ _ q E).
  - assert (Hx : extends (parse fuel t) (parse fuel' t)) by (intros s' v' r' q' E Hr'; eapply IH; eauto).
    destruct (expect x5b s) as [u1 r1| |] eqn:E1; cbn [pbind] in H; try discriminate. rewrite (expect_more _ _ _ _ q E1). cbn [pbind].
    destruct (parse_elems fuel (parse fuel t) true r1 []) as [vs r2| |] eqn:E2; cbn [pbind] in H; try discriminate. rewrite (parse_elems_more _ _ q Hx _ fuel' _ _ _ _ _ Hf E2). cbn [pbind].
    destruct (expect x5d r2) as [u3 r3| |] eqn:E3; cbn [pbind] in H; try discriminate. rewrite (expect_more _ _ _ _ q E3). cbn [pbind]. congruence.
  - assert (Hx : Forall2 extends [parse fuel t1; parse fuel t2] [parse fuel' t1; parse fuel' t2]).
    { repeat constructor; intros s' v' r' q' E Hr'; [eapply IH1|eapply IH2]; eauto. }
    destruct (expect x5b s) as [u1 r1| |] eqn:E1; cbn [pbind] in H; try discriminate. rewrite (expect_more _ _ _ _ q E1). cbn [pbind].
    destruct (parse_fixed [parse fuel t1; parse fuel t2] true r1) as [vs r2| |] eqn:E2; cbn [pbind] in H; try discriminate.
    destruct vs as [|v1 [|v2 [|]]]; try discriminate.
    destruct (expect x5d r2) as [u3 r3| |] eqn:E3; cbn [pbind] in H; try discriminate.
    rewrite (parse_fixed_more q _ _ _ _ _ _ Hx E2 (expect_nonnil E3)). cbn [pbind]. rewrite (expect_more _ _ _ _ q E3). cbn [pbind]. congruence.
  - unfold parse_struct in *. set (ps := map _ fs) in *. set (ps' := map (fun f => match f with (n, t') => (n, parse fuel' t') end) fs) in *.
    assert (HF : Forall2 same_field ps ps').
    { subst ps ps'. clear -IH Hf. induction fs as [|[n t] fs IHf]; [constructor|]. inversion IH; subst. cbn [map]. constructor; [|auto].
      split; [reflexivity|]. cbn [snd] in *. intros s' v' r' q' E Hr'. eapply H1; eauto. }
    destruct (skip_ws s) as [|b x] eqn:E; [discriminate|]. rewrite (skip_ws_more _ _ _ q E). destruct b; try discriminate.
    + destruct (parse_fixed (map snd ps) true x) as [vs r1| |] eqn:E1; cbn [pbind] in H; try discriminate.
      destruct (expect x5d r1) as [u3 r3| |] eqn:E3; cbn [pbind] in H; try discriminate.
      assert (Hx : Forall2 extends (map snd ps) (map snd ps')) by (clear -HF; induction HF as [|? ? ? ? [] ]; constructor; auto).
      rewrite (parse_fixed_more q _ _ _ _ _ _ Hx E1 (expect_nonnil E3)). cbn [pbind]. rewrite (expect_more _ _ _ _ q E3). cbn [pbind]. congruence.
    + assert (Eg : map (fun _ : list byte * parser => @None val) ps = map (fun _ => None) ps') by (clear -HF; induction HF; cbn; congruence). rewrite <- Eg.
      destruct (parse_map fuel ps true x (map (fun _ => None) ps)) as [got r1| |] eqn:E1; cbn [pbind] in H; try discriminate.
      rewrite (parse_map_more _ _ q HF _ fuel' _ _ _ _ _ Hf E1). cbn [pbind]. destruct (all_some got); [|discriminate].
      destruct (expect x7d r1) as [u3 r3| |] eqn:E3; cbn [pbind] in H; try discriminate. rewrite (expect_more _ _ _ _ q E3). cbn [pbind]. congruence.
  - unfold parse_enum in *. set (ps := map _ ts) in *. set (ps' := map (fun f => match f with (n, t') => (n, parse fuel' t') end) ts) in *.
    assert (HF : Forall2 same_field ps ps').
    { subst ps ps'. clear -IH Hf. induction ts as [|[n t] fs IHf]; [constructor|]. inversion IH; subst. cbn [map]. constructor; [|auto].
      split; [reflexivity|]. cbn [snd] in *. intros s' v' r' q' E Hr'. eapply H1; eauto. }
    destruct (expect x7b s) as [u1 r1| |] eqn:E1; cbn [pbind] in H; try discriminate. rewrite (expect_more _ _ _ _ q E1). cbn [pbind].
    destruct (parse_string r1) as [name r2| |] eqn:E2; cbn [pbind] in H; try discriminate. rewrite (parse_string_more _ _ _ q E2). cbn [pbind].
    pose proof (find_field_more ps ps' name HF) as Hff. destruct (find_field ps name) as [[i p]|]; [|discriminate]. destruct Hff as (p' & -> & Hp).
    destruct (expect x3a r2) as [u3 r3| |] eqn:E3; cbn [pbind] in H; try discriminate. rewrite (expect_more _ _ _ _ q E3). cbn [pbind].
    destruct (p r3) as [w r4| |] eqn:E4; cbn [pbind] in H; try discriminate.
    destruct (expect x7d r4) as [u5 r5| |] eqn:E5; cbn [pbind] in H; try discriminate.
    rewrite (Hp _ _ _ q E4 (expect_nonnil E5)). cbn [pbind]. rewrite (expect_more _ _ _ _ q E5). cbn [pbind]. congruence.
Qed.

(* ---------------- diffs ---------------- *)
Ltac nodup := repeat (constructor; [cbn; intuition discriminate|]); try constructor.
Lemma diff_ty_wf : wf_ty diff_ty.
Proof.
  unfold diff_ty, text_diff_ty, path_lines_ty, byte_diff_ty, path_bytes_ty, clump_ty, snippet_ty, TU8, TUsize. cbn -[names_ok str].
  repeat match goal with
  | |- _ /\ _ => split
  | |- True => exact I
  | |- names_ok _ => split; [cbn [map fst]; nodup|repeat constructor]
  end.
Qed.
Lemma diff_ty_nums : nums_ok diff_ty.
Proof. cbn. unfold two64. repeat split; lia. Qed.

Lemma map_opt_map {A B} (f : A -> B) (g : B -> option A) l : (forall a, g (f a) = Some a) -> map_opt g (map f l) = Some l.
Proof. intros H. induction l; cbn; [reflexivity|]. now rewrite H, IHl. Qed.
Lemma byte_of_val_of b : byte_of_val (val_of_byte b) = Some b.
Proof. cbn. rewrite N2Z.id. apply Byte.of_to_N. Qed.
Lemma snippet_of_val_of {T} (f : T -> val) g (s : snippet T) : (forall a, g (f a) = Some a) -> snippet_of_val g (val_of_snippet f s) = Some s.
Proof. intros H. cbn. rewrite map_opt_map by assumption. now destruct s. Qed.
Lemma text_clump_of_val_of c : text_clump_of_val (val_of_text_clump c) = Some c.
Proof. unfold text_clump_of_val, val_of_text_clump. rewrite !snippet_of_val_of by reflexivity. now destruct c as [[] ? ?]. Qed.
Lemma byte_clump_of_val_of c : byte_clump_of_val (val_of_byte_clump c) = Some c.
Proof. unfold byte_clump_of_val, val_of_byte_clump. rewrite !snippet_of_val_of by apply byte_of_val_of. now destruct c as [[] ? ?]. Qed.
Lemma diff_of_val_of d : diff_of_val (val_of_diff d) = Some d.
Proof.
  destruct d as [[]|[]|[]|[]|[]|[]]; cbn -[text_clump_of_val val_of_text_clump byte_clump_of_val val_of_byte_clump byte_of_val val_of_byte];
    rewrite map_opt_map; try reflexivity; intros; auto using text_clump_of_val_of, byte_clump_of_val_of, byte_of_val_of.
Qed.
Lemma byte_range (b : byte) : (0 <= Z.of_N (Byte.to_N b) <= 255)%Z.
Proof. pose proof (Byte.to_N_bounded b). lia. Qed.
Lemma utf8_all l : Forall is_utf8 l <-> Forall (fun s => utf8_valid s = true) l.
Proof. split; apply Forall_impl; intros s; apply utf8_valid_spec. Qed.
Lemma Forall_map_val {A} (f : A -> val) (P : val -> Prop) l : Forall (fun a => P (f a)) l -> Forall P (map f l).
Proof. apply Forall_map. Qed.
Lemma typed_lines l : Forall is_utf8 l -> Forall (has_type TStr) (map VStr l).
Proof. intros H. apply Forall_map_val. now apply utf8_all. Qed.
Lemma typed_bytes l : Forall (has_type TU8) (map val_of_byte l).
Proof. apply Forall_map_val. apply Forall_forall. intros b _. apply byte_range. Qed.
Lemma typed_text_clump c : valid_text_clump c -> has_type (clump_ty TStr) (val_of_text_clump c).
Proof.
  intros ([Hc1 Hc2] & Hs1 & Hs2 & Hl1 & Hl2). unfold is_u8, is_usize in *. cbn -[two64 Z.le].
  repeat split; try lia; try apply Hs1; try apply Hs2; try (apply Z.lt_le_pred; first [apply Hs1|apply Hs2]); now apply typed_lines.
Qed.
Lemma typed_byte_clump c : valid_byte_clump c -> has_type (clump_ty TU8) (val_of_byte_clump c).
Proof.
  intros ([Hc1 Hc2] & Hs1 & Hs2). unfold is_u8, is_usize in *. cbn -[two64 Z.le].
  repeat split; try lia; try apply Hs1; try apply Hs2; try (apply Z.lt_le_pred; first [apply Hs1|apply Hs2]); apply typed_bytes.
Qed.
Lemma typed_diff d : valid_diff d -> has_type diff_ty (val_of_diff d).
Proof.
  intros [Hp Hc]. rewrite utf8_all in Hp.
  destruct d as [[]|[]|[]|[]|[]|[]]; cbn -[two64 text_clump_of_val val_of_text_clump byte_clump_of_val val_of_byte_clump byte_of_val val_of_byte clump_ty TU8 has_type] in *;
    repeat match goal with H : Forall _ (_ :: _) |- _ => inversion H; subst; clear H end;
    repeat (cbn [has_type]; split); auto using typed_lines, typed_bytes; apply Forall_map_val; eapply Forall_impl; try eassumption; cbn beta; auto using typed_text_clump, typed_byte_clump.
Qed.
Lemma Forall_unmap {A} (f : A -> val) (P : A -> Prop) (Q : val -> Prop) vs :
  (forall v, Q v -> exists a, v = f a /\ P a) -> Forall Q vs -> exists l, vs = map f l /\ Forall P l.
Proof.
  intros H. induction 1 as [|v vs Hv HF (l & -> & Hl)]; [exists []; auto|]. destruct (H _ Hv) as (a & -> & Ha). exists (a :: l). auto.
Qed.
Lemma typed_str v : has_type TStr v -> exists s, v = VStr s /\ is_utf8 s.
Proof. destruct v; try contradiction. cbn. intros H. exists s. split; [reflexivity|now apply utf8_valid_spec]. Qed.
Lemma typed_path v : has_type TPath v -> exists s, v = VStr s /\ is_utf8 s.
Proof. destruct v; try contradiction. cbn. intros H. exists s. split; [reflexivity|now apply utf8_valid_spec]. Qed.
Lemma typed_bool v : has_type TBool v -> exists b, v = VBool b.
Proof. destruct v; try contradiction. eauto. Qed.
Lemma typed_num m v : has_type (TNum m) v -> exists z, v = VNum z /\ (0 <= z <= m)%Z.
Proof. destruct v; try contradiction. cbn. eauto. Qed.
Lemma typed_byte v : has_type TU8 v -> exists b, v = val_of_byte b /\ True.
Proof.
  intros H. apply typed_num in H as (z & -> & Hz). destruct (Byte.of_N (Z.to_N z)) as [b|] eqn:E.
  - exists b. split; [|exact I]. unfold val_of_byte. apply Byte.to_of_N in E. rewrite E. now rewrite Z2N.id by lia.
  - apply Byte.of_N_None_iff in E. lia.
Qed.
Lemma typed_seq t v : has_type (TSeq t) v -> exists vs, v = VSeq vs /\ Forall (has_type t) vs.
Proof. destruct v; try contradiction. cbn. eauto. Qed.
Lemma typed_pair t1 t2 v : has_type (TPair t1 t2) v -> exists a b, v = VPair a b /\ has_type t1 a /\ has_type t2 b.
Proof. destruct v; try contradiction. cbn. eauto. Qed.
Lemma typed_struct fs v : has_type (TStruct fs) v -> exists vs, v = VStruct vs /\ typed_fields fs vs.
Proof. destruct v; try contradiction. intros H. apply has_type_struct in H. eauto. Qed.
Ltac fields H := unfold typed_fields in H;
  repeat match type of H with
  | Forall2 _ (_ :: _) _ => let Hv := fresh "Hv" in let v := fresh "v" in
      inversion H as [|? v ? ? Hv HF]; subst; clear H; rename HF into H; cbn [snd] in Hv
  | Forall2 _ [] _ => inversion H; subst; clear H
  end.
Lemma typed_snippet {T} item (f : T -> val) (P : T -> Prop) v : (forall v, has_type item v -> exists a, v = f a /\ P a) -> has_type (snippet_ty item) v ->
  exists s, v = val_of_snippet f s /\ is_usize (sn_start s) /\ Forall P (sn_items s).
Proof.
  intros Hi H. apply typed_struct in H as (vs & -> & H). fields H. apply typed_num in Hv as (z & -> & Hz). apply typed_seq in Hv0 as (vs & -> & Hvs).
  apply (Forall_unmap f P _ _ Hi) in Hvs as (l & -> & Hl). exists (Snippet z l). split; [reflexivity|]. split; [unfold is_usize; cbn; lia|exact Hl].
Qed.
Lemma typed_context v : has_type (TPair TU8 TU8) v -> exists c, v = VPair (VNum (fst c)) (VNum (snd c)) /\ valid_context c.
Proof.
  intros H. apply typed_pair in H as (a & b & -> & Ha & Hb). apply typed_num in Ha as (x & -> & Hx). apply typed_num in Hb as (y & -> & Hy).
  exists (x, y). split; [reflexivity|]. split; assumption.
Qed.
Lemma typed_text_clump' v : has_type (clump_ty TStr) v -> exists c, v = val_of_text_clump c /\ valid_text_clump c.
Proof.
  intros H. apply typed_struct in H as (vs & -> & H). fields H. apply typed_context in Hv as (c & -> & Hc).
  apply (typed_snippet _ VStr is_utf8) in Hv0 as (s1 & -> & H1 & H2); [|apply typed_str].
  apply (typed_snippet _ VStr is_utf8) in Hv1 as (s2 & -> & H3 & H4); [|apply typed_str].
  exists (TextClump c s1 s2). split; [reflexivity|]. repeat split; try apply Hc; auto; try apply H1; apply H3.
Qed.
Lemma typed_byte_clump' v : has_type (clump_ty TU8) v -> exists c, v = val_of_byte_clump c /\ valid_byte_clump c.
Proof.
  intros H. apply typed_struct in H as (vs & -> & H). fields H. apply typed_context in Hv as (c & -> & Hc).
  apply (typed_snippet _ val_of_byte (fun _ => True)) in Hv0 as (s1 & -> & H1 & H2); [|apply typed_byte].
  apply (typed_snippet _ val_of_byte (fun _ => True)) in Hv1 as (s2 & -> & H3 & H4); [|apply typed_byte].
  exists (ByteClump c s1 s2). split; [reflexivity|]. repeat split; try apply Hc; auto; try apply H1; apply H3.
Qed.
Lemma typed_path_lines v : has_type path_lines_ty v -> exists p, v = val_of_lines p /\ is_utf8 (pl_path p) /\ Forall is_utf8 (pl_lines p).
Proof.
  intros H. apply typed_struct in H as (vs & -> & H). fields H. apply typed_path in Hv as (p & -> & Hp). apply typed_seq in Hv0 as (vs & -> & Hvs).
  apply (Forall_unmap VStr is_utf8 _ _ typed_str) in Hvs as (l & -> & Hl). now exists (PathAndLines p l).
Qed.
Lemma typed_path_bytes v : has_type path_bytes_ty v -> exists p, v = val_of_bytes p /\ is_utf8 (pb_path p).
Proof.
  intros H. apply typed_struct in H as (vs & -> & H). fields H. apply typed_path in Hv as (p & -> & Hp). apply typed_bool in Hv0 as (c & ->). apply typed_seq in Hv1 as (vs & -> & Hvs).
  apply (Forall_unmap val_of_byte (fun _ => True) _ _ typed_byte) in Hvs as (l & -> & Hl). now exists (PathAndBytes p c l).
Qed.
Lemma typed_diff' v : has_type diff_ty v -> exists d, v = val_of_diff d /\ valid_diff d.
Proof.
  destruct v; try contradiction. intros H. apply has_type_enum in H as (n & t & Ei & H).
  destruct i as [|[|[|[|[|[|i]]]]]]; cbn [nth_error] in Ei; try (destruct i; discriminate Ei); injection Ei as <- <-.
  - apply typed_struct in H as (vs & -> & H). fields H. apply typed_path in Hv as (p & -> & Hp). apply typed_path in Hv0 as (p' & -> & Hp'). apply typed_seq in Hv1 as (vs & -> & Hvs).
    apply (Forall_unmap _ _ _ _ typed_text_clump') in Hvs as (l & -> & Hl). exists (TextChange (TextDiff p p' l)). split; [reflexivity|]. split; cbn; auto.
  - apply typed_path_lines in H as (p & -> & H1 & H2). exists (TextAdd p). split; [reflexivity|]. split; cbn; auto.
  - apply typed_path_lines in H as (p & -> & H1 & H2). exists (TextRemove p). split; [reflexivity|]. split; cbn; auto.
  - apply typed_struct in H as (vs & -> & H). fields H. apply typed_path in Hv as (p & -> & Hp). apply typed_path in Hv0 as (p' & -> & Hp'). apply typed_bool in Hv1 as (c & ->). apply typed_seq in Hv2 as (vs & -> & Hvs).
    apply (Forall_unmap _ _ _ _ typed_byte_clump') in Hvs as (l & -> & Hl). exists (ByteChange (ByteDiff p p' c l)). split; [reflexivity|]. split; cbn; auto.
  - apply typed_path_bytes in H as (p & -> & H1). exists (ByteAdd p). split; [reflexivity|]. split; cbn; auto.
  - apply typed_path_bytes in H as (p & -> & H1). exists (ByteRemove p). split; [reflexivity|]. split; cbn; auto.
Qed.

Lemma skip_ws_blank q : json_blank q -> skip_ws q = [].
Proof. induction 1 as [|b q Hb HF IH]; [reflexivity|]. cbn. destruct Hb as [<-|[<-|[<-|[<-|[]]]]]; exact IH. Qed.
Lemma skip_ws_nil q : skip_ws q = [] -> json_blank q.
Proof.
  induction q as [|b q IH]; cbn; [constructor|]. destruct (is_ws b) eqn:E; [|discriminate]. intros H. constructor; [|now apply IH].
  destruct b; try discriminate E; cbn; tauto.
Qed.
(* the whole of loading, in one statement *)
Lemma diff_from_json_cases s :
  (exists d r, parse (S (length s)) diff_ty s = POk (val_of_diff d) r /\ valid_diff d /\
     ((json_blank r /\ diff_from_json s = Ok (Some d)) \/ (~ json_blank r /\ diff_from_json s = Ok None))) \/
  (parse (S (length s)) diff_ty s = PErr /\ diff_from_json s = Ok None).
Proof.
  unfold diff_from_json, parse_document. pose proof (parse_good (S (length s)) diff_ty diff_ty_nums s (Nat.lt_succ_diag_r _)) as H.
  destruct (parse (S (length s)) diff_ty s) as [v r| |]; [|right; auto|contradiction]. left. destruct H as [_ H]. apply typed_diff' in H as (d & -> & Hd).
  exists d, r. split; [reflexivity|]. split; [exact Hd|]. cbn [pbind]. destruct (skip_ws r) eqn:E.
  - left. split; [now apply skip_ws_nil|]. now rewrite diff_of_val_of.
  - right. split; [|reflexivity]. intros Hb. apply skip_ws_blank in Hb. congruence.
Qed.
Lemma parse_diff d fuel q : valid_diff d -> length (fst (diff_to_json d)) <= fuel -> parse fuel diff_ty (fst (diff_to_json d) ++ q) = POk (val_of_diff d) q.
Proof.
  intros Hd Hf. unfold diff_to_json in *. apply parse_print; auto using diff_ty_wf, typed_diff.
  - apply print_total. now apply typed_diff.
  - exact I.
Qed.
Lemma diff_to_json_ok d : valid_diff d -> snd (diff_to_json d) = true.
Proof. intros H. apply print_total, typed_diff, H. Qed.
(* loading an accepted document with something appended *)
Lemma diff_from_json_app s q d : diff_from_json s = Ok (Some d) -> (json_blank q /\ diff_from_json (s ++ q) = Ok (Some d)) \/ (~ json_blank q /\ diff_from_json (s ++ q) = Ok None).
Proof.
  intros H. destruct (diff_from_json_cases s) as [(d1 & r & E & Hd & [(Hb & E')|(Hb & E')])|(E & E')]; rewrite E' in H; try discriminate. injection H as ->.
  assert (Hl : S (length s) <= S (length (s ++ q))) by (rewrite app_length; lia).
  pose proof (parse_more diff_ty _ _ _ _ _ q Hl E (or_introl I)) as Em.
  destruct (diff_from_json_cases (s ++ q)) as [(d2 & r2 & E2 & Hd2 & Hc)|(E2 & _)]; rewrite Em in E2; [|discriminate].
  injection E2 as Ev <-. assert (d2 = d) by (pose proof (diff_of_val_of d) as X; rewrite Ev, diff_of_val_of in X; congruence). subst d2.
  destruct Hc as [(Hb2 & Hr)|(Hb2 & Hr)]; [left|right]; (split; [|exact Hr]).
  - unfold json_blank in *. now apply Forall_app in Hb2.
  - intros Hq. apply Hb2. unfold json_blank in *. now apply Forall_app.
Qed.
Lemma diff_round_trip d : valid_diff d -> diff_from_json (fst (diff_to_json d)) = Ok (Some d).
Proof.
  intros Hd. pose proof (parse_diff d (S (length (fst (diff_to_json d)))) [] Hd ltac:(lia)) as E. rewrite app_nil_r in E.
  destruct (diff_from_json_cases (fst (diff_to_json d))) as [(d1 & r & E1 & Hd1 & Hc)|(E1 & _)]; rewrite E in E1; [|discriminate]. injection E1 as Ev <-.
  assert (d1 = d) by (pose proof (diff_of_val_of d) as X; rewrite Ev, diff_of_val_of in X; congruence). subst d1.
  destruct Hc as [(_ & Hc)|(Hb & _)]; [exact Hc|]. exfalso. apply Hb. constructor.
Qed.
(* the printed form ends in a newline and a closing brace *)
Lemma print_body_end o c it its ind : snd (print_body o c (it :: its) ind) = true -> exists x, fst (print_body o c (it :: its) ind) = x ++ [x0a] ++ indent ind ++ [c].
Proof.
  unfold print_body. intros H.
  apply oapp_ok in H as (_ & H & ->). apply oapp_ok in H as (_ & _ & ->). cbn [fst lit]. eexists. now rewrite !app_assoc.
Qed.
Lemma diff_json_end d : snd (diff_to_json d) = true -> exists x, fst (diff_to_json d) = x ++ [x0a; x7d].
Proof.
  intros Hs. unfold diff_to_json in *.
  assert (exists i v, val_of_diff d = VEnum i v /\ i < 6) as (i & v & E & Hi) by (destruct d; do 2 eexists; (split; [reflexivity|lia])).
  rewrite E in *. assert (exists n t, nth_error [(str "TextChange", text_diff_ty); (str "TextAdd", path_lines_ty); (str "TextRemove", path_lines_ty);
         (str "ByteChange", byte_diff_ty); (str "ByteAdd", path_bytes_ty); (str "ByteRemove", path_bytes_ty)] i = Some (n, t)) as (n & t & Ei).
  { do 6 (destruct i; [do 2 eexists; reflexivity|]). lia. }
  unfold diff_ty in *. rewrite (print_enum _ _ _ _ _ Ei) in *. exact (print_body_end _ _ _ _ 0 Hs).
Qed.
Lemma diff_prefix_rejected d p q : valid_diff d -> fst (diff_to_json d) = p ++ q -> q <> [] -> diff_from_json p = Ok None.
Proof.
  intros Hd Epq Hq. destruct (diff_from_json_cases p) as [(d1 & r & E & Hd1 & [(Hb & E')|(Hb & E')])|(E & E')]; try exact E'. exfalso.
  pose proof (diff_round_trip d Hd) as Hr. rewrite Epq in Hr.
  destruct (diff_from_json_app p q d1 E') as [(Hbq & H)|(_ & H)]; rewrite Hr in H; [|discriminate].
  destruct (diff_json_end d (diff_to_json_ok d Hd)) as (x & Ex). rewrite Epq in Ex. change [x0a; x7d] with ([x0a] ++ [x7d]) in Ex. rewrite (app_assoc x) in Ex.
  destruct (exists_last Hq) as (q' & b & ->). rewrite app_assoc in Ex. apply app_inj_tail in Ex as [_ ->].
  apply Forall_app in Hbq as [_ Hbq]. inversion Hbq as [|? ? Hin _]; subst. cbn in Hin. repeat destruct Hin as [Hin|Hin]; try discriminate Hin. destruct Hin.
Qed.

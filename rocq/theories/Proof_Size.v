(* Proof_Size.v - how large a saved diff can be. *)
From Coq Require Import String.
From Verif Require Import Base Model_Seq Model_Changes Model_IO Model_Text Model_Bytes Model_Json Model_Files Spec Spec_Files Spec_Size Proof_Seq Proof_Changes Proof_Clumps Proof_Diff Proof_Json Proof_Files.
Local Open Scope nat_scope.

Definition plen (o : out) : nat := length (fst o).

Lemma plen_oapp x y : plen (oapp x y) <= plen x + plen y.
Proof. unfold plen, oapp. destruct (snd x); cbn; rewrite ?app_length; lia. Qed.
Lemma plen_lit s : plen (lit s) = length s.
Proof. reflexivity. Qed.
Lemma indent_len n : length (indent n) = 2 * n.
Proof. apply repeat_length. Qed.

Definition items_len (ind : nat) (items : list (nat -> out)) : nat :=
  list_sum (map (fun it => 2 + 2 * S ind + plen (it (S ind))) items).
Lemma plen_values items : forall first ind, plen (print_values first ind items) <= items_len ind items.
Proof.
  induction items as [|it items IH]; intros first ind; cbn [print_values]; [cbn; lia|].
  eapply Nat.le_trans; [apply plen_oapp|]. rewrite plen_lit, app_length, indent_len.
  pose proof (plen_oapp (it (S ind)) (print_values false ind items)). specialize (IH false ind).
  unfold items_len in *. cbn [map list_sum fold_right]. change (fold_right Nat.add 0) with list_sum. destruct first; cbn [length]; lia.
Qed.
Lemma plen_body o c items ind : plen (print_body o c items ind) <= 3 + 2 * ind + items_len ind items.
Proof.
  unfold print_body. destruct items as [|it items]; [cbn; lia|].
  eapply Nat.le_trans; [apply plen_oapp|]. eapply Nat.le_trans; [apply Nat.add_le_mono_l, plen_oapp|].
  pose proof (plen_values (it :: items) true ind). rewrite !plen_lit, !app_length, indent_len. cbn [length]. lia.
Qed.
Lemma plen_field n v ind : plen (print_field n v ind) <= length (print_str n) + 2 + plen (v ind).
Proof. unfold print_field. eapply Nat.le_trans; [apply plen_oapp|]. rewrite plen_lit, app_length. cbn. lia. Qed.

Lemma escape_len b : length (escape_byte b) <= 6.
Proof. destruct b; vm_compute; lia. Qed.
Lemma print_str_len s : length (print_str s) <= 2 + 6 * length s.
Proof.
  unfold print_str. rewrite !app_length. cbn [length].
  assert (length (flat_map escape_byte s) <= 6 * length s); [|lia].
  induction s as [|b s IH]; cbn [flat_map]; [lia|]. rewrite app_length. pose proof (escape_len b). cbn [length]. lia.
Qed.
Lemma dec_loop_len fuel : forall k z, (0 <= z < 10 ^ Z.of_nat (S k))%Z -> length (dec_loop fuel z) <= S k.
Proof.
  induction fuel as [|fuel IH]; intros k z Hz; cbn [dec_loop length]; [lia|].
  destruct (z <? 10)%Z eqn:E; [cbn; lia|]. apply Z.ltb_ge in E.
  destruct k as [|k]; [cbn in Hz; lia|].
  rewrite app_length. cbn [length]. enough (length (dec_loop fuel (z / 10)) <= S k) by lia.
  apply IH. split; [apply Z.div_pos; lia|]. apply Z.div_lt_upper_bound; [lia|].
  rewrite (Nat2Z.inj_succ (S k)), Z.pow_succ_r in Hz by lia. lia.
Qed.
Lemma dec_usize_len z : (0 <= z < two64)%Z -> length (dec z) <= 20.
Proof. intros H. apply dec_loop_len. unfold two64 in H. change (10 ^ Z.of_nat 20)%Z with 100000000000000000000%Z. lia. Qed.
Lemma dec_u8_len z : (0 <= z < 256)%Z -> length (dec z) <= 3.
Proof. intros H. apply dec_loop_len. change (10 ^ Z.of_nat 3)%Z with 1000%Z. lia. Qed.

Definition text_weight (ls : list line) : nat := 16 * length ls + 6 * length (List.concat ls).
Definition byte_weight (bs : list byte) : nat := 17 * length bs.

Lemma plen_path s ind : plen (print TPath (VStr s) ind) <= 2 + 6 * length s.
Proof. cbn [print]. destruct (utf8_valid s); [rewrite plen_lit; apply print_str_len|cbn; lia]. Qed.
Lemma items_len_strs ind (ls : list line) : items_len ind (map (print TStr) (map VStr ls)) <= (4 + 2 * S ind) * length ls + 6 * length (List.concat ls).
Proof.
  induction ls as [|l ls IH]; [cbn; lia|]. unfold items_len in *. cbn [map list_sum fold_right List.concat length]. change (fold_right Nat.add 0) with list_sum.
  rewrite app_length. change (plen (print TStr (VStr l) (S ind))) with (length (print_str l)). pose proof (print_str_len l). lia.
Qed.
Lemma items_len_bytes ind (l : list byte) : items_len ind (map (print TU8) (map val_of_byte l)) <= (5 + 2 * S ind) * length l.
Proof.
  induction l as [|b l IH]; [cbn; lia|]. unfold items_len in *. cbn [map list_sum fold_right length]. change (fold_right Nat.add 0) with list_sum.
  change (plen (print TU8 (val_of_byte b) (S ind))) with (length (dec (Z.of_N (Byte.to_N b)))).
  assert (length (dec (Z.of_N (Byte.to_N b))) <= 3); [|lia].
  apply dec_u8_len. destruct b; vm_compute; split; congruence.
Qed.
Lemma items_len_cons ind it items : items_len ind (it :: items) = 2 + 2 * S ind + plen (it (S ind)) + items_len ind items.
Proof. reflexivity. Qed.

Ltac fields :=
  repeat (rewrite items_len_cons || (change (items_len ?i []) with 0)).

Section Snip.
  Context {T : Type} (t : ty) (item : T -> val) (w : list T -> nat).
  Hypothesis Hw : forall l, items_len 5 (map (print t) (map item l)) <= w l.
  Lemma plen_snippet (s : snippet T) : (0 <= sn_start s < two64)%Z ->
    plen (print (snippet_ty t) (val_of_snippet item s) 4) <= 86 + w (sn_items s).
  Proof.
    intros Hs. unfold snippet_ty, val_of_snippet. cbn [print].
    eapply Nat.le_trans; [apply plen_body|]. fields.
    pose proof (plen_field (str "start") (print TUsize (VNum (sn_start s))) 5) as H1.
    pose proof (plen_field (str "items") (print_body x5b x5d (map (print t) (map item (sn_items s)))) 5) as H2.
    pose proof (plen_body x5b x5d (map (print t) (map item (sn_items s))) 5) as H3.
    specialize (Hw (sn_items s)). change (plen (print TUsize (VNum (sn_start s)) 5)) with (length (dec (sn_start s))) in H1. pose proof (dec_usize_len _ Hs).
    change (length (print_str (str "start"))) with 7 in H1. change (length (print_str (str "items"))) with 7 in H2. lia.
  Qed.
  Lemma plen_clump (c : val) (x y : Z) (b a : snippet T) : (0 <= x < 256)%Z -> (0 <= y < 256)%Z ->
    (0 <= sn_start b < two64)%Z -> (0 <= sn_start a < two64)%Z ->
    c = VStruct [VPair (VNum x) (VNum y); val_of_snippet item b; val_of_snippet item a] ->
    plen (print (clump_ty t) c 3) <= 290 + w (sn_items b) + w (sn_items a).
  Proof.
    intros Hx Hy Hb Ha ->. unfold clump_ty. pose proof (plen_snippet b Hb) as B. pose proof (plen_snippet a Ha) as A.
    set (pb := val_of_snippet item b) in *. set (pa := val_of_snippet item a) in *. set (ts := snippet_ty t) in *.
    change (plen (print_body x7b x7d [print_field (str "context_lengths") (print_body x5b x5d [fun _ => lit (dec x); fun _ => lit (dec y)]);
      print_field (str "before") (print ts pb); print_field (str "after") (print ts pa)] 3) <= 290 + w (sn_items b) + w (sn_items a)).
    eapply Nat.le_trans; [apply plen_body|]. fields.
    pose proof (plen_field (str "context_lengths") (print_body x5b x5d [fun _ => lit (dec x); fun _ => lit (dec y)]) 4) as H1.
    pose proof (plen_body x5b x5d [fun _ => lit (dec x); fun _ => lit (dec y)] 4) as H2. revert H2. fields. rewrite !plen_lit. intros H2.
    pose proof (plen_field (str "before") (print ts pb) 4) as H3. pose proof (plen_field (str "after") (print ts pa) 4) as H4.
    pose proof (dec_u8_len x Hx). pose proof (dec_u8_len y Hy).
    change (length (print_str (str "context_lengths"))) with 17 in H1. change (length (print_str (str "before"))) with 8 in H3.
    change (length (print_str (str "after"))) with 7 in H4. lia.
  Qed.
End Snip.

(* what the items of a clump take *)
Definition text_clump_weight (c : text_clump) : nat := 298 + text_weight (sn_items (tc_before c)) + text_weight (sn_items (tc_after c)).
Definition byte_clump_weight (c : byte_clump) : nat := 298 + byte_weight (sn_items (bc_before c)) + byte_weight (sn_items (bc_after c)).
Definition words (ctx : Z * Z) (b a : Z) : Prop :=
  (0 <= fst ctx < 256)%Z /\ (0 <= snd ctx < 256)%Z /\ (0 <= b < two64)%Z /\ (0 <= a < two64)%Z.
Definition text_words (c : text_clump) : Prop := words (tc_context c) (sn_start (tc_before c)) (sn_start (tc_after c)).
Definition byte_words (c : byte_clump) : Prop := words (bc_context c) (sn_start (bc_before c)) (sn_start (bc_after c)).

Lemma items_len_text_clumps cs : Forall text_words cs ->
  items_len 2 (map (print (clump_ty TStr)) (map val_of_text_clump cs)) <= list_sum (map text_clump_weight cs).
Proof.
  induction 1 as [|c cs (H1 & H2 & H3 & H4) _ IH]; [cbn; lia|]. cbn [map]. rewrite items_len_cons.
  assert (plen (print (clump_ty TStr) (val_of_text_clump c) 3) <= 290 + text_weight (sn_items (tc_before c)) + text_weight (sn_items (tc_after c))).
  { apply (plen_clump TStr VStr text_weight) with (x := fst (tc_context c)) (y := snd (tc_context c)); try assumption; [|reflexivity].
    intros l. pose proof (items_len_strs 5 l). unfold text_weight. lia. }
  cbn [list_sum fold_right]. change (fold_right Nat.add 0) with list_sum. unfold text_clump_weight at 1. lia.
Qed.
Lemma items_len_byte_clumps cs : Forall byte_words cs ->
  items_len 2 (map (print (clump_ty TU8)) (map val_of_byte_clump cs)) <= list_sum (map byte_clump_weight cs).
Proof.
  induction 1 as [|c cs (H1 & H2 & H3 & H4) _ IH]; [cbn; lia|]. cbn [map]. rewrite items_len_cons.
  assert (plen (print (clump_ty TU8) (val_of_byte_clump c) 3) <= 290 + byte_weight (sn_items (bc_before c)) + byte_weight (sn_items (bc_after c))).
  { apply (plen_clump TU8 val_of_byte byte_weight) with (x := fst (bc_context c)) (y := snd (bc_context c)); try assumption; [|reflexivity].
    intros l. pose proof (items_len_bytes 5 l). unfold byte_weight. lia. }
  cbn [list_sum fold_right]. change (fold_right Nat.add 0) with list_sum. unfold byte_clump_weight at 1. lia.
Qed.

Lemma plen_text_diff p q cs : Forall text_words cs ->
  plen (diff_to_json (TextChange (TextDiff p q cs))) <= 120 + 6 * (length p + length q) + list_sum (map text_clump_weight cs).
Proof.
  intros H. pose proof (items_len_text_clumps cs H) as HI.
  set (items := map (print (clump_ty TStr)) (map val_of_text_clump cs)) in *.
  change (diff_to_json (TextChange (TextDiff p q cs))) with
    (print_body x7b x7d [print_field (str "TextChange") (print_body x7b x7d [print_field (str "before_path") (print TPath (VStr p));
       print_field (str "after_path") (print TPath (VStr q)); print_field (str "clumps") (print_body x5b x5d items)])] 0).
  set (body := print_body x7b x7d [_; _; _]).
  eapply Nat.le_trans; [apply plen_body|]. fields.
  pose proof (plen_field (str "TextChange") body 1) as H1.
  assert (H2 : plen (body 1) <= 5 + items_len 1 [print_field (str "before_path") (print TPath (VStr p));
       print_field (str "after_path") (print TPath (VStr q)); print_field (str "clumps") (print_body x5b x5d items)]) by apply plen_body.
  revert H2. fields. intros H2.
  pose proof (plen_field (str "before_path") (print TPath (VStr p)) 2) as H3. pose proof (plen_field (str "after_path") (print TPath (VStr q)) 2) as H4.
  pose proof (plen_field (str "clumps") (print_body x5b x5d items) 2) as H5. pose proof (plen_body x5b x5d items 2) as H6.
  pose proof (plen_path p 2). pose proof (plen_path q 2).
  change (length (print_str (str "TextChange"))) with 12 in H1. change (length (print_str (str "before_path"))) with 13 in H3.
  change (length (print_str (str "after_path"))) with 12 in H4. change (length (print_str (str "clumps"))) with 8 in H5. lia.
Qed.
Lemma plen_bool b ind : plen (print TBool (VBool b) ind) <= 5.
Proof. destruct b; vm_compute; lia. Qed.
Lemma plen_byte_diff p q z cs : Forall byte_words cs ->
  plen (diff_to_json (ByteChange (ByteDiff p q z cs))) <= 120 + 6 * (length p + length q) + list_sum (map byte_clump_weight cs).
Proof.
  intros H. pose proof (items_len_byte_clumps cs H) as HI.
  set (items := map (print (clump_ty TU8)) (map val_of_byte_clump cs)) in *.
  change (diff_to_json (ByteChange (ByteDiff p q z cs))) with
    (print_body x7b x7d [print_field (str "ByteChange") (print_body x7b x7d [print_field (str "before_path") (print TPath (VStr p));
       print_field (str "after_path") (print TPath (VStr q)); print_field (str "compressed") (print TBool (VBool z)); print_field (str "clumps") (print_body x5b x5d items)])] 0).
  set (body := print_body x7b x7d [_; _; _; _]).
  eapply Nat.le_trans; [apply plen_body|]. fields.
  pose proof (plen_field (str "ByteChange") body 1) as H1.
  assert (H2 : plen (body 1) <= 5 + items_len 1 [print_field (str "before_path") (print TPath (VStr p));
       print_field (str "after_path") (print TPath (VStr q)); print_field (str "compressed") (print TBool (VBool z)); print_field (str "clumps") (print_body x5b x5d items)]) by apply plen_body.
  revert H2. fields. intros H2.
  pose proof (plen_field (str "before_path") (print TPath (VStr p)) 2) as H3. pose proof (plen_field (str "after_path") (print TPath (VStr q)) 2) as H4.
  pose proof (plen_field (str "clumps") (print_body x5b x5d items) 2) as H5. pose proof (plen_body x5b x5d items 2) as H6.
  pose proof (plen_field (str "compressed") (print TBool (VBool z)) 2) as H7. pose proof (plen_bool z 2).
  pose proof (plen_path p 2). pose proof (plen_path q 2).
  change (length (print_str (str "ByteChange"))) with 12 in H1. change (length (print_str (str "before_path"))) with 13 in H3.
  change (length (print_str (str "after_path"))) with 12 in H4. change (length (print_str (str "clumps"))) with 8 in H5.
  change (length (print_str (str "compressed"))) with 12 in H7. lia.
Qed.
Lemma plen_lines_body name p ls : length (print_str name) <= 12 ->
  plen (print_body x7b x7d [print_field name (print path_lines_ty (val_of_lines (PathAndLines p ls)))] 0) <= 120 + 6 * length p + text_weight ls.
Proof.
  intros Hn. pose proof (items_len_strs 2 ls) as HI. set (items := map (print TStr) (map VStr ls)) in *.
  change (print path_lines_ty (val_of_lines (PathAndLines p ls))) with
    (print_body x7b x7d [print_field (str "path") (print TPath (VStr p)); print_field (str "lines") (print_body x5b x5d items)]).
  set (body := print_body x7b x7d [_; _]).
  eapply Nat.le_trans; [apply plen_body|]. fields.
  pose proof (plen_field name body 1) as H1.
  assert (H2 : plen (body 1) <= 5 + items_len 1 [print_field (str "path") (print TPath (VStr p)); print_field (str "lines") (print_body x5b x5d items)]) by apply plen_body.
  revert H2. fields. intros H2.
  pose proof (plen_field (str "path") (print TPath (VStr p)) 2) as H3. pose proof (plen_path p 2).
  pose proof (plen_field (str "lines") (print_body x5b x5d items) 2) as H5. pose proof (plen_body x5b x5d items 2) as H6.
  change (length (print_str (str "path"))) with 6 in H3. change (length (print_str (str "lines"))) with 7 in H5. unfold text_weight. lia.
Qed.
Lemma plen_bytes_body name p z l : length (print_str name) <= 12 ->
  plen (print_body x7b x7d [print_field name (print path_bytes_ty (val_of_bytes (PathAndBytes p z l)))] 0) <= 120 + 6 * length p + byte_weight l.
Proof.
  intros Hn. pose proof (items_len_bytes 2 l) as HI. set (items := map (print TU8) (map val_of_byte l)) in *.
  change (print path_bytes_ty (val_of_bytes (PathAndBytes p z l))) with
    (print_body x7b x7d [print_field (str "path") (print TPath (VStr p)); print_field (str "compressed") (print TBool (VBool z)); print_field (str "bytes") (print_body x5b x5d items)]).
  set (body := print_body x7b x7d [_; _; _]).
  eapply Nat.le_trans; [apply plen_body|]. fields.
  pose proof (plen_field name body 1) as H1.
  assert (H2 : plen (body 1) <= 5 + items_len 1 [print_field (str "path") (print TPath (VStr p)); print_field (str "compressed") (print TBool (VBool z)); print_field (str "bytes") (print_body x5b x5d items)]) by apply plen_body.
  revert H2. fields. intros H2.
  pose proof (plen_field (str "path") (print TPath (VStr p)) 2) as H3. pose proof (plen_path p 2).
  pose proof (plen_field (str "compressed") (print TBool (VBool z)) 2) as H7. pose proof (plen_bool z 2).
  pose proof (plen_field (str "bytes") (print_body x5b x5d items) 2) as H5. pose proof (plen_body x5b x5d items 2) as H6.
  change (length (print_str (str "path"))) with 6 in H3. change (length (print_str (str "bytes"))) with 7 in H5. change (length (print_str (str "compressed"))) with 12 in H7. unfold byte_weight. lia.
Qed.

(* ---------------- the clumps of a diff ---------------- *)
Lemma sub_len {T} (l : list T) i j : i <= j -> j <= length l -> length (sub l i j) = j - i.
Proof. intros H1 H2. unfold sub. rewrite firstn_length, skipn_length. lia. Qed.

(* for any measure that is additive on lists *)
Lemma cover_total {T} context gap (b a : list T) (m : list T -> nat) :
  (forall x y, m (x ++ y) = m x + m y) ->
  forall i j hs, cover context gap b a i j hs -> i <= length b -> j <= length a ->
  list_sum (map (fun h => m (h_old h)) hs) <= m (skipn i b) /\ list_sum (map (fun h => m (h_new h)) hs) <= m (skipn j a).
Proof.
  intros Hm i j hs H. induction H as [i j d Hg H1 H2|i j d i' j' l t rest Hg H1 H2 H3 H4 H5 H6 H7 H8 H9 HC IH]; intros Hi Hj; [cbn; lia|].
  destruct IH as [IHb IHa]; [lia|lia|]. cbn [map h_old h_new list_sum fold_right]. change (fold_right Nat.add 0) with list_sum.
  assert (Hs : forall (x : list T) i d i', i + d <= i' -> m (sub x (i + d) i') + m (skipn i' x) <= m (skipn i x)).
  { intros x k e k' Hk. rewrite <- (firstn_skipn e (skipn k x)), Hm, skipn_skipn, (Nat.add_comm e k).
    rewrite <- (firstn_skipn (k' - (k + e)) (skipn (k + e) x)), Hm, skipn_skipn. unfold sub.
    replace (k' - (k + e) + (k + e)) with k' by lia. lia. }
  pose proof (Hs b i d i' ltac:(lia)). pose proof (Hs a j d j' ltac:(lia)). lia.
Qed.
Lemma cover_count {T} context gap (b a : list T) i j hs : cover context gap b a i j hs ->
  length hs + i + j <= length b + length a.
Proof. induction 1; cbn [length]; lia. Qed.
Lemma cover_words {T} context gap (b a : list T) i j hs : context <= 255 -> cover context gap b a i j hs -> (zlen b < two64)%Z -> (zlen a < two64)%Z ->
  Forall (fun h => words (Z.of_nat (h_lead h), Z.of_nat (h_trail h)) (Z.of_nat (h_b h)) (Z.of_nat (h_a h))) hs.
Proof.
  intros Hc H Hb Ha. induction H as [i j d Hg H1 H2|i j d i' j' l t rest Hg H1 H2 H3 H4 H5 H6 H7 H8 H9 HC IH]; constructor; [|assumption].
  unfold words, zlen in *. cbn. lia.
Qed.

Lemma total_map {A B} (g : A -> B) f (l : list A) : total f (map g l) = total (fun x => f (g x)) l.
Proof. unfold total. now rewrite map_map. Qed.
Lemma total_linear {A} (l : list A) k x y (p q : A -> nat) :
  total (fun a => k + x * p a + y * q a) l = k * length l + x * total p l + y * total q l.
Proof. unfold total. induction l as [|a l IH]; cbn [map list_sum fold_right length]; [lia|]. change (fold_right Nat.add 0) with list_sum in *. lia. Qed.
Lemma total_ext {A} (f g : A -> nat) l : (forall x, f x = g x) -> total f l = total g l.
Proof. intros H. unfold total. f_equal. now apply map_ext. Qed.

Lemma text_content b a context : context <= 255 -> exists cs, text_diff_clumps b a context = Ok cs /\
  length cs <= length b + length a /\
  total (fun c => length (sn_items (tc_before c))) cs <= length b /\ total (fun c => length (sn_items (tc_after c))) cs <= length a /\
  total (fun c => length (List.concat (sn_items (tc_before c)))) cs <= length (List.concat b) /\
  total (fun c => length (List.concat (sn_items (tc_after c)))) cs <= length (List.concat a) /\
  ((zlen b < two64)%Z -> (zlen a < two64)%Z -> Forall text_words cs).
Proof.
  intros Hc. destruct (text_diff_spec b a context Hc) as (? & ? & hs & _ & _ & _ & _ & E & C). exists (map text_of_hunk hs).
  split; [assumption|]. rewrite map_length, !total_map. pose proof (cover_count _ _ _ _ _ _ _ C) as N.
  destruct (cover_total _ _ _ _ (@length line) (@app_length line) _ _ _ C (Nat.le_0_l _) (Nat.le_0_l _)) as [L1 L2].
  destruct (cover_total _ _ _ _ (fun l : list line => length (List.concat l)) ltac:(intros; cbv beta; now rewrite concat_app, app_length) _ _ _ C (Nat.le_0_l _) (Nat.le_0_l _)) as [M1 M2].
  cbn in L1, L2, M1, M2. split; [lia|]. split; [exact L1|]. split; [exact L2|]. split; [exact M1|]. split; [exact M2|].
  intros Hb Ha. apply Forall_map. exact (cover_words _ _ _ _ _ _ _ Hc C Hb Ha).
Qed.
Lemma byte_content b a context : context <= 255 -> exists cs, byte_diff_clumps b a context = Ok cs /\
  length cs <= length b + length a /\
  total (fun c => length (sn_items (bc_before c))) cs <= length b /\ total (fun c => length (sn_items (bc_after c))) cs <= length a /\
  ((zlen b < two64)%Z -> (zlen a < two64)%Z -> Forall byte_words cs).
Proof.
  intros Hc. destruct (byte_diff_spec b a context Hc) as (? & ? & hs & _ & _ & _ & _ & E & C). exists (map byte_of_hunk hs).
  split; [assumption|]. rewrite map_length, !total_map. pose proof (cover_count _ _ _ _ _ _ _ C) as N.
  destruct (cover_total _ _ _ _ (@length byte) (@app_length byte) _ _ _ C (Nat.le_0_l _) (Nat.le_0_l _)) as [L1 L2].
  cbn in L1, L2. split; [lia|]. split; [exact L1|]. split; [exact L2|].
  intros Hb Ha. apply Forall_map. exact (cover_words _ _ _ _ _ _ _ Hc C Hb Ha).
Qed.

Lemma text_of_size f p ls : text_of f p ls -> length ls <= file_size f p /\ length (List.concat ls) = file_size f p.
Proof.
  intros (c & Hc & _ & Hl). unfold file_size. rewrite Hc. pose proof Hl as Hl'. apply lines_of_unique in Hl'. subst ls.
  rewrite split_lines_concat. split; [|reflexivity]. clear. induction c as [|x c IH]; [cbn; lia|]. cbn [split_lines].
  destruct (is_newline x); [cbn; lia|]. destruct (split_lines c); cbn [length] in *; lia.
Qed.
Lemma fits_two64 (ls : list line) : fits_lines ls -> (zlen ls < two64)%Z.
Proof. unfold fits_lines, two63, two64, zlen. lia. Qed.

Lemma saved_size f before after context d : context <= 255 -> fits_file f before -> fits_file f after -> describes f before after context d ->
  exists k, k <= file_size f before + file_size f after /\
    (forall t, d = TextChange t -> k = length (td_clumps t)) /\ (forall t, d = ByteChange t -> k = length (bd_clumps t)) /\
    plen (diff_to_json d) <= 120 + 6 * (length before + length after) + 298 * k + 22 * (file_size f before + file_size f after).
Proof.
  intros Hc Fb Fa Hd. destruct d as [[p q cs]|[p ls]|[p ls]|[p q z cs]|[p z l]|[p z l]]; cbn in Hd.
  - destruct Hd as (-> & -> & lb & la & Tb & Ta & E).
    destruct (text_content lb la context Hc) as (cs' & E' & N & L1 & L2 & M1 & M2 & W). rewrite E in E'. injection E' as <-.
    destruct (text_of_size _ _ _ Tb) as [B1 B2]. destruct (text_of_size _ _ _ Ta) as [A1 A2].
    exists (length cs). split; [lia|]. split; [now intros t [= <-]|]. split; [discriminate|].
    assert (Forall text_words cs) as HW.
    { apply W; apply fits_two64; [destruct Tb as (c & Hc1 & _ & Hl); now apply (Fb c Hc1)|destruct Ta as (c & Hc1 & _ & Hl); now apply (Fa c Hc1)]. }
    pose proof (plen_text_diff before after cs HW) as P. change (list_sum (map text_clump_weight cs)) with (total text_clump_weight cs) in P.
    assert (HT : total text_clump_weight cs = 298 * length cs +
        (16 * total (fun c => length (sn_items (tc_before c))) cs + 6 * total (fun c => length (List.concat (sn_items (tc_before c)))) cs) +
        (16 * total (fun c => length (sn_items (tc_after c))) cs + 6 * total (fun c => length (List.concat (sn_items (tc_after c)))) cs)).
    { clear. unfold total. induction cs as [|c cs IH]; cbn [map list_sum fold_right length]; [reflexivity|].
      change (fold_right Nat.add 0) with list_sum in *. unfold text_clump_weight at 1, text_weight. lia. }
    lia.
  - destruct Hd as (-> & T). destruct (text_of_size _ _ _ T) as [B1 B2]. exists 0. split; [lia|]. split; [discriminate|]. split; [discriminate|].
    pose proof (plen_lines_body (str "TextAdd") before ls ltac:(vm_compute; lia)) as P.
    change (plen (diff_to_json (TextAdd (PathAndLines before ls))) <= 120 + 6 * length before + text_weight ls) in P. unfold text_weight in P. lia.
  - destruct Hd as (-> & T). destruct (text_of_size _ _ _ T) as [B1 B2]. exists 0. split; [lia|]. split; [discriminate|]. split; [discriminate|].
    pose proof (plen_lines_body (str "TextRemove") before ls ltac:(vm_compute; lia)) as P.
    change (plen (diff_to_json (TextRemove (PathAndLines before ls))) <= 120 + 6 * length before + text_weight ls) in P. unfold text_weight in P. lia.
  - destruct Hd as (-> & -> & -> & cb & ca & Eb & Ea & E).
    destruct (byte_content cb ca context Hc) as (cs' & E' & N & L1 & L2 & W). rewrite E in E'. injection E' as <-.
    assert (B : file_size f before = length cb) by (unfold file_size; now rewrite Eb). assert (A : file_size f after = length ca) by (unfold file_size; now rewrite Ea).
    exists (length cs). split; [lia|]. split; [discriminate|]. split; [now intros t [= <-]|].
    assert (Forall byte_words cs) as HW.
    { apply W; [destruct (Fb _ Eb) as [F _]|destruct (Fa _ Ea) as [F _]]; unfold fits_bytes, two63 in F; unfold two64; lia. }
    pose proof (plen_byte_diff before after false cs HW) as P. change (list_sum (map byte_clump_weight cs)) with (total byte_clump_weight cs) in P.
    assert (HT : total byte_clump_weight cs = 298 * length cs +
        17 * total (fun c => length (sn_items (bc_before c))) cs + 17 * total (fun c => length (sn_items (bc_after c))) cs).
    { clear. unfold total. induction cs as [|c cs IH]; cbn [map list_sum fold_right length]; [reflexivity|].
      change (fold_right Nat.add 0) with list_sum in *. unfold byte_clump_weight at 1, byte_weight. lia. }
    lia.
  - destruct Hd as (-> & -> & Ea). assert (A : file_size f after = length l) by (unfold file_size; now rewrite Ea).
    exists 0. split; [lia|]. split; [discriminate|]. split; [discriminate|].
    pose proof (plen_bytes_body (str "ByteAdd") before false l ltac:(vm_compute; lia)) as P.
    change (plen (diff_to_json (ByteAdd (PathAndBytes before false l))) <= 120 + 6 * length before + byte_weight l) in P. unfold byte_weight in P. lia.
  - destruct Hd as (-> & -> & Ea). assert (A : file_size f before = length l) by (unfold file_size; now rewrite Ea).
    exists 0. split; [lia|]. split; [discriminate|]. split; [discriminate|].
    pose proof (plen_bytes_body (str "ByteRemove") before false l ltac:(vm_compute; lia)) as P.
    change (plen (diff_to_json (ByteRemove (PathAndBytes before false l))) <= 120 + 6 * length before + byte_weight l) in P. unfold byte_weight in P. lia.
Qed.

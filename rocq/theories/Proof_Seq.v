(* Proof_Seq.v - lines, UTF-8, indices, slices. *)
From Verif Require Import Base Model_Seq Model_Changes Model_IO Model_Text Model_Bytes Spec.

(* ---------------- basics ---------------- *)
Lemma byte_eqb_lawful : lawful Byte.eqb.
Proof. intros x y. split; [apply Byte.byte_dec_bl|apply Byte.byte_dec_lb]. Qed.

Lemma list_eqb_lawful {T} (eqb : T -> T -> bool) : lawful eqb -> lawful (list_eqb eqb).
Proof.
  intros H l; induction l as [|x l IH]; intros [|y r]; simpl; split; try congruence; intros E.
  - apply andb_true_iff in E as [E1 E2]. apply H in E1. apply IH in E2. congruence.
  - injection E as -> ->. apply andb_true_iff; split; [apply H|apply IH]; reflexivity.
Qed.
Lemma line_eqb_lawful : lawful line_eqb.
Proof. apply list_eqb_lawful, byte_eqb_lawful. Qed.

Lemma is_newline_true c : is_newline c = true <-> c = newline.
Proof. apply byte_eqb_lawful. Qed.
Lemma is_newline_false c : is_newline c = false <-> c <> newline.
Proof. rewrite <- is_newline_true. destruct (is_newline c); split; congruence. Qed.

(* ---------------- lines ---------------- *)
Lemma split_lines_concat s : concat (split_lines s) = s.
Proof.
  induction s as [|c s IH]; simpl; [reflexivity|].
  destruct (is_newline c); simpl; [now rewrite IH|].
  destruct (split_lines s) as [|l ls]; simpl in *; now rewrite <- IH.
Qed.

Lemma split_lines_nil s : split_lines s = [] -> s = [].
Proof. intros H. rewrite <- (split_lines_concat s), H. reflexivity. Qed.

Lemma split_lines_is_line s : Forall is_line (split_lines s).
Proof.
  induction s as [|c s IH]; simpl; [constructor|].
  destruct (is_newline c) eqn:E.
  - constructor; [|assumption]. apply is_newline_true in E as ->. exists []. split; [easy|now left].
  - apply is_newline_false in E.
    destruct (split_lines s) as [|l ls].
    + repeat constructor. exists [c]. split; [simpl; intuition congruence|right; split; congruence].
    + inversion IH as [|? ? Hl Hls]; subst. constructor; [|assumption].
      destruct Hl as (body & Hn & [->|[-> Hb]]).
      * exists (c :: body). split; [simpl; intuition congruence|now left].
      * exists (c :: body). split; [simpl; intuition congruence|right; split; congruence].
Qed.

Lemma split_lines_inner s : forall pre l post, split_lines s = pre ++ l :: post -> post <> [] -> ends_in_newline l.
Proof.
  induction s as [|c s IH]; simpl; intros pre l post E Hp; [destruct pre; discriminate|].
  destruct (is_newline c) eqn:Ec.
  - apply is_newline_true in Ec as ->. destruct pre as [|p pre]; simpl in E; injection E as E1 E2.
    + subst. now exists [].
    + subst. eapply IH; eauto.
  - destruct (split_lines s) as [|l0 ls] eqn:Es.
    + destruct pre as [|p pre]; simpl in E; injection E as E1 E2; [subst; now elim Hp|destruct pre; discriminate].
    + destruct pre as [|p pre]; simpl in E; injection E as E1 E2; subst.
      * destruct (IH [] l0 post eq_refl Hp) as [body ->]. now exists (c :: body).
      * eapply (IH (l0 :: pre)); eauto. reflexivity.
Qed.

Lemma split_lines_lines_of s : lines_of s (split_lines s).
Proof. split; [apply split_lines_concat|split; [apply split_lines_is_line|apply split_lines_inner]]. Qed.

Lemma split_lines_nl body rest : ~ In newline body ->
  split_lines (body ++ newline :: rest) = (body ++ [newline]) :: split_lines rest.
Proof.
  induction body as [|c body IH]; simpl; intros Hn.
  - reflexivity.
  - destruct (is_newline c) eqn:E; [apply is_newline_true in E; exfalso; apply Hn; auto|].
    rewrite IH by auto. reflexivity.
Qed.
Lemma split_lines_no_nl body : ~ In newline body -> body <> [] -> split_lines body = [body].
Proof.
  induction body as [|c body IH]; simpl; intros Hn He; [congruence|].
  destruct (is_newline c) eqn:E; [apply is_newline_true in E; exfalso; apply Hn; auto|].
  destruct body as [|d body]; [reflexivity|]. rewrite IH by (auto || congruence). reflexivity.
Qed.

Lemma lines_of_unique s ls : lines_of s ls -> ls = split_lines s.
Proof.
  intros (Hc & Hl & Hi). subst s. induction ls as [|l ls IH]; [reflexivity|].
  inversion Hl as [|? ? H1 H2]; subst.
  assert (IH' : ls = split_lines (concat ls)).
  { apply IH; [assumption|]. intros pre l' post -> Hp. apply (Hi (l :: pre) l' post); auto. }
  simpl.
  destruct H1 as (body & Hn & [->|[-> Hb]]).
  - rewrite <- app_assoc. simpl. rewrite split_lines_nl by assumption. now rewrite <- IH'.
  - destruct ls as [|l2 ls].
    + simpl. rewrite app_nil_r. now rewrite split_lines_no_nl.
    + exfalso. destruct (Hi [] body (l2 :: ls) eq_refl) as [b' E]; [congruence|].
      apply Hn. rewrite E. apply in_or_app. right. now left.
Qed.

(* ---------------- UTF-8 ---------------- *)
Lemma byte_in_newline lo hi : byte_in lo hi newline = ((lo <=? 10) && (10 <=? hi))%N.
Proof. reflexivity. Qed.

(* a well-formed prefix ending in newline can be cut off *)
Lemma utf8_cut_newline : forall n l r, length l <= n ->
  utf8_valid (l ++ newline :: r) = utf8_valid (l ++ [newline]) && utf8_valid r.
Proof.
  induction n as [n IH] using lt_wf_ind. intros l r Hn.
  destruct l as [|b0 l]; [simpl; reflexivity|].
  assert (R : forall l', length l' < length (b0 :: l) ->
            utf8_valid (l' ++ newline :: r) = utf8_valid (l' ++ [newline]) && utf8_valid r).
  { intros l' Hl. apply (IH (length l')); lia. }
  clear IH Hn. simpl app. cbn [utf8_valid].
  destruct (byte_in 0 127 b0); [apply R; simpl; lia|].
  destruct (byte_in 194 223 b0).
  { destruct l as [|b1 l]; simpl app.
    - now rewrite ?andb_false_l.
    - cbv beta iota. rewrite R by (simpl; lia). now rewrite andb_assoc. }
  destruct (byte_in 224 239 b0).
  { destruct l as [|b1 [|b2 l]]; simpl app.
    - destruct r; [reflexivity|].
      replace (if byte_in 224 224 b0 then byte_in 160 191 newline else if byte_in 237 237 b0 then byte_in 128 159 newline else is_cont newline) with false
        by (destruct (byte_in 224 224 b0), (byte_in 237 237 b0); reflexivity).
      reflexivity.
    - cbv beta iota. change (is_cont newline) with false. now rewrite andb_false_r.
    - cbv beta iota. rewrite R by (simpl; lia). now rewrite !andb_assoc. }
  destruct (byte_in 240 244 b0); [|reflexivity].
  destruct l as [|b1 [|b2 [|b3 l]]]; simpl app.
  - destruct r as [|b2 [|b3 r]]; try reflexivity.
    replace (if byte_in 240 240 b0 then byte_in 144 191 newline else if byte_in 244 244 b0 then byte_in 128 143 newline else is_cont newline) with false
        by (destruct (byte_in 240 240 b0), (byte_in 244 244 b0); reflexivity).
    reflexivity.
  - destruct r; [reflexivity|]. cbv beta iota. change (is_cont newline) with false. now rewrite andb_false_r.
  - cbv beta iota. change (is_cont newline) with false. now rewrite !andb_false_r.
  - cbv beta iota. rewrite R by (simpl; lia). now rewrite !andb_assoc.
Qed.

Lemma read_until_newline_spec s l r : read_until_newline s = (l, r) ->
  s = l ++ r /\
  ((exists body, ~ In newline body /\ l = body ++ [newline]) \/ (~ In newline l /\ r = [])).
Proof.
  revert l r; induction s as [|c s IH]; simpl; intros l r E.
  - injection E as <- <-. split; [reflexivity|]. right. split; [easy|reflexivity].
  - destruct (is_newline c) eqn:Ec.
    + injection E as <- <-. apply is_newline_true in Ec as ->. split; [reflexivity|]. left. exists []. now split.
    + apply is_newline_false in Ec. destruct (read_until_newline s) as [l' r'] eqn:Es. injection E as <- <-.
      destruct (IH _ _ eq_refl) as [-> H]. split; [reflexivity|].
      destruct H as [(body & Hn & ->)|[Hn ->]].
      * left. exists (c :: body). split; [simpl; intuition congruence|reflexivity].
      * right. split; [simpl; intuition congruence|reflexivity].
Qed.

Lemma read_lines_loop_spec fuel s acc : length s < fuel ->
  read_lines_loop fuel s acc = Ok (if utf8_valid s then Some (acc ++ split_lines s) else None).
Proof.
  revert s acc; induction fuel as [|fuel IH]; intros s acc Hf; [lia|].
  cbn [read_lines_loop]. destruct (read_until_newline s) as [l r] eqn:E.
  apply read_until_newline_spec in E as [-> [(body & Hn & ->)|[Hn ->]]].
  - rewrite <- app_assoc. change ([newline] ++ r) with (newline :: r).
    rewrite (utf8_cut_newline (length body) body r) by lia.
    rewrite split_lines_nl by assumption.
    destruct (utf8_valid (body ++ [newline])) eqn:Ev; [|reflexivity]. cbn [andb].
    rewrite app_length. cbn [length]. destruct (length body + 1 =? 0) eqn:E0; [apply Nat.eqb_eq in E0; lia|].
    rewrite IH; [|rewrite !app_length in Hf; simpl in Hf; lia].
    destruct (utf8_valid r); [|reflexivity]. now rewrite <- app_assoc.
  - rewrite app_nil_r. destruct (utf8_valid l) eqn:Ev; [|reflexivity].
    destruct l as [|c l].
    + simpl. now rewrite app_nil_r.
    + cbn [length Nat.eqb]. rewrite split_lines_no_nl by (assumption || congruence).
      rewrite IH; [|simpl in *; rewrite app_nil_r in Hf; lia]. simpl. now rewrite app_nil_r.
Qed.

Lemma read_lines_spec s : read_lines s = Ok (if utf8_valid s then Some (split_lines s) else None).
Proof. unfold read_lines. now rewrite read_lines_loop_spec by lia. Qed.

(* ---------------- indices ---------------- *)
Lemma line_eqb_refl l : line_eqb l l = true.
Proof. now apply line_eqb_lawful. Qed.

Lemma smap_get_push m k i x : smap_get (smap_push m k i) x =
  if line_eqb k x then option_map (fun v => v ++ [i]) (smap_get m x) else smap_get m x.
Proof.
  induction m as [|[k' v] m IH]; simpl; [now destruct (line_eqb k x)|].
  destruct (line_eqb k' k) eqn:E1; simpl.
  - apply line_eqb_lawful in E1 as ->. destruct (line_eqb k x); reflexivity.
  - destruct (line_eqb k' x) eqn:E2; [|exact IH].
    destruct (line_eqb k x) eqn:E3; [|reflexivity].
    apply line_eqb_lawful in E2, E3. subst. now rewrite line_eqb_refl in E1.
Qed.

Lemma nth_error_snoc {T} (s : list T) y p x :
  nth_error (s ++ [y]) p = Some x <-> nth_error s p = Some x \/ (p = length s /\ y = x).
Proof.
  destruct (Nat.lt_trichotomy p (length s)) as [H|[->|H]].
  - rewrite nth_error_app1 by assumption. intuition lia.
  - rewrite nth_error_app2, Nat.sub_diag by lia. simpl.
    assert (nth_error s (length s) = None) by (apply nth_error_None; lia).
    intuition congruence.
  - assert (nth_error (s ++ [y]) p = None) by (apply nth_error_None; rewrite app_length; simpl; lia).
    assert (nth_error s p = None) by (apply nth_error_None; lia). intuition (congruence || lia).
Qed.

Lemma sorted_snoc ps n : StronglySorted lt ps -> (forall p, In p ps -> p < n) -> StronglySorted lt (ps ++ [n]).
Proof.
  induction ps as [|p ps IH]; simpl; intros Hs Hb; [repeat constructor|].
  inversion Hs as [|? ? H1 H2]; subst. constructor; [apply IH; auto|].
  apply Forall_app. split; [assumption|]. constructor; [|constructor]. apply Hb. now left.
Qed.

(* extending an exact index by one item *)
Lemma index_spec_snoc_hit {T} (s : list T) x ps :
  index_spec s x (Some ps) -> index_spec (s ++ [x]) x (Some (ps ++ [length s])).
Proof.
  intros (Hne & Hs & Hp). repeat split.
  - destruct ps; discriminate.
  - apply sorted_snoc; [assumption|]. intros p Hin. apply Hp in Hin. apply nth_error_Some. congruence.
  - intros Hin. apply nth_error_snoc. apply in_app_or in Hin as [Hin|[<-|[]]]; [left; now apply Hp|now right].
  - intros Hn. apply nth_error_snoc in Hn as [Hn|[-> _]]; apply in_or_app; [left; now apply Hp|right; now left].
Qed.
Lemma index_spec_snoc_new {T} (s : list T) x :
  index_spec s x None -> index_spec (s ++ [x]) x (Some [length s]).
Proof.
  intros Hn. repeat split; [discriminate|repeat constructor| |].
  - intros [<-|[]]. apply nth_error_snoc. now right.
  - intros H. apply nth_error_snoc in H as [H|[-> _]]; [apply nth_error_In in H; contradiction|now left].
Qed.
Lemma index_spec_snoc_other {T} (s : list T) x y o : x <> y ->
  index_spec s x o -> index_spec (s ++ [y]) x o.
Proof.
  intros Hxy. destruct o as [ps|]; simpl.
  - intros (Hne & Hs & Hp). repeat split; [assumption|assumption| |].
    + intros Hin. apply nth_error_snoc. left. now apply Hp.
    + intros H. apply nth_error_snoc in H as [H|[_ E]]; [now apply Hp|congruence].
  - intros Hn Hin. apply in_app_or in Hin as [Hin|[E|[]]]; congruence.
Qed.

Lemma string_generate_loop_spec items pre m :
  (forall x, index_spec pre x (smap_get m x)) ->
  forall x, index_spec (pre ++ items) x (smap_get (string_generate_loop items (length pre) m) x).
Proof.
  revert pre m; induction items as [|l items IH]; intros pre m H x; simpl.
  - rewrite app_nil_r. apply H.
  - replace (pre ++ l :: items) with ((pre ++ [l]) ++ items) by now rewrite <- app_assoc.
    replace (S (length pre)) with (length (pre ++ [l])) by (rewrite app_length; simpl; lia).
    apply IH. clear x. intros x.
    destruct (line_eqb l x) eqn:E.
    + apply line_eqb_lawful in E as <-. specialize (H l).
      destruct (smap_get m l) as [ps|] eqn:G.
      * rewrite smap_get_push, line_eqb_refl, G. simpl option_map. now apply index_spec_snoc_hit.
      * simpl. rewrite line_eqb_refl. now apply index_spec_snoc_new.
    + assert (x <> l) by (intros ->; rewrite line_eqb_refl in E; discriminate).
      apply index_spec_snoc_other; [assumption|].
      destruct (smap_get m l) as [ps|] eqn:G.
      * rewrite smap_get_push, E. apply H.
      * simpl. rewrite E. apply H.
Qed.

Lemma string_indices_spec s x : index_spec s x (string_indices_of (string_generate_from s) x).
Proof. apply (string_generate_loop_spec s [] []). intros y. simpl. easy. Qed.

Lemma byte_index_lt b : byte_index b < 256.
Proof.
  unfold byte_index. pose proof (Byte.to_N_bounded b). lia.
Qed.
Lemma byte_index_inj b c : byte_index b = byte_index c -> b = c.
Proof.
  unfold byte_index. intros H. apply N2Nat.inj in H.
  assert (H' : Some b = Some c) by (rewrite <- (Byte.of_to_N b), <- (Byte.of_to_N c); now f_equal).
  congruence.
Qed.

Lemma array_push_length a k i : length (array_push a k i) = length a.
Proof. revert k; induction a as [|v a IH]; intros [|k]; simpl; auto. Qed.
Lemma array_push_nth a k i j : k < length a ->
  nth j (array_push a k i) [] = if k =? j then nth j a [] ++ [i] else nth j a [].
Proof.
  revert k j; induction a as [|v a IH]; intros [|k] [|j] H; simpl in *; try lia; try reflexivity.
  apply IH. lia.
Qed.

Definition opt_of (v : list nat) : option (list nat) := match v with [] => None | _ => Some v end.

Lemma byte_generate_loop_spec items pre a : length a = 256 ->
  (forall x, index_spec pre x (opt_of (nth (byte_index x) a []))) ->
  forall x, index_spec (pre ++ items) x (opt_of (nth (byte_index x) (byte_generate_loop items (length pre) a) [])).
Proof.
  revert pre a; induction items as [|l items IH]; intros pre a Ha H x; simpl.
  - rewrite app_nil_r. apply H.
  - replace (pre ++ l :: items) with ((pre ++ [l]) ++ items) by now rewrite <- app_assoc.
    replace (S (length pre)) with (length (pre ++ [l])) by (rewrite app_length; simpl; lia).
    apply IH; [now rewrite array_push_length|]. clear x. intros x.
    rewrite array_push_nth by (rewrite Ha; apply byte_index_lt).
    destruct (byte_index l =? byte_index x) eqn:E.
    + apply Nat.eqb_eq, byte_index_inj in E as <-. specialize (H l).
      destruct (nth (byte_index l) a []) as [|p ps] eqn:G.
      * simpl. now apply index_spec_snoc_new.
      * change (opt_of ((p :: ps) ++ [length pre])) with (Some ((p :: ps) ++ [length pre])).
        now apply index_spec_snoc_hit.
    + apply index_spec_snoc_other; [|apply H]. intros ->. rewrite Nat.eqb_refl in E. discriminate.
Qed.

Lemma byte_indices_spec s x : index_spec s x (byte_indices_of (byte_generate_from s) x).
Proof.
  assert (H : index_spec s x (opt_of (nth (byte_index x) (byte_generate_from s) []))).
  { apply (byte_generate_loop_spec s [] (repeat [] 256) (repeat_length _ _)). intros y.
    rewrite nth_repeat. simpl. easy. }
  unfold byte_indices_of. now destruct (nth (byte_index x) (byte_generate_from s) []).
Qed.

(* ---------------- slices ---------------- *)
Lemma slice_ok {T} (l : list T) a b : a <= b -> b <= length l -> slice l a b = Ok (firstn (b - a) (skipn a l)).
Proof. intros H1 H2. unfold slice. apply Nat.leb_le in H1, H2. now rewrite H1, H2. Qed.

Lemma nth_error_firstn {T} (l : list T) n i : nth_error (firstn n l) i = if i <? n then nth_error l i else None.
Proof.
  revert n i; induction l as [|x l IH]; intros [|n] [|i]; simpl; try reflexivity.
  - now destruct (S i <? S n).
  - rewrite IH. reflexivity.
Qed.
Lemma nth_error_skipn {T} (l : list T) n i : nth_error (skipn n l) i = nth_error l (n + i).
Proof. revert n; induction l as [|x l IH]; intros [|n]; simpl; try reflexivity; [now destruct i|apply IH]. Qed.

Lemma nth_error_ext {T} (l r : list T) : (forall i, nth_error l i = nth_error r i) -> l = r.
Proof.
  revert r; induction l as [|x l IH]; intros [|y r] H; [reflexivity|specialize (H 0); discriminate..|].
  pose proof (H 0) as H0. simpl in H0. injection H0 as ->. f_equal. apply IH. intros i. apply (H (S i)).
Qed.

(* ---------------- has_subsequence_at ---------------- *)
Lemma zip_all_eq_spec {T} (eqb : T -> T -> bool) (H : lawful eqb) l r : length l <= length r ->
  zip_all_eq eqb l r = true <-> l = firstn (length l) r.
Proof.
  revert r; induction l as [|x l IH]; intros [|y r] Hl; simpl in *; try (split; (reflexivity || lia)); try lia.
  rewrite andb_true_iff, (H y x), IH by lia. split.
  - intros [-> E]. now f_equal.
  - intros E. injection E as -> E. now split.
Qed.

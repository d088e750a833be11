(* Proof_Alone.v - JSON texts have one tree each; change diffs saved and loaded on their own
   (C79, C88). *)
From Coq Require Import String ZifyBool.
From Verif Require Import Base Model_Seq Model_Changes Model_IO Model_Text Model_Bytes Model_Json Model_Alone Spec Spec_Json Spec_Alone Proof_Utf8 Proof_Json Proof_Grammar Proof_Values Proof_Accepts Proof_Saved.

(* ---------------- one tree ---------------- *)
(* where a value ends is determined *)
Lemma value_prefix j s r j' s' r' : value_text j s -> value_text j' s' -> num_end r -> num_end r' -> s ++ r = s' ++ r' -> s = s' /\ r = r'.
Proof.
  intros V V' N N' E. pose proof (skip_complete (S (length (s ++ r))) [] j s r blank_nil V N (Nat.lt_succ_diag_r _)) as H.
  pose proof (skip_complete (S (length (s' ++ r'))) [] j' s' r' blank_nil V' N' (Nat.lt_succ_diag_r _)) as H'. cbn [app] in *.
  rewrite E in H. rewrite H in H'. injection H' as ->. split; [|reflexivity]. now apply app_inv_tail in E.
Qed.
Lemma blank_prefix w s w' s' : json_blank w -> json_blank w' -> (exists b r, s = b :: r /\ is_ws b = false) -> (exists b r, s' = b :: r /\ is_ws b = false) ->
  w ++ s = w' ++ s' -> w = w' /\ s = s'.
Proof.
  intros W W' (b & r & -> & B) (b' & r' & -> & B') E. pose proof (f_equal skip_ws E) as E2. rewrite !skip_ws_blank_app in E2 by assumption. rewrite !skip_ws_stop in E2 by assumption.
  split; [|assumption]. rewrite E2 in E. now apply app_inv_tail in E.
Qed.
Lemma string_prefix k r k' r' : string_form k -> string_form k' -> k ++ x22 :: r = k' ++ x22 :: r' -> k = k' /\ r = r'.
Proof.
  intros K K' E. pose proof (ignore_chars_complete k r K) as H. pose proof (ignore_chars_complete k' r' K') as H'. rewrite E in H. rewrite H in H'. injection H' as ->.
  split; [|reflexivity]. now apply app_inv_tail in E.
Qed.
Lemma starts_here s r : (exists b r, s = b :: r /\ opening b) -> exists b r', s ++ r = b :: r' /\ is_ws b = false.
Proof. intros (b & r' & -> & O & _). cbn [app]. eauto. Qed.

(* lists whose items end where they end, and are determined *)
Definition ends {A} (P : A -> list byte -> Prop) : Prop := forall a s r a' s' r', P a s -> P a' s' -> num_end r -> num_end r' -> s ++ r = s' ++ r' -> s = s' /\ r = r'.
Definition starts {A} (P : A -> list byte -> Prop) : Prop := forall a s, P a s -> exists b r, s = b :: r /\ opening b.
Lemma body_unique {A} (P : A -> list byte -> Prop) c : ends P -> starts P -> (c = x5d \/ c = x7d) -> forall l first b, body_text P first l b ->
  forall l' b' r r', body_text P first l' b' -> b ++ c :: r = b' ++ c :: r' -> (forall a s a', P a s -> P a' s -> In a l -> a = a') -> l = l' /\ b = b' /\ r = r'.
Proof.
  intros HE HS Hc. assert (Wc : is_ws c = false) by (destruct Hc; subst; reflexivity).
  assert (C1 : forall w r w' r', json_blank w -> json_blank w' -> w ++ c :: r = w' ++ c :: r' -> w = w' /\ r = r').
  { intros w r w' r' W W' E. apply blank_prefix in E; eauto. destruct E as [-> E]. injection E as ->. auto. }
  assert (C2 : forall (first : bool) d s x, separator first d -> (exists b r, s = b :: r /\ opening b) -> forall w r, json_blank w -> d ++ s ++ x = w ++ c :: r -> False).
  { intros first d s x D S w r W E. destruct first.
    - apply blank_prefix in E; eauto; [|now apply starts_here]. destruct E as [_ E]. destruct S as (b & s' & -> & O1 & O2 & O3 & O4 & _). injection E as -> _. destruct Hc; congruence.
    - destruct D as (w0 & w1 & W0 & W1 & ->). rewrite <- app_assoc in E. cbn [app] in E. apply blank_prefix in E; eauto. destruct E as [_ E]. injection E as E _. destruct Hc; congruence. }
  induction l as [|a l IH]; intros first b B l' b' r r' B' E U; inversion B as [? w W|? d ? s ? b1 D Pa B1]; subst; inversion B' as [? w' W'|? d' a' s' l1 b1' D' Pa' B1']; subst.
  - destruct (C1 _ _ _ _ W W' E) as [-> ->]. auto.
  - exfalso. rewrite <- !app_assoc in E. symmetry in E. eapply C2; eauto.
  - exfalso. rewrite <- !app_assoc in E. eapply C2; eauto.
  - rewrite <- !app_assoc in E. assert (G : d = d' /\ s ++ b1 ++ c :: r = s' ++ b1' ++ c :: r').
    { destruct first.
      - apply blank_prefix in E; auto; apply starts_here; eauto.
      - destruct D as (w0 & w1 & W0 & W1 & ->), D' as (w0' & w1' & W0' & W1' & ->). rewrite <- !app_assoc in E. cbn [app] in E. apply blank_prefix in E; eauto.
        destruct E as [-> E]. injection E as E. apply blank_prefix in E; auto; [|apply starts_here; eauto..]. destruct E as [-> E]. auto. }
    destruct G as [-> G]. apply (HE a s _ a' s') in G; auto; try (eapply body_num_end; eauto). destruct G as [-> G].
    assert (a = a') by (eapply U; eauto; now left). subst a'. destruct (IH _ _ B1 _ _ _ _ B1' G) as (-> & -> & ->); [|auto]. intros x y z Px Pz I. eapply U; eauto. now right.
Qed.
Lemma member_ends : ends member_text.
Proof.
  intros m s r m' s' r' (w1 & w & b & -> & K & W1 & W & V) (w1' & w' & b' & -> & K' & W1' & W' & V') N N' E. cbn [app] in E. injection E as E. rewrite <- !app_assoc in E. cbn [app] in E.
  apply string_prefix in E; auto. destruct E as [-> E]. rewrite <- !app_assoc in E. apply blank_prefix in E; auto; [|cbn; eauto..]. destruct E as [-> E]. cbn [app] in E. injection E as E.
  rewrite <- !app_assoc in E. apply blank_prefix in E; auto; [|apply starts_here; eapply value_starts; eauto..]. destruct E as [-> E]. apply (value_prefix _ _ _ _ _ _ V V' N N') in E as [-> ->]. auto.
Qed.
Lemma member_parts m s m' : member_text m s -> member_text m' s -> fst m = fst m' /\ exists b, value_text (snd m) b /\ value_text (snd m') b.
Proof.
  intros (w1 & w & b & -> & K & W1 & W & V) (w1' & w' & b' & E & K' & W1' & W' & V'). injection E as E.
  apply string_prefix in E; auto. destruct E as [-> E]. apply blank_prefix in E; auto; [|cbn; eauto..]. destruct E as [-> E]. injection E as E.
  apply blank_prefix in E; auto; [|rewrite <- (app_nil_r b) || rewrite <- (app_nil_r b'); apply starts_here; eapply value_starts; eauto..]. destruct E as [-> ->]. eauto.
Qed.
Lemma num_end_nil : num_end [].
Proof. split; reflexivity. Qed.
(* the first byte tells what kind of value follows *)
Definition kind_of (b : byte) : N :=
  if is_digit b || Byte.eqb b x2d then 3
  else if Byte.eqb b x6e then 0 else if Byte.eqb b x74 then 1 else if Byte.eqb b x66 then 2
  else if Byte.eqb b x22 then 4 else if Byte.eqb b x5b then 5 else 6.
Definition kind_json (j : json) : N :=
  match j with JNull => 0 | JTrue => 1 | JFalse => 2 | JNum _ => 3 | JStr _ => 4 | JArr _ => 5 | JObj _ => 6 end.
Lemma value_kind j s : value_text j s -> exists b r, s = b :: r /\ kind_of b = kind_json j.
Proof.
  destruct 1 as [| | |s H|s H|w H|js s H|w H|ms s H]; try (eexists; eexists; split; reflexivity).
  destruct (number_starts s H) as (b & r & -> & D). exists b, r. split; [reflexivity|]. unfold kind_of. destruct D as [->| ->]; reflexivity.
Qed.
Lemma value_unique : forall j s j', value_text j s -> value_text j' s -> j = j'.
Proof.
  assert (L : forall c (X : Type) (P : X -> list byte -> Prop) js b js' b', ends P -> starts P -> (c = x5d \/ c = x7d) -> body_text P true js b -> body_text P true js' b' -> b ++ [c] = b' ++ [c] ->
    (forall a s a', P a s -> P a' s -> In a js -> a = a') -> js = js').
  { intros c X P js b js' b' HE HS Hc B B' E U. exact (proj1 (body_unique P c HE HS Hc js true b B js' b' [] [] B' E U)). }
  induction j as [| | |s0|s0|js IH|ms IH] using json_ind'; intros s j' V V'; pose proof (value_kind _ _ V) as (c & t & E & K); pose proof (value_kind _ _ V') as (c' & t' & E' & K');
    rewrite E in E'; injection E' as <- _; rewrite K in K'; destruct j'; try discriminate K'; clear K K' E.
  1-3: reflexivity.
  - inversion V; inversion V'; subst. reflexivity.
  - inversion V; inversion V'; subst. match goal with H : _ :: _ = _ :: _ |- _ => injection H as H; apply app_inv_tail in H; now subst end.
  - apply array_text in V as (b & -> & B), V' as (b' & E & B'). injection E as E. f_equal.
    apply (L x5d _ value_text _ b _ b'); auto; [exact value_prefix|exact value_starts|].
    intros a s a' Va Va' I. rewrite Forall_forall in IH. eapply IH; eauto.
  - apply object_text in V as (b & -> & B), V' as (b' & E & B'). injection E as E. f_equal.
    apply (L x7d _ member_text _ b _ b'); auto; [exact member_ends|exact member_starts|].
    intros [k a] s [k' a'] Va Va' I. apply (member_parts _ _ _ Va) in Va' as (Ek & b0 & V & V'). cbn [fst snd] in *. subst k'. f_equal. rewrite Forall_forall in IH. exact (IH _ I _ _ V V').
Qed.
Lemma blank_num_ok r : json_blank r -> num_end r.
Proof. destruct r as [|b r]; [split; reflexivity|]. inversion 1; subst. match goal with H : In _ _ |- _ => destruct H as [<-|[<-|[<-|[<-|[]]]]] end; split; reflexivity. Qed.
Theorem one_tree s j j' : json_text j s -> json_text j' s -> j = j'.
Proof.
  intros (w & t & q & W & V & Q & E) (w' & t' & q' & W' & V' & Q' & E'). rewrite E in E'.
  apply blank_prefix in E'; auto; [|apply starts_here; eapply value_starts; eauto..]. destruct E' as [_ E'].
  apply (value_prefix _ _ _ _ _ _ V V') in E' as [-> _]; auto using blank_num_ok. eapply value_unique; eauto.
Qed.

(* ---------------- loading and saving at any type ---------------- *)
Section At.
Context {A : Type} (t : ty) (W : wf_ty t) (N : nums_ok t) (to_val : A -> val) (of_val : val -> option A) (valid : A -> Prop)
  (back : forall a, of_val (to_val a) = Some a) (typed : forall a, valid a -> has_type t (to_val a)) (typed' : forall v, has_type t v -> exists a, v = to_val a /\ valid a).
Lemma load_cases s : (exists a r, parse (S (length s)) t s = POk (to_val a) r /\ valid a /\
     ((json_blank r /\ load t of_val s = Ok (Some a)) \/ (~ json_blank r /\ load t of_val s = Ok None))) \/
  (parse (S (length s)) t s = PErr /\ load t of_val s = Ok None).
Proof.
  unfold load, parse_document. pose proof (parse_good (S (length s)) t N s (Nat.lt_succ_diag_r _)) as H.
  destruct (parse (S (length s)) t s) as [v r| |]; [|right; auto|contradiction]. left. destruct H as [_ H]. apply typed' in H as (a & -> & Ha).
  exists a, r. split; [reflexivity|]. split; [exact Ha|]. cbn [pbind]. destruct (skip_ws r) eqn:E.
  - left. split; [now apply skip_ws_nil|]. now rewrite back.
  - right. split; [|reflexivity]. intros Hb. apply skip_ws_blank in Hb. congruence.
Qed.
Lemma load_accepts s a : load t of_val s = Ok (Some a) <-> exists j, json_text j s /\ shape t (to_val a) j.
Proof.
  split.
  - intros H. destruct (load_cases s) as [(a' & r & E & _ & [[B E']|[_ E']])|[_ E']]; rewrite H in E'; try discriminate. injection E' as <-.
    apply (parse_sound _ _ W N) in E as (w & body & j & Hw & E & V & S). exists j. split; [now exists w, body, r|assumption].
  - intros (j & (w & body & r & Hw & V & B & ->) & HS).
    pose proof (parse_complete (S (length (w ++ body ++ r))) t W w body j _ r Hw V HS (blank_num_ok r B) (Nat.lt_succ_diag_r _)) as E.
    unfold load, parse_document. rewrite E. cbn [pbind]. rewrite skip_ws_blank by assumption. now rewrite back.
Qed.
Lemma load_total s : load t of_val s = Ok None \/ exists a, load t of_val s = Ok (Some a) /\ valid a.
Proof. destruct (load_cases s) as [(a & r & _ & V & [[_ E]|[_ E]])|[_ E]]; eauto. Qed.
Lemma load_rejects s : load t of_val s = Ok None <-> ~ exists j a, json_text j s /\ shape t (to_val a) j.
Proof.
  split.
  - intros E (j & a & H). assert (X : load t of_val s = Ok (Some a)) by (apply load_accepts; eauto). congruence.
  - intros H. destruct (load_total s) as [E|(a & E & _)]; [exact E|]. elim H. apply load_accepts in E as (j & E). eauto.
Qed.
Lemma save_form a : valid a -> print t (to_val a) 0 = (pretty 0 (tree t (to_val a)), true) /\ json_text (tree t (to_val a)) (pretty 0 (tree t (to_val a))) /\
  shape t (to_val a) (tree t (to_val a)) /\ is_utf8 (pretty 0 (tree t (to_val a))).
Proof.
  intros V. pose proof (typed a V) as T. pose proof (tree_clean _ _ W T) as C. split; [now apply print_tree|]. split.
  - exists [], (pretty 0 (tree t (to_val a))), []. split; [apply blank_nil|]. split; [now apply pretty_text|]. split; [apply blank_nil|]. now rewrite app_nil_r.
  - split; [now apply tree_shape|now apply pretty_utf8].
Qed.
Lemma save_load a : valid a -> load t of_val (fst (print t (to_val a) 0)) = Ok (Some a).
Proof. intros V. destruct (save_form a V) as (-> & T & S & _). apply load_accepts. eauto. Qed.
End At.

(* ---------------- change diffs ---------------- *)
Lemma text_diff_ty_wf : wf_ty text_diff_ty.
Proof. exact (proj1 (proj2 diff_ty_wf)). Qed.
Lemma byte_diff_ty_wf : wf_ty byte_diff_ty.
Proof. exact (proj1 (proj2 (proj2 (proj2 (proj2 diff_ty_wf))))). Qed.
Lemma text_diff_ty_nums : nums_ok text_diff_ty.
Proof. cbn. unfold two64. repeat split; lia. Qed.
Lemma byte_diff_ty_nums : nums_ok byte_diff_ty.
Proof. cbn. unfold two64. repeat split; lia. Qed.
Lemma text_diff_back d : text_diff_of_val (val_of_text_diff d) = Some d.
Proof. destruct d. unfold val_of_text_diff, text_diff_of_val. rewrite map_opt_map; [reflexivity|]. apply text_clump_of_val_of. Qed.
Lemma byte_diff_back d : byte_diff_of_val (val_of_byte_diff d) = Some d.
Proof. destruct d. unfold val_of_byte_diff, byte_diff_of_val. rewrite map_opt_map; [reflexivity|]. apply byte_clump_of_val_of. Qed.
Lemma valid_text_iff d : valid_text_diff d <-> valid_diff (TextChange d).
Proof.
  unfold valid_text_diff, valid_diff. cbn [diff_paths valid_content]. split.
  - intros (H1 & H2 & H3). auto.
  - intros (H & H3). inversion H as [|? ? H1 H2]; subst. inversion H2; subst. auto.
Qed.
Lemma valid_byte_iff d : valid_byte_diff d <-> valid_diff (ByteChange d).
Proof.
  unfold valid_byte_diff, valid_diff. cbn [diff_paths valid_content]. split.
  - intros (H1 & H2 & H3). auto.
  - intros (H & H3). inversion H as [|? ? H1 H2]; subst. inversion H2; subst. auto.
Qed.
Lemma text_diff_typed d : valid_text_diff d -> has_type text_diff_ty (val_of_text_diff d).
Proof. intros V. apply valid_text_iff in V. exact (typed_diff (TextChange d) V). Qed.
Lemma byte_diff_typed d : valid_byte_diff d -> has_type byte_diff_ty (val_of_byte_diff d).
Proof. intros V. apply valid_byte_iff in V. exact (typed_diff (ByteChange d) V). Qed.
Lemma text_diff_typed' v : has_type text_diff_ty v -> exists d, v = val_of_text_diff d /\ valid_text_diff d.
Proof.
  intros H. assert (T : has_type diff_ty (VEnum 0 v)) by exact H. apply typed_diff' in T as (d & E & V). destruct d; try discriminate E. injection E as ->. eexists. split; [reflexivity|]. now apply valid_text_iff.
Qed.
Lemma byte_diff_typed' v : has_type byte_diff_ty v -> exists d, v = val_of_byte_diff d /\ valid_byte_diff d.
Proof.
  intros H. assert (T : has_type diff_ty (VEnum 3 v)) by exact H. apply typed_diff' in T as (d & E & V). destruct d; try discriminate E. injection E as ->. eexists. split; [reflexivity|]. now apply valid_byte_iff.
Qed.
Lemma text_diff_shape d j : shape text_diff_ty (val_of_text_diff d) j <-> text_change_json d j.
Proof. unfold text_diff_ty, val_of_text_diff, text_change_json, text_change_form. fields_eq; [reflexivity|reflexivity|apply array_map; apply text_clump_shape]. Qed.
Lemma byte_diff_shape d j : shape byte_diff_ty (val_of_byte_diff d) j <-> byte_change_json d j.
Proof. unfold byte_diff_ty, val_of_byte_diff, byte_change_json, byte_change_form. fields_eq; [reflexivity..|apply array_map; apply byte_clump_shape]. Qed.

Lemma text_accepts s d : text_diff_from_json s = Ok (Some d) <-> exists j, json_text j s /\ text_change_json d j.
Proof.
  unfold text_diff_from_json. rewrite (load_accepts _ text_diff_ty_wf text_diff_ty_nums _ _ _ text_diff_back text_diff_typed').
  split; intros (j & T & H); exists j; (split; [assumption|]); now apply text_diff_shape.
Qed.
Lemma byte_accepts s d : byte_diff_from_json s = Ok (Some d) <-> exists j, json_text j s /\ byte_change_json d j.
Proof.
  unfold byte_diff_from_json. rewrite (load_accepts _ byte_diff_ty_wf byte_diff_ty_nums _ _ _ byte_diff_back byte_diff_typed').
  split; intros (j & T & H); exists j; (split; [assumption|]); now apply byte_diff_shape.
Qed.
Lemma text_total s : text_diff_from_json s = Ok None \/ exists d, text_diff_from_json s = Ok (Some d) /\ valid_text_diff d.
Proof. exact (load_total _ text_diff_ty_nums _ _ _ text_diff_back text_diff_typed' s). Qed.
Lemma byte_total s : byte_diff_from_json s = Ok None \/ exists d, byte_diff_from_json s = Ok (Some d) /\ valid_byte_diff d.
Proof. exact (load_total _ byte_diff_ty_nums _ _ _ byte_diff_back byte_diff_typed' s). Qed.
Lemma text_rejects s : text_diff_from_json s = Ok None <-> ~ exists j d, json_text j s /\ text_change_json d j.
Proof.
  split.
  - intros E (j & d & H). assert (X : text_diff_from_json s = Ok (Some d)) by (apply text_accepts; eauto). congruence.
  - intros H. destruct (text_total s) as [E|(d & E & _)]; [exact E|]. elim H. apply text_accepts in E as (j & E). eauto.
Qed.
Lemma byte_rejects s : byte_diff_from_json s = Ok None <-> ~ exists j d, json_text j s /\ byte_change_json d j.
Proof.
  split.
  - intros E (j & d & H). assert (X : byte_diff_from_json s = Ok (Some d)) by (apply byte_accepts; eauto). congruence.
  - intros H. destruct (byte_total s) as [E|(d & E & _)]; [exact E|]. elim H. apply byte_accepts in E as (j & E). eauto.
Qed.
Lemma text_saved_tree d : valid_text_diff d -> saved_text_change d (tree text_diff_ty (val_of_text_diff d)).
Proof.
  intros (H1 & H2 & H3). unfold saved_text_change, text_change_form, text_diff_ty, val_of_text_diff. exact_fields; [reflexivity|reflexivity|].
  exact (exact_array (clump_ty TStr) val_of_text_clump _ valid_text_clump _ text_clump_tree H3).
Qed.
Lemma byte_saved_tree d : valid_byte_diff d -> saved_byte_change d (tree byte_diff_ty (val_of_byte_diff d)).
Proof.
  intros (H1 & H2 & H3). unfold saved_byte_change, byte_change_form, byte_diff_ty, val_of_byte_diff. exact_fields; [reflexivity|reflexivity|reflexivity|].
  exact (exact_array (clump_ty TU8) val_of_byte_clump _ valid_byte_clump _ byte_clump_tree H3).
Qed.
Lemma text_saved d : valid_text_diff d -> exists j, saved_text_change d j /\ text_diff_to_json d = (pretty 0 j, true) /\
  json_text j (pretty 0 j) /\ text_change_json d j /\ is_utf8 (pretty 0 j).
Proof.
  intros V. destruct (save_form _ text_diff_ty_wf _ _ text_diff_typed d V) as (E & T & S & U).
  eexists. split; [now apply text_saved_tree|]. split; [exact E|]. split; [exact T|]. split; [now apply text_diff_shape|exact U].
Qed.
Lemma byte_saved d : valid_byte_diff d -> exists j, saved_byte_change d j /\ byte_diff_to_json d = (pretty 0 j, true) /\
  json_text j (pretty 0 j) /\ byte_change_json d j /\ is_utf8 (pretty 0 j).
Proof.
  intros V. destruct (save_form _ byte_diff_ty_wf _ _ byte_diff_typed d V) as (E & T & S & U).
  eexists. split; [now apply byte_saved_tree|]. split; [exact E|]. split; [exact T|]. split; [now apply byte_diff_shape|exact U].
Qed.

(* ---------------- compared with whole diffs ---------------- *)
Lemma chars_form n : forallb (fun b => (32 <=? Byte.to_N b)%N && negb (Byte.eqb b x22) && negb (Byte.eqb b x5c)) n = true -> meaning n n.
Proof.
  induction n as [|b s IH]; intros H; [constructor|]. cbn [forallb] in H. apply andb_true_iff in H as [H1 H2]. apply andb_true_iff in H1 as [H1 H3]. apply andb_true_iff in H1 as [H1 H4].
  apply meaning_plain; [|auto]. split; [now apply N.leb_le|]. split; intros ->; [discriminate H4|discriminate H3].
Qed.
Lemma wrapped_text n s j : meaning n n -> json_text j s <-> json_text (JObj [(n, j)]) (wrapped n s).
Proof.
  intros M. assert (K : string_form n) by (eapply meaning_form; eauto). split.
  - intros (w & t & q & W & V & Q & ->). exists [], (wrapped n (w ++ t ++ q)), []. split; [apply blank_nil|]. split; [|split; [apply blank_nil|now rewrite app_nil_r]].
    replace (wrapped n (w ++ t ++ q)) with (x7b :: ([] ++ x22 :: n ++ x22 :: [] ++ x3a :: w ++ t ++ q) ++ [x7d]).
    + apply value_obj. apply members_one; auto using blank_nil.
    + unfold wrapped. change (chars "{""") with [x7b; x22]. change (chars """:") with [x22; x3a]. change (chars "}") with [x7d]. flat.
  - intros (w & t & q & W & V & Q & E). unfold wrapped in E. change (chars "{""") with [x7b; x22] in E. change (chars """:") with [x22; x3a] in E. change (chars "}") with [x7d] in E.
    assert (W0 : w = []) by (destruct w as [|b w]; [reflexivity|]; inversion W as [|? ? I]; subst; cbn in E; injection E as <- _; cbn in I; intuition discriminate). subst w. cbn [app] in E.
    inversion V as [| | | | | | | |ms x M0 E1 E2]; subst. cbn [app] in E. injection E as E.
    inversion M0 as [k w0 w1 jx w s' w' W0 K' W1 Ww Vs W'|]; subst.
    2:{ match goal with H : members_text [] _ |- _ => inversion H end. }
    rewrite <- !app_assoc in E. cbn [app] in E. apply (blank_prefix []) in E; auto using blank_nil; [|eexists; eexists; split; [reflexivity|reflexivity]..]. destruct E as [<- E]. injection E as E.
    rewrite <- !app_assoc in E. cbn [app] in E. apply string_prefix in E; auto. destruct E as [_ E]. rewrite <- !app_assoc in E. cbn [app] in E.
    apply (blank_prefix []) in E; auto using blank_nil; [|eexists; eexists; split; [reflexivity|reflexivity]..]. destruct E as [<- E]. injection E as E. rewrite <- !app_assoc in E. cbn [app] in E.
    exists w, s', w'. split; [assumption|]. split; [assumption|]. split; [assumption|].
    destruct q as [|b q _] using rev_ind.
    + assert (E' : s ++ [x7d] = (w ++ s' ++ w') ++ [x7d]) by (rewrite <- !app_assoc; exact E). now apply app_inv_tail in E'.
    + exfalso. apply Forall_app in Q as [_ Q]. inversion Q as [|? ? I _]; subst. change (x7d :: q ++ [b]) with ((x7d :: q) ++ [b]) in E. rewrite !app_assoc in E. apply app_inj_tail in E as [_ <-]. cbn in I. intuition discriminate.
Qed.
Lemma str_utf8 n : forallb (fun b => (Byte.to_N b <? 128)%N) n = true -> is_utf8 n.
Proof. exact (ascii_chars n). Qed.
Lemma plain_stands n : forallb (fun b => (32 <=? Byte.to_N b)%N && negb (Byte.eqb b x22) && negb (Byte.eqb b x5c)) n = true -> forallb (fun b => (Byte.to_N b <? 128)%N) n = true -> stands_for n n.
Proof. intros H U. split; [now apply chars_form|now apply ascii_chars]. Qed.
Lemma wrapped_tree n s : meaning n n -> forall x k, json_text (JObj [(k, x)]) (wrapped n s) -> k = n /\ json_text x s.
Proof.
  intros M x k T. assert (K : string_form n) by (eapply meaning_form; eauto).
  assert (Hk : k = n).
  { destruct T as (w & t & q & W & V & Q & E). unfold wrapped in E. change (chars "{""") with [x7b; x22] in E.
    assert (W0 : w = []) by (destruct w as [|b w]; [reflexivity|]; inversion W as [|? ? I]; subst; cbn in E; injection E as <- _; cbn in I; intuition discriminate). subst w. cbn [app] in E.
    inversion V as [| | | | | | | |ms y M0 E1 E2]; subst. cbn [app] in E. injection E as E.
    inversion M0 as [k' w0 w1 jx w s' w' W0 K' W1 Ww Vs W'|]; subst; [|match goal with H : members_text [] _ |- _ => inversion H end].
    rewrite <- !app_assoc in E. cbn [app] in E. apply (blank_prefix []) in E; auto using blank_nil; [|eexists; eexists; split; [reflexivity|reflexivity]..]. destruct E as [<- E]. injection E as E.
    rewrite <- !app_assoc in E. cbn [app] in E. change (chars """:") with [x22; x3a] in E. cbn [app] in E. apply string_prefix in E; auto. now destruct E. }
  subst k. split; [reflexivity|]. now apply (wrapped_text n s x M).
Qed.
Lemma text_wrapped s d : text_diff_from_json s = Ok (Some d) <-> diff_from_json (wrapped (chars "TextChange") s) = Ok (Some (TextChange d)).
Proof.
  rewrite text_accepts, accepts. assert (M : meaning (chars "TextChange") (chars "TextChange")) by now apply chars_form. split.
  - intros (j & T & H). exists (JObj [(chars "TextChange", j)]). split; [now apply (wrapped_text _ s j M)|]. exists (chars "TextChange"), j. split; [reflexivity|]. split; [now apply plain_stands|exact H].
  - intros (j & T & k & x & -> & _ & H). apply (wrapped_tree _ _ M) in T as [_ T]. exists x. split; [exact T|exact H].
Qed.
Lemma byte_wrapped s d : byte_diff_from_json s = Ok (Some d) <-> diff_from_json (wrapped (chars "ByteChange") s) = Ok (Some (ByteChange d)).
Proof.
  rewrite byte_accepts, accepts. assert (M : meaning (chars "ByteChange") (chars "ByteChange")) by now apply chars_form. split.
  - intros (j & T & H). exists (JObj [(chars "ByteChange", j)]). split; [now apply (wrapped_text _ s j M)|]. exists (chars "ByteChange"), j. split; [reflexivity|]. split; [now apply plain_stands|exact H].
  - intros (j & T & k & x & -> & _ & H). apply (wrapped_tree _ _ M) in T as [_ T]. exists x. split; [exact T|exact H].
Qed.
(* an object with a single member is no record with two fields *)
Lemma single_record k x n P m Q gs : record ((n, P) :: (m, Q) :: gs) (JObj [(k, x)]) -> n = m.
Proof.
  intros [(js & E & _)|(ms & E & _ & F)]; [discriminate|]. injection E as <-. inversion F as [|? ? H1 F1]; subst. inversion F1 as [|? ? H2 _]; subst. cbn [fst snd] in *.
  assert (G : forall n P, one_member [(k, x)] n P -> stands_for k n).
  { clear. intros n P (front & k' & j & back & E & S & _). destruct front as [|f front]; [injection E as <- <- _; exact S|]. destruct front; discriminate E. }
  apply G in H1, H2. eapply stands_for_unique; eauto.
Qed.
Lemma diff_single d j : diff_json d j -> exists k x, j = JObj [(k, x)].
Proof. destruct d; cbn; intros (k & x & -> & _); eauto. Qed.
Lemma diff_not_alone s d : diff_from_json s = Ok (Some d) -> text_diff_from_json s = Ok None /\ byte_diff_from_json s = Ok None.
Proof.
  intros H. apply accepts in H as (j & T & H). apply diff_single in H as (k & x & ->). split; [apply text_rejects|apply byte_rejects]; intros (j' & d' & T' & R);
    rewrite <- (one_tree _ _ _ T T') in R; apply single_record in R; discriminate R.
Qed.

(* ---------------- one kind of change diff taken for the other ---------------- *)
Lemma exact_lookup fs gs j n P : exact_record fs j -> Forall (fun f => is_utf8 (fst f)) fs -> record gs j -> In (n, P) gs -> exists Q x, In (n, Q) fs /\ Q x /\ P x.
Proof.
  intros (js & -> & F) U [(js' & E & _)|(ms & E & _ & G)] I; [discriminate|]. injection E as <-. rewrite Forall_forall in G. specialize (G _ I). cbn [fst snd] in G.
  destruct G as (front & k & x & back & E & S & Px & _). assert (Ik : In (k, x) (combine (map (fun f => spell (fst f)) fs) js)) by (rewrite E; apply in_elt). clear E I.
  induction F as [|f y fs js Hf F IH]; cbn [map combine] in Ik; [contradiction|]. inversion U as [|? ? U1 U2]; subst. destruct Ik as [Ik|Ik].
  - injection Ik as <- <-. assert (fst f = n) by (eapply stands_for_unique; [|exact S]; now apply spell_stands). subst n. exists (snd f), y. split; [left; now destruct f|auto].
  - destruct (IH U2 Ik) as (Q & z & I & H). exists Q, z. split; [now right|exact H].
Qed.
Ltac ascii_names := repeat (apply Forall_cons; [now apply ascii_chars|]); apply Forall_nil.
Ltac pick I := repeat (destruct I as [I|I]; [injection I; intros; first [discriminate | subst]|]); [..|contradiction].
Lemma text_not_byte d : valid_text_diff d -> byte_diff_from_json (fst (text_diff_to_json d)) = Ok None.
Proof.
  intros V. destruct (text_saved d V) as (j & S & E & T & _). rewrite E. cbn [fst]. apply byte_rejects. intros (j' & d' & T' & R). rewrite <- (one_tree _ _ _ T T') in R.
  destruct (exact_lookup _ _ j (chars "compressed") (boolean (bd_compressed d')) S ltac:(ascii_names) R ltac:(cbn; tauto)) as (Q & x & I & _).
  cbn [In] in I. repeat (destruct I as [I|I]; [discriminate I|]). contradiction.
Qed.
Lemma byte_text_items bs ts j : array one_byte bs j -> array text ts j -> bs = [].
Proof.
  intros (js & -> & F) (js' & E & F'). injection E as <-. destruct F as [|b x bs js (s & -> & _) _]; [reflexivity|]. inversion F' as [|? ? ? ? (s' & E & _)]. discriminate E.
Qed.
Lemma byte_text_snippet sb st j : snippet_form exact_record one_byte sb j -> snippet_form record text st j -> sn_items sb = [].
Proof.
  intros B T. destruct (exact_lookup _ _ j (chars "items") (array text (sn_items st)) B ltac:(ascii_names) T ltac:(cbn; tauto)) as (Q & x & I & Qx & Px).
  destruct I as [I|[I|[]]]; [discriminate I|]. injection I as <-. eapply byte_text_items; eauto.
Qed.
Lemma byte_text_clump c c' j : byte_clump_form exact_record c j -> text_clump_form text record c' j -> no_items c.
Proof.
  intros B T. split.
  - destruct (exact_lookup _ _ j (chars "before") (snippet_form record text (tc_before c')) B ltac:(ascii_names) T ltac:(cbn; tauto)) as (Q & x & I & Qx & Px).
    destruct I as [I|[I|[I|[]]]]; try discriminate I. injection I as <-. eapply byte_text_snippet; eauto.
  - destruct (exact_lookup _ _ j (chars "after") (snippet_form record text (tc_after c')) B ltac:(ascii_names) T ltac:(cbn; tauto)) as (Q & x & I & Qx & Px).
    destruct I as [I|[I|[I|[]]]]; try discriminate I. injection I as <-. eapply byte_text_snippet; eauto.
Qed.
Lemma exact_sub (fs gs : list (list byte * (json -> Prop))) j : exact_record fs j -> NoDup (map fst fs) -> Forall (fun f => is_utf8 (fst f)) fs ->
  Forall (fun g : list byte * (json -> Prop) => exists Q : json -> Prop, In (fst g, Q) fs /\ forall x, Q x -> snd g x) gs -> record gs j.
Proof.
  intros E D U G. pose proof E as (js & Ej & _). pose proof (exact_is_record fs j D (proj2 (Forall_map _ _ _) U) E) as R. subst j.
  destruct R as [(js' & E' & _)|(ms & E' & N & R)]; [discriminate|]. right. exists ms. split; [assumption|]. split; [assumption|].
  eapply Forall_impl; [|exact G]. cbv beta. intros g (Q & I & H). rewrite Forall_forall in R. destruct (R _ I) as (front & k & x & back & H1 & H2 & H3 & H4). cbn [fst snd] in *.
  exists front, k, x, back. auto.
Qed.
Definition as_text_clump (c : byte_clump) : text_clump :=
  TextClump (bc_context c) (Snippet (sn_start (bc_before c)) []) (Snippet (sn_start (bc_after c)) []).
Ltac nodup_names := cbn [map fst]; repeat (apply NoDup_cons; [cbn [In]; intros HI; repeat (destruct HI as [HI|HI]; [discriminate HI|]); exact HI|]); apply NoDup_nil.
Ltac same_field := eexists; split; [cbn [In fst]; repeat (first [left; reflexivity | right])|cbn [snd]; intros ? HQ].
Lemma text_of_byte_snippet sb j : sn_items sb = [] -> snippet_form exact_record one_byte sb j -> snippet_form record text (Snippet (sn_start sb) []) j.
Proof.
  intros E B. refine (exact_sub _ _ j B ltac:(nodup_names) ltac:(ascii_names) _). repeat (apply Forall_cons; [|]); [..|apply Forall_nil].
  - same_field. exact HQ.
  - same_field. rewrite E in HQ. destruct HQ as (js & -> & F). inversion F. exists []. split; [reflexivity|constructor].
Qed.
Lemma text_of_byte_clump c j : no_items c -> byte_clump_form exact_record c j -> text_clump_form text record (as_text_clump c) j.
Proof.
  intros [N1 N2] B. refine (exact_sub _ _ j B ltac:(nodup_names) ltac:(ascii_names) _). repeat (apply Forall_cons; [|]); [..|apply Forall_nil].
  - same_field. exact HQ.
  - same_field. now apply text_of_byte_snippet.
  - same_field. now apply text_of_byte_snippet.
Qed.
Lemma exact_text_is t j : is_utf8 t -> exact_text t j -> text t j.
Proof. intros U ->. eexists. split; [reflexivity|]. now apply spell_stands. Qed.
Lemma byte_as_text d : valid_byte_diff d -> (exists d', text_diff_from_json (fst (byte_diff_to_json d)) = Ok (Some d')) <-> Forall no_items (bd_clumps d).
Proof.
  intros V. destruct (byte_saved d V) as (j & S & E & T & _). rewrite E. cbn [fst]. split.
  - intros (d' & A). apply text_accepts in A as (j' & T' & R). rewrite <- (one_tree _ _ _ T T') in R.
    destruct (exact_lookup _ _ j (chars "clumps") (array (text_clump_form text record) (td_clumps d')) S ltac:(ascii_names) R ltac:(cbn; tauto)) as (Q & x & I & Qx & Px).
    destruct I as [I|[I|[I|[I|[]]]]]; try discriminate I. injection I as <-. destruct Qx as (js & -> & F), Px as (js' & Ej & F'). injection Ej as <-.
    remember (td_clumps d') as cl eqn:Ecl. clear Ecl. revert cl F'. induction F as [|c y l js H F IH]; intros cl F'; constructor; inversion F'; subst; [eapply byte_text_clump; eauto|eauto].
  - intros N. destruct V as (V1 & V2 & V3). exists (TextDiff (bd_before d) (bd_after d) (map as_text_clump (bd_clumps d))). apply text_accepts. exists j. split; [exact T|].
    refine (exact_sub _ _ j S ltac:(nodup_names) ltac:(ascii_names) _). repeat (apply Forall_cons; [|]); [..|apply Forall_nil].
    + same_field. now apply exact_text_is.
    + same_field. now apply exact_text_is.
    + same_field. destruct HQ as (js & -> & F). exists js. split; [reflexivity|]. cbn [td_clumps]. induction F as [|c y l js H F IH]; cbn [map]; constructor; inversion N; inversion V3; subst; [now apply text_of_byte_clump|auto].
Qed.

(* Proof_Weight.v - how long a JSON text must be to hold a diff (used by C113). *)
From Coq Require Import String.
From Verif Require Import Base Model_Seq Model_Changes Model_IO Model_Text Model_Bytes Model_Json Spec Spec_Json Spec_Result Proof_Grammar Proof_Values.

(* ---------------- the shortest spelling of a tree ---------------- *)
Fixpoint weight (j : json) : nat :=
  match j with
  | JNull | JTrue => 4
  | JFalse => 5
  | JNum s => List.length s
  | JStr s => 2 + List.length s
  | JArr [] | JObj [] => 2
  | JArr js => 1 + fold_right (fun x n => weight x + 1 + n) 0 js
  | JObj ms => 1 + fold_right (fun m n => List.length (fst m) + weight (snd m) + 4 + n) 0 ms
  end.
Definition items_weight (js : list json) : nat := sum_of (fun x => weight x + 1) js.
Definition members_weight (ms : list (list byte * json)) : nat := sum_of (fun m => List.length (fst m) + weight (snd m) + 4) ms.
Lemma weight_arr js : 1 + items_weight js <= weight (JArr js).
Proof.
  destruct js as [|x js]; [cbn; lia|]. cbn [weight]. unfold items_weight, sum_of. lia.
Qed.
Lemma weight_arr2 js : 2 + sum_of weight js <= weight (JArr js).
Proof.
  destruct js as [|x js]; [cbn; lia|]. cbn [weight sum_of fold_right].
  enough (sum_of weight js <= fold_right (fun x n => weight x + 1 + n) 0 js) by (unfold sum_of in *; lia).
  induction js as [|y js IH]; cbn; [lia|]. unfold sum_of in IH. lia.
Qed.
Lemma weight_obj ms : 1 + members_weight ms <= weight (JObj ms).
Proof. destruct ms as [|x ms]; [cbn; lia|]. cbn [weight]. unfold members_weight, sum_of. lia. Qed.

Lemma shortest : (forall j s, value_text j s -> weight j <= List.length s) /\
  (forall js s, items_text js s -> js <> [] /\ items_weight js <= 1 + List.length s) /\
  (forall ms s, members_text ms s -> ms <> [] /\ members_weight ms <= 1 + List.length s).
Proof.
  apply grammar_ind; intros; cbn [weight].
  all: try (cbn; lia).
  all: rewrite ?app_length in *; cbn [List.length] in *; rewrite ?app_length in *; cbn [List.length] in *; rewrite ?app_length in *; cbn [List.length] in *; rewrite ?app_length in *.
  all: try lia.
  - match goal with H : _ /\ _ |- _ => destruct H as [Hn H1] end. destruct js; [congruence|]. unfold items_weight, sum_of in H1. lia.
  - match goal with H : _ /\ _ |- _ => destruct H as [Hn H1] end. destruct ms; [congruence|]. unfold members_weight, sum_of in H1. lia.
  - split; [discriminate|]. cbn [items_weight sum_of fold_right]. lia.
  - split; [discriminate|]. match goal with H : _ /\ _ |- _ => destruct H as [_ HH] end. unfold items_weight in *. cbn [sum_of fold_right]. unfold sum_of in *. cbn [List.length] in *. lia.
  - split; [discriminate|]. cbn [members_weight sum_of fold_right fst snd]. lia.
  - split; [discriminate|]. match goal with H : _ /\ _ |- _ => destruct H as [_ HH] end. unfold members_weight in *. cbn [sum_of fold_right fst snd]. unfold sum_of in *. cbn [List.length] in *. lia.
Qed.
Lemma shortest_text j s : json_text j s -> weight j <= List.length s.
Proof. intros (w & t & w' & _ & H & _ & ->). apply (proj1 shortest) in H. rewrite !app_length. lia. Qed.

Lemma utf8_encode_size n : List.length (utf8_encode n) <= 4.
Proof. unfold utf8_encode. repeat destruct (_ <? _)%N; cbn; lia. Qed.
Lemma meaning_size s t : meaning s t -> List.length t <= List.length s.
Proof.
  induction 1 as [| | |u n c s t Hu Hs Hc _ IH|u hi u' lo c s t Hu Hu' _ _ Hc _ IH]; cbn [List.length]; try lia.
  - apply (f_equal (@List.length N)) in Hc. rewrite map_length in Hc. pose proof (utf8_encode_size n).
    destruct Hu as (b1 & b2 & b3 & b4 & n1 & n2 & n3 & n4 & -> & _). rewrite !app_length. cbn. lia.
  - apply (f_equal (@List.length N)) in Hc. rewrite map_length in Hc.
    match type of Hc with context [utf8_encode ?n] => pose proof (utf8_encode_size n) end.
    rewrite !app_length. cbn [List.length]. rewrite app_length. destruct Hu as (b1 & b2 & b3 & b4 & n1 & n2 & n3 & n4 & -> & _). cbn. lia.
Qed.
Lemma text_weight t j : text t j -> 2 + List.length t <= weight j.
Proof. intros (s & -> & H & _). apply meaning_size in H. cbn. lia. Qed.
Lemma number_weight max z j : number max z j -> 1 <= weight j.
Proof.
  intros (s & -> & H & _). cbn. destruct s as [|b s]; [|cbn; lia]. destruct H as [H|[[H _] _]]; [discriminate|congruence].
Qed.
Lemma two_weight (P Q : json -> Prop) p q j : (forall x, P x -> p <= weight x) -> (forall x, Q x -> q <= weight x) -> two P Q j -> 3 + p + q <= weight j.
Proof. intros HP HQ (x & y & -> & Hx & Hy). apply HP in Hx. apply HQ in Hy. cbn. lia. Qed.
Lemma array_weight {A} (P : A -> json -> Prop) f l j : (forall a x, P a x -> f a <= weight x) -> array P l j ->
  1 + sum_of (fun a => f a + 1) l <= weight j /\ 2 + sum_of f l <= weight j.
Proof.
  intros HP (js & -> & H). pose proof (weight_arr js) as W. pose proof (weight_arr2 js) as W2.
  enough (sum_of (fun a => f a + 1) l <= items_weight js /\ sum_of f l <= sum_of weight js) by lia.
  clear W W2. induction H as [|a x l js Hx _ [IH1 IH2]]; [split; auto|]. apply HP in Hx. unfold items_weight in *. cbn [sum_of fold_right]. unfold sum_of in *. cbn [List.length] in *. lia.
Qed.

Lemma sum_of_app {A} (f : A -> nat) x y : sum_of f (x ++ y) = sum_of f x + sum_of f y.
Proof. induction x as [|a x IH]; [reflexivity|]. cbn. unfold sum_of in *. lia. Qed.
Lemma members_of_fields : forall (fields : list (list byte * (json -> Prop))) (bounds : list nat) ms,
  NoDup (map fst fields) -> Forall2 (fun (f : list byte * (json -> Prop)) b => forall x, snd f x -> b <= weight x) fields bounds ->
  Forall (fun f => one_member ms (fst f) (snd f)) fields ->
  sum_of (fun b => b + 1) bounds <= members_weight ms.
Proof.
  intros fields bounds ms Hn Hb. revert ms Hn. induction Hb as [|[name P] b fields bounds Hb _ IH]; intros ms Hn Hf; [unfold sum_of; cbn; lia|].
  cbn in Hn. inversion Hn as [|? ? Hn1 Hn2]; subst. inversion Hf as [|? ? (front & k & j & back & -> & Hk & Hj & Ho) Hf2]; subst. cbn [fst snd] in *.
  assert (H : sum_of (fun b => b + 1) bounds <= members_weight (front ++ back)).
  { apply IH; [assumption|]. rewrite Forall_forall in Hf2 |- *. intros [nm Q] Hin. specialize (Hf2 _ Hin). cbn [fst snd] in *.
    assert (Hne : nm <> name). { intros ->. apply Hn1. apply in_map_iff. exists (name, Q). auto. }
    destruct Hf2 as (fr & k' & j' & bk & E & Hk' & Hj' & Ho').
    assert (Hd : (k', j') <> (k, j)). { intros [= -> ->]. apply Hne. eapply stands_for_unique; eassumption. }
    assert (Hin' : In (k', j') (front ++ back)).
    { assert (In (k', j') (front ++ (k, j) :: back)) as Hi by (rewrite E; apply in_or_app; right; now left).
      apply in_app_or in Hi as [Hi|[Hi|Hi]]; [apply in_or_app; now left|congruence|apply in_or_app; now right]. }
    assert (Hall : forall m, In m (front ++ back) -> stands_for (fst m) nm -> In m [(k', j')] ).
    { intros m Hm Hs. assert (In m (fr ++ (k', j') :: bk)) as Hi.
      { rewrite <- E. apply in_app_or in Hm as [Hm|Hm]; apply in_or_app; [now left|right; now right]. }
      apply in_app_or in Hi as [Hi|[Hi|Hi]]; [|now left|]; rewrite Forall_forall in Ho'; elim (Ho' m); auto; apply in_or_app; auto. }
    (* split at the occurrence *)
    clear Ho Hf Hb IH. revert E. 
    assert (G : forall fr bk, front ++ (k, j) :: back = fr ++ (k', j') :: bk ->
      exists fr' bk', front ++ back = fr' ++ (k', j') :: bk' /\ incl (fr' ++ bk') (fr ++ bk)).
    { clear - Hd. intros fr bk E. revert fr E. induction front as [|m front IH]; intros fr E.
      - destruct fr as [|m' fr]; cbn in E; [congruence|]. injection E as <- ->. exists fr, bk. split; [reflexivity|]. cbn. intros x Hx. now right.
      - destruct fr as [|m' fr]; cbn in E; injection E as -> E.
        + subst bk. exists [], (front ++ back). split; [reflexivity|]. cbn. intros x Hx. apply in_app_or in Hx as [Hx|Hx]; apply in_or_app; [now left|right; now right].
        + destruct (IH fr E) as (fr' & bk' & E' & Hi). exists (m' :: fr'), bk'. cbn. rewrite E'. split; [reflexivity|].
          intros x [Hx|Hx]; [now left|right; now apply Hi]. }
    intros E. destruct (G fr bk E) as (fr' & bk' & E' & Hi). exists fr', k', j', bk'. split; [assumption|]. split; [assumption|]. split; [assumption|].
    rewrite Forall_forall in Ho' |- *. intros m Hm. apply Ho'. now apply Hi. }
  apply Hb in Hj. unfold members_weight in *. rewrite sum_of_app in *. cbn [sum_of fold_right fst snd]. unfold sum_of in *. cbn [List.length] in *. lia.
Qed.
Lemma record_weight fields bounds j : NoDup (map fst fields) -> Forall2 (fun (f : list byte * (json -> Prop)) b => forall x, snd f x -> b <= weight x) fields bounds ->
  record fields j -> 1 + sum_of (fun b => b + 1) bounds <= weight j.
Proof.
  intros Hn Hb [(js & -> & H)|(ms & -> & _ & H)].
  - pose proof (weight_arr js) as W. enough (sum_of (fun b => b + 1) bounds <= items_weight js) by lia. clear W Hn.
    revert js H. induction Hb as [|f b fields bounds Hb _ IH]; intros js H; inversion H as [|? x ? js' Hx Hs]; subst; [unfold sum_of; cbn; lia|].
    apply Hb in Hx. apply IH in Hs. unfold items_weight in *. cbn [sum_of fold_right]. unfold sum_of in *. cbn [List.length] in *. lia.
  - pose proof (weight_obj ms). pose proof (members_of_fields fields bounds ms Hn Hb H). lia.
Qed.
Lemma variant_weight name (P : json -> Prop) b j : (forall x, P x -> b <= weight x) -> variant name P j -> b <= weight j.
Proof. intros HP (k & x & -> & _ & H). apply HP in H. cbn. lia. Qed.

(* ---------------- diffs ---------------- *)
Ltac distinct := repeat constructor; cbn; intuition discriminate.
Lemma snippet_weight {T} (item : T -> json -> Prop) f (s : snippet T) j : (forall a x, item a x -> f a <= weight x) ->
  snippet_form record item s j -> 6 + sum_of f (sn_items s) <= weight j.
Proof.
  intros Hi H. apply (record_weight _ [1; 2 + sum_of f (sn_items s)]) in H; [cbn in H; lia|distinct|].
  repeat constructor; cbn [snd]; [apply number_weight|]. intros x Hx. now apply (array_weight _ f) in Hx.
Qed.
Lemma sum_of_ext {A} (f g : A -> nat) l : (forall x, f x = g x) -> sum_of f l = sum_of g l.
Proof. intros H. induction l as [|a l IH]; [reflexivity|]. cbn. rewrite H. unfold sum_of in *. lia. Qed.
Lemma text_size_sum ls : text_size ls = sum_of (fun l : line => List.length l) ls.
Proof. induction ls as [|l ls IH]; [reflexivity|]. unfold text_size in *. cbn. rewrite app_length. unfold sum_of in *. lia. Qed.
Lemma sum_of_le {A} (f g : A -> nat) l : (forall x, f x <= g x) -> sum_of f l <= sum_of g l.
Proof. intros H. induction l as [|a l IH]; [auto|]. cbn. specialize (H a). unfold sum_of in *. lia. Qed.
Lemma text_clump_weight c j : text_clump_form text record c j ->
  21 + sum_of (fun l : line => 2 + List.length l) (sn_items (tc_before c)) + sum_of (fun l : line => 2 + List.length l) (sn_items (tc_after c)) <= weight j.
Proof.
  intros H. apply (record_weight _ [5; 6 + sum_of (fun l : line => 2 + List.length l) (sn_items (tc_before c)); 6 + sum_of (fun l : line => 2 + List.length l) (sn_items (tc_after c))]) in H; [cbn [sum_of fold_right] in H |- *; lia|distinct|].
  repeat constructor; cbn [snd].
  - intros x Hx. apply (two_weight _ _ 1 1) in Hx; [exact Hx| |]; apply number_weight.
  - intros x Hx. eapply snippet_weight; [|exact Hx]. intros a y Hy. now apply text_weight.
  - intros x Hx. eapply snippet_weight; [|exact Hx]. intros a y Hy. now apply text_weight.
Qed.
Lemma byte_clump_weight c j : byte_clump_form record c j -> List.length (sn_items (bc_before c)) + List.length (sn_items (bc_after c)) <= weight j.
Proof.
  assert (L : forall l : list byte, List.length l = sum_of (fun _ => 1) l) by (induction l as [|a l IH]; [reflexivity|cbn; now rewrite IH]).
  intros H. apply (record_weight _ [5; 6 + sum_of (fun _ => 1) (sn_items (bc_before c)); 6 + sum_of (fun _ => 1) (sn_items (bc_after c))]) in H; [|distinct|].
  - rewrite !L. revert H. generalize (sum_of (fun _ : byte => 1) (sn_items (bc_before c))) (sum_of (fun _ : byte => 1) (sn_items (bc_after c))).
    intros m n H. cbn in H. lia.
  - repeat constructor; cbn [snd].
    + intros x Hx. apply (two_weight _ _ 1 1) in Hx; [exact Hx| |]; apply number_weight.
    + intros x Hx. eapply snippet_weight; [|exact Hx]. intros a y Hy. eapply number_weight; eassumption.
    + intros x Hx. eapply snippet_weight; [|exact Hx]. intros a y Hy. eapply number_weight; eassumption.
Qed.
(* every clump is at least 22 bytes of JSON, every line two more than it is long *)
Lemma text_diff_weight d j : diff_json (TextChange d) j ->
  sum_of (fun c => 22 + sum_of (fun l : line => 2 + List.length l) (sn_items (tc_before c)) + sum_of (fun l : line => 2 + List.length l) (sn_items (tc_after c))) (td_clumps d) <= weight j.
Proof.
  apply variant_weight. intros x Hx. set (g := sum_of _ _).
  apply (record_weight _ [0; 0; 1 + g]) in Hx; [cbn [sum_of fold_right] in Hx; lia|distinct|].
  repeat constructor; cbn [snd]; [intros; lia|intros; lia|]. intros y Hy. eapply array_weight in Hy as [Hy _]; [|intros c z Hz; apply (text_clump_weight c z Hz)].
  etransitivity; [|exact Hy]. apply le_n_S. apply sum_of_le. intros c. lia.
Qed.
Lemma byte_diff_weight d j : diff_json (ByteChange d) j ->
  sum_of (fun c => List.length (sn_items (bc_before c)) + List.length (sn_items (bc_after c))) (bd_clumps d) <= weight j.
Proof.
  apply variant_weight. intros x Hx. set (g := sum_of _ _).
  apply (record_weight _ [0; 0; 0; g]) in Hx; [cbn [sum_of fold_right] in Hx; lia|distinct|].
  repeat constructor; cbn [snd]; [intros; lia|intros; lia|intros; lia|]. intros y Hy. eapply array_weight in Hy as [_ Hy]; [|intros c z Hz; apply (byte_clump_weight c z Hz)].
  unfold g. lia.
Qed.

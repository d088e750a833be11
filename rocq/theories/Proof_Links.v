(* Proof_Links.v - the patch tool on a file system with links. *)
From Verif Require Import Base Model_Seq Model_Changes Model_IO Model_Text Model_Bytes Model_Json Model_Files Model_Conc Model_Links Spec Spec_Files Spec_Links Proof_Seq Proof_Utf8 Proof_Json Proof_IO Proof_Text Proof_Bytes Proof_Term Proof_Files Proof_Conc.

(* ------------------------------------------------------------------ *)
(* Names and files                                                     *)
(* ------------------------------------------------------------------ *)
Lemma path_reflect p q : reflect (p = q) (path_eqb p q).
Proof. apply iff_reflect. symmetry. apply path_eqb_spec. Qed.
Lemma follow_spec I k : forall p q, follow k (names I) p = Some q <-> leads_to I k p q.
Proof.
  induction k as [|k IH]; intros p q; cbn [follow]; (split; [|intros H; inversion H as [k' p' Hp|k' p' q' r Hp Hr]; subst]).
  - destruct (names I p) as [[n| |r]|] eqn:Ep; intros [= <-]; constructor; congruence.
  - destruct (names I q) as [[n| |r]|] eqn:Ep; try reflexivity. now destruct (Hp r).
  - destruct (names I p) as [[n| |r]|] eqn:Ep; try (intros [= <-]; constructor; congruence). intros H. econstructor; [eassumption|]. now apply IH.
  - destruct (names I q) as [[n| |r]|] eqn:Ep; try reflexivity. now destruct (Hp r).
  - rewrite Hp. now apply IH.
Qed.
Definition node_at (I : ifs) (q : path) : option node :=
  match names I q with
  | Some (EFile n) => Some (File (fst (nodes I n)) (snd (nodes I n)))
  | Some EDir => Some Dir
  | _ => None
  end.
Definition view (I : ifs) (p : path) : option node := match resolve I p with Some q => node_at I q | None => None end.
Lemma follow_end k nm p q : follow k nm p = Some q -> forall r, nm q <> Some (ELink r).
Proof.
  revert p. induction k as [|k IH]; intros p H r; cbn [follow] in H; destruct (nm p) as [[n| |s]|] eqn:Ep; try discriminate; try (injection H as <-; congruence). now apply (IH s).
Qed.
Lemma seen_view I p n : seen_at I p n <-> view I p = n.
Proof.
  unfold view, resolve, node_at. split.
  - intros [q k m d Hq Hn Hd|q Hq Hn|q Hq Hn|Hl].
    + apply follow_spec in Hq. rewrite Hq, Hn, Hd. reflexivity.
    + apply follow_spec in Hq. now rewrite Hq, Hn.
    + apply follow_spec in Hq. now rewrite Hq, Hn.
    + destruct (follow 40 (names I) p) as [q|] eqn:Eq; [|reflexivity]. apply follow_spec in Eq. now apply Hl in Eq.
  - intros <-. destruct (follow 40 (names I) p) as [q|] eqn:Eq.
    + pose proof (follow_end _ _ _ _ Eq) as Hend. apply follow_spec in Eq. destruct (names I q) as [[k| |r]|] eqn:En.
      * destruct (nodes I k) as [m d] eqn:Ek. econstructor; eassumption.
      * econstructor; eassumption.
      * now destruct (Hend r).
      * econstructor; eassumption.
    + apply sa_loop. intros q Hq. apply follow_spec in Hq. congruence.
Qed.
Lemma name_same I p e : names (upd_name I p e) p = e.
Proof. cbn. now rewrite path_eqb_refl. Qed.
Lemma name_other I p e q : p <> q -> names (upd_name I p e) q = names I q.
Proof. intros H. cbn. now rewrite (path_eqb_neq _ _ H). Qed.
Lemma node_same I n x : nodes (upd_node I n x) n = x.
Proof. cbn. now rewrite Nat.eqb_refl. Qed.
Lemma node_other I n x k : n <> k -> nodes (upd_node I n x) k = nodes I k.
Proof. intros H. cbn. now rewrite (proj2 (Nat.eqb_neq n k) H). Qed.

(* ------------------------------------------------------------------ *)
(* Without links                                                       *)
(* ------------------------------------------------------------------ *)
Definition like (I : ifs) (f : fs) : Prop := wellformed I /\ linkless I /\ forall p, node_at I p = f p.
Lemma linkless_resolve I p : linkless I -> resolve I p = Some p.
Proof. intros [H _]. unfold resolve. cbn [follow]. destruct (names I p) as [[n| |q]|] eqn:Ep; try reflexivity. now destruct (H p q). Qed.
Lemma linkless_view I p : linkless I -> view I p = node_at I p.
Proof. intros H. unfold view. now rewrite linkless_resolve. Qed.
Lemma like_iff I f : wellformed I -> linkless I -> (like I f <-> looks_like I f).
Proof.
  intros Hw Hl. split.
  - intros (_ & _ & H) p. apply seen_view. now rewrite linkless_view.
  - intros H. split; [assumption|]. split; [assumption|]. intros p. rewrite <- linkless_view by assumption. now apply seen_view.
Qed.
Lemma like_file I f p m d : like I f -> f p = Some (File m d) -> exists n, names I p = Some (EFile n) /\ nodes I n = (m, d).
Proof.
  intros (_ & _ & H) Hp. rewrite <- H in Hp. unfold node_at in Hp. destruct (names I p) as [[n| |]|]; try discriminate. injection Hp as <- <-.
  exists n. split; [reflexivity|]. apply surjective_pairing.
Qed.
Lemma like_dir I f p : like I f -> f p = Some Dir -> names I p = Some EDir.
Proof. intros (_ & _ & H) Hp. rewrite <- H in Hp. unfold node_at in Hp. destruct (names I p) as [[n| |]|]; try discriminate. reflexivity. Qed.
Lemma like_none I f p : like I f -> f p = None -> names I p = None.
Proof. intros (_ & [H1 _] & H) Hp. rewrite <- H in Hp. unfold node_at in Hp. destruct (names I p) as [[n| |q]|] eqn:E; try discriminate; [now destruct (H1 p q)|reflexivity]. Qed.
Lemma like_new I f p m : like I f -> f p = None -> like (new_file I p m) (upd f p (Some (File m []))).
Proof.
  intros H Hp. pose proof (like_none _ _ _ H Hp) as Hn. destruct H as (Hw & [H1 H2] & H3). unfold new_file. split; [|split; [split|]]; cbn [names nodes used].
  - intros q n Hq. cbn in Hq. destruct (path_eqb p q); [injection Hq as <-; cbn; lia|]. apply Hw in Hq. cbn. lia.
  - intros q r. cbn. destruct (path_eqb p q); [discriminate|apply H1].
  - intros q r n. cbn. destruct (path_reflect p q) as [<-|Nq], (path_reflect p r) as [<-|Nr]; try reflexivity; intros Hq Hr.
    + injection Hq as <-. apply Hw in Hr. lia.
    + injection Hr as <-. apply Hw in Hq. lia.
    + now apply (H2 q r n).
  - intros q. destruct (path_dec q p) as [->|Nq].
    + rewrite upd_same. unfold node_at. cbn. rewrite path_eqb_refl, Nat.eqb_refl. reflexivity.
    + rewrite upd_other by congruence. rewrite <- H3. unfold node_at. cbn. rewrite (path_eqb_neq p q) by congruence.
      destruct (names I q) as [[n| |]|] eqn:Eq; try reflexivity. apply Hw in Eq. rewrite (proj2 (Nat.eqb_neq (used I) n)) by lia. reflexivity.
Qed.
Lemma like_node I f p n m d : like I f -> names I p = Some (EFile n) -> like (upd_node I n (m, d)) (upd f p (Some (File m d))).
Proof.
  intros (Hw & [H1 H2] & H3) Hn. split; [|split; [split|]].
  - intros q k. apply Hw.
  - apply H1.
  - apply H2.
  - intros q. destruct (path_dec q p) as [->|Nq].
    + rewrite upd_same. unfold node_at. cbn [names upd_node]. rewrite Hn. rewrite node_same. reflexivity.
    + rewrite upd_other by congruence. rewrite <- H3. unfold node_at. cbn [names upd_node]. destruct (names I q) as [[k| |]|] eqn:Eq; try reflexivity.
      destruct (Nat.eq_dec n k) as [<-|Nk]; [now destruct (Nq (H2 q p n Eq Hn))|]. now rewrite node_other.
Qed.
Lemma like_remove I f p : like I f -> like (upd_name I p None) (upd f p None).
Proof.
  intros (Hw & [H1 H2] & H3). split; [|split; [split|]].
  - intros q k. cbn. destruct (path_eqb p q); [discriminate|apply Hw].
  - intros q r. cbn. destruct (path_eqb p q); [discriminate|apply H1].
  - intros q r n. cbn. destruct (path_eqb p q); [discriminate|]. destruct (path_eqb p r); [discriminate|]. apply H2.
  - intros q. destruct (path_dec q p) as [->|Nq].
    + rewrite upd_same. unfold node_at. cbn. now rewrite path_eqb_refl.
    + rewrite upd_other by congruence. rewrite <- H3. unfold node_at. cbn. now rewrite (path_eqb_neq p q) by congruence.
Qed.
Lemma like_move I f p q n m d : like I f -> names I p = Some (EFile n) -> nodes I n = (m, d) -> p <> q ->
  like (upd_name (upd_name I p None) q (Some (EFile n))) (upd (upd f p None) q (Some (File m d))).
Proof.
  intros (Hw & [H1 H2] & H3) Hn Hd Hpq. split; [|split; [split|]].
  - intros r k. cbn. destruct (path_eqb q r); [intros [= <-]; now apply (Hw p)|]. destruct (path_eqb p r); [discriminate|apply Hw].
  - intros r s. cbn. destruct (path_eqb q r); [discriminate|]. destruct (path_eqb p r); [discriminate|apply H1].
  - intros r s k. cbn. destruct (path_reflect q r) as [<-|Nr], (path_reflect q s) as [<-|Ns]; try reflexivity.
    + destruct (path_reflect p s) as [<-|Np]; [discriminate|]. intros [= <-] Hs. now destruct (Np (H2 p s n Hn Hs)).
    + destruct (path_reflect p r) as [<-|Np]; [discriminate|]. intros Hr [= <-]. now destruct (Np (H2 p r n Hn Hr)).
    + destruct (path_eqb p r); [discriminate|]. destruct (path_eqb p s); [discriminate|]. apply H2.
  - intros r. destruct (path_dec r q) as [->|Nr].
    + rewrite upd_same. unfold node_at. cbn. now rewrite path_eqb_refl, Hd.
    + rewrite upd_other by congruence. unfold node_at. cbn. rewrite (path_eqb_neq q r) by congruence. destruct (path_dec r p) as [->|Np].
      * now rewrite upd_same, path_eqb_refl.
      * rewrite upd_other, (path_eqb_neq p r) by congruence. apply H3.
Qed.

(* the same outcome through alike states *)
Definition matches (E : env) (a : iact) (b : act) (I : ifs) (f : fs) : Prop := forall n s out,
  exists o seen J seen' g n', irun E a n I = (o, seen, J) /\ perform E b (World f s n out) = (o, World g (s ++ seen') n' out) /\
    Forall2 like seen seen' /\ like J g.
Lemma matches_end E o I f : like I f -> matches E (IEnd o) (AEnd o) I f.
Proof. intros H n s out. exists o, [], I, [], f, n. cbn. rewrite app_nil_r. repeat split; [constructor|apply H..]. Qed.
Lemma last_like st st' I f : Forall2 like st st' -> like I f -> like (last st I) (last st' f).
Proof.
  intros H Hf. induction H as [|x y st st' Hx H IH]; [assumption|]. destruct H; [assumption|]. exact IH.
Qed.
Lemma matches_op E {A B} (h : fault -> ifs -> A * list ifs) (k : A -> iact) (h' : fault -> fs -> B * list fs) (k' : B -> act) I f : like I f ->
  (forall flt, Forall2 like (snd (h flt I)) (snd (h' flt f)) /\
     matches E (k (fst (h flt I))) (k' (fst (h' flt f))) (last (snd (h flt I)) I) (last (snd (h' flt f)) f)) ->
  matches E (IOp h k) (AOp h' k') I f.
Proof.
  intros Hl H n s out. destruct (H (e_fault E n)) as [H1 H2]. destruct (h (e_fault E n) I) as [a st] eqn:Eh, (h' (e_fault E n) f) as [b st'] eqn:Eh'.
  cbn [fst snd] in *. destruct (H2 (S n) (s ++ st') out) as (o & seen & J & seen' & g & n' & R1 & R2 & R3 & R4).
  exists o, (st ++ seen), J, (st' ++ seen'), g, n'. cbn [irun perform]. rewrite Eh, R1. split; [reflexivity|]. split; [|split; [now apply Forall2_app|assumption]].
  unfold pbnd, op. cbn [w_ops w_fs w_seen w_stdout]. rewrite Eh', R2. now rewrite app_assoc.
Qed.
Lemma matches_pure E {A} (m : res A) k k' I f : like I f -> (forall a, matches E (k a) (k' a) I f) -> matches E (i_pure m k) (a_pure m k') I f.
Proof. intros Hl H. destruct m; cbn [i_pure a_pure]; [apply H|now apply matches_end..]. Qed.

Lemma matches_drop E o I f : like I f -> matches E (i_drop E o) (a_drop E o) I f.
Proof.
  intros Hl. apply matches_op; [assumption|]. intros flt. unfold i_remove, o_remove.
  destruct flt; [|split; [constructor|now apply matches_end]..]. destruct (f (e_tmp E)) as [[m d|]|] eqn:Ef.
  - destruct (like_file _ _ _ _ _ Hl Ef) as (n & En & _). rewrite En. cbn [fst snd last]. pose proof (like_remove _ _ (e_tmp E) Hl). split; [constructor; [assumption|constructor]|now apply matches_end].
  - rewrite (like_dir _ _ _ Hl Ef). split; [constructor|now apply matches_end].
  - rewrite (like_none _ _ _ Hl Ef). split; [constructor|now apply matches_end].
Qed.
Lemma matches_rename E t I f : like I f -> matches E (i_change_end E t) (a_rename E t) I f.
Proof.
  intros Hl. apply matches_op; [assumption|]. intros flt. unfold i_rename, o_rename.
  destruct flt; [|split; [constructor|now apply matches_end]..]. destruct (f (e_tmp E)) as [[m d|]|] eqn:Ef.
  - destruct (like_file _ _ _ _ _ Hl Ef) as (n & En & Ed). rewrite En. destruct (f t) as [[m' d'|]|] eqn:Et.
    + destruct (like_file _ _ _ _ _ Hl Et) as (k & Ek & _). rewrite Ek. cbn [fst snd]. destruct (path_reflect (e_tmp E) t) as [Eq|Nq].
      * rewrite Eq in En. assert (n = k) as -> by congruence. rewrite Nat.eqb_refl. split; [constructor|now apply matches_drop].
      * rewrite (proj2 (Nat.eqb_neq n k)) by (intros ->; destruct Hl as (_ & [_ H2] & _); now apply Nq, (H2 _ _ k)).
        pose proof (like_move _ _ _ t _ _ _ Hl En Ed Nq). split; [constructor; [assumption|constructor]|now apply matches_drop].
    + rewrite (like_dir _ _ _ Hl Et). split; [constructor|now apply matches_end].
    + rewrite (like_none _ _ _ Hl Et). cbn [fst snd]. destruct (path_reflect (e_tmp E) t) as [Eq|Nq]; [congruence|].
      pose proof (like_move _ _ _ t _ _ _ Hl En Ed Nq). split; [constructor; [assumption|constructor]|now apply matches_drop].
  - rewrite (like_dir _ _ _ Hl Ef). split; [constructor|now apply matches_end].
  - rewrite (like_none _ _ _ Hl Ef). destruct (names I t) as [[]|]; (split; [constructor|now apply matches_end]).
Qed.
Lemma matches_write E {A} (m : io A) p n (k : ores A -> iact) k' I f : like I f -> names I p = Some (EFile n) ->
  (forall r J g, like J g -> matches E (k r) (k' r) J g) -> matches E (IOp (i_write n m) k) (AOp (o_write p m) k') I f.
Proof.
  intros Hl Hn Hk. apply matches_op; [assumption|]. intros flt. unfold i_write, o_write.
  assert (Hf : f p = Some (File (fst (nodes I n)) (snd (nodes I n)))) by (destruct Hl as (_ & _ & H); rewrite <- H; unfold node_at; now rewrite Hn).
  rewrite Hf. destruct (nodes I n) as [mode d]. cbn [fst snd]. destruct (m _) as [r w]. cbn [fst snd].
  assert (F : forall l, Forall2 like (map (fun k => upd_node I n (mode, d ++ firstn k (w_out w))) l) (map (fun k => upd f p (Some (File mode (d ++ firstn k (w_out w))))) l)).
  { induction l; constructor; [now apply like_node|assumption]. }
  split; [apply F|]. apply Hk. now apply last_like.
Qed.
Lemma matches_change E {A B} t items (apply : A -> io B) I f : like I f -> matches E (i_change E t items apply) (a_change E t items apply) I f.
Proof.
  intros Hl. apply matches_op; [assumption|]. intros flt. unfold i_open_read, o_open_read. cbn [fst snd last]. split; [constructor|].
  rewrite linkless_resolve by apply Hl. destruct flt; [|now apply matches_end..].
  assert (Hread : forall h h', (match h, h' with Some n, Some d => snd (nodes I n) = d | None, None => True | _, _ => False end) ->
    matches E (i_change_read E t items apply h) (a_read E t items apply h') I f).
  { intros h h' Hh. apply matches_op; [assumption|]. intros flt. unfold i_read_all, o_read_all. cbn [fst snd last]. split; [constructor|].
    destruct flt; [|now apply matches_end..]. destruct h as [n|], h' as [d|]; try contradiction; [|now apply matches_end]. rewrite Hh. clear Hh n.
    apply matches_pure; [assumption|]. intros [x|]; [|now apply matches_end].
    apply matches_op; [assumption|]. intros flt. unfold i_create_new, o_create_new.
    destruct flt; [|split; [constructor|now apply matches_end]..]. destruct (f (e_tmp E)) as [[m1 d1|]|] eqn:Ef.
    - destruct (like_file _ _ _ _ _ Hl Ef) as (n & En & _). rewrite En. split; [constructor|now apply matches_end].
    - rewrite (like_dir _ _ _ Hl Ef). split; [constructor|now apply matches_end].
    - rewrite (like_none _ _ _ Hl Ef). cbn [fst snd last]. pose proof (like_new _ _ _ (e_mode E) Hl Ef) as Hl'. split; [constructor; [assumption|constructor]|].
      assert (Hn : names (new_file I (e_tmp E) (e_mode E)) (e_tmp E) = Some (EFile (used I))) by (cbn; now rewrite path_eqb_refl).
      remember (new_file I (e_tmp E) (e_mode E)) as J eqn:EJ. clear EJ. remember (upd f (e_tmp E) (Some (File (e_mode E) []))) as g eqn:Eg.
      assert (Hg : g (e_tmp E) = Some (File (e_mode E) [])) by (subst g; apply upd_same). clear Eg.
      apply matches_op; [assumption|]. intros flt. unfold i_create, o_create. rewrite linkless_resolve by apply Hl'. rewrite Hn, Hg.
      destruct flt; [|split; [constructor|now apply matches_end]..]. cbn [fst snd last].
      destruct (like_file _ _ _ _ _ Hl' Hg) as (n & En & Ed). rewrite Hn in En. injection En as <-. rewrite Ed. cbn [fst].
      pose proof (like_node _ _ _ _ (e_mode E) [] Hl' Hn) as Hl''. split; [constructor; [assumption|constructor]|].
      apply matches_write; [assumption|exact Hn|]. intros [y| | |] K h Hk; [now apply matches_rename|now apply matches_end|now apply matches_drop|now apply matches_end]. }
  destruct (f t) as [[m d|]|] eqn:Ef.
  - destruct (like_file _ _ _ _ _ Hl Ef) as (n & En & Ed). rewrite En, Ed. cbn [fst]. destruct (readable m); [|now apply matches_end]. apply Hread. now rewrite Ed.
  - rewrite (like_dir _ _ _ Hl Ef). now apply Hread.
  - rewrite (like_none _ _ _ Hl Ef). now apply matches_end.
Qed.
Lemma matches_add E {B} t (m : io B) I f : like I f -> matches E (i_add E t m) (a_create E t m) I f.
Proof.
  intros Hl. apply matches_op; [assumption|]. intros flt. unfold i_create_new, o_create_new.
  destruct flt; [|split; [constructor|now apply matches_end]..]. destruct (f t) as [[m1 d1|]|] eqn:Ef.
  - destruct (like_file _ _ _ _ _ Hl Ef) as (n & En & _). rewrite En. split; [constructor|now apply matches_end].
  - rewrite (like_dir _ _ _ Hl Ef). split; [constructor|now apply matches_end].
  - rewrite (like_none _ _ _ Hl Ef). cbn [fst snd last]. pose proof (like_new _ _ _ (e_mode E) Hl Ef) as Hl'. split; [constructor; [assumption|constructor]|].
    apply matches_write; [assumption|cbn; now rewrite path_eqb_refl|]. intros r J g Hj. now apply matches_end.
Qed.
Lemma matches_del E t I f : like I f -> matches E (i_del t) (a_remove t) I f.
Proof.
  intros Hl. apply matches_op; [assumption|]. intros flt. unfold i_remove, o_remove.
  destruct flt; [|split; [constructor|now apply matches_end]..]. destruct (f t) as [[m d|]|] eqn:Ef.
  - destruct (like_file _ _ _ _ _ Hl Ef) as (n & En & _). rewrite En. cbn [fst snd last]. pose proof (like_remove _ _ t Hl). split; [constructor; [assumption|constructor]|now apply matches_end].
  - rewrite (like_dir _ _ _ Hl Ef). split; [constructor|now apply matches_end].
  - rewrite (like_none _ _ _ Hl Ef). split; [constructor|now apply matches_end].
Qed.
Lemma matches_diff E d reverse I f : like I f -> matches E (i_diff E d reverse) (a_diff E d reverse) I f.
Proof.
  intros Hl. destruct d; cbn [i_diff a_diff].
  1, 4: now apply matches_change.
  all: destruct reverse; (now apply matches_add) || (now apply matches_del).
Qed.
Lemma matches_main E patch reverse I f : like I f -> matches E (i_main E patch reverse) (a_main E patch reverse) I f.
Proof.
  intros Hl. apply matches_op; [assumption|]. intros flt. unfold i_open_read, o_open_read. cbn [fst snd last]. split; [constructor|].
  rewrite linkless_resolve by apply Hl. destruct flt; [|now apply matches_end..].
  assert (Hread : forall h h', (match h, h' with Some n, Some d => snd (nodes I n) = d | None, None => True | _, _ => False end) ->
    matches E (i_load E reverse h) (a_load E reverse h') I f).
  { intros h h' Hh. apply matches_op; [assumption|]. intros flt. unfold i_read_all, o_read_all. cbn [fst snd last]. split; [constructor|].
    destruct flt; [|now apply matches_end..]. destruct h as [n|], h' as [d|]; try contradiction; [|now apply matches_end]. rewrite Hh.
    apply matches_pure; [assumption|]. intros [x|]; [|now apply matches_end]. now apply matches_diff. }
  destruct (f patch) as [[m d|]|] eqn:Ef.
  - destruct (like_file _ _ _ _ _ Hl Ef) as (n & En & Ed). rewrite En, Ed. cbn [fst]. destruct (readable m); [|now apply matches_end]. apply Hread. now rewrite Ed.
  - rewrite (like_dir _ _ _ Hl Ef). now apply Hread.
  - rewrite (like_none _ _ _ Hl Ef). now apply matches_end.
Qed.

(* ------------------------------------------------------------------ *)
(* With any links                                                      *)
(* ------------------------------------------------------------------ *)
Section Any.
  Variable E : env.
  Variable I0 : ifs.
  Variable t : path.
  Hypothesis Hwf : wellformed I0.
  Hypothesis Htmp : e_tmp E <> t.

  (* the files there were are as they were, and all names but two are *)
  Definition apart_from (K : ifs) : Prop :=
    (forall n, n < used I0 -> nodes K n = nodes I0 n) /\ (forall p, p <> t -> p <> e_tmp E -> names K p = names I0 p).
  Definition kept (K : ifs) : Prop := apart_from K /\ names K t = names I0 t.
  Definition put (u : nat) (new : list byte) (K : ifs) : Prop :=
    apart_from K /\ used I0 <= u /\ names K t = Some (EFile u) /\ nodes K u = (e_mode E, new).

  Lemma apart_name K e : apart_from K -> apart_from (upd_name K (e_tmp E) e).
  Proof. intros [H1 H2]. split; [assumption|]. intros p Hp Hp'. rewrite name_other by congruence. auto. Qed.
  Lemma kept_name K e : kept K -> kept (upd_name K (e_tmp E) e).
  Proof. intros [H1 H2]. split; [now apply apart_name|]. now rewrite name_other. Qed.
  Lemma put_name u new K e : put u new K -> put u new (upd_name K (e_tmp E) e).
  Proof. intros (H1 & H2 & H3 & H4). split; [now apply apart_name|]. rewrite name_other by assumption. now repeat split. Qed.
  Lemma kept_node K n x : kept K -> used I0 <= n -> kept (upd_node K n x).
  Proof. intros [[H1 H2] H3] Hn. split; [|assumption]. split; [|assumption]. intros k Hk. rewrite node_other by lia. auto. Qed.

  Lemma drop_run (P : ifs -> Prop) o n K o' seen J : (forall K e, P K -> P (upd_name K (e_tmp E) e)) -> P K ->
    irun E (i_drop E o) n K = (o', seen, J) -> o' = o /\ Forall P seen /\ P J.
  Proof.
    intros HP HK H. unfold i_drop in H. cbn [irun] in H. unfold i_remove in H. destruct (e_fault E n); [destruct (names K (e_tmp E)) as [[]|]|..];
      injection H as <- <- <-; cbn [app]; auto.
  Qed.
  Lemma end_run n K u new o seen J : kept K -> names K (e_tmp E) = Some (EFile u) -> used I0 <= u -> nodes K u = (e_mode E, new) ->
    irun E (i_change_end E t) n K = (o, seen, J) ->
    (o = Exit 1 /\ seen = [] /\ J = K) \/ (o = Val tt /\ Forall (put u new) seen /\ put u new J).
  Proof.
    intros HK Hn Hu Hd H. unfold i_change_end in H. cbn [irun] in H. unfold i_rename in H. rewrite Hn in H.
    destruct (e_fault E n); [|injection H as <- <- <-; auto..].
    assert (HP : put u new (upd_name (upd_name K (e_tmp E) None) t (Some (EFile u)))).
    { destruct HK as [[H1 H2] H3]. split; [split; [assumption|]|].
      - intros p Hp Hp'. rewrite !name_other by congruence. auto.
      - rewrite name_same. now repeat split. }
    assert (K' : names K t <> Some EDir -> o = Val tt /\ Forall (put u new) seen /\ put u new J).
    { intros Hdir.
      assert (Eq : (match names K t with Some (EFile k) => (true, if u =? k then [] else [upd_name (upd_name K (e_tmp E) None) t (Some (EFile u))])
                  | Some EDir => (false, []) | _ => (true, if path_eqb (e_tmp E) t then [] else [upd_name (upd_name K (e_tmp E) None) t (Some (EFile u))]) end) =
                 (true, [upd_name (upd_name K (e_tmp E) None) t (Some (EFile u))])).
      { destruct (names K t) as [[k| |q]|] eqn:Et; [|congruence|now rewrite (path_eqb_neq _ _ Htmp)..].
        destruct HK as [_ H3]. rewrite Et in H3. symmetry in H3. apply Hwf in H3. now rewrite (proj2 (Nat.eqb_neq u k)) by lia. }
      rewrite Eq in H. cbn [last] in H. destruct (irun E (i_drop E (Val tt)) (S n) _) as [[o' s'] J'] eqn:Er. injection H as <- <- <-.
      apply (drop_run (put u new)) in Er as (-> & H1 & H2); [|intros; now apply put_name|assumption]. cbn [app]. auto. }
    destruct (names K t) as [[k| |q]|] eqn:Et; try (right; apply K'; discriminate). injection H as <- <- <-. auto.
  Qed.

  (* what a run of the change comes to, if [view I0 t] is [File m old]: nothing, or a new file in
     place of the name *)
  Definition comes_to (made : list byte -> Prop) (o : outcome unit) (seen : list ifs) (J : ifs) : Prop :=
    (o <> Val tt /\ Forall kept seen /\ kept J) \/
    (o = Val tt /\ exists u new s1 s2, made new /\ seen = s1 ++ s2 /\ Forall kept s1 /\ Forall (put u new) s2 /\ put u new J).
  Lemma comes_more made o st seen J : Forall kept st -> comes_to made o seen J -> comes_to made o (st ++ seen) J.
  Proof.
    intros H [(H1 & H2 & H3)|(H1 & u & new & s1 & s2 & H2 & -> & H3 & H4 & H5)].
    - left. split; [assumption|]. split; [now apply Forall_app|assumption].
    - right. split; [assumption|]. exists u, new, (st ++ s1), s2. split; [assumption|]. split; [now rewrite app_assoc|]. split; [now apply Forall_app|now split].
  Qed.
  Lemma comes_end made o J : o <> Val tt -> kept J -> comes_to made o [] J.
  Proof. intros H1 H2. left. auto. Qed.
  Lemma write_run {B} (m : io B) full r (made : list byte -> Prop) n K u o seen J : emits m full r -> (forall b, r = Done b -> made full) ->
    kept K -> names K (e_tmp E) = Some (EFile u) -> used I0 <= u -> nodes K u = (e_mode E, []) ->
    irun E (i_change_write E t m u) n K = (o, seen, J) -> comes_to made o seen J.
  Proof.
    intros [Hr He] Hm HK Hn Hu Hd H. unfold i_change_write in H. cbn [irun] in H. destruct (i_write u m (e_fault E n) K) as [b st] eqn:Ew.
    destruct (irun E _ (S n) (last st K)) as [[o' s'] J'] eqn:Er. injection H as <- <- <-.
    unfold i_write in Ew. rewrite Hd, He in Ew. unfold run_emit in Ew. cbn [w_room w_out app] in Ew.
    assert (Hst : Forall kept st /\ kept (last st K) /\ names (last st K) (e_tmp E) = Some (EFile u) /\ (b = IoErr \/ b = r /\ nodes (last st K) u = (e_mode E, full))).
    { assert (A : forall out, let l := map (fun k => upd_node K u (e_mode E, firstn k out)) (seq 0 (S (length out))) in
        Forall kept l /\ last l K = upd_node K u (e_mode E, out)).
      { intros out l. split; [apply Forall_map, Forall_forall; intros k _; now apply kept_node|]. unfold l. now rewrite last_map_seq, firstn_all. }
      assert (A' : forall out, st = map (fun k => upd_node K u (e_mode E, firstn k out)) (seq 0 (S (length out))) ->
        Forall kept st /\ kept (last st K) /\ names (last st K) (e_tmp E) = Some (EFile u) /\ nodes (last st K) u = (e_mode E, out)).
      { intros out ->. destruct (A out) as [A1 A2]. cbv zeta in *. rewrite A2. split; [assumption|]. split; [now apply kept_node|]. split; [assumption|apply node_same]. }
      destruct (e_fault E n) as [| |k].
      - injection Ew as <- <-. destruct (A' full eq_refl) as (A1 & A2 & A3 & A4). auto 6.
      - destruct (length full <=? 0); injection Ew as <- <-; [destruct (A' full eq_refl) as (A1 & A2 & A3 & A4)|destruct (A' [] eq_refl) as (A1 & A2 & A3 & A4)]; auto 6.
      - destruct (length full <=? k); injection Ew as <- <-; [destruct (A' full eq_refl) as (A1 & A2 & A3 & A4)|destruct (A' (firstn k full) eq_refl) as (A1 & A2 & A3 & A4)]; auto 6. }
    destruct Hst as (S1 & S2 & S3 & S4). apply comes_more; [assumption|]. destruct S4 as [->|[-> S4]].
    - injection Er as <- <- <-. apply comes_end; [discriminate|assumption].
    - destruct r as [x| | |].
      + apply (end_run _ _ u full) in Er as [(-> & -> & ->)|(-> & P1 & P2)]; try assumption.
        * apply comes_end; [discriminate|assumption].
        * right. split; [reflexivity|]. exists u, full, [], s'. split; [now apply (Hm x)|]. auto.
      + contradiction.
      + apply (drop_run kept) in Er as (-> & P1 & P2); [|intros; now apply kept_name|assumption]. left. split; [discriminate|auto].
      + injection Er as <- <- <-. apply comes_end; [discriminate|assumption].
  Qed.
  Lemma temp_run {B} (m : io B) full r (made : list byte -> Prop) n o seen J : emits m full r -> (forall b, r = Done b -> made full) ->
    irun E (i_change_temp E t m) n I0 = (o, seen, J) -> comes_to made o seen J.
  Proof.
    intros He Hm H. assert (K0 : kept I0) by now repeat split. unfold i_change_temp in H. cbn [irun] in H. unfold i_create_new in H.
    destruct (e_fault E n); [|injection H as <- <- <-; now apply comes_end..].
    destruct (names I0 (e_tmp E)) eqn:En; [injection H as <- <- <-; now apply comes_end|].
    cbn [last] in H. set (K := new_file I0 (e_tmp E) (e_mode E)) in H.
    assert (K1 : kept K).
    { split; [split|].
      - intros k Hk. unfold K, new_file. cbn. now rewrite (proj2 (Nat.eqb_neq _ _)) by lia.
      - intros p Hp Hp'. unfold K, new_file. cbn. now rewrite (path_eqb_neq _ _) by congruence.
      - unfold K, new_file. cbn. now rewrite (path_eqb_neq _ _). }
    assert (K2 : names K (e_tmp E) = Some (EFile (used I0))) by (unfold K, new_file; cbn; now rewrite path_eqb_refl).
    assert (K3 : nodes K (used I0) = (e_mode E, [])) by (unfold K, new_file; cbn; now rewrite Nat.eqb_refl).
    clearbody K. destruct (irun E (i_change_open E t m) (S n) K) as [[o' s'] J'] eqn:Er. injection H as <- <- <-.
    apply (comes_more _ _ [K]); [constructor; [assumption|constructor]|]. clear En K0.
    unfold i_change_open in Er. cbn [irun] in Er. unfold i_create in Er.
    assert (R : resolve K (e_tmp E) = Some (e_tmp E)) by (unfold resolve; cbn [follow]; now rewrite K2). rewrite R, K2, K3 in Er. cbn [fst] in Er.
    destruct (e_fault E (S n)); [|injection Er as <- <- <-; now apply comes_end..]. cbn [last] in Er.
    destruct (irun E (i_change_write E t m (used I0)) _ _) as [[o2 s2] J2] eqn:Ew. injection Er as <- <- <-.
    apply (comes_more _ _ [_]); [constructor; [now apply kept_node|constructor]|].
    eapply (write_run m full r made) in Ew; try eassumption; [now apply kept_node|lia|apply node_same].
  Qed.
  Lemma change_run {A B} items (apply : A -> io B) (made : list byte -> list byte -> Prop) n o seen J :
    (forall old x, items old = Ok (Some x) -> exists full r, emits (apply x) full r /\ forall b, r = Done b -> made old full) ->
    irun E (i_change E t items apply) n I0 = (o, seen, J) ->
    comes_to (fun new => exists m old, view I0 t = Some (File m old) /\ made old new) o seen J.
  Proof.
    intros Ha H. assert (K0 : kept I0) by now repeat split. unfold i_change in H. cbn [irun] in H. unfold i_open_read in H.
    destruct (e_fault E n); [|injection H as <- <- <-; now apply comes_end..].
    destruct (resolve I0 t) as [q|] eqn:Eq; [|injection H as <- <- <-; now apply comes_end].
    assert (Hread : forall h o seen J, (forall k, h = Some k -> exists m, view I0 t = Some (File m (snd (nodes I0 k)))) ->
      irun E (i_change_read E t items apply h) (S n) I0 = (o, seen, J) ->
      comes_to (fun new => exists m old, view I0 t = Some (File m old) /\ made old new) o seen J).
    { clear H o seen J. intros h o seen J Hh H. unfold i_change_read in H. cbn [irun] in H. unfold i_read_all in H.
      destruct (e_fault E (S n)); [|injection H as <- <- <-; now apply comes_end..].
      destruct h as [k|]; [|injection H as <- <- <-; now apply comes_end]. destruct (Hh k eq_refl) as (m & Hm). cbn [last] in H.
      destruct (irun E (i_change_apply E t items apply _) _ I0) as [[o' s'] J'] eqn:Er. injection H as <- <- <-. cbn [app].
      unfold i_change_apply in Er. destruct (items (snd (nodes I0 k))) as [[x|]| |] eqn:Ei; cbn [i_pure irun] in Er; try (injection Er as <- <- <-; now apply comes_end).
      destruct (Ha _ _ Ei) as (full & r & He & Hf). eapply temp_run in Er; [exact Er|exact He|]. intros b Hb. exists m, (snd (nodes I0 k)). split; [assumption|]. now apply (Hf b). }
    destruct (names I0 q) as [[k| |]|] eqn:En; cbn [last] in H.
    - destruct (readable (fst (nodes I0 k))); [|injection H as <- <- <-; now apply comes_end].
      destruct (irun E (i_change_read E t items apply (Some k)) (S n) I0) as [[o' s'] J'] eqn:Er. injection H as <- <- <-. cbn [app].
      apply Hread in Er; [assumption|]. intros k' [= <-]. exists (fst (nodes I0 k)). unfold view, node_at. now rewrite Eq, En.
    - destruct (irun E (i_change_read E t items apply None) (S n) I0) as [[o' s'] J'] eqn:Er. injection H as <- <- <-. cbn [app].
      apply Hread in Er; [assumption|]. discriminate.
    - injection H as <- <- <-. now apply comes_end.
    - injection H as <- <- <-. now apply comes_end.
  Qed.
End Any.

(* loading the diff: the run fails, or goes on with it *)
Lemma main_run E patch reverse I o seen J : patch_links E patch reverse I = (o, seen, J) ->
  (seen = [] /\ J = I /\ o <> Val tt) \/
  exists m s d, view I patch = Some (File m s) /\ readable m = true /\ diff_from_json s = Ok (Some d) /\ irun E (i_diff E d reverse) 2 I = (o, seen, J).
Proof.
  intros H. unfold patch_links, i_main in H. cbn [irun] in H. unfold i_open_read in H.
  destruct (e_fault E 0); [|injection H as <- <- <-; left; now repeat split..].
  destruct (resolve I patch) as [q|] eqn:Eq; [|injection H as <- <- <-; left; now repeat split].
  destruct (names I q) as [[k| |]|] eqn:En; cbn [last] in H; try (injection H as <- <- <-; left; now repeat split).
  - destruct (readable (fst (nodes I k))) eqn:Em; [|injection H as <- <- <-; left; now repeat split].
    unfold i_load in H. cbn [irun] in H. unfold i_read_all in H. destruct (e_fault E 1); [|injection H as <- <- <-; left; now repeat split..]. cbn [last] in H.
    destruct (diff_from_json (snd (nodes I k))) as [[d|]| |] eqn:Ej; cbn [i_pure irun] in H; try (injection H as <- <- <-; left; now repeat split).
    destruct (irun E (i_diff E d reverse) 2 I) as [[o' s'] J'] eqn:Er. injection H as <- <- <-. right.
    exists (fst (nodes I k)), (snd (nodes I k)), d. split; [unfold view, node_at; now rewrite Eq, En|]. now repeat split.
  - unfold i_load in H. cbn [irun] in H. unfold i_read_all in H. destruct (e_fault E 1); injection H as <- <- <-; left; now repeat split.
Qed.
Lemma diff_run E d reverse n I o seen J : wellformed I -> e_tmp E <> target d -> is_change d -> irun E (i_diff E d reverse) n I = (o, seen, J) ->
  comes_to E I (target d) (fun new => exists m old, view I (target d) = Some (File m old) /\ patches_to (e_dbg E) reverse d old new) o seen J.
Proof.
  intros Hw Ht Hc H. destruct d as [d| | |d| |]; try contradiction; cbn [i_diff target] in *.
  - eapply (change_run E I (td_before d) Hw Ht read_lines _ (patches_to (e_dbg E) reverse (TextChange d))) in H; [exact H|].
    intros old ls Hl. destruct (emitting_text_apply (e_dbg E) (td_clumps d) ls reverse) as (full & r & He). exists full, r. split; [assumption|].
    intros b ->. apply read_lines_ok in Hl as (Hu & Hl & _). eapply patches_text; [assumption|eassumption|]. exact (emits_run _ _ _ He).
  - eapply (change_run E I (bd_before d) Hw Ht _ _ (patches_to (e_dbg E) reverse (ByteChange d))) in H; [exact H|].
    intros old x [= <-]. destruct (emitting_byte_apply (e_dbg E) (bd_clumps d) old reverse) as (full & r & He). exists full, r. split; [assumption|].
    intros b ->. eapply patches_bytes. exact (emits_run _ _ _ He).
Qed.
Lemma irun_last E a : forall n I o seen J, irun E a n I = (o, seen, J) -> J = last seen I.
Proof.
  induction a as [o'|B f k IH]; intros n I o seen J H; cbn [irun] in H; [now injection H as <- <- <-|].
  destruct (f (e_fault E n) I) as [b st]. destruct (irun E (k b) (S n) (last st I)) as [[o' s'] J'] eqn:Er. injection H as <- <- <-. apply IH in Er. subst J'.
  destruct s' as [|x l] using rev_ind; [now rewrite app_nil_r|]. now rewrite app_assoc, !last_last.
Qed.
Lemma add_run E {B} t (m : io B) full r n I o seen J : emits m full r -> irun E (i_add E t m) n I = (o, seen, J) ->
  o = Val tt /\ ((seen = [] /\ J = I) \/
   (names I t = None /\ Forall (fun K => (forall k, k < used I -> nodes K k = nodes I k) /\ (forall p, p <> t -> names K p = names I p) /\
      names K t = Some (EFile (used I)) /\ exists c, nodes K (used I) = (e_mode E, firstn c full)) seen)).
Proof.
  intros [Hr He] H. unfold i_add in H. cbn [irun] in H. unfold i_create_new in H.
  destruct (e_fault E n); [|injection H as <- <- <-; auto..]. destruct (names I t) eqn:En; [injection H as <- <- <-; auto|]. cbn [last] in H.
  set (K := new_file I t (e_mode E)) in *.
  assert (K3 : nodes K (used I) = (e_mode E, [])) by (unfold K, new_file; cbn; now rewrite Nat.eqb_refl).
  assert (K1 : forall c, (forall k, k < used I -> nodes (upd_node K (used I) (e_mode E, c)) k = nodes I k) /\ (forall p, p <> t -> names K p = names I p) /\ names K t = Some (EFile (used I))).
  { intros c. split; [|split].
    - intros k Hk. rewrite node_other by lia. unfold K, new_file. cbn. now rewrite (proj2 (Nat.eqb_neq _ _)) by lia.
    - intros p Hp. unfold K, new_file. cbn. now rewrite (path_eqb_neq _ _) by congruence.
    - unfold K, new_file. cbn. now rewrite path_eqb_refl. }
  assert (K4 : forall k, k < used I -> nodes K k = nodes I k).
  { intros k Hk. rewrite <- (proj1 (K1 []) k Hk). now rewrite node_other by lia. }
  clearbody K. cbn [irun] in H. unfold i_write in H. rewrite K3, He in H. unfold run_emit in H. cbn [w_room w_out app] in H.
  assert (Hfin : exists out c, out = firstn c full /\ o = Val tt /\ seen = [K] ++ map (fun k => upd_node K (used I) (e_mode E, firstn k out)) (seq 0 (S (length out)))).
  { destruct (e_fault E (S n)) as [| |k].
    - injection H as <- <- <-. exists full, (length full). rewrite firstn_all, app_nil_r. now repeat split.
    - destruct (length full <=? 0); injection H as <- <- <-; [exists full, (length full); rewrite firstn_all|exists (firstn 0 full), 0]; rewrite ?app_nil_r; now repeat split.
    - destruct (length full <=? k); injection H as <- <- <-; [exists full, (length full); rewrite firstn_all|exists (firstn k full), k]; rewrite ?app_nil_r; now repeat split. }
  destruct Hfin as (out & c & -> & -> & ->). split; [reflexivity|]. right. split; [reflexivity|]. cbn [app]. constructor.
  - destruct (K1 []) as (_ & A2 & A3). split; [assumption|]. split; [assumption|]. split; [assumption|]. exists 0. exact K3.
  - apply Forall_map, Forall_forall. intros k _. destruct (K1 (firstn k (firstn c full))) as (A1 & A2 & A3). split; [assumption|]. split; [assumption|]. split; [assumption|].
    rewrite node_same. rewrite firstn_firstn. eauto.
Qed.
Lemma del_run E t n I o seen J : irun E (i_del t) n I = (o, seen, J) ->
  (o = Exit 1 /\ seen = [] /\ J = I) \/ (o = Val tt /\ seen = [upd_name I t None] /\ J = upd_name I t None).
Proof.
  intros H. unfold i_del in H. cbn [irun] in H. unfold i_remove in H. destruct (e_fault E n); [destruct (names I t) as [[]|]|..]; injection H as <- <- <-; auto.
Qed.

(* ------------------------------------------------------------------ where nothing fails *)
Lemma main_calm E patch reverse I m s d : fault_free E -> view I patch = Some (File m s) -> readable m = true -> diff_from_json s = Ok (Some d) ->
  patch_links E patch reverse I = irun E (i_diff E d reverse) 2 I.
Proof.
  intros HE Hv Hm Hd. unfold view, node_at in Hv. unfold patch_links, i_main. cbn [irun]. unfold i_open_read. rewrite HE.
  destruct (resolve I patch) as [q|]; [|discriminate]. destruct (names I q) as [[k| |]|]; try discriminate. destruct (nodes I k) as [m' s'] eqn:Ek. injection Hv as -> ->.
  cbn [fst]. rewrite Hm. cbn [last]. unfold i_load. cbn [irun]. unfold i_read_all. rewrite HE, Ek. cbn [snd last]. rewrite Hd. cbn [i_pure].
  now destruct (irun E (i_diff E d reverse) 2 I) as [[o seen] J].
Qed.
Lemma change_calm E t {A B} items (apply : A -> io B) old x full b n I m : fault_free E -> wellformed I -> e_tmp E <> t -> names I (e_tmp E) = None ->
  view I t = Some (File m old) -> readable m = true -> items old = Ok (Some x) -> emits (apply x) full (Done b) ->
  exists seen J, irun E (i_change E t items apply) n I = (Val tt, seen, J) /\ names J (e_tmp E) = None /\ exists u, used I <= u /\ names J t = Some (EFile u) /\ nodes J u = (e_mode E, full).
Proof.
  intros HE Hw Ht Htmp Hv Hm Hx [_ He]. unfold view, node_at in Hv.
  assert (Hdir : names I t <> Some EDir).
  { intros Hn. unfold resolve in Hv. cbn [follow] in Hv. rewrite Hn in Hv. cbn in Hv. rewrite Hn in Hv. discriminate. }
  unfold i_change. cbn [irun]. unfold i_open_read. rewrite HE.
  destruct (resolve I t) as [q|]; [|discriminate]. destruct (names I q) as [[k| |]|]; try discriminate. destruct (nodes I k) as [m' s'] eqn:Ek. injection Hv as -> ->.
  cbn [fst]. rewrite Hm. cbn [last]. unfold i_change_read. cbn [irun]. unfold i_read_all. rewrite HE, Ek. cbn [snd last]. unfold i_change_apply. rewrite Hx. cbn [i_pure].
  unfold i_change_temp. cbn [irun]. unfold i_create_new. rewrite HE, Htmp. cbn [last]. set (K := new_file I (e_tmp E) (e_mode E)).
  assert (K2 : names K (e_tmp E) = Some (EFile (used I))) by (unfold K, new_file; cbn; now rewrite path_eqb_refl).
  assert (K3 : nodes K (used I) = (e_mode E, [])) by (unfold K, new_file; cbn; now rewrite Nat.eqb_refl).
  assert (K4 : names K t = names I t) by (unfold K, new_file; cbn; now rewrite (path_eqb_neq _ _ Ht)).
  clearbody K. unfold i_change_open. cbn [irun]. unfold i_create. rewrite HE.
  assert (R : resolve K (e_tmp E) = Some (e_tmp E)) by (unfold resolve; cbn [follow]; now rewrite K2). rewrite R, K2, K3. cbn [fst last].
  unfold i_change_write. cbn [irun]. unfold i_write. rewrite HE, node_same, He. unfold run_emit. cbn [w_room w_out app]. rewrite last_map_seq, firstn_all.
  set (K' := upd_node (upd_node K (used I) (e_mode E, [])) (used I) (e_mode E, full)).
  assert (N' : names K' = names K) by reflexivity. assert (M' : nodes K' (used I) = (e_mode E, full)) by apply node_same. clearbody K'.
  unfold i_change_end. cbn [irun]. unfold i_rename. rewrite HE, N', K2, K4.
  assert (Eq : (match names I t with Some (EFile k) => (true, if used I =? k then [] else [upd_name (upd_name K' (e_tmp E) None) t (Some (EFile (used I)))])
                | Some EDir => (false, []) | _ => (true, if path_eqb (e_tmp E) t then [] else [upd_name (upd_name K' (e_tmp E) None) t (Some (EFile (used I)))]) end) =
               (true, [upd_name (upd_name K' (e_tmp E) None) t (Some (EFile (used I)))])).
  { destruct (names I t) as [[k'| |q']|] eqn:Et; [|congruence|now rewrite (path_eqb_neq _ _ Ht)..]. apply Hw in Et. now rewrite (proj2 (Nat.eqb_neq _ _)) by lia. }
  rewrite Eq. cbn [last]. unfold i_drop. cbn [irun]. unfold i_remove. rewrite HE. rewrite (name_other (upd_name K' (e_tmp E) None)) by congruence. rewrite name_same. cbn [last app].
  do 2 eexists. split; [reflexivity|]. split; [rewrite (name_other (upd_name K' (e_tmp E) None)) by congruence; apply name_same|]. exists (used I). split; [lia|]. rewrite name_same. now split.
Qed.
Lemma add_calm E {B} t (w : io B) full b n I : fault_free E -> names I t = None -> emits w full (Done b) ->
  exists seen J, irun E (i_add E t w) n I = (Val tt, seen, J) /\ names J t = Some (EFile (used I)) /\ nodes J (used I) = (e_mode E, full).
Proof.
  intros HE Hn [_ He]. unfold i_add. cbn [irun]. unfold i_create_new. rewrite HE, Hn. cbn [last irun]. unfold i_write.
  set (K := new_file I t (e_mode E)).
  assert (K2 : names K t = Some (EFile (used I))) by (unfold K, new_file; cbn; now rewrite path_eqb_refl).
  assert (K3 : nodes K (used I) = (e_mode E, [])) by (unfold K, new_file; cbn; now rewrite Nat.eqb_refl).
  clearbody K. rewrite HE, K3, He. unfold run_emit. cbn [w_room w_out app]. rewrite last_map_seq, firstn_all.
  do 2 eexists. split; [reflexivity|]. split; [exact K2|apply node_same].
Qed.

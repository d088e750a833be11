(* Proof_Watch.v - lemmas on a diff made while its files are being changed. *)
From Verif Require Import Base Model_Seq Model_Changes Model_IO Model_Text Model_Bytes Model_Json Model_Files Model_Conc Model_Watch Spec Spec_Files Spec_Conc Spec_Watch Proof_Seq Proof_Utf8 Proof_Text Proof_Bytes Proof_Diff Proof_Files.

Section Watching.
  Variable flt : nat -> fault.
  Variable at_ : nat -> fs.

  Lemma watch_then {A B} (l : look A) : forall (k : A -> look B) n, watch flt at_ n (l_then l k) =
    match watch flt at_ n l with
    | (Val a, n') => watch flt at_ n' (k a)
    | (Exit c, n') => (Exit c, n')
    | (Abort, n') => (Abort, n')
    | (Stuck, n') => (Stuck, n')
    end.
  Proof. induction l as [o|C f k' IH]; intros k n; cbn; [destruct o; reflexivity|apply IH]. Qed.

  Lemma watch_exists p n : exists b, watch flt at_ n (l_exists p) = (Val b, S n).
  Proof. cbn. eexists. reflexivity. Qed.
  Lemma watch_read p n : exists r n', watch flt at_ n (l_read p) = (Val r, n') /\ n < n' <= n + 2 /\ forall c, r = Some c -> content (at_ n) p = Some c.
  Proof.
    unfold l_read, l_open, content. cbn. unfold readable. destruct (flt n); cbn; try (eexists _, _; split; [reflexivity|]; split; [lia|discriminate]).
    destruct (at_ n p) as [[m d|]|]; cbn; [destruct (N.testbit m 8); cbn|..]; try (eexists _, _; split; [reflexivity|]; split; [lia|discriminate]).
    - destruct (flt (S n)); eexists _, _; split; try reflexivity; (split; [lia|]); congruence.
    - destruct (flt (S n)); eexists _, _; split; try reflexivity; (split; [lia|]); congruence.
  Qed.
  Lemma watch_text p n : exists r n', watch flt at_ n (l_text p) = (Val r, n') /\ n < n' <= n + 2 /\ forall ls, r = Some ls -> text_of (at_ n) p ls.
  Proof.
    unfold l_text. rewrite watch_then. destruct (watch_read p n) as (r & n' & -> & Hn & Hr). destruct r as [c|].
    - cbn [watch l_pure]. rewrite read_lines_spec. eexists _, _. split; [reflexivity|]. split; [exact Hn|]. intros ls. destruct (utf8_valid c) eqn:Eu; intros [= <-].
      exists c. split; [now apply Hr|]. split; [now apply utf8_valid_spec|apply split_lines_lines_of].
    - eexists _, _. split; [reflexivity|]. split; [exact Hn|discriminate].
  Qed.
  Lemma watch_diff before after context n : context <= 255 -> exists r n', watch flt at_ n (l_diff_new before after context) = (Val r, n') /\ n < n' <= n + 10 /\
    forall d, r = Some d -> exists i j, n <= i <= j /\ j < n' /\ describes_at (at_ i) (at_ j) before after context d.
  Proof.
    intros Hctx. unfold l_diff_new. rewrite watch_then. destruct (watch_exists before n) as (be & ->).
    destruct be; rewrite watch_then; destruct (watch_exists after (S n)) as (ae & ->); destruct ae.
    - rewrite watch_then. unfold l_text_change. rewrite watch_then. destruct (watch_text before (S (S n))) as (r & n1 & -> & Hn1 & Hr).
      assert (K : forall m, n + 2 < m <= n + 6 -> exists r n', watch flt at_ m (l_then (l_byte_change before after context) (fun d => l_ret (option_map' ByteChange d))) = (Val r, n') /\
        m <= n' <= m + 4 /\ forall d, r = Some d -> exists i j, n <= i <= j /\ j < n' /\ describes_at (at_ i) (at_ j) before after context d).
      { intros m Hm. rewrite watch_then. unfold l_byte_change. rewrite watch_then. destruct (watch_read before m) as (r1 & n2 & -> & Hn2 & Hr1).
        destruct r1 as [cb|]; [|cbn; eexists _, _; split; [reflexivity|]; split; [lia|discriminate]]. rewrite watch_then.
        destruct (watch_read after n2) as (r2 & n3 & -> & Hn3 & Hr2). destruct r2 as [ca|]; [|cbn; eexists _, _; split; [reflexivity|]; split; [lia|discriminate]].
        destruct (byte_diff_spec cb ca context Hctx) as (cs & clumps & hs & _ & _ & _ & _ & E5 & _). rewrite watch_then. cbn [watch l_pure]. rewrite E5. cbn.
        eexists _, _. split; [reflexivity|]. split; [lia|]. intros d [= <-]. exists m, n2. split; [lia|]. split; [lia|]. cbn. do 3 (split; [reflexivity|]). exists cb, ca. auto. }
      destruct r as [lb|].
      + rewrite watch_then. destruct (watch_text after n1) as (r2 & n2 & -> & Hn2 & Hr2). destruct r2 as [la|].
        * destruct (text_diff_spec lb la context Hctx) as (cs & clumps & hs & _ & _ & _ & _ & E5 & _). rewrite watch_then. cbn [watch l_pure]. rewrite E5. cbn.
          eexists _, _. split; [reflexivity|]. split; [lia|]. intros d [= <-]. exists (S (S n)), n1. split; [lia|]. split; [lia|]. cbn. do 2 (split; [reflexivity|]). exists lb, la. auto.
        * cbn [watch l_ret]. destruct (K n2 ltac:(lia)) as (r' & n' & -> & Hn' & Hr'). eexists _, _. split; [reflexivity|]. split; [lia|exact Hr'].
      + cbn [watch l_ret]. destruct (K n1 ltac:(lia)) as (r' & n' & -> & Hn' & Hr'). eexists _, _. split; [reflexivity|]. split; [lia|exact Hr'].
    - rewrite watch_then. destruct (watch_text before (S (S n))) as (r & n1 & -> & Hn1 & Hr). destruct r as [ls|].
      + cbn. eexists _, _. split; [reflexivity|]. split; [lia|]. intros d [= <-]. exists (S (S n)), (S (S n)). split; [lia|]. split; [lia|]. cbn. auto.
      + rewrite watch_then. destruct (watch_read before n1) as (r1 & n2 & -> & Hn2 & Hr1). cbn. eexists _, _. split; [reflexivity|]. split; [lia|].
        destruct r1 as [c|]; intros d [= <-]. exists n1, n1. split; [lia|]. split; [lia|]. cbn. auto.
    - rewrite watch_then. destruct (watch_text after (S (S n))) as (r & n1 & -> & Hn1 & Hr). destruct r as [ls|].
      + cbn. eexists _, _. split; [reflexivity|]. split; [lia|]. intros d [= <-]. exists (S (S n)), (S (S n)). split; [lia|]. split; [lia|]. cbn. auto.
      + rewrite watch_then. destruct (watch_read after n1) as (r1 & n2 & -> & Hn2 & Hr1). cbn. eexists _, _. split; [reflexivity|]. split; [lia|].
        destruct r1 as [c|]; intros d [= <-]. exists n1, n1. split; [lia|]. split; [lia|]. cbn. auto.
    - cbn. eexists _, _. split; [reflexivity|]. split; [lia|discriminate].
  Qed.
  (* two readable texts, without faults *)
  Lemma watch_texts before after context n : (forall k, flt k = NoFault) -> context <= 255 ->
    (forall k, (exists ls, text_of (at_ k) before ls) /\ exists ls, text_of (at_ k) after ls) ->
    exists lb la cl n', text_of (at_ (n + 2)) before lb /\ text_of (at_ (n + 4)) after la /\ text_diff_clumps lb la context = Ok cl /\
      watch flt at_ n (l_diff_new before after context) = (Val (Some (TextChange (TextDiff before after cl))), n').
  Proof.
    intros FF Hctx Ht.
    assert (X : forall p k, (exists ls, text_of (at_ k) p ls) -> watch flt at_ k (l_exists p) = (Val true, S k)).
    { intros p k (ls & c & Hc & _). cbn. rewrite FF. unfold content in Hc. destruct (at_ k p); [reflexivity|discriminate]. }
    assert (Y : forall p k, (exists ls, text_of (at_ k) p ls) -> exists ls, text_of (at_ k) p ls /\ watch flt at_ k (l_text p) = (Val (Some ls), k + 2)).
    { intros p k (ls & c & Hc & Hu & Hl). exists ls. split; [now exists c|]. unfold l_text, l_read. cbn -[read_lines]. unfold l_open. rewrite FF. unfold content in Hc. unfold readable.
      destruct (at_ k p) as [[m d|]|]; try discriminate Hc. destruct (N.testbit m 8); [|discriminate Hc]. injection Hc as ->. cbn -[read_lines]. rewrite FF. cbn -[read_lines].
      rewrite read_lines_spec. rewrite (proj2 (utf8_valid_spec c) Hu). rewrite (lines_of_split _ _ Hl). f_equal. lia. }
    unfold l_diff_new. rewrite watch_then, (X before n) by apply Ht. rewrite watch_then, (X after (S n)) by apply Ht. rewrite watch_then. unfold l_text_change. rewrite watch_then.
    destruct (Y before (S (S n)) ltac:(apply Ht)) as (lb & Hb & ->). rewrite watch_then. destruct (Y after (S (S n) + 2) ltac:(apply Ht)) as (la & Ha & ->).
    destruct (text_diff_spec lb la context Hctx) as (cs & clumps & hs & _ & _ & _ & _ & E5 & _). rewrite watch_then. cbn [watch l_pure]. rewrite E5. cbn.
    exists lb, la. do 2 eexists. split; [now replace (n + 2) with (S (S n)) by lia|]. split; [now replace (n + 4) with (S (S n) + 2) by lia|]. split; [exact E5|reflexivity].
  Qed.
End Watching.

(* files that do not change *)
Section Still.
  Variable E : env.
  Variable f : fs.
  Definition same {A} (l : look A) (m : prog A) : Prop := forall s n out,
    m (World f s n out) = (fst (watch (e_fault E) (fun _ => f) n l), World f s (snd (watch (e_fault E) (fun _ => f) n l)) out).
  Lemma same_ret {A} (a : A) : same (l_ret a) (pret a).
  Proof. intros s n out. reflexivity. Qed.
  Lemma same_pure {A} (m : res A) : same (l_pure m) (pure m).
  Proof. intros s n out. destruct m; reflexivity. Qed.
  Lemma same_then {A B} (l : look A) (m : prog A) (k : A -> look B) (k' : A -> prog B) : same l m -> (forall a, same (k a) (k' a)) -> same (l_then l k) (pbnd m k').
  Proof.
    intros H K s n out. unfold pbnd. rewrite H, watch_then. destruct (watch _ _ n l) as [o n']. cbn [fst snd]. destruct o as [a|c| |]; cbn [fst snd]; try reflexivity. apply K.
  Qed.
  Lemma same_exists p : same (l_exists p) (path_exists E p).
  Proof. intros s n out. unfold path_exists, op. cbn. now rewrite app_nil_r. Qed.
  Lemma same_read p : same (l_read p) (read_bytes E p).
  Proof.
    intros s n out. unfold read_bytes, pbnd, open_read, read_all, op, l_read, l_open. cbn. rewrite app_nil_r.
    destruct (e_fault E n); cbn; try reflexivity. destruct (f p) as [[m d|]|] eqn:Ef; cbn; [destruct (readable m); cbn|..]; try reflexivity;
      rewrite app_nil_r, ?Ef; destruct (e_fault E (S n)); reflexivity.
  Qed.
  Lemma same_text p : same (l_text p) (read_text E p).
  Proof.
    assert (H : forall w, read_text E p w = pbnd (read_bytes E p) (fun c => match c with Some d => pure (read_lines d) | None => pret None end) w).
    { intros w. unfold read_text, read_bytes, pbnd. destruct (open_read E p w) as [[b|c| |] w1]; try reflexivity. destruct b; reflexivity. }
    intros s n out. rewrite H. apply same_then; [apply same_read|]. intros [d|]; [apply same_pure|apply same_ret].
  Qed.
  Lemma same_diff before after context : same (l_diff_new before after context) (diff_new E before after context).
  Proof.
    apply same_then; [apply same_exists|]. intros []; (apply same_then; [apply same_exists|]); intros [].
    - apply same_then.
      + apply same_then; [apply same_text|]. intros [b|]; [|apply same_ret]. apply same_then; [apply same_text|]. intros [a|]; [|apply same_ret].
        apply same_then; [apply same_pure|]. intros c. apply same_ret.
      + intros [t|]; [apply same_ret|]. apply same_then; [|intros d; apply same_ret].
        apply same_then; [apply same_read|]. intros [b|]; [|apply same_ret]. apply same_then; [apply same_read|]. intros [a|]; [|apply same_ret].
        apply same_then; [apply same_pure|]. intros c. apply same_ret.
    - apply same_then; [apply same_text|]. intros [t|]; [apply same_ret|]. apply same_then; [apply same_read|]. intros d. apply same_ret.
    - apply same_then; [apply same_text|]. intros [t|]; [apply same_ret|]. apply same_then; [apply same_read|]. intros d. apply same_ret.
    - apply same_ret.
  Qed.
End Still.

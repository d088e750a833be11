(* Proof_Words.v - the texts of the messages can be told apart. *)
From Coq Require Import String ZifyBool ZifyN.
From Verif Require Import Base Model_Seq Model_Changes Model_IO Model_Text Model_Bytes Model_Json Model_Files Model_Log Model_Words Spec Spec_Words Proof_Utf8 Proof_Json.
Local Open Scope nat_scope.

Lemma app_same_len {A} (l l' x y : list A) : List.length l = List.length l' -> l ++ x = l' ++ y -> l = l' /\ x = y.
Proof.
  revert l'. induction l as [|a l IH]; intros [|b l'] Hl H; cbn in *; try discriminate; [auto|].
  injection H as -> H. destruct (IH l' (eq_add_S _ _ Hl) H) as [-> ->]. auto.
Qed.
Lemma app_at {A} (b : A) l l' x y : ~ In b l -> ~ In b l' -> l ++ b :: x = l' ++ b :: y -> l = l' /\ x = y.
Proof.
  revert l'. induction l as [|a l IH]; intros [|c l'] H1 H2 H; cbn in *.
  - injection H as ->. auto.
  - injection H as <- _. exfalso. tauto.
  - injection H as -> _. exfalso. tauto.
  - injection H as -> H. destruct (IH l') as [-> ->]; auto; tauto.
Qed.
Lemma to_N_inj b b' : Byte.to_N b = Byte.to_N b' -> b = b'.
Proof. intros H. apply (f_equal Byte.of_N) in H. rewrite !Byte.of_to_N in H. now injection H. Qed.
Lemma map_to_N_inj c c' : map Byte.to_N c = map Byte.to_N c' -> c = c'.
Proof. revert c'. induction c as [|b c IH]; intros [|b' c'] H; cbn in H; try discriminate; [reflexivity|]. injection H as H1 H2. apply to_N_inj in H1 as ->. now rewrite (IH c'). Qed.

(* ---------------- numbers ---------------- *)
Lemma dec_ends z z' x y : (0 <= z)%Z -> (0 <= z')%Z -> digit_follows x = false -> digit_follows y = false -> dec z ++ x = dec z' ++ y -> z = z' /\ x = y.
Proof.
  intros H H' Hx Hy E. destruct (dec_spec z H) as (D & V & _). destruct (dec_spec z' H') as (D' & V' & _).
  pose proof (parse_digits_app (dec z) x 0 D Hx) as P. rewrite E, parse_digits_app in P by assumption. injection P as P1 P2. split; [congruence|auto].
Qed.
Lemma dec_head z : (0 <= z)%Z -> exists b l, dec z = b :: l /\ is_digit b = true.
Proof. intros H. destruct (dec_spec z H) as (D & _ & b & l & E & _). exists b, l. split; [assumption|]. unfold is_dec in D. rewrite E in D. cbn in D. now apply andb_prop in D as [D _]. Qed.
Lemma show_ends z z' x y : digit_follows x = false -> digit_follows y = false -> show z ++ x = show z' ++ y -> z = z' /\ x = y.
Proof.
  intros Hx Hy. unfold show. destruct (Z.ltb_spec z 0) as [H|H], (Z.ltb_spec z' 0) as [H'|H']; cbn [app]; intros E.
  - injection E as E. apply dec_ends in E as [E ->]; [split; [lia|reflexivity]|lia..|assumption|assumption].
  - destruct (dec_head z' H') as (b & l & E1 & E2). rewrite E1 in E. cbn [app] in E. injection E as <- _. discriminate.
  - destruct (dec_head z H) as (b & l & E1 & E2). rewrite E1 in E. cbn [app] in E. injection E as -> _. discriminate.
  - now apply dec_ends in E.
Qed.

(* ---------------- hexadecimal numbers ---------------- *)
Definition unhex (b : byte) : N := let n := Byte.to_N b in (if n <? 58 then n - 48 else if n <? 97 then n - 55 else n - 87)%N.
Lemma small16 (P : N -> Prop) : P 0%N -> P 1%N -> P 2%N -> P 3%N -> P 4%N -> P 5%N -> P 6%N -> P 7%N -> P 8%N -> P 9%N -> P 10%N -> P 11%N -> P 12%N -> P 13%N -> P 14%N -> P 15%N ->
  forall n, (n < 16)%N -> P n.
Proof.
  intros. assert (C : (n = 0 \/ n = 1 \/ n = 2 \/ n = 3 \/ n = 4 \/ n = 5 \/ n = 6 \/ n = 7 \/ n = 8 \/ n = 9 \/ n = 10 \/ n = 11 \/ n = 12 \/ n = 13 \/ n = 14 \/ n = 15)%N) by lia.
  repeat destruct C as [->|C]; subst; assumption.
Qed.
Lemma unhex_digit n : (n < 16)%N -> unhex (hex_digit n) = n /\ hex_digit n <> x7d.
Proof. revert n. apply small16; vm_compute; (split; [reflexivity|discriminate]). Qed.
Lemma hex_loop_spec : forall fuel n, (n < 16 ^ N.of_nat fuel)%N -> fold_left (fun v b => 16 * v + unhex b)%N (hex_loop fuel n) 0%N = n /\ ~ In x7d (hex_loop fuel n).
Proof.
  induction fuel as [|fuel IH]; intros n H.
  - change (16 ^ N.of_nat 0)%N with 1%N in H. cbn. split; [lia|easy].
  - cbn [hex_loop]. destruct (N.ltb_spec n 16) as [Hn|Hn].
    + destruct (unhex_digit n Hn) as [E1 E2]. cbn [fold_left In]. rewrite E1. split; [lia|]. intros [E|[]]. congruence.
    + destruct (IH (n / 16)%N) as [I1 I2].
      { apply N.div_lt_upper_bound; [lia|]. rewrite Nat2N.inj_succ, N.pow_succ_r' in H. lia. }
      destruct (unhex_digit (n mod 16)%N) as [E1 E2]; [apply N.mod_lt; lia|].
      rewrite fold_left_app, I1. cbn [fold_left]. rewrite E1. split; [pose proof (N.div_mod' n 16); lia|].
      rewrite in_app_iff. cbn [In]. intros [K|[K|[]]]; [auto|congruence].
Qed.
Definition unbad (h l : byte) : option byte := Byte.of_N (16 * unhex h + unhex l).
Lemma unbad_spec b : unbad (hex_upper (Byte.to_N b / 16)) (hex_upper (Byte.to_N b mod 16)) = Some b.
Proof. destruct b; vm_compute; reflexivity. Qed.

(* ---------------- characters ---------------- *)
Definition is_char (c : list byte) : Prop := match c with [] => False | b :: _ => List.length c = char_len b /\ utf8_valid c = true end.
Lemma char_shape c : is_char c ->
  (exists b, c = [b] /\ (Byte.to_N b <= 127)%N) \/
  (exists b r, c = b :: r /\ r <> [] /\ Forall (fun x => 128 <= Byte.to_N x)%N c /\ map Byte.to_N c = utf8_encode (scalar_of c)).
Proof.
  destruct c as [|b r]; [easy|]. intros [HL HV]. unfold char_len in HL. cbn [utf8_valid] in HV.
  destruct (byte_in 0 127 b) eqn:E1.
  { destruct r; [|discriminate]. left. exists b. split; [reflexivity|]. bi. lia. }
  right. exists b, r. split; [reflexivity|].
  destruct (byte_in 194 223 b) eqn:E2.
  { destruct r as [|b1 [|]]; try discriminate. bi. split; [discriminate|]. split; [repeat (apply Forall_cons; [lia|]); apply Forall_nil|].
    cbn [map scalar_of]. unfold scalar_of. cbn [map]. symmetry. apply enc2; lia. }
  destruct (byte_in 224 239 b) eqn:E3.
  { destruct r as [|b1 [|b2 [|]]]; try discriminate. apply andb_prop in HV as [HV _]. apply andb_prop in HV as [HV H2].
    assert (K : (128 <= Byte.to_N b1 <= 191 /\ (Byte.to_N b = 224 -> 160 <= Byte.to_N b1))%N).
    { destruct (byte_in 224 224 b) eqn:A; [bi; lia|]. destruct (byte_in 237 237 b) eqn:B; bi; lia. }
    bi. split; [discriminate|]. split; [repeat (apply Forall_cons; [lia|]); apply Forall_nil|].
    unfold scalar_of. cbn [map]. symmetry. apply enc3; lia. }
  destruct (byte_in 240 244 b) eqn:E4; [|discriminate].
  destruct r as [|b1 [|b2 [|b3 [|]]]]; try discriminate. apply andb_prop in HV as [HV _]. apply andb_prop in HV as [HV H3]. apply andb_prop in HV as [HV H2].
  assert (K : (128 <= Byte.to_N b1 <= 191 /\ (Byte.to_N b = 240 -> 144 <= Byte.to_N b1))%N).
  { destruct (byte_in 240 240 b) eqn:A; [bi; lia|]. destruct (byte_in 244 244 b) eqn:B; bi; lia. }
  bi. split; [discriminate|]. split; [repeat (apply Forall_cons; [lia|]); apply Forall_nil|].
  unfold scalar_of. cbn [map]. symmetry. apply enc4; lia.
Qed.
Lemma scalar_enc c : is_char c -> map Byte.to_N c = utf8_encode (scalar_of c).
Proof. intros H. destruct (char_shape c H) as [(b & -> & Hb)|(b & r & -> & _ & _ & E)]; [|exact E]. unfold scalar_of. cbn [map]. symmetry. apply enc1. lia. Qed.
Lemma scalar_of_inj c c' : is_char c -> is_char c' -> scalar_of c = scalar_of c' -> c = c'.
Proof. intros H H' E. apply map_to_N_inj. rewrite (scalar_enc c H), (scalar_enc c' H'). congruence. Qed.
Lemma scalar_bound c : is_char c -> (scalar_of c < 16 ^ N.of_nat 8)%N.
Proof.
  intros H. change (16 ^ N.of_nat 8)%N with 4294967296%N. unfold scalar_of.
  destruct c as [|b0 [|b1 [|b2 [|b3 [|]]]]]; cbn [map]; try pose proof (to_N_255 b0); try pose proof (to_N_255 b1); try pose proof (to_N_255 b2); try pose proof (to_N_255 b3); lia.
Qed.

(* ---------------- quoting ---------------- *)
Section Quote.
  Variable printable : list byte -> bool.
  Variable single : bool.
  Notation esc := (escape_char printable single).
  Notation from := (escape_from printable single).
  Notation quote := (quote printable single).

  Definition unsimple (k : byte) : byte :=
    match k with x30 => x00 | x74 => x09 | x72 => x0d | x6e => x0a | k => k end.
  Lemma esc_view c : is_char c ->
    (esc c = c /\ hd x5c c <> x5c /\ hd x22 c <> x22) \/
    (exists b k, c = [b] /\ esc c = [x5c; k] /\ k <> x75 /\ k <> x78 /\ b = unsimple k) \/
    esc c = str "\u{" ++ hex (scalar_of c) ++ str "}".
  Proof.
    intros H. destruct (char_shape c H) as [(b & -> & Hb)|(b & r & -> & Hr & HF & _)].
    - assert (D : b = x00 \/ b = x09 \/ b = x0d \/ b = x0a \/ b = x22 \/ b = x5c \/ b = x27 \/
        ((esc [b] = if byte_in 32 126 b then [b] else str "\u{" ++ hex (scalar_of [b]) ++ str "}") /\ b <> x22 /\ b <> x5c)) by
        (destruct b; try (right; right; right; right; right; right; right; split; [reflexivity|split; discriminate]); tauto).
      destruct D as [->|[->|[->|[->|[->|[->|[->|(D & D1 & D2)]]]]]]].
      1-6: right; left; do 2 eexists; split; [reflexivity|]; split; [reflexivity|]; repeat split; try discriminate; reflexivity.
      + unfold escape_char. destruct single.
        * right; left; do 2 eexists; split; [reflexivity|]; split; [reflexivity|]; repeat split; try discriminate; reflexivity.
        * left. repeat split; discriminate.
      + rewrite D. destruct (byte_in 32 126 b); [left|right; right; reflexivity]. repeat split; assumption.
    - assert (D : esc (b :: r) = if printable (b :: r) then b :: r else str "\u{" ++ hex (scalar_of (b :: r)) ++ str "}") by
        (destruct r as [|b1 r]; [contradiction|]; destruct b; reflexivity).
      rewrite D. destruct (printable (b :: r)); [left|right; right; reflexivity].
      apply Forall_inv in HF. split; [reflexivity|]. cbn [hd]. split; intros ->; revert HF; vm_compute; auto.
  Qed.

  (* a piece of a path and what it is written as *)
  Definition piece (c e : list byte) : Prop := (is_char c /\ e = esc c) \/ exists b, c = [b] /\ e = escape_invalid b.
  Lemma from_skip : forall k s, from k s = from 0 (skipn k s).
  Proof. induction k as [|k IH]; intros s; [reflexivity|]. destruct s as [|b s]; [reflexivity|]. cbn [skipn]. rewrite <- IH. reflexivity. Qed.
  Lemma from_view s : s = [] \/ exists c e rest, s = c ++ rest /\ c <> [] /\ piece c e /\ from 0 s = e ++ from 0 rest.
  Proof.
    destruct s as [|b r]; [now left|]. right. cbn [escape_from]. destruct (char_at (b :: r)) as [c|] eqn:E.
    - unfold char_at in E. set (k := char_len b) in *. destruct (_ && _)%bool eqn:B in E; [|discriminate]. injection E as E. apply andb_prop in B as [B B3]. apply andb_prop in B as [B1 B2].
      apply Nat.ltb_lt in B1. apply Nat.eqb_eq in B2. exists c, (esc c), (skipn k (b :: r)).
      assert (Hc : exists t, c = b :: t) by (rewrite <- E; destruct k; [lia|]; cbn [firstn]; eauto). destruct Hc as [t Hc].
      split; [now rewrite <- E, firstn_skipn|]. split; [rewrite Hc; discriminate|]. split.
      + left. split; [|reflexivity]. rewrite E in B2, B3. rewrite Hc in B2, B3 |- *. split; [exact B2|exact B3].
      + f_equal. rewrite from_skip. rewrite E in B2. rewrite B2. destruct k; [lia|]. cbn [skipn]. now rewrite Nat.sub_succ, Nat.sub_0_r.
    - exists [b], (escape_invalid b), r. split; [reflexivity|]. split; [discriminate|]. split; [right; eauto|]. reflexivity.
  Qed.
  Lemma piece_head c e : piece c e -> exists b l, e = b :: l /\ b <> x22.
  Proof.
    intros [[H ->]|(b & _ & ->)]; [|eexists; eexists; split; [reflexivity|discriminate]].
    destruct (esc_view c H) as [(-> & _ & H2)|[(b & k & _ & -> & _)| ->]].
    - destruct c as [|b l]; [easy|]. exists b, l. auto.
    - do 2 eexists. split; [reflexivity|discriminate].
    - do 2 eexists. split; [reflexivity|discriminate].
  Qed.
  Lemma piece_unique c e c' e' x y : piece c e -> piece c' e' -> e ++ x = e' ++ y -> c = c' /\ x = y.
  Proof.
    assert (S1 : forall c b x y, is_char c -> esc c ++ x = escape_invalid b ++ y -> False).
    { intros c0 b u v H E. destruct (esc_view c0 H) as [(E' & H1 & _)|[(b' & k & _ & E' & _ & K & _)|E']]; rewrite E' in E.
      - destruct c0 as [|a l]; [easy|]. injection E as -> _. now apply H1.
      - injection E as E _. now apply K.
      - discriminate E. }
    intros [[H ->]|(b & -> & ->)] [[H' ->]|(b' & -> & ->)] E.
    - destruct (esc_view c H) as [(E1 & A1 & _)|[(b & k & -> & E1 & A1 & _ & ->)|E1]], (esc_view c' H') as [(E2 & A2 & _)|[(b' & k' & -> & E2 & A2 & _ & ->)|E2]]; rewrite E1, E2 in E.
      + destruct c as [|b r]; [easy|]. destruct c' as [|b' r']; [easy|]. assert (b = b') as -> by (now injection E). apply app_same_len; [|exact E]. rewrite (proj1 H), (proj1 H'). reflexivity.
      + destruct c as [|b r]; [easy|]. injection E as -> _. now elim A1.
      + destruct c as [|b r]; [easy|]. injection E as -> _. now elim A1.
      + destruct c' as [|b r]; [easy|]. injection E as <- _. now elim A2.
      + injection E as -> ->. auto.
      + injection E as -> _. now elim A1.
      + destruct c' as [|b r]; [easy|]. injection E as <- _. now elim A2.
      + injection E as <- _. now elim A2.
      + change (str "\u{") with [x5c; x75; x7b] in E. change (str "}") with [x7d] in E. cbn [app] in E. injection E as E. rewrite <- !app_assoc in E. cbn [app] in E.
        destruct (hex_loop_spec 8 _ (scalar_bound c H)) as [V N]. destruct (hex_loop_spec 8 _ (scalar_bound c' H')) as [V' N'].
        apply app_at in E as [E ->]; [|assumption..]. split; [|reflexivity]. apply scalar_of_inj; auto. unfold hex in E. rewrite E in V. congruence.
    - destruct (S1 _ _ _ _ H E).
    - destruct (S1 _ _ _ _ H' (eq_sym E)).
    - unfold escape_invalid in E. change (str "\x") with [x5c; x78] in E. cbn [app] in E. injection E as E1 E2 ->. split; [|reflexivity].
      pose proof (unbad_spec b) as U. rewrite E1, E2, unbad_spec in U. congruence.
  Qed.
  Lemma quote_ends p q x y : quote p ++ x = quote q ++ y -> p = q /\ x = y.
  Proof.
    unfold Model_Words.quote. cbn [app]. rewrite <- !app_assoc. cbn [app]. intros E. injection E as E. revert q E.
    remember (List.length p) as n. assert (Hn : List.length p <= n) by lia. clear Heqn. revert p Hn. induction n as [|n IH]; intros p Hn q E.
    - destruct p; [|cbn in Hn; lia]. destruct (from_view q) as [->|(c & e & rest & -> & _ & P & F)]; [cbn in E; injection E as ->; auto|].
      rewrite F in E. destruct (piece_head _ _ P) as (b & l & -> & Hb). cbn in E. injection E as <- _. now elim Hb.
    - destruct (from_view p) as [->|(c & e & rest & -> & Hc & P & F)].
      + destruct (from_view q) as [->|(c & e & rest & -> & _ & P & F)]; [cbn in E; injection E as ->; auto|].
        rewrite F in E. destruct (piece_head _ _ P) as (b & l & -> & Hb). cbn in E. injection E as <- _. now elim Hb.
      + rewrite F in E. destruct (from_view q) as [->|(c' & e' & rest' & -> & _ & P' & F')].
        * destruct (piece_head _ _ P) as (b & l & -> & Hb). cbn in E. injection E as -> _. now elim Hb.
        * rewrite F', <- !app_assoc in E. destruct (piece_unique _ _ _ _ _ _ P P' E) as [-> E']. destruct (IH rest) with (q := rest') as [-> ->]; auto.
          rewrite app_length in Hn. destruct c'; [easy|]. cbn in Hn. lia.
  Qed.

  (* no control characters *)
  Lemma hex_visible n : (n < 16)%N -> visible (hex_digit n).
  Proof. revert n. apply small16; vm_compute; (split; [discriminate..|discriminate]). Qed.
  Lemma hex_upper_visible b : visible (hex_upper (Byte.to_N b / 16)) /\ visible (hex_upper (Byte.to_N b mod 16)).
  Proof. destruct b; vm_compute; repeat split; discriminate. Qed.
  Lemma hex_loop_visible : forall fuel n, Forall visible (hex_loop fuel n).
  Proof.
    induction fuel as [|fuel IH]; intros n; cbn [hex_loop]; [constructor|]. destruct (N.ltb_spec n 16) as [H|H]; [repeat constructor; apply hex_visible, H|].
    apply Forall_app. split; [apply IH|]. constructor; [|constructor]. apply hex_visible, N.mod_lt. lia.
  Qed.
  Lemma literal_visible s : forallb (fun b => (32 <=? Byte.to_N b)%N && negb (Byte.eqb b x7f)) s = true -> Forall visible s.
  Proof.
    intros H. rewrite Forall_forall. rewrite forallb_forall in H. intros b Hb. specialize (H b Hb). apply andb_prop in H as [H1 H2]. split; [now apply N.leb_le|].
    intros ->. discriminate.
  Qed.
  Lemma piece_visible c e : piece c e -> Forall visible e.
  Proof.
    intros [[H ->]|(b & _ & ->)].
    - assert (U : Forall visible (str "\u{" ++ hex (scalar_of c) ++ str "}")).
      { apply Forall_app; split; [now apply literal_visible|]. apply Forall_app; split; [apply hex_loop_visible|now apply literal_visible]. }
      destruct (char_shape c H) as [(b & -> & Hb)|(b & r & -> & Hr & HF & _)].
      + destruct b; try (now apply literal_visible); try exact U. unfold escape_char. destruct single; now apply literal_visible.
      + assert (D : esc (b :: r) = if printable (b :: r) then b :: r else str "\u{" ++ hex (scalar_of (b :: r)) ++ str "}") by
          (destruct r as [|b1 r]; [contradiction|]; destruct b; reflexivity).
        rewrite D. destruct (printable (b :: r)); [|exact U]. eapply Forall_impl; [|exact HF]. cbn. intros x Hx. split; [lia|]. intros ->. revert Hx. vm_compute. auto.
    - unfold escape_invalid. apply Forall_app; split; [now apply literal_visible|]. destruct (hex_upper_visible b). apply Forall_cons; [assumption|]. apply Forall_cons; [assumption|constructor].
  Qed.
  Lemma quote_visible p : Forall visible (quote p).
  Proof.
    unfold Model_Words.quote. constructor; [now split|]. apply Forall_app; split; [|now apply literal_visible].
    remember (List.length p) as n. assert (Hn : List.length p <= n) by lia. clear Heqn. revert p Hn. induction n as [|n IH]; intros p Hn.
    - destruct p; [constructor|cbn in Hn; lia].
    - destruct (from_view p) as [->|(c & e & rest & -> & Hc & P & F)]; [constructor|]. rewrite F. apply Forall_app; split; [now apply piece_visible in P|].
      apply IH. rewrite app_length in Hn. destruct c; [easy|]. cbn in Hn. lia.
  Qed.
End Quote.

(* ---------------- the messages ---------------- *)
Ltac literals H := repeat match type of H with context [str ?s] => let v := eval vm_compute in (str s) in change (str s) with v in H end; cbn [app] in H.
Lemma show_head z : exists b l, show z = b :: l /\ (b = x2d \/ is_digit b = true).
Proof.
  unfold show. destruct (Z.ltb_spec z 0) as [H|H]; [do 2 eexists; split; [reflexivity|now left]|]. destruct (dec_head z H) as (b & l & -> & Hb). eauto.
Qed.
Section Words.
  Variable printable : list byte -> bool.
  Variable single : bool.
  Notation words := (words printable single).
  Lemma show_inj z w : show z = show w -> z = w.
  Proof. intros H. rewrite <- (app_nil_r (show z)), <- (app_nil_r (show w)) in H. now apply show_ends in H. Qed.
  Ltac step H :=
    literals H;
    first [ discriminate H
          | apply show_ends in H as [?E H]; [|reflexivity|reflexivity]
          | apply show_inj in H
          | apply quote_ends in H as [?E H]
          | injection H as H ].
  Lemma clump_words n v r o n' v' r' o' err err' : sayable (AboutClump n v r o) -> sayable (AboutClump n' v' r' o') ->
    words err (AboutClump n v r o) = words err' (AboutClump n' v' r' o') -> AboutClump n v r o = AboutClump n' v' r' o'.
  Proof.
    intros Hm Hm' H. destruct v, v'; cbn [sayable] in Hm, Hm'; try (match type of Hm with _ /\ _ => destruct Hm as [-> ->] end); try (match type of Hm' with _ /\ _ => destruct Hm' as [-> ->] end);
      try destruct r as [[r1 r2]|]; try destruct o as [o|]; try destruct r' as [[r1' r2']|]; try destruct o' as [o'|];
      cbn [Model_Words.words] in H; unfold show_pair in H; cbn [fst snd] in H; rewrite <- ?app_assoc in H; cbn [app] in H.
    all: literals H; injection H as H; apply show_ends in H as [En H]; [|reflexivity|reflexivity]; apply Nat2Z.inj in En as ->.
    all: try discriminate H; try reflexivity.
    all: repeat (step H; [idtac]); subst; try reflexivity; try discriminate H.
  Qed.
  Lemma words_differ err err' m m' : sayable m -> sayable m' -> words err m = words err' m' -> m = m' /\ (gives_reason m = true -> err = err').
  Proof.
    intros Hm Hm' H.
    destruct m as [n v r o| | |p| |p| | | | |[s|]|p|p|p|p], m' as [n' v' r' o'| | |p'| |p'| | | | |[s'|]|p'|p'|p'|p']; cbn [gives_reason].
    1: now split; [apply (clump_words _ _ _ _ _ _ _ _ err err' Hm Hm' H)|].
    all: cbn [Model_Words.words] in H; try (unfold show_stats, quote in H; literals H; discriminate H).
    all: try (literals H; injection H as H; subst; split; [reflexivity|auto]; fail).
    all: try (apply quote_ends in H as [-> H]; literals H; first [discriminate H|now split|injection H as ->; now split]).
    all: try (apply app_inv_head in H; apply quote_ends in H as [-> H]; apply app_inv_head in H as ->; now split).
    2: now split.
    split; [|discriminate]. unfold show_stats in H. destruct s as [a b c d e], s' as [a' b' c' d' e']. cbn [st_clean st_fuzzy st_already st_already_fuzzy st_failed] in H.
    literals H. injection H as H.
    do 4 (apply show_ends in H as [?E H]; [|reflexivity|reflexivity]; injection H as H).
    apply show_ends in H as [?E H]; [|reflexivity|reflexivity]. repeat match goal with E : Z.of_nat _ = Z.of_nat _ |- _ => apply Nat2Z.inj in E end. subst. reflexivity.
  Qed.

  Lemma dec_visible z : (0 <= z)%Z -> Forall visible (dec z).
  Proof.
    intros H. destruct (dec_spec z H) as (D & _). unfold is_dec in D. rewrite forallb_forall in D. apply Forall_forall. intros b Hb. specialize (D b Hb).
    unfold is_digit in D. apply byte_in_spec in D. split; [lia|]. intros ->. revert D. vm_compute. intros [_ K]. now apply K.
  Qed.
  Lemma show_visible z : Forall visible (show z).
  Proof. unfold show. destruct (Z.ltb_spec z 0); [constructor; [now split|]|]; apply dec_visible; lia. Qed.
  Lemma words_visible m b : (forall err, In b (words err m) -> In b err \/ visible b).
  Proof.
    intros err. assert (W : Forall (fun b => In b err \/ visible b) (words err m)).
    2:{ rewrite Forall_forall in W. apply W. }
    assert (V : forall l, Forall visible l -> Forall (fun b => In b err \/ visible b) l) by (intros l; apply Forall_impl; auto).
    assert (R : Forall (fun b => In b err \/ visible b) err) by (apply Forall_forall; auto).
    destruct m as [n v r o| | |p| |p| | | | |[s|]|p|p|p|p]; cbn [Model_Words.words]; [destruct v, r as [r|], o as [o|]|..];
      unfold show_pair, show_stats; repeat (apply Forall_app; split); try exact R; apply V; first [apply show_visible|apply quote_visible|now apply literal_visible].
  Qed.
End Words.

(* ---------------- every message of the programs is sayable ---------------- *)
Definition ok_event (e : event) : Prop := sayable (ev_message e).
Definition says {A} (m : lio A) : Prop := forall w, Forall ok_event (fst (m w)).
Lemma says_mute {A} (m : io A) : says (mute m). Proof. intros w. constructor. Qed.
Lemma says_lret {A} (a : A) : says (lret a). Proof. intros w. constructor. Qed.
Lemma says_say e : ok_event e -> says (say e). Proof. intros H w. now repeat constructor. Qed.
Lemma says_lbind {A B} (m : lio A) (k : A -> lio B) : says m -> (forall a, says (k a)) -> says (lbind m k).
Proof.
  intros Hm Hk w. unfold lbind. specialize (Hm w). destruct (m w) as [ev [[a| | |] w']]; cbn [fst] in *; try assumption.
  specialize (Hk a w'). destruct (k a w') as [ev' x]. cbn [fst] in *. now apply Forall_app.
Qed.
Ltac saying := repeat first [apply says_mute|apply says_lret|apply says_say; exact I || (split; reflexivity)|apply says_lbind; [|intros ?]
  |match goal with |- says (match ?x with _ => _ end) => destruct x end].
Lemma text_says dbg clumps target reverse : says (text_apply_logged dbg clumps target reverse).
Proof.
  unfold text_apply_logged. apply says_lbind; [|intros [c s]; saying].
  assert (G : forall n z o st, says (apply_clumps_logged dbg target reverse clumps n z o st)); [|apply G]. induction clumps as [|c rest IH]; intros n z o st; cbn [apply_clumps_logged]; [saying|].
  apply says_lbind; [|intros [[c' o'] s']; apply IH]. unfold apply_step_logged. saying.
Qed.
Lemma byte_says dbg clumps target reverse : says (byte_apply_logged dbg clumps target reverse).
Proof.
  unfold byte_apply_logged. apply says_lbind; [|intros c; saying].
  generalize 0%nat 0%Z. induction clumps as [|c rest IH]; intros n z; cbn [byte_clumps_logged]; [saying|].
  apply says_lbind; [|intros c'; apply IH]. saying.
Qed.
Definition tells {A} (m : lprog A) : Prop := forall w, Forall ok_event (fst (m w)).
Lemma tells_silent {A} (m : prog A) : tells (silent m). Proof. intros w. constructor. Qed.
Lemma tells_tell lv m : sayable m -> tells (tell lv m). Proof. intros H w. now repeat constructor. Qed.
Lemma tells_bind {A B} (m : lprog A) (k : A -> lprog B) : tells m -> (forall a, tells (k a)) -> tells (lpbind m k).
Proof.
  intros Hm Hk w. unfold lpbind. specialize (Hm w). destruct (m w) as [ev [[a|c| |] w']]; cbn [fst] in *; try assumption.
  specialize (Hk a w'). destruct (k a w') as [ev' x]. cbn [fst] in *. now apply Forall_app.
Qed.
Lemma tells_fail {A} m code : sayable m -> tells (@fail_with A m code).
Proof. intros H. apply tells_bind; [now apply tells_tell|]. intros _. apply tells_silent. Qed.
Lemma tells_write {A} E p (m : lio A) : says m -> tells (write_file_logged E p m).
Proof. intros H w. unfold write_file_logged. cbn [fst]. destruct (w_fs w p) as [[mode d|]|]; try constructor. apply H. Qed.
Ltac telling := repeat first [apply tells_silent|apply tells_tell; exact I|apply tells_fail; exact I|apply tells_write; assumption|apply tells_bind; [|intros ?]
  |match goal with |- tells (match ?x with _ => _ end) => destruct x | |- tells (if ?x then _ else _) => destruct x end|intros ?w; constructor].
Lemma patch_tells E patch reverse : tells (patch_main_logged E patch reverse).
Proof.
  unfold patch_main_logged. telling. unfold patch_diff_logged.
  match goal with d : diff |- _ => destruct d end; try destruct reverse; unfold patch_remove_logged, patch_create_logged; telling.
  all: apply tells_write; apply text_says || apply byte_says.
Qed.
Lemma diff_tells E before after context : tells (diff_main_logged E before after context).
Proof.
  unfold diff_main_logged. telling. destruct (diff_to_json _) as [out ok]. destruct (_ && _)%bool; [intros w; constructor|]. intros w. exact (tells_fail WritingDiffFailed 5 I _).
Qed.

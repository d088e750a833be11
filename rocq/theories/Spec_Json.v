(* Spec_Json.v - JSON texts (the grammar of RFC 8259) and which of them stand for which diff.
   Of the model only the data types of diffs are used. *)
From Coq Require Import String.
From Verif Require Import Base Model_Seq Model_Changes Model_IO Model_Text Model_Bytes Model_Json Spec.
Local Open Scope Z_scope.

(* ---------------- trees ---------------- *)
(* numbers and strings as they are spelled (strings without the quotes) *)
Inductive json :=
| JNull | JTrue | JFalse
| JNum (spelling : list byte)
| JStr (spelling : list byte)
| JArr (items : list json)
| JObj (members : list (list byte * json)).

(* ---------------- spelling (RFC 8259, sections 2 - 7) ---------------- *)
Definition chars (s : string) : list byte := list_byte_of_string s.
Definition decimal_digit (b : byte) : Prop := (48 <= Byte.to_N b <= 57)%N.
Definition digits (s : list byte) : Prop := s <> [] /\ Forall decimal_digit s.
Definition integer_form (s : list byte) : Prop := s = chars "0" \/ digits s /\ hd_error s <> hd_error (chars "0").
Definition number_form (s : list byte) : Prop := exists minus int frac exp,
  s = minus ++ int ++ frac ++ exp /\ In minus [[]; chars "-"] /\ integer_form int /\
  (frac = [] \/ exists ds, digits ds /\ frac = chars "." ++ ds) /\
  (exp = [] \/ exists e sign ds, In e [chars "e"; chars "E"] /\ In sign [[]; chars "+"; chars "-"] /\ digits ds /\
               exp = e ++ sign ++ ds).

(* the value of a hexadecimal digit *)
Definition hex (b : byte) (n : N) : Prop :=
  ((48 <= Byte.to_N b <= 57 /\ Byte.to_N b = 48 + n) \/ (65 <= Byte.to_N b <= 70 /\ Byte.to_N b = 55 + n) \/
   (97 <= Byte.to_N b <= 102 /\ Byte.to_N b = 87 + n))%N.
Definition unit_of (s : list byte) (n : N) : Prop := exists b1 b2 b3 b4 n1 n2 n3 n4,
  s = [b1; b2; b3; b4] /\ hex b1 n1 /\ hex b2 n2 /\ hex b3 n3 /\ hex b4 n4 /\ (n = 4096 * n1 + 256 * n2 + 16 * n3 + n4)%N.
Definition short_escapes : list (byte * byte) :=
  [(x22, x22); (x5c, x5c); (x2f, x2f); (x62, x08); (x66, x0c); (x6e, x0a); (x72, x0d); (x74, x09)].
Definition plain (b : byte) : Prop := (32 <= Byte.to_N b)%N /\ b <> x22 /\ b <> x5c.

(* RFC 8259 does not ask for \u escapes to be meaningful, and neither does this *)
Inductive string_form : list byte -> Prop :=
| string_end : string_form []
| string_plain b s : plain b -> string_form s -> string_form (b :: s)
| string_short e c s : In (e, c) short_escapes -> string_form s -> string_form (x5c :: e :: s)
| string_unit u n s : unit_of u n -> string_form s -> string_form (x5c :: x75 :: u ++ s).

(* [value_text j s]: [s] spells [j], without blanks around it *)
Inductive value_text : json -> list byte -> Prop :=
| value_null : value_text JNull (chars "null")
| value_true : value_text JTrue (chars "true")
| value_false : value_text JFalse (chars "false")
| value_num s : number_form s -> value_text (JNum s) s
| value_str s : string_form s -> value_text (JStr s) (x22 :: s ++ [x22])
| value_arr0 w : json_blank w -> value_text (JArr []) (x5b :: w ++ [x5d])
| value_arr js s : items_text js s -> value_text (JArr js) (x5b :: s ++ [x5d])
| value_obj0 w : json_blank w -> value_text (JObj []) (x7b :: w ++ [x7d])
| value_obj ms s : members_text ms s -> value_text (JObj ms) (x7b :: s ++ [x7d])
with items_text : list json -> list byte -> Prop :=
| items_one j w s w' : json_blank w -> value_text j s -> json_blank w' -> items_text [j] (w ++ s ++ w')
| items_more j w s w' js s' : json_blank w -> value_text j s -> json_blank w' -> items_text js s' ->
    items_text (j :: js) (w ++ s ++ w' ++ x2c :: s')
with members_text : list (list byte * json) -> list byte -> Prop :=
| members_one k w0 w1 j w s w' : json_blank w0 -> string_form k -> json_blank w1 -> json_blank w -> value_text j s -> json_blank w' ->
    members_text [(k, j)] (w0 ++ x22 :: k ++ x22 :: w1 ++ x3a :: w ++ s ++ w')
| members_more k w0 w1 j w s w' ms s' : json_blank w0 -> string_form k -> json_blank w1 -> json_blank w -> value_text j s -> json_blank w' ->
    members_text ms s' -> members_text ((k, j) :: ms) (w0 ++ x22 :: k ++ x22 :: w1 ++ x3a :: w ++ s ++ w' ++ x2c :: s').
Definition json_text (j : json) (s : list byte) : Prop :=
  exists w t w', json_blank w /\ value_text j t /\ json_blank w' /\ s = w ++ t ++ w'.

(* ---------------- meaning ---------------- *)
(* the number spelled, if it is a natural number without sign, fraction and exponent *)
Definition number (max z : Z) (j : json) : Prop := exists s, j = JNum s /\ integer_form s /\
  z = fold_left (fun a b => 10 * a + (Z.of_N (Byte.to_N b) - 48)) s 0 /\ z <= max.
Definition boolean (b : bool) (j : json) : Prop := j = if b then JTrue else JFalse.

(* what the characters and escapes stand for; surrogates must come in pairs *)
Inductive meaning : list byte -> list byte -> Prop :=
| meaning_end : meaning [] []
| meaning_plain b s t : plain b -> meaning s t -> meaning (b :: s) (b :: t)
| meaning_short e c s t : In (e, c) short_escapes -> meaning s t -> meaning (x5c :: e :: s) (c :: t)
| meaning_unit u n c s t : unit_of u n -> scalar n -> map Byte.to_N c = utf8_encode n -> meaning s t ->
    meaning (x5c :: x75 :: u ++ s) (c ++ t)
| meaning_pair u hi u' lo c s t : unit_of u hi -> unit_of u' lo -> (55296 <= hi < 56320)%N -> (56320 <= lo < 57344)%N ->
    map Byte.to_N c = utf8_encode (65536 + 1024 * (hi - 55296) + (lo - 56320))%N -> meaning s t ->
    meaning (x5c :: x75 :: u ++ x5c :: x75 :: u' ++ s) (c ++ t).
Definition stands_for (spelling text : list byte) : Prop := meaning spelling text /\ is_utf8 text.
Definition text (t : list byte) (j : json) : Prop := exists s, j = JStr s /\ stands_for s t.

Definition array {A} (P : A -> json -> Prop) (l : list A) (j : json) : Prop :=
  exists js, j = JArr js /\ Forall2 P l js.
Definition two (P Q : json -> Prop) (j : json) : Prop := exists x y, j = JArr [x; y] /\ P x /\ Q y.
(* exactly one member has this name, and its value is as required *)
Definition one_member (ms : list (list byte * json)) (name : list byte) (P : json -> Prop) : Prop :=
  exists front k j back, ms = front ++ (k, j) :: back /\ stands_for k name /\ P j /\
    Forall (fun m => ~ stands_for (fst m) name) (front ++ back).
(* A record: an object with these members in any order and possibly others, all with
   meaningful names; or an array of the values in order. *)
Definition record (fields : list (list byte * (json -> Prop))) (j : json) : Prop :=
  (exists js, j = JArr js /\ Forall2 (fun f x => snd f x) fields js) \/
  (exists ms, j = JObj ms /\ Forall (fun m => exists name, stands_for (fst m) name) ms /\
     Forall (fun f => one_member ms (fst f) (snd f)) fields).
(* a variant of an enumeration: an object with this member and no other *)
Definition variant (name : list byte) (P : json -> Prop) (j : json) : Prop :=
  exists k x, j = JObj [(k, x)] /\ stands_for k name /\ P x.

(* ---------------- diffs ---------------- *)
Definition max_u8 : Z := 255.
Definition max_usize : Z := 18446744073709551615.
Definition one_byte (b : byte) : json -> Prop := number max_u8 (Z.of_N (Byte.to_N b)).
(* what text, records and variants look like is given separately, for loading and for saving *)
Section Forms.
Context (txt : list byte -> json -> Prop) (rec : list (list byte * (json -> Prop)) -> json -> Prop)
  (var : list byte -> (json -> Prop) -> json -> Prop).
Definition snippet_form {T} (item : T -> json -> Prop) (s : snippet T) : json -> Prop :=
  rec [(chars "start", number max_usize (sn_start s)); (chars "items", array item (sn_items s))].
Definition text_clump_form (c : text_clump) : json -> Prop :=
  rec [(chars "context_lengths", two (number max_u8 (fst (tc_context c))) (number max_u8 (snd (tc_context c))));
       (chars "before", snippet_form txt (tc_before c)); (chars "after", snippet_form txt (tc_after c))].
Definition byte_clump_form (c : byte_clump) : json -> Prop :=
  rec [(chars "context_lengths", two (number max_u8 (fst (bc_context c))) (number max_u8 (snd (bc_context c))));
       (chars "before", snippet_form one_byte (bc_before c)); (chars "after", snippet_form one_byte (bc_after c))].
Definition lines_form (p : path_and_lines) : json -> Prop :=
  rec [(chars "path", txt (pl_path p)); (chars "lines", array txt (pl_lines p))].
Definition bytes_form (p : path_and_bytes) : json -> Prop :=
  rec [(chars "path", txt (pb_path p)); (chars "compressed", boolean (pb_compressed p)); (chars "bytes", array one_byte (pb_bytes p))].
Definition diff_form (d : diff) : json -> Prop :=
  match d with
  | TextChange d => var (chars "TextChange")
      (rec [(chars "before_path", txt (td_before d)); (chars "after_path", txt (td_after d));
            (chars "clumps", array text_clump_form (td_clumps d))])
  | TextAdd p => var (chars "TextAdd") (lines_form p)
  | TextRemove p => var (chars "TextRemove") (lines_form p)
  | ByteChange d => var (chars "ByteChange")
      (rec [(chars "before_path", txt (bd_before d)); (chars "after_path", txt (bd_after d));
            (chars "compressed", boolean (bd_compressed d)); (chars "clumps", array byte_clump_form (bd_clumps d))])
  | ByteAdd p => var (chars "ByteAdd") (bytes_form p)
  | ByteRemove p => var (chars "ByteRemove") (bytes_form p)
  end.
End Forms.
(* what a loader must accept *)
Definition diff_json : diff -> json -> Prop := diff_form text record variant.

(* ---------------- the form written ---------------- *)
(* Control characters, quotes and backslashes are escaped, nothing else is. *)
Definition small_hex (n : N) : byte := nth (N.to_nat n) (chars "0123456789abcdef") x30.
Definition spell_byte (b : byte) : list byte :=
  match find (fun e => Byte.eqb (snd e) b && negb (Byte.eqb b x2f)) short_escapes with
  | Some e => [x5c; fst e]
  | None => if (Byte.to_N b <? 32)%N then chars "\u00" ++ [small_hex (Byte.to_N b / 16); small_hex (Byte.to_N b mod 16)] else [b]
  end.
Definition spell (s : list byte) : list byte := flat_map spell_byte s.
(* two blanks per level, every item and member on a line of its own, "[]" and "{}" when empty *)
Definition newline (level : nat) : list byte := x0a :: repeat x20 (2 * level).
Fixpoint commas (l : list (list byte)) : list byte :=
  match l with [] => [] | [x] => x | x :: l' => x ++ x2c :: commas l' end.
Definition block (open close : byte) (level : nat) (l : list (list byte)) : list byte :=
  match l with
  | [] => [open; close]
  | _ => open :: commas (map (fun x => newline (S level) ++ x) l) ++ newline level ++ [close]
  end.
Definition quoted (s : list byte) : list byte := x22 :: s ++ [x22].
Fixpoint pretty (level : nat) (j : json) : list byte :=
  match j with
  | JNull => chars "null"
  | JTrue => chars "true"
  | JFalse => chars "false"
  | JNum s => s
  | JStr s => quoted s
  | JArr js => block x5b x5d level (map (pretty (S level)) js)
  | JObj ms => block x7b x7d level (map (fun m => quoted (fst m) ++ chars ": " ++ pretty (S level) (snd m)) ms)
  end.
(* the fields in the order in which they are declared, and no others *)
Definition exact_text (t : list byte) (j : json) : Prop := j = JStr (spell t).
Definition exact_record (fields : list (list byte * (json -> Prop))) (j : json) : Prop :=
  exists js, j = JObj (combine (map (fun f => spell (fst f)) fields) js) /\ Forall2 (fun f x => snd f x) fields js.
Definition exact_variant (name : list byte) (P : json -> Prop) (j : json) : Prop := exact_record [(name, P)] j.
Definition saved_json : diff -> json -> Prop := diff_form exact_text exact_record exact_variant.

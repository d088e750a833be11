(* Model_Json.v - saving and loading diffs: the derived serde implementations of the diff
   types (pw_diff_lib/src/diff.rs:12-20, text_diff.rs:14-19, 85-90, 134-139,
   byte_diff.rs:16-21, 88-94, 139-144, snippet.rs:8-12) on top of serde_json 1.0.116
   (to_writer_pretty, from_reader), down to the bytes of the file.

   A declaration with #[derive(Serialize, Deserialize)] is represented by a value of type
   [ty] listing its fields; [print] is serde_json's PrettyFormatter serialiser driven by the
   derived Serialize, and [parse] its streaming deserialiser driven by the derived
   Deserialize (fields in any order, unknown fields skipped, duplicate and missing fields
   rejected, structs also accepted as arrays).  serde_json's source is not part of /repo: this
   file is from knowledge of that library and belongs to the trusted base.

   Simplifications: the recursion limit of 128 is not modelled (the types nest 6 deep and
   skipped values are not subject to it); kinds of error are not distinguished. *)
From Coq Require Import String.
From Verif Require Import Base Model_Seq Model_Changes Model_IO Model_Text Model_Bytes.
Local Open Scope Z_scope.

Definition str (s : string) : list byte := list_byte_of_string s.

(* ------------------------------------------------------------------ *)
(* Types and values                                                    *)
(* ------------------------------------------------------------------ *)
Inductive ty :=
| TNum (max : Z)                            (* u8, usize *)
| TBool
| TStr                                      (* String *)
| TPath                                     (* PathBuf *)
| TSeq (t : ty)                             (* Vec<T>, Box<[T]> *)
| TPair (t u : ty)                          (* (T, U) *)
| TStruct (fields : list (list byte * ty))
| TEnum (variants : list (list byte * ty)). (* externally tagged, newtype variants *)

Inductive val :=
| VNum (z : Z)
| VBool (b : bool)
| VStr (s : list byte)
| VSeq (vs : list val)
| VPair (v w : val)
| VStruct (vs : list val)                   (* in the order of the declaration *)
| VEnum (i : nat) (v : val).                (* index of the variant *)

Definition TU8 : ty := TNum 255.
Definition TUsize : ty := TNum (two64 - 1).

(* snippet.rs:8-12 *)
Definition snippet_ty (item : ty) : ty := TStruct [(str "start", TUsize); (str "items", TSeq item)].
(* text_diff.rs:14-19, byte_diff.rs:16-21 *)
Definition clump_ty (item : ty) : ty :=
  TStruct [(str "context_lengths", TPair TU8 TU8); (str "before", snippet_ty item); (str "after", snippet_ty item)].
(* text_diff.rs:85-90 *)
Definition text_diff_ty : ty :=
  TStruct [(str "before_path", TPath); (str "after_path", TPath); (str "clumps", TSeq (clump_ty TStr))].
(* text_diff.rs:134-139 *)
Definition path_lines_ty : ty := TStruct [(str "path", TPath); (str "lines", TSeq TStr)].
(* byte_diff.rs:88-94 *)
Definition byte_diff_ty : ty :=
  TStruct [(str "before_path", TPath); (str "after_path", TPath); (str "compressed", TBool);
           (str "clumps", TSeq (clump_ty TU8))].
(* byte_diff.rs:139-144 *)
Definition path_bytes_ty : ty := TStruct [(str "path", TPath); (str "compressed", TBool); (str "bytes", TSeq TU8)].
(* diff.rs:12-20 *)
Definition diff_ty : ty :=
  TEnum [(str "TextChange", text_diff_ty); (str "TextAdd", path_lines_ty); (str "TextRemove", path_lines_ty);
         (str "ByteChange", byte_diff_ty); (str "ByteAdd", path_bytes_ty); (str "ByteRemove", path_bytes_ty)].

(* ------------------------------------------------------------------ *)
(* Writing                                                             *)
(* ------------------------------------------------------------------ *)
(* bytes written, and whether serialisation went through to the end *)
Definition out : Type := list byte * bool.
Definition oapp (x y : out) : out := if snd x then (fst x ++ fst y, snd y) else x.
Definition lit (s : list byte) : out := (s, true).

(* the digit with the given value *)
Definition digit (n : Z) : byte := match Byte.of_N (Z.to_N (48 + n)) with Some b => b | None => x00 end.
(* the decimal representation of a non-negative number (itoa) *)
Fixpoint dec_loop (fuel : nat) (z : Z) : list byte :=
  match fuel with
  | O => []
  | S fuel' => if z <? 10 then [digit z] else dec_loop fuel' (z / 10) ++ [digit (z mod 10)]
  end.
Definition dec (z : Z) : list byte := dec_loop (S (Z.to_nat (Z.log2 z))) z.

Definition hex_digit (n : N) : byte :=
  match Byte.of_N (if (n <? 10)%N then 48 + n else 87 + n) with Some b => b | None => x00 end.
(* format_escaped_str_contents *)
Definition escape_byte (b : byte) : list byte :=
  match b with
  | x22 => str "\""" | x5c => str "\\" | x08 => str "\b" | x09 => str "\t"
  | x0a => str "\n" | x0c => str "\f" | x0d => str "\r"
  | _ => if (Byte.to_N b <? 32)%N
         then str "\u00" ++ [hex_digit (Byte.to_N b / 16); hex_digit (Byte.to_N b mod 16)]
         else [b]
  end.
Definition print_str (s : list byte) : list byte := [x22] ++ flat_map escape_byte s ++ [x22].

Definition indent (n : nat) : list byte := repeat x20 (2 * n).
(* PrettyFormatter: begin_array/begin_object, the values, end_array/end_object *)
Fixpoint print_values (first : bool) (ind : nat) (items : list (nat -> out)) : out :=
  match items with
  | [] => lit []
  | it :: items' =>
      oapp (lit ((if first then [x0a] else [x2c; x0a]) ++ indent (S ind)))
           (oapp (it (S ind)) (print_values false ind items'))
  end.
Definition print_body (open close : byte) (items : list (nat -> out)) (ind : nat) : out :=
  match items with
  | [] => lit [open; close]
  | _ => oapp (lit [open]) (oapp (print_values true ind items) (lit ([x0a] ++ indent ind ++ [close])))
  end.
Definition print_field (name : list byte) (v : nat -> out) (ind : nat) : out :=
  oapp (lit (print_str name ++ str ": ")) (v ind).

(* A value that does not fit the type cannot occur: see [has_type] in Proof_Json.v. *)
Fixpoint print (t : ty) (v : val) {struct t} : nat -> out :=
  match t, v with
  | TNum _, VNum z => fun _ => lit (dec z)
  | TBool, VBool b => fun _ => lit (if b then str "true" else str "false")
  | TStr, VStr s => fun _ => lit (print_str s)
  (* serde's Path: to_str, or the error "path contains invalid UTF-8 characters" *)
  | TPath, VStr s => fun _ => if utf8_valid s then lit (print_str s) else ([], false)
  | TSeq t', VSeq vs => print_body x5b x5d (map (print t') vs)
  | TPair t1 t2, VPair v1 v2 => print_body x5b x5d [print t1 v1; print t2 v2]
  | TStruct fs, VStruct vs =>
      print_body x7b x7d
        ((fix fields (fs : list (list byte * ty)) (vs : list val) : list (nat -> out) :=
            match fs, vs with
            | (n, t') :: fs', v' :: vs' => print_field n (print t' v') :: fields fs' vs'
            | _, _ => []
            end) fs vs)
  | TEnum ts, VEnum i v' =>
      (fix variant (ts : list (list byte * ty)) (i : nat) : nat -> out :=
         match ts, i with
         | (n, t') :: _, O => print_body x7b x7d [print_field n (print t' v')]
         | _ :: ts', S i' => variant ts' i'
         | [], _ => fun _ => ([], false)
         end) ts i
  | _, _ => fun _ => ([], false)
  end.

(* ------------------------------------------------------------------ *)
(* Reading                                                             *)
(* ------------------------------------------------------------------ *)
Inductive pres (A : Type) : Type :=
| POk (a : A) (rest : list byte)
| PErr
| PFuel.
Arguments POk {A} a rest.
Arguments PErr {A}.
Arguments PFuel {A}.
Definition pbind {A B} (m : pres A) (k : A -> list byte -> pres B) : pres B :=
  match m with POk a r => k a r | PErr => PErr | PFuel => PFuel end.
Definition parser : Type := list byte -> pres val.

Definition is_ws (b : byte) : bool := match b with x20 | x0a | x09 | x0d => true | _ => false end.
(* Deserializer::parse_whitespace *)
Fixpoint skip_ws (s : list byte) : list byte :=
  match s with
  | b :: s' => if is_ws b then skip_ws s' else s
  | [] => []
  end.
(* parse_whitespace, then this byte *)
Definition expect (b : byte) (s : list byte) : pres unit :=
  match skip_ws s with
  | c :: r => if Byte.eqb c b then POk tt r else PErr
  | [] => PErr
  end.
(* parse_ident *)
Fixpoint parse_ident (word s : list byte) : pres unit :=
  match word, s with
  | [], _ => POk tt s
  | w :: word', c :: s' => if Byte.eqb c w then parse_ident word' s' else PErr
  | _ :: _, [] => PErr
  end.

Definition is_digit (b : byte) : bool := byte_in 48 57 b.
Definition digit_value (b : byte) : Z := Z.of_N (Byte.to_N b) - 48.
Fixpoint parse_digits (s : list byte) (v : Z) : Z * list byte :=
  match s with
  | b :: s' => if is_digit b then parse_digits s' (10 * v + digit_value b) else (v, s)
  | [] => (v, [])
  end.
(* '.', 'e' or 'E' follows: a floating point number *)
Definition float_follows (s : list byte) : bool :=
  match s with x2e :: _ | x65 :: _ | x45 :: _ => true | _ => false end.
Definition digit_follows (s : list byte) : bool := match s with b :: _ => is_digit b | [] => false end.
(* deserialize_u8/u64: parse_integer, parse_number, and the visitor of the integer type.
   Negative numbers (also -0), floats and numbers out of range are all rejected. *)
Definition parse_num (max : Z) (s : list byte) : pres Z :=
  match skip_ws s with
  | b :: r =>
      if is_digit b then
        if Byte.eqb b x30 then
          if digit_follows r || float_follows r then PErr else POk 0 r
        else
          let (v, r') := parse_digits r (digit_value b) in
          if float_follows r' then PErr else if v <=? max then POk v r' else PErr
      else PErr
  | [] => PErr
  end.
Definition parse_bool (s : list byte) : pres bool :=
  match skip_ws s with
  | x74 :: r => pbind (parse_ident (str "rue") r) (fun _ r' => POk true r')
  | x66 :: r => pbind (parse_ident (str "alse") r) (fun _ r' => POk false r')
  | _ => PErr
  end.

Definition hex_value (b : byte) : option N :=
  let n := Byte.to_N b in
  (if byte_in 48 57 b then Some (n - 48)
   else if byte_in 97 102 b then Some (n - 87)
   else if byte_in 65 70 b then Some (n - 55)
   else None)%N.
(* decode_hex_escape *)
Definition hex4 (a b c d : byte) : option N :=
  match hex_value a, hex_value b, hex_value c, hex_value d with
  | Some a, Some b, Some c, Some d => Some (((a * 16 + b) * 16 + c) * 16 + d)%N
  | _, _, _, _ => None
  end.
Definition byte_of (n : N) : byte := match Byte.of_N n with Some b => b | None => x00 end.
(* char::encode_utf8 *)
Definition encode_char (c : N) : list byte :=
  (if c <? 128 then [byte_of c]
   else if c <? 2048 then [byte_of (192 + c / 64); byte_of (128 + c mod 64)]
   else if c <? 65536 then [byte_of (224 + c / 4096); byte_of (128 + c / 64 mod 64); byte_of (128 + c mod 64)]
   else [byte_of (240 + c / 262144); byte_of (128 + c / 4096 mod 64); byte_of (128 + c / 64 mod 64); byte_of (128 + c mod 64)])%N.
(* parse_escape, one-letter escapes *)
Definition simple_escape (b : byte) : option byte :=
  match b with
  | x22 => Some x22 | x5c => Some x5c | x2f => Some x2f | x62 => Some x08 | x66 => Some x0c
  | x6e => Some x0a | x72 => Some x0d | x74 => Some x09 | _ => None
  end.
(* IoRead::parse_str after the opening quote *)
Fixpoint parse_chars (s scratch : list byte) {struct s} : pres (list byte) :=
  match s with
  | [] => PErr
  | c :: s1 =>
      if Byte.eqb c x22 then (if utf8_valid scratch then POk scratch s1 else PErr)
      else if Byte.eqb c x5c then
        match s1 with
        | [] => PErr
        | e :: s2 =>
            match simple_escape e with
            | Some b => parse_chars s2 (scratch ++ [b])
            | None =>
                if Byte.eqb e x75 then
                  match s2 with
                  | h1 :: h2 :: h3 :: h4 :: s3 =>
                      match hex4 h1 h2 h3 h4 with
                      | None => PErr
                      | Some n1 =>
                          if ((56320 <=? n1) && (n1 <=? 57343))%N then PErr
                          else if ((55296 <=? n1) && (n1 <=? 56319))%N then
                            match s3 with
                            | x5c :: x75 :: g1 :: g2 :: g3 :: g4 :: s4 =>
                                match hex4 g1 g2 g3 g4 with
                                | None => PErr
                                | Some n2 =>
                                    if ((n2 <? 56320) || (57343 <? n2))%N then PErr
                                    else parse_chars s4 (scratch ++ encode_char ((n1 - 55296) * 1024 + (n2 - 56320) + 65536))
                                end
                            | _ => PErr
                            end
                          else parse_chars s3 (scratch ++ encode_char n1)
                      end
                  | _ => PErr
                  end
                else PErr
            end
        end
      else if (Byte.to_N c <? 32)%N then PErr
      else parse_chars s1 (scratch ++ [c])
  end.
(* deserialize_str *)
Definition parse_string (s : list byte) : pres (list byte) :=
  match skip_ws s with
  | x22 :: r => parse_chars r []
  | _ => PErr
  end.

(* ---------------- skipped values (ignore_value) ---------------- *)
Fixpoint ignore_chars (s : list byte) : pres unit :=
  match s with
  | [] => PErr
  | c :: s1 =>
      if Byte.eqb c x22 then POk tt s1
      else if Byte.eqb c x5c then
        match s1 with
        | [] => PErr
        | e :: s2 =>
            match simple_escape e with
            | Some _ => ignore_chars s2
            | None =>
                if Byte.eqb e x75 then
                  match s2 with
                  | h1 :: h2 :: h3 :: h4 :: s3 =>
                      match hex4 h1 h2 h3 h4 with None => PErr | Some _ => ignore_chars s3 end
                  | _ => PErr
                  end
                else PErr
            end
        end
      else if (Byte.to_N c <? 32)%N then PErr
      else ignore_chars s1
  end.
Definition skip_digits (s : list byte) : list byte := snd (parse_digits s 0).
Definition ignore_exponent (s : list byte) : pres unit :=
  let s := match s with x2b :: r | x2d :: r => r | _ => s end in
  if digit_follows s then POk tt (skip_digits s) else PErr.
(* ignore_number: the part after the integer digits *)
Definition ignore_fraction (s : list byte) : pres unit :=
  match s with
  | x2e :: r =>
      if digit_follows r then
        match skip_digits r with
        | x65 :: r' | x45 :: r' => ignore_exponent r'
        | r' => POk tt r'
        end
      else PErr
  | x65 :: r | x45 :: r => ignore_exponent r
  | _ => POk tt s
  end.
Definition ignore_integer (s : list byte) : pres unit :=
  match s with
  | b :: r =>
      if is_digit b then
        if Byte.eqb b x30 then (if digit_follows r then PErr else ignore_fraction r)
        else ignore_fraction (skip_digits r)
      else PErr
  | [] => PErr
  end.
(* an open bracket on the stack *)
Inductive frame := FArr | FObj.
Definition closer (f : frame) : byte := match f with FArr => x5d | FObj => x7d end.
Inductive closing := Break (f : frame) (stack : list frame) (s : list byte) | Return (s : list byte) | CErr.
Fixpoint close_frames (accept_comma : bool) (f : frame) (stack : list frame) (s : list byte) : closing :=
  match skip_ws s with
  | [] => CErr
  | c :: r =>
      if Byte.eqb c x2c && accept_comma then Break f stack r
      else if Byte.eqb c (closer f) then
        match stack with
        | [] => Return r
        | f' :: stack' => close_frames true f' stack' r
        end
      else if accept_comma then CErr else Break f stack (c :: r)
  end.
Inductive opened := Scalar (s : list byte) | Opened (f : frame) (s : list byte) | OErr.
Definition scalar_of (m : pres unit) : opened := match m with POk _ r => Scalar r | _ => OErr end.
Definition ignore_start (s : list byte) : opened :=
  match skip_ws s with
  | x6e :: r => scalar_of (parse_ident (str "ull") r)
  | x74 :: r => scalar_of (parse_ident (str "rue") r)
  | x66 :: r => scalar_of (parse_ident (str "alse") r)
  | x2d :: r => scalar_of (ignore_integer r)
  | x22 :: r => scalar_of (ignore_chars r)
  | x5b :: r => Opened FArr r
  | x7b :: r => Opened FObj r
  | b :: r => if is_digit b then scalar_of (ignore_integer (b :: r)) else OErr
  | [] => OErr
  end.
Fixpoint ignore_loop (fuel : nat) (stack : list frame) (s : list byte) : pres unit :=
  match fuel with
  | O => PFuel
  | S fuel' =>
      match (match ignore_start s with
             | OErr => CErr
             | Opened f r => close_frames false f stack r
             | Scalar r => match stack with [] => Return r | f :: stack' => close_frames true f stack' r end
             end) with
      | CErr => PErr
      | Return r => POk tt r
      | Break FArr stack' r => ignore_loop fuel' (FArr :: stack') r
      | Break FObj stack' r =>
          pbind (expect x22 r) (fun _ r1 =>
          pbind (ignore_chars r1) (fun _ r2 =>
          pbind (expect x3a r2) (fun _ r3 => ignore_loop fuel' (FObj :: stack') r3)))
      end
  end.

(* ---------------- sequences, structs, enums ---------------- *)
Inductive next := NEnd (s : list byte) | NItem (s : list byte) | NErr.
(* SeqAccess::next_element_seed, MapAccess::next_key_seed up to the item *)
Definition next_item (close : byte) (first : bool) (s : list byte) : next :=
  match skip_ws s with
  | [] => NErr
  | c :: r =>
      if Byte.eqb c close then NEnd (c :: r)
      else if Byte.eqb c x2c && negb first then
        match skip_ws r with
        | [] => NErr
        | c' :: r' => if Byte.eqb c' close then NErr else NItem (c' :: r')
        end
      else if first then NItem (c :: r)
      else NErr
  end.

(* VecVisitor::visit_seq *)
Fixpoint parse_elems (fuel : nat) (p : parser) (first : bool) (s : list byte) (acc : list val) : pres (list val) :=
  match fuel with
  | O => PFuel
  | S fuel' =>
      match next_item x5d first s with
      | NErr => PErr
      | NEnd r => POk acc r
      | NItem r => pbind (p r) (fun v r' => parse_elems fuel' p false r' (acc ++ [v]))
      end
  end.
(* visit_seq of a tuple or a derived struct: exactly these items *)
Fixpoint parse_fixed (ps : list parser) (first : bool) (s : list byte) : pres (list val) :=
  match ps with
  | [] => POk [] s
  | p :: ps' =>
      match next_item x5d first s with
      | NItem r => pbind (p r) (fun v r' => pbind (parse_fixed ps' false r') (fun vs r'' => POk (v :: vs) r''))
      | _ => PErr
      end
  end.
Fixpoint find_field (fs : list (list byte * parser)) (key : list byte) : option (nat * parser) :=
  match fs with
  | [] => None
  | (n, p) :: fs' =>
      if list_eqb Byte.eqb n key then Some (O, p)
      else match find_field fs' key with Some (i, p') => Some (S i, p') | None => None end
  end.
Fixpoint set_nth (i : nat) (v : val) (l : list (option val)) : list (option val) :=
  match l, i with
  | [], _ => []
  | _ :: l', O => Some v :: l'
  | x :: l', S i' => x :: set_nth i' v l'
  end.
(* derived visit_map *)
Fixpoint parse_map (fuel : nat) (fs : list (list byte * parser)) (first : bool) (s : list byte)
         (got : list (option val)) : pres (list (option val)) :=
  match fuel with
  | O => PFuel
  | S fuel' =>
      match next_item x7d first s with
      | NErr => PErr
      | NEnd r => POk got r
      | NItem r =>
          pbind (expect x22 r) (fun _ r0 =>
          pbind (parse_chars r0 []) (fun key r1 =>
          match find_field fs key with
          | Some (i, p) =>
              match nth i got None with
              | Some _ => PErr
              | None =>
                  pbind (expect x3a r1) (fun _ r2 =>
                  pbind (p r2) (fun v r3 => parse_map fuel' fs false r3 (set_nth i v got)))
              end
          | None =>
              pbind (expect x3a r1) (fun _ r2 =>
              pbind (ignore_loop fuel [] r2) (fun _ r3 => parse_map fuel' fs false r3 got))
          end))
      end
  end.
Fixpoint all_some (l : list (option val)) : option (list val) :=
  match l with
  | [] => Some []
  | Some v :: l' => match all_some l' with Some vs => Some (v :: vs) | None => None end
  | None :: _ => None
  end.
(* deserialize_struct *)
Definition parse_struct (fuel : nat) (fs : list (list byte * parser)) (s : list byte) : pres val :=
  match skip_ws s with
  | x5b :: r =>
      pbind (parse_fixed (map snd fs) true r) (fun vs r1 => pbind (expect x5d r1) (fun _ r2 => POk (VStruct vs) r2))
  | x7b :: r =>
      pbind (parse_map fuel fs true r (map (fun _ => None) fs)) (fun got r1 =>
      match all_some got with
      | Some vs => pbind (expect x7d r1) (fun _ r2 => POk (VStruct vs) r2)
      | None => PErr
      end)
  | _ => PErr
  end.
(* deserialize_enum (a string alone would be a unit variant: rejected by newtype variants) *)
Definition parse_enum (ts : list (list byte * parser)) (s : list byte) : pres val :=
  pbind (expect x7b s) (fun _ r =>
  pbind (parse_string r) (fun name r1 =>
  match find_field ts name with
  | None => PErr
  | Some (i, p) =>
      pbind (expect x3a r1) (fun _ r2 =>
      pbind (p r2) (fun v r3 =>
      pbind (expect x7d r3) (fun _ r4 => POk (VEnum i v) r4)))
  end)).

Fixpoint parse (fuel : nat) (t : ty) {struct t} : parser :=
  match t with
  | TNum max => fun s => pbind (parse_num max s) (fun z r => POk (VNum z) r)
  | TBool => fun s => pbind (parse_bool s) (fun b r => POk (VBool b) r)
  | TStr | TPath => fun s => pbind (parse_string s) (fun x r => POk (VStr x) r)
  | TSeq t' => fun s =>
      pbind (expect x5b s) (fun _ r =>
      pbind (parse_elems fuel (parse fuel t') true r []) (fun vs r1 =>
      pbind (expect x5d r1) (fun _ r2 => POk (VSeq vs) r2)))
  | TPair t1 t2 => fun s =>
      pbind (expect x5b s) (fun _ r =>
      pbind (parse_fixed [parse fuel t1; parse fuel t2] true r) (fun vs r1 =>
      match vs with
      | [v; w] => pbind (expect x5d r1) (fun _ r2 => POk (VPair v w) r2)
      | _ => PErr
      end))
  | TStruct fs =>
      parse_struct fuel (map (fun f => match f with (n, t') => (n, parse fuel t') end) fs)
  | TEnum ts =>
      parse_enum (map (fun f => match f with (n, t') => (n, parse fuel t') end) ts)
  end.
(* serde_json::from_reader: one value, then only whitespace *)
Definition parse_document (t : ty) (s : list byte) : pres val :=
  pbind (parse (S (length s)) t s) (fun v r => match skip_ws r with [] => POk v [] | _ => PErr end).

(* ------------------------------------------------------------------ *)
(* Diffs                                                               *)
(* ------------------------------------------------------------------ *)
Definition path : Type := list byte.
(* text_diff.rs:85-90 *)
Record text_diff := TextDiff { td_before : path; td_after : path; td_clumps : list text_clump }.
(* text_diff.rs:134-139 *)
Record path_and_lines := PathAndLines { pl_path : path; pl_lines : list line }.
(* byte_diff.rs:88-94 *)
Record byte_diff := ByteDiff { bd_before : path; bd_after : path; bd_compressed : bool; bd_clumps : list byte_clump }.
(* byte_diff.rs:139-144 *)
Record path_and_bytes := PathAndBytes { pb_path : path; pb_compressed : bool; pb_bytes : list byte }.
(* diff.rs:12-20 *)
Inductive diff :=
| TextChange (d : text_diff)
| TextAdd (p : path_and_lines)
| TextRemove (p : path_and_lines)
| ByteChange (d : byte_diff)
| ByteAdd (p : path_and_bytes)
| ByteRemove (p : path_and_bytes).

(* the fields of each declaration in order *)
Definition val_of_byte (b : byte) : val := VNum (Z.of_N (Byte.to_N b)).
Definition val_of_snippet {T} (item : T -> val) (s : snippet T) : val :=
  VStruct [VNum (sn_start s); VSeq (map item (sn_items s))].
Definition val_of_text_clump (c : text_clump) : val :=
  VStruct [VPair (VNum (fst (tc_context c))) (VNum (snd (tc_context c)));
           val_of_snippet VStr (tc_before c); val_of_snippet VStr (tc_after c)].
Definition val_of_byte_clump (c : byte_clump) : val :=
  VStruct [VPair (VNum (fst (bc_context c))) (VNum (snd (bc_context c)));
           val_of_snippet val_of_byte (bc_before c); val_of_snippet val_of_byte (bc_after c)].
Definition val_of_lines (p : path_and_lines) : val := VStruct [VStr (pl_path p); VSeq (map VStr (pl_lines p))].
Definition val_of_bytes (p : path_and_bytes) : val :=
  VStruct [VStr (pb_path p); VBool (pb_compressed p); VSeq (map val_of_byte (pb_bytes p))].
Definition val_of_diff (d : diff) : val :=
  match d with
  | TextChange d => VEnum 0 (VStruct [VStr (td_before d); VStr (td_after d); VSeq (map val_of_text_clump (td_clumps d))])
  | TextAdd p => VEnum 1 (val_of_lines p)
  | TextRemove p => VEnum 2 (val_of_lines p)
  | ByteChange d => VEnum 3 (VStruct [VStr (bd_before d); VStr (bd_after d); VBool (bd_compressed d);
                                      VSeq (map val_of_byte_clump (bd_clumps d))])
  | ByteAdd p => VEnum 4 (val_of_bytes p)
  | ByteRemove p => VEnum 5 (val_of_bytes p)
  end.

(* and back; [None] does not occur on values read by [parse] (proved: C57) *)
Fixpoint map_opt {A B} (f : A -> option B) (l : list A) : option (list B) :=
  match l with
  | [] => Some []
  | a :: l' => match f a, map_opt f l' with Some b, Some bs => Some (b :: bs) | _, _ => None end
  end.
Definition str_of_val (v : val) : option (list byte) := match v with VStr s => Some s | _ => None end.
Definition byte_of_val (v : val) : option byte := match v with VNum z => Byte.of_N (Z.to_N z) | _ => None end.
Definition snippet_of_val {T} (item : val -> option T) (v : val) : option (snippet T) :=
  match v with
  | VStruct [VNum start; VSeq vs] =>
      match map_opt item vs with Some items => Some (Snippet start items) | None => None end
  | _ => None
  end.
Definition text_clump_of_val (v : val) : option text_clump :=
  match v with
  | VStruct [VPair (VNum a) (VNum b); x; y] =>
      match snippet_of_val str_of_val x, snippet_of_val str_of_val y with
      | Some x, Some y => Some (TextClump (a, b) x y)
      | _, _ => None
      end
  | _ => None
  end.
Definition byte_clump_of_val (v : val) : option byte_clump :=
  match v with
  | VStruct [VPair (VNum a) (VNum b); x; y] =>
      match snippet_of_val byte_of_val x, snippet_of_val byte_of_val y with
      | Some x, Some y => Some (ByteClump (a, b) x y)
      | _, _ => None
      end
  | _ => None
  end.
Definition lines_of_val (v : val) : option path_and_lines :=
  match v with
  | VStruct [VStr p; VSeq vs] => match map_opt str_of_val vs with Some ls => Some (PathAndLines p ls) | None => None end
  | _ => None
  end.
Definition bytes_of_val (v : val) : option path_and_bytes :=
  match v with
  | VStruct [VStr p; VBool c; VSeq vs] =>
      match map_opt byte_of_val vs with Some b => Some (PathAndBytes p c b) | None => None end
  | _ => None
  end.
Definition option_map' {A B} (f : A -> B) (o : option A) : option B := match o with Some a => Some (f a) | None => None end.
Definition diff_of_val (v : val) : option diff :=
  match v with
  | VEnum 0 (VStruct [VStr b; VStr a; VSeq vs]) =>
      option_map' (fun cs => TextChange (TextDiff b a cs)) (map_opt text_clump_of_val vs)
  | VEnum 1 v => option_map' TextAdd (lines_of_val v)
  | VEnum 2 v => option_map' TextRemove (lines_of_val v)
  | VEnum 3 (VStruct [VStr b; VStr a; VBool c; VSeq vs]) =>
      option_map' (fun cs => ByteChange (ByteDiff b a c cs)) (map_opt byte_clump_of_val vs)
  | VEnum 4 v => option_map' ByteAdd (bytes_of_val v)
  | VEnum 5 v => option_map' ByteRemove (bytes_of_val v)
  | _ => None
  end.

(* diff.rs:64-66  Diff::to_writer: the bytes written, and whether it succeeds (given a writer
   that accepts everything) *)
Definition diff_to_json (d : diff) : out := print diff_ty (val_of_diff d) 0.
(* diff.rs:60-62  Diff::from_reader; [None] inside [Ok]: an error *)
Definition diff_from_json (s : list byte) : res (option diff) :=
  match parse_document diff_ty s with
  | POk v _ => Ok (diff_of_val v)
  | PErr => Ok None
  | PFuel => OutOfFuel
  end.

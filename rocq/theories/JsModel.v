(** The models of schemas: pallets/schemas/src/lib.rs:746-759 ([ensure_valid_model]),
    serde.rs:11-18 and common/primitives/src/parquet. The parser is serde_json
    1.0.117 with serde 1.0.203, without optional features, and the deserializers that
    serde derives. These are dependencies; the functions below follow their
    sources. Simplified: the code reads the text and builds the typed value in one
    pass; here the text is first read into a tree that keeps strings and numbers
    as written, and then the tree is read. Every error is the same to the caller,
    and each pass fails only if the code does. *)
From Coq Require Import String Ascii.
From Verif Require Import Prelude CommonTypes Utf8 ScModel.

(** A JSON value. Strings are the bytes between the quotes, numbers the characters. *)
Inductive Js :=
| JNull
| JBool (b : bool)
| JNum (n : list N)
| JStr (s : list N)
| JArr (l : list Js)
| JObj (l : list (list N * Js)).

(** ** Reading the text (serde_json de.rs and read.rs) *)
Definition is_ws (c : N) : bool := (c =? 32) || (c =? 10) || (c =? 9) || (c =? 13).
Fixpoint skip_ws (s : list N) : list N :=
  match s with c :: r => if is_ws c then skip_ws r else s | [] => [] end.
Definition is_digit (c : N) : bool := (48 <=? c) && (c <=? 57).
Definition hex_value (c : N) : option N :=
  if (48 <=? c) && (c <=? 57) then Some (c - 48)
  else if (97 <=? c) && (c <=? 102) then Some (c - 87)
  else if (65 <=? c) && (c <=? 70) then Some (c - 55)
  else None.
Definition is_hex (c : N) : bool := match hex_value c with Some _ => true | None => false end.

(** [ignore_str], [ignore_escape]: up to the closing quote. A backslash is
    followed by a quote, a backslash, a slash, one of the letters bfnrt, or the letter
    u and four hexadecimal digits. *)
Definition escape (e : N) : option N :=
  if e =? 34 then Some 34 else if e =? 92 then Some 92 else if e =? 47 then Some 47
  else if e =? 98 then Some 8 else if e =? 102 then Some 12 else if e =? 110 then Some 10
  else if e =? 114 then Some 13 else if e =? 116 then Some 9 else None.
Fixpoint scan_str (s : list N) : option (list N * list N) :=
  match s with
  | [] => None
  | c :: r =>
      if c =? 34 then Some ([], r)
      else if c =? 92 then
        match r with
        | [] => None
        | e :: r1 =>
            if e =? 117 then
              match r1 with
              | h1 :: h2 :: h3 :: h4 :: r' =>
                  if is_hex h1 && is_hex h2 && is_hex h3 && is_hex h4 then
                    match scan_str r' with Some (b, t) => Some (c :: e :: h1 :: h2 :: h3 :: h4 :: b, t) | None => None end
                  else None
              | _ => None
              end
            else match escape e with
            | Some _ => match scan_str r1 with Some (b, t) => Some (c :: e :: b, t) | None => None end
            | None => None
            end
        end
      else if c <? 32 then None
      else match scan_str r with Some (b, t) => Some (c :: b, t) | None => None end
  end.

(** [ignore_integer], [ignore_decimal], [ignore_exponent]: the characters of a number *)
Fixpoint scan_digits (s : list N) : list N * list N :=
  match s with
  | c :: r => if is_digit c then let '(d, t) := scan_digits r in (c :: d, t) else ([], s)
  | [] => ([], [])
  end.
Definition scan_int (s : list N) : option (list N * list N) :=
  match s with
  | c :: r =>
      if c =? 48 then match r with d :: _ => if is_digit d then None else Some ([48], r) | [] => Some ([48], []) end
      else if is_digit c then Some (scan_digits s) else None
  | [] => None
  end.
Definition scan_frac (s : list N) : option (list N * list N) :=
  match s with
  | c :: r =>
      if c =? 46 then match scan_digits r with ([], _) => None | (d, t) => Some (c :: d, t) end else Some ([], s)
  | [] => Some ([], [])
  end.
Definition scan_exp (s : list N) : option (list N * list N) :=
  match s with
  | e :: r =>
      if (e =? 101) || (e =? 69) then
        let '(sign, r') := match r with c :: r' => if (c =? 43) || (c =? 45) then ([c], r') else ([], r) | [] => ([], r) end in
        match scan_digits r' with ([], _) => None | (d, t) => Some (e :: sign ++ d, t) end
      else Some ([], s)
  | [] => Some ([], [])
  end.
Definition scan_num (s : list N) : option (list N * list N) :=
  let '(sign, s0) := match s with c :: r => if c =? 45 then ([45], r) else ([], s) | [] => ([], s) end in
  match scan_int s0 with
  | None => None
  | Some (i, s1) =>
      match scan_frac s1 with
      | None => None
      | Some (f, s2) =>
          match scan_exp s2 with
          | None => None
          | Some (e, s3) => Some (sign ++ i ++ f ++ e, s3)
          end
      end
  end.

(** [parse_ident] *)
Fixpoint strip (p s : list N) : option (list N) :=
  match p, s with
  | [], _ => Some s
  | a :: p', b :: s' => if a =? b then strip p' s' else None
  | _, [] => None
  end.

Definition next (c : N) (s : list N) : option (list N) :=
  match s with x :: r => if x =? c then Some r else None | [] => None end.

(** [ignore_value], [deserialize_any]; [SeqAccess] and [MapAccess] for what follows a
    bracket and is not empty. [s] begins with the value. [fuel] bounds the number of
    steps and is never used up ([parse]). *)
Fixpoint p_value (fuel : nat) (s : list N) : option (Js * list N) :=
  match fuel, s with
  | S f, c :: r =>
      if c =? 110 then option_map (pair JNull) (strip [117; 108; 108] r)
      else if c =? 116 then option_map (pair (JBool true)) (strip [114; 117; 101] r)
      else if c =? 102 then option_map (pair (JBool false)) (strip [97; 108; 115; 101] r)
      else if c =? 34 then match scan_str r with Some (b, t) => Some (JStr b, t) | None => None end
      else if c =? 91 then
        match next 93 (skip_ws r) with
        | Some t => Some (JArr [], t)
        | None => match p_elements f r with Some (l, t) => Some (JArr l, t) | None => None end
        end
      else if c =? 123 then
        match next 125 (skip_ws r) with
        | Some t => Some (JObj [], t)
        | None => match p_members f r with Some (l, t) => Some (JObj l, t) | None => None end
        end
      else match scan_num s with Some (n, t) => Some (JNum n, t) | None => None end
  | _, _ => None
  end
with p_elements (fuel : nat) (s : list N) : option (list Js * list N) :=
  match fuel with
  | S f =>
      match p_value f (skip_ws s) with
      | Some (v, t) =>
          match next 44 (skip_ws t) with
          | Some t' => match p_elements f t' with Some (l, u) => Some (v :: l, u) | None => None end
          | None => match next 93 (skip_ws t) with Some t' => Some ([v], t') | None => None end
          end
      | None => None
      end
  | O => None
  end
with p_members (fuel : nat) (s : list N) : option (list (list N * Js) * list N) :=
  match fuel with
  | S f =>
      match next 34 (skip_ws s) with
      | None => None
      | Some r =>
          match scan_str r with
          | None => None
          | Some (k, t) =>
              match next 58 (skip_ws t) with
              | None => None
              | Some t' =>
                  match p_value f (skip_ws t') with
                  | None => None
                  | Some (v, u) =>
                      match next 44 (skip_ws u) with
                      | Some u' => match p_members f u' with Some (l, x) => Some ((k, v) :: l, x) | None => None end
                      | None => match next 125 (skip_ws u) with Some u' => Some ([(k, v)], u') | None => None end
                      end
                  end
              end
          end
      end
  | O => None
  end.
(** [from_slice]: one value, and nothing but white space after it *)
Definition parse (s : list N) : option Js :=
  match p_value (2 * length s + 2) (skip_ws s) with
  | Some (v, t) => match skip_ws t with [] => Some v | _ => None end
  | None => None
  end.

(** ** Strings: [parse_str_bytes], [parse_unicode_escape], then the UTF-8 check of
    the whole. *)
Definition hex4 (h1 h2 h3 h4 : N) : option N :=
  match hex_value h1, hex_value h2, hex_value h3, hex_value h4 with
  | Some a, Some b, Some c, Some d => Some (((a * 16 + b) * 16 + c) * 16 + d)
  | _, _, _, _ => None
  end.
Fixpoint unescape (s : list N) : option (list N) :=
  match s with
  | [] => Some []
  | c :: r =>
      if c =? 92 then
        match r with
        | [] => None
        | e :: r1 =>
            if e =? 117 then
              match r1 with
              | h1 :: h2 :: h3 :: h4 :: r' =>
                  match hex4 h1 h2 h3 h4 with
                  | None => None
                  | Some n =>
                      if (56320 <=? n) && (n <=? 57343) then None
                      else if (55296 <=? n) && (n <=? 56319) then
                        match r' with
                        | c2 :: e2 :: g1 :: g2 :: g3 :: g4 :: r'' =>
                            if (c2 =? 92) && (e2 =? 117) then
                              match hex4 g1 g2 g3 g4 with
                              | Some n2 =>
                                  if (56320 <=? n2) && (n2 <=? 57343) then
                                    option_map (app (utf8_char ((n - 55296) * 1024 + (n2 - 56320) + 65536))) (unescape r'')
                                  else None
                              | None => None
                              end
                            else None
                        | _ => None
                        end
                      else option_map (app (utf8_char n)) (unescape r')
                  end
              | _ => None
              end
            else match escape e with Some x => option_map (cons x) (unescape r1) | None => None end
        end
      else if (c =? 34) || (c <? 32) then None
      else option_map (cons c) (unescape r)
  end.
Definition str_decode (s : list N) : option (list N) :=
  match unescape s with Some b => from_utf8 b | None => None end.

(** ** Numbers: [parse_integer], [parse_number]. Integers of 64 bits are exact;
    others become floating point numbers, which are refused if they are too large.
    That decision is the parameter [float_ok]. *)
Definition dec_value (l : list N) : N := fold_left (fun acc c => acc * 10 + (c - 48)) l 0.
Definition u64_of (n : list N) : option N :=
  if forallb is_digit n && (dec_value n <=? u64_max) then Some (dec_value n) else None.
Definition num_ok (float_ok : list N -> bool) (n : list N) : bool :=
  match u64_of (match n with c :: r => if c =? 45 then r else n | [] => n end) with Some _ => true | None => float_ok n end.

Section Valid.
Context (float_ok : list N -> bool).

(** [Value] and serde's [Content]: every string must be text and every number in
    range. [room] is [remaining_depth], which a bracket must not bring to zero. *)
Fixpoint value_ok (room : nat) (t : Js) : bool :=
  match t with
  | JNull | JBool _ => true
  | JNum n => num_ok float_ok n
  | JStr s => match str_decode s with Some _ => true | None => false end
  | JArr l => match room with S (S r) => forallb (value_ok (S r)) l | _ => false end
  | JObj l =>
      match room with
      | S (S r) => forallb (fun kv => match str_decode (fst kv) with Some _ => value_ok (S r) (snd kv) | None => false end) l
      | _ => false
      end
  end.

(** serde.rs:11-18 *)
Definition validate_json_model (m : list N) : bool :=
  match parse m with
  | Some (JObj l) => value_ok 128 (JObj l)
  | _ => false
  end.

(** ** What [#[derive(Deserialize)]] makes of structs and enums *)
Definition str (s : string) : list N := map N_of_ascii (list_ascii_of_string s).
Definition Field : Type := list N * (Js -> bool).
Definition find_field (fs : list Field) (n : list N) : option (Js -> bool) :=
  option_map snd (List.find (fun f => bool_decide (fst f = n)) fs).
(** [visit_map]: unknown fields are ignored, repeated and missing ones are errors *)
Fixpoint visit_map (fs : list Field) (seen : list (list N)) (l : list (list N * Js)) : bool :=
  match l with
  | [] => forallb (fun f => bool_decide (fst f ∈ seen)) fs
  | (k, v) :: r =>
      match str_decode k with
      | None => false
      | Some n =>
          match find_field fs n with
          | Some ok => negb (bool_decide (n ∈ seen)) && ok v && visit_map fs (n :: seen) r
          | None => visit_map fs seen r
          end
      end
  end.
(** [visit_seq] *)
Fixpoint visit_seq (fs : list Field) (l : list Js) : bool :=
  match fs, l with
  | [], [] => true
  | f :: fs', v :: l' => snd f v && visit_seq fs' l'
  | _, _ => false
  end.
Definition de_struct (fs : list Field) (t : Js) : bool :=
  match t with JArr l => visit_seq fs l | JObj l => visit_map fs [] l | _ => false end.
(** An enum: a variant without data is its name, or an object of its name and null; a
    variant with data is an object of its name and the data. *)
Definition de_enum (units : list (list N)) (newtypes : list Field) (t : Js) : bool :=
  match t with
  | JStr s => match str_decode s with Some n => bool_decide (n ∈ units) | None => false end
  | JObj [(k, v)] =>
      match str_decode k with
      | Some n =>
          if bool_decide (n ∈ units) then match v with JNull => true | _ => false end
          else match find_field newtypes n with Some ok => ok v | None => false end
      | None => false
      end
  | _ => false
  end.
Definition de_bool (t : Js) : bool := match t with JBool _ => true | _ => false end.
Definition de_u8 (t : Js) : bool :=
  match t with JNum n => match u64_of n with Some v => v <=? u8_max | None => false end | _ => false end.
Definition de_string (t : Js) : bool :=
  match t with JStr s => match str_decode s with Some _ => true | None => false end | _ => false end.

(** serde_derive's [RenameRule] for variants: SCREAMING_SNAKE_CASE puts a [_] before
    every upper case letter but the first character; UPPERCASE does not. *)
Definition is_upper (c : N) : bool := (65 <=? c) && (c <=? 90).
Definition to_upper (c : N) : N := if (97 <=? c) && (c <=? 122) then c - 32 else c.
Definition screaming_snake_case (n : list N) : list N :=
  match n with
  | [] => []
  | c :: r => to_upper c :: concat (map (fun c => if is_upper c then [95; c] else [to_upper c]) r)
  end.
Definition uppercase (n : list N) : list N := map to_upper n.

(** parquet/base.rs:6-22 *)
Definition base_type : Js -> bool :=
  de_enum (map screaming_snake_case [str "Boolean"; str "Int32"; str "Int64"; str "Float"; str "Double"; str "ByteArray"; str "FixedLenByteArray"]) [].
(** parquet/string.rs:7-14 *)
Definition string_type : Js -> bool := de_enum (map uppercase [str "String"; str "UUID"]) [].
(** parquet/numeric.rs:5-30 *)
Definition parquet_integer : Js -> bool := de_struct [(str "bit_width", de_u8); (str "sign", de_bool)].
Definition parquet_decimal : Js -> bool := de_struct [(str "scale", de_u8); (str "precision", de_u8)].
Definition numeric_type : Js -> bool :=
  de_enum [] [(uppercase (str "Integer"), parquet_integer); (uppercase (str "Decimal"), parquet_decimal)].
(** parquet/temporal.rs:5-44 *)
Definition time_unit : Js -> bool := de_enum (map uppercase [str "Millis"; str "Micros"; str "Nanos"]) [].
Definition parquet_time : Js -> bool := de_struct [(str "is_adjusted_to_utc", de_bool); (str "unit", time_unit)].
Definition temporal_type : Js -> bool :=
  de_enum (map uppercase [str "Date"; str "Interval"]) [(uppercase (str "Time"), parquet_time); (uppercase (str "Timestamp"), parquet_time)].
(** parquet/types.rs:11-23: untagged, so the value is read whole and then each variant
    is tried. Two brackets are open. *)
Definition parquet_type (t : Js) : bool :=
  value_ok 126 t && (base_type t || string_type t || numeric_type t || temporal_type t).
(** parquet/column_compression_codec.rs:7-29 *)
Definition compression_codec : Js -> bool :=
  de_enum (map screaming_snake_case [str "Uncompressed"; str "Snappy"; str "Gzip"; str "Lzo"; str "Brotli"; str "ZSTD"; str "Lz4Raw"]) [].
(** parquet/column.rs:9-19 *)
Definition parquet_column : Js -> bool :=
  de_struct [(str "name", de_string); (str "column_type", parquet_type); (str "compression", compression_codec); (str "bloom_filter", de_bool)].
(** parquet.rs:20-21 *)
Definition parquet_model (m : list N) : bool :=
  match parse m with Some (JArr l) => forallb parquet_column l | _ => false end.

(** lib.rs:746-759 *)
Definition valid_model (mt : ModelType) (m : list N) : bool :=
  match mt with Parquet => parquet_model m | AvroBinary => validate_json_model m end.
End Valid.

(** runtime/common/src/constants.rs:93-101 *)
Definition json_schemas (float_ok : list N -> bool) : ScCfg := runtime_schemas (valid_model float_ok).

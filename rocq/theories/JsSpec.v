(** JSON, as RFC 8259 has it, and what a list of Parquet columns looks like in it. Of
    [JsModel] only the type of trees is used. *)
From Coq Require Import String Ascii.
From Verif Require Import Prelude Utf8 JsModel.

(** The characters of an ASCII text *)
Definition chars (s : string) : list N := map N_of_ascii (list_ascii_of_string s).

(** ** Texts and their trees *)
Definition blank (w : list N) : Prop := Forall (fun c => c ∈ [32; 9; 10; 13]) w.
Definition digit (c : N) : Prop := c ∈ chars "0123456789".
Definition hexdigit (c : N) : Prop := c ∈ chars "0123456789abcdefABCDEF".
(** The bytes between the quotes of a string *)
Inductive string_body : list N -> Prop :=
| sb_end : string_body []
| sb_plain c b : 32 <= c -> c <> 34 -> c <> 92 -> string_body b -> string_body (c :: b)
| sb_escape e b : e ∈ 34 :: 92 :: chars "/bfnrt" -> string_body b -> string_body (92 :: e :: b)
| sb_unicode h1 h2 h3 h4 b :
    hexdigit h1 -> hexdigit h2 -> hexdigit h3 -> hexdigit h4 -> string_body b -> string_body (92 :: 117 :: h1 :: h2 :: h3 :: h4 :: b).
(** The characters of a number: sign, integer, fraction, exponent *)
Definition number_text (n : list N) : Prop :=
  exists sign int frac exp, n = sign ++ int ++ frac ++ exp
  /\ (sign = [] \/ sign = chars "-")
  /\ (int = chars "0" \/ exists d ds, int = d :: ds /\ digit d /\ d <> 48 /\ Forall digit ds)
  /\ (frac = [] \/ exists ds, frac = chars "." ++ ds /\ ds <> [] /\ Forall digit ds)
  /\ (exp = [] \/ exists e s ds, exp = e ++ s ++ ds /\ e ∈ [chars "e"; chars "E"] /\ s ∈ [[]; chars "+"; chars "-"] /\ ds <> [] /\ Forall digit ds).

Inductive value_text : list N -> Js -> Prop :=
| vt_null : value_text (chars "null") JNull
| vt_true : value_text (chars "true") (JBool true)
| vt_false : value_text (chars "false") (JBool false)
| vt_num n : number_text n -> value_text n (JNum n)
| vt_str b : string_body b -> value_text (34 :: b ++ [34]) (JStr b)
| vt_no_elements w : blank w -> value_text (chars "[" ++ w ++ chars "]") (JArr [])
| vt_array s l : elements_text s l -> value_text (chars "[" ++ s ++ chars "]") (JArr l)
| vt_no_members w : blank w -> value_text (chars "{" ++ w ++ chars "}") (JObj [])
| vt_object s l : members_text s l -> value_text (chars "{" ++ s ++ chars "}") (JObj l)
with elements_text : list N -> list Js -> Prop :=
| et_last w1 s v w2 : blank w1 -> value_text s v -> blank w2 -> elements_text (w1 ++ s ++ w2) [v]
| et_more w1 s v w2 s' l :
    blank w1 -> value_text s v -> blank w2 -> elements_text s' l -> elements_text (w1 ++ s ++ w2 ++ chars "," ++ s') (v :: l)
with members_text : list N -> list (list N * Js) -> Prop :=
| mt_last w1 k w2 w3 s v w4 :
    blank w1 -> string_body k -> blank w2 -> blank w3 -> value_text s v -> blank w4 ->
    members_text (w1 ++ (34 :: k ++ [34]) ++ w2 ++ chars ":" ++ w3 ++ s ++ w4) [(k, v)]
| mt_more w1 k w2 w3 s v w4 s' l :
    blank w1 -> string_body k -> blank w2 -> blank w3 -> value_text s v -> blank w4 -> members_text s' l ->
    members_text (w1 ++ (34 :: k ++ [34]) ++ w2 ++ chars ":" ++ w3 ++ s ++ w4 ++ chars "," ++ s') ((k, v) :: l).
(** The whole text *)
Definition json_text (m : list N) (t : Js) : Prop :=
  exists w1 s w2, m = w1 ++ s ++ w2 /\ blank w1 /\ value_text s t /\ blank w2.

(** ** The text that a string stands for *)
Definition spelled (h : N) (v : N) : Prop :=
  nth_error (chars "0123456789abcdef") (N.to_nat v) = Some h \/ nth_error (chars "0123456789ABCDEF") (N.to_nat v) = Some h.
Definition four (h : list N) (n : N) : Prop :=
  exists h1 h2 h3 h4 a b c d, h = [h1; h2; h3; h4] /\ spelled h1 a /\ spelled h2 b /\ spelled h3 c /\ spelled h4 d
  /\ n = 4096 * a + 256 * b + 16 * c + d.
Inductive reads : list N -> list N -> Prop :=
| rd_end : reads [] []
| rd_plain c b t : scalar c -> 32 <= c -> c <> 34 -> c <> 92 -> reads b t -> reads (utf8_char c ++ b) (c :: t)
| rd_escape e x b t :
    (e, x) ∈ [(34, 34); (92, 92); (47, 47); (98, 8); (102, 12); (110, 10); (114, 13); (116, 9)] -> reads b t ->
    reads (92 :: e :: b) (x :: t)
| rd_unicode h n b t : four h n -> scalar n -> reads b t -> reads (92 :: 117 :: h ++ b) (n :: t)
| rd_pair h n g k b t :
    four h n -> 55296 <= n < 56320 -> four g k -> 56320 <= k < 57344 -> reads b t ->
    reads (92 :: 117 :: h ++ 92 :: 117 :: g ++ b) (65536 + 1024 * (n - 55296) + (k - 56320) :: t).
Definition proper_string (s : list N) : Prop := exists t, reads s t.

(** ** Values that the parser can hold: at most [n] brackets deep, strings that are
    text, numbers in range *)
Inductive held (range : list N -> Prop) : nat -> Js -> Prop :=
| hd_null n : held range n JNull
| hd_bool n b : held range n (JBool b)
| hd_num n x : range x -> held range n (JNum x)
| hd_str n s : proper_string s -> held range n (JStr s)
| hd_arr n l : Forall (held range n) l -> held range (S n) (JArr l)
| hd_obj n l : Forall (fun kv => proper_string (fst kv)) l -> Forall (fun kv => held range n (snd kv)) l -> held range (S n) (JObj l).
(** An integer below 2^64, with a minus or not, is always in range. *)
Definition natural (x : list N) (v : N) : Prop :=
  exists ds, Forall (fun d => d < 10) ds /\ x = map (N.add 48) ds /\ v = fold_left (fun acc d => acc * 10 + d) ds 0.
Definition in_range (float_ok : list N -> bool) (x : list N) : Prop :=
  (exists v, (natural x v \/ exists y, x = 45 :: y /\ natural y v) /\ v < 2 ^ 64) \/ float_ok x = true.

(** ** Parquet *)
(** A value of named parts: all of them in order, or an object that has each of them
    exactly once, among others *)
Definition parts (fs : list (string * (Js -> Prop))) (t : Js) : Prop :=
  (exists l, t = JArr l /\ Forall2 (fun f v => snd f v) fs l)
  \/ exists l, t = JObj l /\ Forall (fun kv => proper_string (fst kv)) l
     /\ forall f, f ∈ fs -> exists l1 k v l2, l = l1 ++ (k, v) :: l2 /\ reads k (chars (fst f)) /\ snd f v
        /\ forall k' v', (k', v') ∈ l1 ++ l2 -> ~ reads k' (chars (fst f)).
(** One of some words; also written as an object with the word as its only key, and null *)
Definition word (ws : list string) (t : Js) : Prop :=
  exists w s, w ∈ ws /\ reads s (chars w) /\ (t = JStr s \/ t = JObj [(s, JNull)]).
Definition tagged (w : string) (P : Js -> Prop) (t : Js) : Prop :=
  exists s v, reads s (chars w) /\ P v /\ t = JObj [(s, v)].
Definition boolean (t : Js) : Prop := exists b, t = JBool b.
Definition byte (t : Js) : Prop := exists x v, t = JNum x /\ natural x v /\ v < 256.
Definition some_text (t : Js) : Prop := exists s, t = JStr s /\ proper_string s.

Definition column_type (t : Js) : Prop :=
  word ["BOOLEAN"; "INT32"; "INT64"; "FLOAT"; "DOUBLE"; "BYTE_ARRAY"; "FIXED_LEN_BYTE_ARRAY"; "STRING"; "UUID"; "DATE"; "INTERVAL"]%string t
  \/ tagged "INTEGER" (parts [("bit_width", byte); ("sign", boolean)]%string) t
  \/ tagged "DECIMAL" (parts [("scale", byte); ("precision", byte)]%string) t
  \/ tagged "TIME" (parts [("is_adjusted_to_utc", boolean); ("unit", word ["MILLIS"; "MICROS"; "NANOS"])]%string) t
  \/ tagged "TIMESTAMP" (parts [("is_adjusted_to_utc", boolean); ("unit", word ["MILLIS"; "MICROS"; "NANOS"])]%string) t.
Definition column (codecs : list string) (float_ok : list N -> bool) (t : Js) : Prop :=
  parts [("name", some_text); ("column_type", fun v => column_type v /\ held (in_range float_ok) 125 v);
         ("compression", word codecs); ("bloom_filter", boolean)]%string t.
(** The codecs of the Parquet format, and the ones of the code *)
Definition parquet_codecs : list string := ["UNCOMPRESSED"; "SNAPPY"; "GZIP"; "LZO"; "BROTLI"; "ZSTD"; "LZ4_RAW"]%string.
Definition accepted_codecs : list string := ["UNCOMPRESSED"; "SNAPPY"; "GZIP"; "LZO"; "BROTLI"; "Z_S_T_D"; "LZ4_RAW"]%string.

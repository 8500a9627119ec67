(** Strings. A Rust [String] or [str] is modelled as its list of [char]s, each
    a Unicode scalar value; [as_bytes] is [utf8], [from_utf8] is [from_utf8].
    The standard library is a dependency; this file follows the definition of
    UTF-8 and of [u16]'s [FromStr] and [numtoa]. *)
From Verif Require Import Prelude.

Definition scalar (c : N) : Prop := c < 55296 \/ 57344 <= c < 1114112.
Definition scalarb (c : N) : bool := (c <? 55296) || ((57344 <=? c) && (c <? 1114112)).

Definition utf8_char (c : N) : list N :=
  if c <? 128 then [c]
  else if c <? 2048 then [192 + c / 64; 128 + c mod 64]
  else if c <? 65536 then [224 + c / 4096; 128 + (c / 64) mod 64; 128 + c mod 64]
  else [240 + c / 262144; 128 + (c / 4096) mod 64; 128 + (c / 64) mod 64; 128 + c mod 64].
Definition utf8 (s : list N) : list N := concat (map utf8_char s).

Definition contb (b : N) : bool := (128 <=? b) && (b <? 192).

(** [String::from_utf8] and [core::str::from_utf8]: overlong forms, surrogates
    and numbers above U+10FFFF are errors *)
Fixpoint from_utf8 (bs : list N) : option (list N) :=
  match bs with
  | [] => Some []
  | b0 :: r0 =>
      if b0 <? 128 then option_map (cons b0) (from_utf8 r0)
      else match r0 with
      | [] => None
      | b1 :: r1 =>
          if b0 <? 224 then
            let c := (b0 - 192) * 64 + (b1 - 128) in
            if (192 <=? b0) && contb b1 && (128 <=? c) then option_map (cons c) (from_utf8 r1) else None
          else match r1 with
          | [] => None
          | b2 :: r2 =>
              if b0 <? 240 then
                let c := (b0 - 224) * 4096 + (b1 - 128) * 64 + (b2 - 128) in
                if contb b1 && contb b2 && (2048 <=? c) && scalarb c then option_map (cons c) (from_utf8 r2) else None
              else match r2 with
              | [] => None
              | b3 :: r3 =>
                  let c := (b0 - 240) * 262144 + (b1 - 128) * 4096 + (b2 - 128) * 64 + (b3 - 128) in
                  if (b0 <? 248) && contb b1 && contb b2 && contb b3 && (65536 <=? c) && scalarb c
                  then option_map (cons c) (from_utf8 r3) else None
              end
          end
      end
  end.

(** [numtoa(10, _)] of a u16: decimal digits, five turns suffice *)
Fixpoint digits_fuel (fuel : nat) (n : N) : list N :=
  match fuel with
  | O => []
  | S fuel' => if n <? 10 then [48 + n] else digits_fuel fuel' (n / 10) ++ [48 + n mod 10]
  end.
Definition digits (n : N) : list N := digits_fuel 5 n.

(** [str::parse::<u16>]: an optional plus sign, then at least one digit, with
    checked multiplication and addition *)
Definition digit_value (c : N) : option N := if (48 <=? c) && (c <? 58) then Some (c - 48) else None.
Fixpoint parse_digits (acc : N) (s : list N) : option N :=
  match s with
  | [] => Some acc
  | c :: s' =>
      match digit_value c with
      | None => None
      | Some d =>
          match chk_mul u16_max acc 10 with
          | None => None
          | Some a => match chk_add u16_max a d with None => None | Some v => parse_digits v s' end
          end
      end
  end.
Definition parse_u16 (s : list N) : option N :=
  match s with
  | [] => None
  | c :: s' =>
      if c =? 43 then match s' with [] => None | _ => parse_digits 0 s' end
      else parse_digits 0 s
  end.

(** [str::split(c)]: the pieces between the occurrences of [c] *)
Fixpoint split_on (c : N) (s : list N) : list (list N) :=
  match s with
  | [] => [[]]
  | x :: s' =>
      if x =? c then [] :: split_on c s'
      else match split_on c s' with
           | p :: ps => (x :: p) :: ps
           | [] => [[x]]
           end
  end.

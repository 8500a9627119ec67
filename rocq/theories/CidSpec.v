(** What a content identifier is, as the multiformats specifications have it. *)
From Coq Require Import String Ascii.
From Verif Require Import Prelude.

Definition bytes (l : list N) : Prop := Forall (fun b => b < 256) l.

(** The number that digits spell *)
Definition number (base : N) (l : list N) : N := fold_left (fun acc d => acc * base + d) l 0.
(** The letters of base32 *)
Definition letters : list N := map N_of_ascii (list_ascii_of_string "abcdefghijklmnopqrstuvwxyz234567").
Definition letter (v : N) : N := nth (N.to_nat v) letters 0.
(** [c] writes [bs] in base32: as one number, shifted by the fewest bits (at most
    four) that make it a whole number of letters. *)
Definition base32 (bs c : list N) : Prop :=
  exists vs, Forall (fun v => v < 32) vs /\ c = map letter vs /\ 8 * len bs <= 5 * len vs < 8 * len bs + 5
  /\ number 32 vs = number 256 bs * 2 ^ (5 * len vs - 8 * len bs).

(** An unsigned varint: seven bits a byte, the lowest first, the high bit set on all
    but the last, and no more bytes than needed. *)
Inductive varint : list N -> N -> Prop :=
| vi_last b : b < 128 -> varint [b] b
| vi_more b l n : b < 128 -> 0 < n -> varint l n -> varint (128 + b :: l) (b + 128 * n).

(** A CID of version 1: the version, the content type, the hash function, the length
    of the digest and the digest, here of at most 64 bytes; and nothing else. *)
Definition cid_v1 (bs : list N) (codec hash : N) (digest : list N) : Prop :=
  codec < 2 ^ 64 /\ hash < 2 ^ 64 /\ len digest <= 64 /\ bytes digest
  /\ exists lc lh, varint lc codec /\ varint lh hash /\ bs = 1 :: lc ++ lh ++ len digest :: digest.
(** A CID of version 0: a SHA-256 multihash *)
Definition cid_v0 (bs digest : list N) : Prop := len digest = 32 /\ bytes digest /\ bs = 18 :: 32 :: digest.

(** As version 1, but with numbers of up to ten bytes, of which only the lowest 64
    bits count *)
Definition varint64 (l : list N) (v : N) : Prop := exists n, varint l n /\ n < 2 ^ 70 /\ v = n mod 2 ^ 64.
Definition cid_v1_loose (bs : list N) : Prop :=
  exists lv lc lh ls codec hash digest,
    varint64 lv 1 /\ varint64 lc codec /\ varint64 lh hash /\ varint64 ls (len digest) /\ len digest <= 64 /\ bytes digest
    /\ bs = lv ++ lc ++ lh ++ ls ++ digest.
Definition cid_v0_loose (bs : list N) : Prop :=
  exists lv lc digest, varint64 lv 18 /\ varint64 lc 32 /\ len digest = 32 /\ bytes digest /\ bs = lv ++ lc ++ digest.

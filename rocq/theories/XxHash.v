(** XXH64, the hash behind [twox_64], [twox_128] (sp_io::hashing, used at
    pallets/stateful-storage/src/stateful_child_tree.rs:10, 377-400 and by the
    key hasher Twox128 of runtime/frequency/src/lib.rs:1112) and behind page
    hashes (pallets/stateful-storage/src/types.rs:20, 257-281). A dependency of
    the code, modelled after the published XXH64 algorithm. *)
From Verif Require Import Prelude Scale.

Definition w64 (n : N) : N := N.land n 18446744073709551615.
Definition add64 (a b : N) : N := w64 (a + b).
Definition mul64 (a b : N) : N := w64 (a * b).
Definition rotl64 (x r : N) : N := N.lor (w64 (N.shiftl x r)) (N.shiftr x (64 - r)).

Definition P1 : N := 11400714785074694791.
Definition P2 : N := 14029467366897019727.
Definition P3 : N := 1609587929392839161.
Definition P4 : N := 9650029242287828579.
Definition P5 : N := 2870177450012600261.

Definition xx_round (acc lane : N) : N := mul64 (rotl64 (add64 acc (mul64 lane P2)) 31) P1.
Definition xx_merge (h v : N) : N := add64 (mul64 (N.lxor h (xx_round 0 v)) P1) P4.

(** 32-byte stripes, four lanes of eight bytes *)
Fixpoint xx_stripes (fuel : nat) (v1 v2 v3 v4 : N) (d : list N) : N * list N :=
  match fuel with
  | S fuel' =>
      if (32 <=? length d)%nat then
        let lane i := le_val (take 8 (drop i d)) in
        xx_stripes fuel' (xx_round v1 (lane 0%nat)) (xx_round v2 (lane 8%nat)) (xx_round v3 (lane 16%nat)) (xx_round v4 (lane 24%nat)) (drop 32 d)
      else
        let h := add64 (add64 (rotl64 v1 1) (rotl64 v2 7)) (add64 (rotl64 v3 12) (rotl64 v4 18)) in
        (xx_merge (xx_merge (xx_merge (xx_merge h v1) v2) v3) v4, d)
  | O => (0, d)
  end.

Fixpoint xx_bytes (h : N) (d : list N) : N :=
  match d with
  | [] => h
  | b :: d' => xx_bytes (mul64 (rotl64 (N.lxor h (mul64 b P5)) 11) P1) d'
  end.
Definition xx_four (h : N) (d : list N) : N :=
  if (4 <=? length d)%nat then
    xx_bytes (add64 (mul64 (rotl64 (N.lxor h (mul64 (le_val (take 4 d)) P1)) 23) P2) P3) (drop 4 d)
  else xx_bytes h d.
Fixpoint xx_eights (fuel : nat) (h : N) (d : list N) : N :=
  match fuel with
  | S fuel' =>
      if (8 <=? length d)%nat then
        xx_eights fuel' (add64 (mul64 (rotl64 (N.lxor h (xx_round 0 (le_val (take 8 d)))) 27) P1) P4) (drop 8 d)
      else xx_four h d
  | O => h
  end.
Definition xx_avalanche (h : N) : N :=
  let h := mul64 (N.lxor h (N.shiftr h 33)) P2 in
  let h := mul64 (N.lxor h (N.shiftr h 29)) P3 in
  N.lxor h (N.shiftr h 32).

Definition xxh64 (seed : N) (d : list N) : N :=
  let fuel := S (length d) in
  let (h, r) :=
    if (32 <=? length d)%nat then
      xx_stripes fuel (add64 (add64 seed P1) P2) (add64 seed P2) seed (w64 (seed + 18446744073709551616 - P1)) d
    else (add64 seed P5, d) in
  xx_avalanche (xx_eights fuel (add64 h (len d)) r).

(** sp_io::hashing *)
Definition twox_64 (d : list N) : list N := enc_u64 (xxh64 0 d).
Definition twox_128 (d : list N) : list N := enc_u64 (xxh64 0 d) ++ enc_u64 (xxh64 1 d).

(** Published values: the empty string, and the well-known storage prefix of
    "System", 0x26aa394eea5630e07c48ae0c9558cef7; and one with stripes: the 43
    bytes of "The quick brown fox jumps over the lazy dog", 0x0b242d361fda71bc. *)
Example xxh64_empty : xxh64 0 [] = 17241709254077376921. Proof. vm_compute. reflexivity. Qed.
Example twox_128_system :
  twox_128 [83; 121; 115; 116; 101; 109] = [38; 170; 57; 78; 234; 86; 48; 224; 124; 72; 174; 12; 149; 88; 206; 247].
Proof. vm_compute. reflexivity. Qed.
Example xxh64_fox :
  xxh64 0 [84; 104; 101; 32; 113; 117; 105; 99; 107; 32; 98; 114; 111; 119; 110; 32; 102; 111; 120; 32; 106; 117; 109; 112; 115; 32; 111; 118; 101; 114; 32; 116; 104; 101; 32; 108; 97; 122; 121; 32; 100; 111; 103]
  = 802816344064684476.
Proof. vm_compute. reflexivity. Qed.

Lemma enc_u64_length n : length (enc_u64 n) = 8%nat. Proof. apply le_bytes_length. Qed.
Lemma twox_64_length d : length (twox_64 d) = 8%nat. Proof. apply enc_u64_length. Qed.
Lemma twox_128_length d : length (twox_128 d) = 16%nat.
Proof. unfold twox_128. by rewrite app_length, !enc_u64_length. Qed.

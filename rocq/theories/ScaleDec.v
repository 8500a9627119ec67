(** Decoding of the SCALE values that are read back from storage. *)
From Verif Require Import Prelude Scale.

(** [Compact<u32>::decode] of parity-scale-codec: the two low bits of the first
    byte give the form; forms longer than necessary are refused. *)
Definition dec_compact_u32 (bs : list N) : option (N * list N) :=
  match bs with
  | [] => None
  | b0 :: r =>
      match b0 mod 4 with
      | 0 => Some (b0 / 4, r)
      | 1 => match r with
             | b1 :: r' => let x := le_val [b0; b1] / 4 in if 63 <? x then Some (x, r') else None
             | _ => None
             end
      | 2 => match r with
             | b1 :: b2 :: b3 :: r' =>
                 let x := le_val [b0; b1; b2; b3] / 4 in if 16383 <? x then Some (x, r') else None
             | _ => None
             end
      | _ => if b0 / 4 =? 0
             then match r with
                  | b1 :: b2 :: b3 :: b4 :: r' =>
                      let x := le_val [b1; b2; b3; b4] in if 1073741823 <? x then Some (x, r') else None
                  | _ => None
                  end
             else None
      end
  end.

(** [BoundedVec<u8, S>::decode] with bound [mx] *)
Definition dec_bounded_bytes (mx : N) (bs : list N) : option (list N * list N) :=
  match dec_compact_u32 bs with
  | None => None
  | Some (n, r) =>
      if mx <? n then None
      else if len r <? n then None
      else Some (take (N.to_nat n) r, drop (N.to_nat n) r)
  end.

Definition dec_u16 (bs : list N) : option (N * list N) :=
  match bs with
  | b0 :: b1 :: r => Some (le_val [b0; b1], r)
  | _ => None
  end.

Lemma le_bytes_split w n : le_bytes (S w) n = n mod 256 :: le_bytes w (n / 256).
Proof. done. Qed.

Lemma byte_len_u32 n : 1073741824 <= n -> n < 4294967296 -> byte_len n = 4.
Proof.
  intros H1 H2. pose proof (byte_len_ge n H1). unfold byte_len in *.
  assert (N.size n <= 32).
  { rewrite N.size_log2 by lia. apply N.le_succ_l. apply N.log2_lt_pow2; [lia|]. change (2 ^ 32) with 4294967296. lia. }
  apply N.le_antisymm; [|done]. apply N.lt_succ_r, N.div_lt_upper_bound; lia.
Qed.

Lemma dec_compact_enc n r : n <= u32_max -> dec_compact_u32 (compact n ++ r) = Some (n, r).
Proof.
  unfold u32_max. intros Hn. unfold compact.
  destruct (n <? 64) eqn:E1.
  { cbn [app dec_compact_u32]. rewrite (N.mul_comm 4), N.mod_mul, N.div_mul by lia. done. }
  destruct (n <? 16384) eqn:E2.
  { cbn [app le_bytes dec_compact_u32]. rewrite mod256_mod4, mod4_tag by lia.
    change (le_val [(4 * n + 1) mod 256; ((4 * n + 1) / 256) mod 256]) with (le_val (le_bytes 2 (4 * n + 1))).
    rewrite le_val_bytes by (change (256 ^ N.of_nat 2) with 65536; lia).
    replace ((4 * n + 1) / 4) with n by (apply (N.div_unique _ _ _ 1); lia).
    by replace (63 <? n) with true by lia. }
  destruct (n <? 1073741824) eqn:E3.
  { cbn [app le_bytes dec_compact_u32]. rewrite mod256_mod4, mod4_tag by lia.
    match goal with |- context [le_val ?l] => change l with (le_bytes 4 (4 * n + 2)) end.
    rewrite le_val_bytes by (change (256 ^ N.of_nat 4) with 4294967296; lia).
    replace ((4 * n + 2) / 4) with n by (apply (N.div_unique _ _ _ 2); lia).
    by replace (16383 <? n) with true by lia. }
  rewrite byte_len_u32 by lia. change (N.to_nat 4) with 4%nat. change (4 * (4 - 4) + 3) with 3.
  cbn [app le_bytes dec_compact_u32]. change (3 mod 4) with 3. change (3 / 4 =? 0) with true. cbn match.
  match goal with |- context [le_val ?l] => change l with (le_bytes 4 n) end.
  rewrite le_val_bytes by (change (256 ^ N.of_nat 4) with 4294967296; lia).
  by replace (1073741823 <? n) with true by lia.
Qed.

Lemma dec_bounded_enc mx bs r :
  len bs <= mx -> mx <= u32_max -> dec_bounded_bytes mx (enc_bytes bs ++ r) = Some (bs, r).
Proof.
  intros H1 H2. unfold dec_bounded_bytes, enc_bytes. rewrite <- app_assoc, dec_compact_enc by lia.
  replace (mx <? len bs) with false by lia. rewrite len_app. replace (len bs + len r <? len bs) with false by lia.
  unfold len. rewrite Nat2N.id, take_app, drop_app. done.
Qed.

Lemma dec_bounded_len mx bs d r : dec_bounded_bytes mx bs = Some (d, r) -> len d <= mx.
Proof.
  unfold dec_bounded_bytes. destruct (dec_compact_u32 bs) as [[n q]|]; [|done].
  destruct (mx <? n) eqn:E1; [done|]. destruct (len q <? n) eqn:E2; [done|]. intros [= <- <-].
  unfold len in *. rewrite take_length. lia.
Qed.

Lemma dec_u16_enc n r : n < 65536 -> dec_u16 (enc_u16 n ++ r) = Some (n, r).
Proof.
  intros H. unfold enc_u16. cbn [le_bytes app dec_u16].
  match goal with |- context [le_val ?l] => change l with (le_bytes 2 n) end.
  by rewrite le_val_bytes by (change (256 ^ N.of_nat 2) with 65536; lia).
Qed.

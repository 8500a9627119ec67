(** The parts of the SCALE codec (parity-scale-codec) that the signed payloads
    use. Bytes are numbers below 256. The codec is a dependency; this file is a
    model of its published format. *)
From Verif Require Import Prelude.

Notation bytes := (list N) (only parsing).

(** little-endian, fixed width of [w] bytes (u8, u16, u32, u64, AccountId32) *)
Fixpoint le_bytes (w : nat) (n : N) : list N :=
  match w with
  | O => []
  | S w' => (n mod 256) :: le_bytes w' (n / 256)
  end.

Fixpoint le_val (bs : list N) : N :=
  match bs with
  | [] => 0
  | b :: bs' => b + 256 * le_val bs'
  end.

Definition enc_u8 : N -> list N := le_bytes 1.
Definition enc_u16 : N -> list N := le_bytes 2.
Definition enc_u32 : N -> list N := le_bytes 4.
Definition enc_u64 : N -> list N := le_bytes 8.
(** AccountId32: 32 bytes. An account is a number below 2^256. *)
Definition enc_account : N -> list N := le_bytes 32.

(** Number of bytes of the shortest little-endian form (0 for 0), for numbers
    below 2^64. *)
Definition byte_len (n : N) : N := (N.size n + 7) / 8.

(** [Compact<u16/u32/u64>] *)
Definition compact (n : N) : list N :=
  if n <? 64 then [4 * n]
  else if n <? 16384 then le_bytes 2 (4 * n + 1)
  else if n <? 1073741824 then le_bytes 4 (4 * n + 2)
  else (4 * (byte_len n - 4) + 3) :: le_bytes (N.to_nat (byte_len n)) n.

(** [Vec<u8>] and [Vec<u16>] *)
Definition enc_bytes (bs : list N) : list N := compact (len bs) ++ bs.
Definition enc_u16s (ns : list N) : list N := compact (len ns) ++ concat (map enc_u16 ns).

(** common/primitives/src/utils.rs:131-141 [wrap_binary_data]:
    "<Bytes>" ++ data ++ "</Bytes>" *)
Definition pre_bytes : list N := [60; 66; 121; 116; 101; 115; 62].
Definition post_bytes : list N := [60; 47; 66; 121; 116; 101; 115; 62].
Definition wrap_binary_data (d : list N) : list N := pre_bytes ++ d ++ post_bytes.

Lemma le_bytes_length w n : length (le_bytes w n) = w.
Proof. revert n; induction w; intros; cbn; auto. Qed.

Lemma le_val_bytes w : forall n, n < 256 ^ N.of_nat w -> le_val (le_bytes w n) = n.
Proof.
  induction w as [|w IH]; intros n Hn; cbn [le_bytes le_val].
  - change (256 ^ N.of_nat 0) with 1 in Hn. lia.
  - rewrite IH.
    + pose proof (N.div_mod n 256). lia.
    + replace (N.of_nat (S w)) with (N.succ (N.of_nat w)) in Hn by lia.
      rewrite N.pow_succ_r' in Hn. apply N.div_lt_upper_bound; lia.
Qed.

Lemma le_bytes_inj w n m :
  n < 256 ^ N.of_nat w -> m < 256 ^ N.of_nat w -> le_bytes w n = le_bytes w m -> n = m.
Proof. intros Hn Hm H. rewrite <- (le_val_bytes w n), <- (le_val_bytes w m), H; done. Qed.

Lemma le_bytes_val w bs :
  length bs = w -> Forall (fun b => b < 256) bs -> le_bytes w (le_val bs) = bs.
Proof.
  revert w; induction bs as [|b bs IH]; intros w Hl Hb; subst w; [done|].
  cbn [length le_bytes le_val]. inversion Hb as [|? ? Hb1 Hb2]; subst.
  f_equal.
  - rewrite (N.mul_comm 256), N.mod_add by lia. apply N.mod_small; lia.
  - rewrite (N.mul_comm 256), N.div_add by lia.
    rewrite (N.div_small b) by lia. rewrite N.add_0_l. by apply IH.
Qed.

Lemma le_bytes_byte w n : Forall (fun b => b < 256) (le_bytes w n).
Proof.
  revert n; induction w; intros n; cbn; constructor; auto.
  apply N.mod_lt; lia.
Qed.

Lemma wrap_inj a b : wrap_binary_data a = wrap_binary_data b -> a = b.
Proof.
  unfold wrap_binary_data. intros H. apply app_inv_head in H. by apply app_inv_tail in H.
Qed.

(** Fixed-width prefixes can be peeled off. *)
Lemma le_bytes_app_inj w n m r s :
  n < 256 ^ N.of_nat w -> m < 256 ^ N.of_nat w ->
  le_bytes w n ++ r = le_bytes w m ++ s -> n = m /\ r = s.
Proof.
  intros Hn Hm H. apply app_inj_1 in H; [|by rewrite !le_bytes_length].
  destruct H as [H1 H2]. split; [|done]. by apply (le_bytes_inj w).
Qed.

Lemma mod256_mod4 x : (x mod 256) mod 4 = x mod 4.
Proof.
  pose proof (N.div_mod x 256). pose proof (N.mod_lt x 256).
  symmetry. rewrite H at 1 by lia.
  replace (256 * (x / 256)) with (64 * (x / 256) * 4) by lia.
  rewrite N.add_comm, N.mod_add by lia. done.
Qed.

Lemma mod4_tag n t : t < 4 -> (4 * n + t) mod 4 = t.
Proof. intros. rewrite N.add_comm, (N.mul_comm 4), N.mod_add by lia. by apply N.mod_small. Qed.

(** The first byte of a compact number tells its form (its value modulo 4). *)
Lemma compact_tag n :
  exists b r, compact n = b :: r /\
  b mod 4 = (if n <? 64 then 0 else if n <? 16384 then 1 else if n <? 1073741824 then 2 else 3).
Proof.
  unfold compact. repeat case_match.
  - eexists _, _; split; [done|]. rewrite N.mul_comm, N.mod_mul; lia.
  - eexists _, _; split; [done|]. rewrite mod256_mod4. by apply mod4_tag.
  - eexists _, _; split; [done|]. rewrite mod256_mod4. by apply mod4_tag.
  - eexists _, _; split; [done|]. by apply mod4_tag.
Qed.

Lemma byte_len_bound n : n < 256 ^ byte_len n.
Proof.
  unfold byte_len. change 256 with (2 ^ 8). rewrite <- N.pow_mul_r.
  eapply N.lt_le_trans; [apply N.size_gt|].
  apply N.pow_le_mono_r; [lia|].
  pose proof (N.div_mod (N.size n + 7) 8). pose proof (N.mod_lt (N.size n + 7) 8). lia.
Qed.

Lemma byte_len_ge n : 1073741824 <= n -> 4 <= byte_len n.
Proof.
  intros H. unfold byte_len. apply N.div_le_lower_bound; [lia|].
  assert (31 <= N.size n); [|lia].
  rewrite N.size_log2 by lia.
  assert (30 <= N.log2 n); [|lia]. apply N.log2_le_pow2; lia.
Qed.

Lemma compact_app_inj n m r s : compact n ++ r = compact m ++ s -> n = m /\ r = s.
Proof.
  intros H.
  destruct (compact_tag n) as (bn & rn & En & Tn), (compact_tag m) as (bm & rm & Em & Tm).
  assert (Hb : bn = bm). { rewrite En, Em in H. cbn in H. by injection H. }
  rewrite Hb, Tm in Tn. clear En Em Tm Hb bn bm rn rm.
  unfold compact in H.
  destruct (n <? 64) eqn:N1, (m <? 64) eqn:M1; try (repeat case_match; lia).
  { cbn in H. injection H as H1 H2. split; [lia|done]. }
  destruct (n <? 16384) eqn:N2, (m <? 16384) eqn:M2; try (repeat case_match; lia).
  { apply le_bytes_app_inj in H; [|change (256 ^ N.of_nat 2) with 65536; lia..]. lia || (destruct H; split; [lia|done]). }
  destruct (n <? 1073741824) eqn:N3, (m <? 1073741824) eqn:M3; try lia.
  { apply le_bytes_app_inj in H; [|change (256 ^ N.of_nat 4) with 4294967296; lia..]. destruct H; split; [lia|done]. }
  cbn [app] in H. injection H as H1 H2.
  pose proof (byte_len_ge n). pose proof (byte_len_ge m).
  assert (Hl : byte_len n = byte_len m) by lia. rewrite Hl in H2.
  apply le_bytes_app_inj in H2.
  - done.
  - rewrite N2Nat.id, <- Hl. apply byte_len_bound.
  - rewrite N2Nat.id. apply byte_len_bound.
Qed.

Lemma enc_bytes_app_inj a b r s : enc_bytes a ++ r = enc_bytes b ++ s -> a = b /\ r = s.
Proof.
  unfold enc_bytes. rewrite <- !app_assoc. intros H.
  apply compact_app_inj in H as [Hl H]. apply app_inj_1 in H; [done|].
  unfold len in Hl. lia.
Qed.

Lemma enc_u16s_body_inj a : forall b r s,
  length a = length b -> Forall (fun n => n < 65536) a -> Forall (fun n => n < 65536) b ->
  concat (map enc_u16 a) ++ r = concat (map enc_u16 b) ++ s -> a = b /\ r = s.
Proof.
  induction a as [|x a IH]; intros [|y b] r s Hl Ha Hb H; try discriminate; [done|].
  inversion Ha; inversion Hb; subst. cbn [map concat] in H. rewrite <- !app_assoc in H.
  apply le_bytes_app_inj in H; [|change (256 ^ N.of_nat 2) with 65536; done..].
  destruct H as [-> H]. cbn in Hl. apply IH in H; [|lia|done|done].
  destruct H as [-> ->]. done.
Qed.

Lemma enc_u16s_app_inj a b r s :
  Forall (fun n => n < 65536) a -> Forall (fun n => n < 65536) b ->
  enc_u16s a ++ r = enc_u16s b ++ s -> a = b /\ r = s.
Proof.
  unfold enc_u16s. rewrite <- !app_assoc. intros Ha Hb H.
  apply compact_app_inj in H as [Hl H]. apply enc_u16s_body_inj in H; try done.
  unfold len in Hl. lia.
Qed.

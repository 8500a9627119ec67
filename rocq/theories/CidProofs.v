(** Proofs about base32, varints and content identifiers. *)
From Verif Require Import Prelude CommonTypes Utf8 Utf8Proofs CidSpec SigModel MsaModel MsaSpec MgModel MgSpec MgProofs MgFinal CidModel.

(** ** Bits *)
Lemma to_bits_len w n : length (to_bits w n) = w.
Proof. induction w as [|w IH]; cbn [to_bits length]; [done|by rewrite IH]. Qed.
Lemma of_bits_app l1 l2 acc : fold_left (fun acc b => 2 * acc + N.b2n b) (l1 ++ l2) acc
  = fold_left (fun acc b => 2 * acc + N.b2n b) l2 (fold_left (fun acc b => 2 * acc + N.b2n b) l1 acc).
Proof. apply fold_left_app. Qed.
Lemma of_bits_acc l acc : fold_left (fun acc b => 2 * acc + N.b2n b) l acc = acc * 2 ^ len l + of_bits l.
Proof.
  revert acc. induction l as [|b l IH]; intros acc; [cbn; unfold len, of_bits; cbn; lia|].
  unfold of_bits. cbn [fold_left]. rewrite IH, (IH (2 * 0 + N.b2n b)). unfold len. cbn [length].
  replace (N.of_nat (S (length l))) with (N.succ (N.of_nat (length l))) by lia. rewrite N.pow_succ_r'. lia.
Qed.
Lemma of_bits_lt l : of_bits l < 2 ^ len l.
Proof.
  induction l as [|b l IH]; [cbn; unfold len; cbn; lia|]. unfold of_bits. cbn [fold_left]. rewrite of_bits_acc. unfold len in *. cbn [length].
  replace (N.of_nat (S (length l))) with (N.succ (N.of_nat (length l))) by lia. rewrite N.pow_succ_r'.
  destruct b; cbn [N.b2n]; lia.
Qed.
Lemma of_to_bits w n : of_bits (to_bits w n) = n mod 2 ^ N.of_nat w.
Proof.
  induction w as [|w IH]; [cbn; by rewrite N.mod_1_r|]. cbn [to_bits]. unfold of_bits. cbn [fold_left]. rewrite of_bits_acc, IH.
  unfold len. rewrite to_bits_len. replace (N.of_nat (S w)) with (N.succ (N.of_nat w)) by lia.
  rewrite N.pow_succ_r', (N.mul_comm 2 (2 ^ _)), N.mod_mul_r by (try apply N.pow_nonzero; lia). rewrite <- N.testbit_spec'. lia.
Qed.
Lemma to_of_bits l : to_bits (length l) (of_bits l) = l.
Proof.
  induction l as [|b l IH]; [done|]. cbn [length to_bits]. unfold of_bits. cbn [fold_left]. rewrite of_bits_acc.
  pose proof (of_bits_lt l) as Hlt. unfold len in *. f_equal.
  - rewrite N.testbit_eqb. rewrite N.div_add_l by (apply N.pow_nonzero; lia). rewrite (N.div_small _ _ Hlt).
    rewrite N.add_0_r. destruct b; reflexivity.
  - transitivity (to_bits (length l) (of_bits l)); [|exact IH]. clear IH Hlt. generalize (of_bits l). intros n.
    assert (Hk : forall k, (k <= length l)%nat -> to_bits k ((2 * 0 + N.b2n b) * 2 ^ N.of_nat (length l) + n) = to_bits k n); [|by apply Hk].
    induction k as [|k IHk]; intros Hk; [done|]. cbn [to_bits]. f_equal; [|apply IHk; lia].
    rewrite <- (N.mod_pow2_bits_low _ (N.of_nat (length l)) (N.of_nat k)) by lia.
    rewrite <- (N.mod_pow2_bits_low n (N.of_nat (length l)) (N.of_nat k)) by lia.
    f_equal. rewrite N.add_comm. apply N.mod_add, N.pow_nonzero. lia.
Qed.

Lemma concat_len w vs : length (concat (map (to_bits w) vs)) = (w * length vs)%nat.
Proof. induction vs as [|v vs IH]; cbn [map concat length]; [lia|]. rewrite app_length, to_bits_len, IH. lia. Qed.

Lemma take_repeat k w : (k <= w)%nat -> take k (repeat false w) = repeat false k.
Proof. revert w. induction k as [|k IH]; intros w H; [done|]. destruct w; [lia|]. cbn. f_equal. apply IH. lia. Qed.
Lemma groups_bits w : (0 < w)%nat -> forall fuel bits, (length bits <= fuel)%nat ->
  exists k, (k < w)%nat /\ concat (map (to_bits w) (groups fuel w bits)) = bits ++ repeat false k.
Proof.
  intros Hw. induction fuel as [|f IH]; intros bits Hf.
  - destruct bits; [|cbn in Hf; lia]. exists O. by split.
  - destruct bits as [|b bits']; [exists O; by split|]. cbn [groups map concat]. set (bits := b :: bits') in *.
    assert (Hl : length (take w (bits ++ repeat false w)) = w) by (rewrite take_length, app_length, repeat_length; lia).
    assert (E : to_bits w (of_bits (take w (bits ++ repeat false w))) = take w (bits ++ repeat false w)) by (rewrite <- Hl at 1; apply to_of_bits).
    rewrite E.
    destruct (Nat.le_gt_cases w (length bits)) as [L|L].
    + destruct (IH (drop w bits)) as (k & Hk & Ek); [rewrite drop_length; unfold bits in *; cbn [length] in *; lia|].
      exists k. split; [done|]. rewrite Ek, take_app_le by done. by rewrite app_assoc, take_drop.
    + exists (w - length bits)%nat. split; [unfold bits in *; cbn [length] in *; lia|]. rewrite (drop_ge bits) by lia.
      assert (groups f w [] = []) as -> by (by destruct f). cbn [map concat]. rewrite app_nil_r, take_app_ge by lia.
      f_equal. apply take_repeat. lia.
Qed.
Lemma groups_lt w fuel : forall bits, Forall (fun v => v < 2 ^ N.of_nat w) (groups fuel w bits).
Proof.
  induction fuel as [|f IH]; intros bits; [constructor|]. destruct bits as [|b bits]; [constructor|]. cbn [groups]. constructor; [|apply IH].
  pose proof (of_bits_lt (take w ((b :: bits) ++ repeat false w))) as H. unfold len in H.
  eapply N.lt_le_trans; [exact H|]. apply N.pow_le_mono_r; [lia|]. rewrite take_length. lia.
Qed.
Lemma groups_of w : (0 < w)%nat -> forall vs fuel bits k, concat (map (to_bits w) vs) = bits ++ repeat false k -> (k < w)%nat ->
  Forall (fun v => v < 2 ^ N.of_nat w) vs -> (length bits <= fuel)%nat -> groups fuel w bits = vs.
Proof.
  intros Hw. induction vs as [|v vs IH]; intros fuel bits k E Hk Hv Hf.
  - cbn in E. symmetry in E. apply app_nil in E as [-> _]. by destruct fuel.
  - apply Forall_cons in Hv as [Hv1 Hv2]. pose proof E as E0. cbn [map concat] in E.
    assert (Hlen := f_equal length E0). rewrite concat_len, app_length, repeat_length in Hlen. cbn [length] in Hlen.
    destruct bits as [|b bits']; [cbn in Hlen; lia|]. set (bits := b :: bits') in *.
    destruct fuel as [|f]; [unfold bits in Hf; cbn in Hf; lia|].
    unfold bits. cbn [groups]. fold bits.
    assert (Hof : of_bits (to_bits w v) = v) by (rewrite of_to_bits; by apply N.mod_small).
    destruct (Nat.le_gt_cases w (length bits)) as [L|L].
    + assert (E1 : to_bits w v = take w bits).
      { apply (f_equal (take w)) in E. rewrite take_app_le, take_ge in E by (rewrite to_bits_len; lia). by rewrite take_app_le in E by lia. }
      rewrite take_app_le by lia. rewrite <- E1, Hof. f_equal. eapply IH; [|exact Hk|done|].
      * apply (f_equal (drop w)) in E. rewrite drop_app_ge, to_bits_len, Nat.sub_diag, drop_0 in E by (rewrite to_bits_len; lia).
        rewrite E. by rewrite drop_app_le by lia.
      * rewrite drop_length. unfold bits in *; cbn [length] in *. lia.
    + assert (vs = []) as -> by (destruct vs; [done|cbn [length] in Hlen; exfalso; clear - Hlen L Hk Hw; nia]).
      cbn [map concat] in E. rewrite app_nil_r in E. cbn [length] in Hlen.
      assert (k = w - length bits)%nat as -> by lia.
      rewrite take_app_ge by lia. rewrite take_repeat by lia.
      rewrite <- E, Hof. rewrite (drop_ge bits) by lia. by destruct f.
Qed.

(** ** Base32 *)
Lemma val_sym v : v < 32 -> val32 (sym32 v) = Some v.
Proof.
  intros H. unfold sym32, val32. destruct (N.ltb_spec v 26).
  - destruct (N.leb_spec 97 (97 + v)); [|lia]. destruct (N.leb_spec (97 + v) 122); [|lia]. cbn. f_equal. lia.
  - destruct (N.leb_spec 97 (24 + v)); [lia|]. cbn. destruct (N.leb_spec 50 (24 + v)); [|lia]. destruct (N.leb_spec (24 + v) 55); [|lia]. cbn. f_equal. lia.
Qed.
Lemma sym_val c v : val32 c = Some v -> sym32 v = c /\ v < 32.
Proof.
  unfold val32, sym32. destruct ((97 <=? c) && (c <=? 122)) eqn:E.
  - intros [= <-]. apply andb_prop in E as [E1 E2]. apply N.leb_le in E1, E2. destruct (N.ltb_spec (c - 97) 26); lia.
  - destruct ((50 <=? c) && (c <=? 55)) eqn:E'; [|done]. intros [= <-]. apply andb_prop in E' as [E1 E2]. apply N.leb_le in E1, E2.
    destruct (N.ltb_spec (c - 24) 26); lia.
Qed.
Lemma mapM_sym vs : Forall (fun v => v < 32) vs -> mapM val32 (map sym32 vs) = Some vs.
Proof. induction vs as [|v vs IH]; intros H; [done|]. apply Forall_cons in H as [H1 H2]. cbn [map mapM]. rewrite val_sym by done. cbn. by rewrite (IH H2). Qed.
Lemma mapM_val s vs : mapM val32 s = Some vs -> map sym32 vs = s /\ Forall (fun v => v < 32) vs.
Proof.
  revert vs. induction s as [|c s IH]; intros vs H; [injection H as <-; by split|]. cbn [mapM] in H.
  destruct (val32 c) as [v|] eqn:E; [|done]. cbn in H. destruct (mapM val32 s) as [vs'|] eqn:E'; [|done]. cbn in H. injection H as <-.
  destruct (IH vs' eq_refl) as [<- H2]. apply sym_val in E as [E1 E2]. split; [cbn; by rewrite E1|by constructor].
Qed.
Lemma zeros_all k : forallb negb (repeat false k) = true.
Proof. induction k; [done|]. cbn. done. Qed.
Lemma all_zeros l : forallb negb l = true -> l = repeat false (length l).
Proof. induction l as [|b l IH]; [done|]. cbn. intros H. apply andb_prop in H as [H1 H2]. destruct b; [done|]. by rewrite <- IH. Qed.
Lemma symbols n k L : (k < 5)%nat -> (8 * n + k = 5 * L)%nat -> L = ((8 * n + 4) / 5)%nat /\ n = ((5 * L) / 8)%nat.
Proof.
  intros Hk E. split.
  - apply Nat.div_unique with (4 - k)%nat; lia.
  - apply Nat.div_unique with k; lia.
Qed.

Lemma dec_enc32 bs : bytes bs -> dec32 (enc32 bs) = Some bs.
Proof.
  intros Hb. unfold dec32, enc32. set (bits := concat (map (to_bits 8) bs)).
  destruct (groups_bits 5 ltac:(lia) (length bits) bits (Nat.le_refl _)) as (k & Hk & E).
  rewrite mapM_sym by (apply (groups_lt 5)). rewrite map_length.
  assert (L := f_equal length E). rewrite concat_len, app_length, repeat_length in L.
  assert (Hlb : length bits = (8 * length bs)%nat) by (unfold bits; apply concat_len). rewrite Hlb in L at 2.
  set (vs := groups (length bits) 5 bits) in *.
  destruct (symbols (length bs) k (length vs) Hk (eq_sym L)) as [L1 L2].
  rewrite concat_len, <- L2, <- L1, Nat.eqb_refl. cbn [andb]. rewrite E.
  rewrite drop_app_ge, take_app_le by lia. rewrite Hlb, Nat.sub_diag, drop_0, zeros_all.
  rewrite take_ge by lia. f_equal. apply (groups_of 8 ltac:(lia) bs (8 * length bs) bits 0); [cbn; by rewrite app_nil_r|lia|exact Hb|lia].
Qed.
Lemma enc_dec32 s bs : dec32 s = Some bs -> enc32 bs = s /\ bytes bs.
Proof.
  unfold dec32. destruct (mapM val32 s) as [vs|] eqn:E; [|done]. apply mapM_val in E as [<- Hv].
  set (bits := concat (map (to_bits 5) vs)). set (n := (length bits / 8)%nat). rewrite map_length.
  destruct (length vs =? (8 * n + 4) / 5)%nat eqn:E1; [|done]. cbn [andb].
  destruct (forallb negb (drop (8 * n) bits)) eqn:E2; [|done]. intros E3. apply (inj Some) in E3 as <-. apply Nat.eqb_eq in E1. apply all_zeros in E2.
  split; [|apply (groups_lt 8)].
  assert (Hlb : length bits = (5 * length vs)%nat) by (unfold bits; apply concat_len).
  assert (Hn : (8 * n <= length bits)%nat) by (unfold n; apply Nat.mul_div_le; lia).
  assert (Hk : (length (drop (8 * n) bits) < 5)%nat).
  { rewrite drop_length. assert (length vs * 5 <= 8 * n + 4)%nat; [|lia]. rewrite E1. rewrite Nat.mul_comm. apply Nat.mul_div_le. lia. }
  unfold enc32.
  destruct (groups_bits 8 ltac:(lia) (8 * n)%nat (take (8 * n) bits)) as (k & Hk8 & Ek); [rewrite take_length; lia|].
  assert (k = O) as ->.
  { assert (L := f_equal length Ek). rewrite concat_len, app_length, repeat_length, take_length in L. lia. }
  cbn [repeat] in Ek. rewrite app_nil_r in Ek. rewrite Ek. f_equal.
  eapply (groups_of 5 ltac:(lia) vs); [|exact Hk|exact Hv|reflexivity]. rewrite <- E2. fold bits. by rewrite take_drop.
Qed.

(** ** Varints *)
Lemma lor_disjoint a b k : a < 2 ^ k -> N.lor a (b * 2 ^ k) = a + b * 2 ^ k.
Proof.
  intros H. rewrite <- N.shiftl_mul_pow2. assert (Hl : N.land a (N.shiftl b k) = 0).
  { apply N.bits_inj_0. intros i. rewrite N.land_spec. destruct (N.lt_ge_cases i k) as [L|L].
    - rewrite N.shiftl_spec_low by done. apply andb_false_r.
    - destruct (N.eq_dec a 0) as [->|Ha]; [by rewrite N.bits_0|]. rewrite (N.bits_above_log2 a i); [done|]. apply N.log2_lt_pow2 in H; lia. }
  rewrite <- N.lxor_lor by done. symmetry. by apply N.add_nocarry_lxor.
Qed.
Lemma lor_mod a b k : N.lor (a mod 2 ^ k) (b mod 2 ^ k) = N.lor a b mod 2 ^ k.
Proof.
  apply N.bits_inj. intros i. rewrite N.lor_spec. destruct (N.lt_ge_cases i k) as [L|L].
  - by rewrite !N.mod_pow2_bits_low, N.lor_spec by done.
  - by rewrite !N.mod_pow2_bits_high by done.
Qed.
Lemma join b n i : b < 128 ->
  N.lor (N.shiftl b (7 * i) mod 2 ^ 64) ((n * 2 ^ (7 * (i + 1))) mod 2 ^ 64) = ((b + 128 * n) * 2 ^ (7 * i)) mod 2 ^ 64.
Proof.
  intros Hb. rewrite lor_mod. f_equal. rewrite N.shiftl_mul_pow2.
  rewrite lor_disjoint; rewrite N.mul_add_distr_l, N.pow_add_r; change (2 ^ (7 * 1)) with 128; generalize (N.pow_nonzero 2 (7 * i) ltac:(lia)); intros; nia.
Qed.
Lemma room_pow room : 2 ^ (7 * N.of_nat (S room)) = 128 * 2 ^ (7 * N.of_nat room).
Proof. replace (7 * N.of_nat (S room)) with (7 + 7 * N.of_nat room) by lia. by rewrite N.pow_add_r. Qed.

Lemma read_sound room : forall i bs v r, bytes bs -> read_varint room i bs = Some (v, r) ->
  exists l n, bs = l ++ r /\ varint l n /\ n < 2 ^ (7 * N.of_nat room) /\ (0 < i -> 0 < n) /\ v = (n * 2 ^ (7 * i)) mod 2 ^ 64.
Proof.
  induction room as [|room IH]; intros i bs v r Hb H; [done|]. cbn [read_varint] in H. destruct bs as [|b bs]; [done|].
  apply Forall_cons in Hb as [Hb Hbs]. rewrite room_pow. pose proof (N.pow_nonzero 2 (7 * N.of_nat room) ltac:(lia)) as Hp.
  destruct (N.ltb_spec b 128) as [L|L].
  - destruct ((b =? 0) && (0 <? i)) eqn:E; [done|]. injection H as <- <-. exists [b], b. split; [done|]. split; [by constructor|].
    split; [nia|]. split.
    + intros Hi. destruct (N.eqb_spec b 0) as [->|]; [|lia]. destruct (N.ltb_spec 0 i); [done|lia].
    + rewrite (N.mod_small b) by done. by rewrite N.shiftl_mul_pow2.
  - destruct (read_varint room (i + 1) bs) as [[n' r']|] eqn:E; [|done]. injection H as <- <-.
    apply IH in E as (l & n & -> & Hv & Hn & Hpos & ->); [|done]. specialize (Hpos ltac:(lia)).
    assert (Eb : b = 128 + b mod 128).
    { rewrite (N.div_mod b 128) at 1 by lia. assert (b / 128 = 1) as ->; [|lia]. symmetry. apply N.div_unique with (b - 128); lia. }
    assert (Hb' : b mod 128 < 128) by (apply N.mod_lt; lia).
    exists (b :: l), (b mod 128 + 128 * n). split; [done|]. split; [rewrite Eb at 1; by constructor|]. split; [nia|]. split; [lia|]. by apply join.
Qed.
Lemma read_complete room : forall i l n r, varint l n -> n < 2 ^ (7 * N.of_nat room) -> (0 < n \/ i = 0 /\ (0 < room)%nat) ->
  read_varint room i (l ++ r) = Some ((n * 2 ^ (7 * i)) mod 2 ^ 64, r).
Proof.
  induction room as [|room IH]; intros i l n r Hv Hn Hi; [cbn in Hn; destruct Hi as [?|[_ ?]]; lia|].
  rewrite room_pow in Hn. destruct Hv as [b Hb|b l n Hb Hn0 Hv]; cbn [app read_varint].
  - destruct (N.ltb_spec b 128); [|lia]. rewrite (N.mod_small b) by done. rewrite N.shiftl_mul_pow2.
    destruct ((b =? 0) && (0 <? i)) eqn:E; [|done]. apply andb_prop in E as [E1 E2]. apply N.eqb_eq in E1. apply N.ltb_lt in E2. lia.
  - destruct (N.ltb_spec (128 + b) 128); [lia|].
    assert ((128 + b) mod 128 = b) as -> by (rewrite N.add_comm; replace (b + 128) with (b + 1 * 128) by lia; rewrite N.mod_add by lia; by apply N.mod_small).
    rewrite (IH (i + 1) l n r Hv) by (try lia; by left). f_equal. f_equal. by apply join.
Qed.
Lemma varint_iff bs v r : bytes bs ->
  varint_read_u64 bs = Some (v, r) <-> exists l, bs = l ++ r /\ varint64 l v.
Proof.
  intros Hb. unfold varint_read_u64. split.
  - intros H. apply read_sound in H as (l & n & -> & Hv & Hn & _ & ->); [|done]. exists l. split; [done|]. exists n. split; [done|].
    split; [exact Hn|]. by rewrite N.mul_1_r.
  - intros (l & -> & n & Hv & Hn & ->). rewrite (read_complete 10 0 l n r Hv) by (try exact Hn; right; lia). by rewrite N.mul_1_r.
Qed.
Lemma varint_bytes l n : varint l n -> bytes l.
Proof. induction 1; constructor; try lia; [constructor|done]. Qed.
Lemma varint64_small l n : varint l n -> n < 2 ^ 64 -> varint64 l n.
Proof. intros H Hn. exists n. split; [done|]. split; [eapply N.lt_trans; [exact Hn|done]|]. by rewrite N.mod_small. Qed.

(** ** Base32 as numbers *)
Lemma number_acc base l acc : fold_left (fun acc d => acc * base + d) l acc = acc * base ^ len l + number base l.
Proof.
  revert acc. induction l as [|d l IH]; intros acc; [unfold len, number; cbn [fold_left length]; change (N.of_nat 0) with 0; rewrite N.pow_0_r; lia|]. unfold number. cbn [fold_left]. rewrite IH, (IH (0 * base + d)). unfold len. cbn [length].
  replace (N.of_nat (S (length l))) with (N.succ (N.of_nat (length l))) by lia. rewrite N.pow_succ_r'. lia.
Qed.
Lemma of_bits_number w vs : Forall (fun v => v < 2 ^ N.of_nat w) vs -> of_bits (concat (map (to_bits w) vs)) = number (2 ^ N.of_nat w) vs.
Proof.
  induction vs as [|v vs IH]; intros H; [done|]. apply Forall_cons in H as [H1 H2]. cbn [map concat].
  unfold of_bits. rewrite of_bits_app, of_bits_acc. fold (of_bits (to_bits w v)). rewrite of_to_bits, N.mod_small, (IH H2) by done.
  unfold number at 2. cbn [fold_left]. rewrite number_acc. unfold len. rewrite concat_len. replace (N.of_nat (w * length vs)) with (N.of_nat w * N.of_nat (length vs)) by lia.
  rewrite N.pow_mul_r. lia.
Qed.
Lemma of_bits_zeros l k : of_bits (l ++ repeat false k) = of_bits l * 2 ^ N.of_nat k.
Proof.
  unfold of_bits. rewrite of_bits_app, of_bits_acc. fold (of_bits l). unfold len. rewrite repeat_length.
  assert (of_bits (repeat false k) = 0) as ->; [|lia]. induction k as [|k IH]; [done|]. unfold of_bits in *. cbn [repeat fold_left]. exact IH.
Qed.
Lemma letter_sym v : v < 32 -> letter v = sym32 v.
Proof.
  intros H. assert (Hv : forallb (fun v => letter v =? sym32 v) (map N.of_nat (seq 0 32)) = true) by (vm_compute; reflexivity).
  rewrite forallb_forall in Hv. apply N.eqb_eq, Hv. rewrite in_map_iff. exists (N.to_nat v). split; [lia|]. apply in_seq. lia.
Qed.
Lemma letters_sym vs : Forall (fun v => v < 32) vs -> map letter vs = map sym32 vs.
Proof. induction 1 as [|v vs Hv _ IH]; [done|]. cbn [map]. by rewrite (letter_sym v Hv), IH. Qed.
Lemma bits_eq l1 l2 : length l1 = length l2 -> of_bits l1 = of_bits l2 -> l1 = l2.
Proof. intros L E. by rewrite <- (to_of_bits l1), <- (to_of_bits l2), L, E. Qed.
Lemma enc_base32 bs : bytes bs -> base32 bs (enc32 bs).
Proof.
  intros Hb. unfold enc32. set (bits := concat (map (to_bits 8) bs)).
  destruct (groups_bits 5 ltac:(lia) (length bits) bits (Nat.le_refl _)) as (k & Hk & E).
  pose proof (groups_lt 5 (length bits) bits) as Hv. set (vs := groups (length bits) 5 bits) in *. exists vs. split; [exact Hv|]. split; [by rewrite letters_sym|].
  assert (L := f_equal length E). rewrite concat_len, app_length, repeat_length in L.
  assert (Hlb : length bits = (8 * length bs)%nat) by (unfold bits; apply concat_len). rewrite Hlb in L. unfold len.
  split; [lia|]. apply (f_equal of_bits) in E. rewrite of_bits_zeros in E. 
  rewrite (of_bits_number 5 vs Hv) in E. unfold bits in E. rewrite (of_bits_number 8 bs Hb) in E. change (2 ^ N.of_nat 5) with 32 in E. change (2 ^ N.of_nat 8) with 256 in E.
  rewrite E. f_equal. f_equal. lia.
Qed.
Lemma base32_enc bs c : bytes bs -> base32 bs c -> c = enc32 bs.
Proof.
  intros Hb (vs & Hv & -> & HL & E). rewrite letters_sym by done. unfold enc32. f_equal. symmetry. unfold len in *.
  eapply (groups_of 5 ltac:(lia) vs _ _ (5 * length vs - 8 * length bs)); [|lia|exact Hv|reflexivity].
  apply bits_eq; [rewrite concat_len, app_length, concat_len, repeat_length; lia|].
  rewrite of_bits_zeros, (of_bits_number 5 vs Hv), (of_bits_number 8 bs Hb). change (2 ^ N.of_nat 5) with 32. change (2 ^ N.of_nat 8) with 256.
  rewrite E. f_equal. f_equal. lia.
Qed.
Lemma dec32_iff c bs : dec32 c = Some bs <-> bytes bs /\ base32 bs c.
Proof.
  split.
  - intros H. apply enc_dec32 in H as [<- Hb]. split; [done|]. by apply enc_base32.
  - intros [Hb H]. apply base32_enc in H as ->; [|done]. by apply dec_enc32.
Qed.

(** ** Content identifiers *)
Lemma bytes_app l1 l2 : bytes (l1 ++ l2) <-> bytes l1 /\ bytes l2.
Proof. apply Forall_app. Qed.
Lemma varint64_bytes l v : varint64 l v -> bytes l.
Proof. intros (n & H & _). by eapply varint_bytes. Qed.
Lemma take_app_len (d r : list N) : take (length d) (d ++ r) = d.
Proof. by rewrite take_app_le, take_ge by lia. Qed.
Lemma cid_ok_iff bs : bytes bs ->
  cid_ok bs = true <-> exists pre rest, bs = pre ++ rest /\ (cid_v1_loose pre \/ cid_v0_loose pre).
Proof.
  intros Hb. unfold cid_ok, cid_read. split.
  - destruct (varint_read_u64 bs) as [[version r1]|] eqn:E1; [|done]. apply varint_iff in E1 as (lv & -> & Hv); [|done].
    apply bytes_app in Hb as [_ Hb]. destruct (varint_read_u64 r1) as [[codec r2]|] eqn:E2; [|done].
    apply varint_iff in E2 as (lc & -> & Hc); [|done]. apply bytes_app in Hb as [_ Hb].
    destruct ((version =? 18) && (codec =? 32)) eqn:E.
    + apply andb_prop in E as [E3 E4]. apply N.eqb_eq in E3, E4. subst. destruct (N.leb_spec 32 (len r2)) as [L|L]; [|done]. intros _.
      exists (lv ++ lc ++ take 32 r2), (drop 32 r2). split; [by rewrite <- !app_assoc, take_drop|]. right. exists lv, lc, (take 32 r2).
      split; [done|]. split; [done|]. split; [unfold len in *; rewrite take_length; lia|]. split; [by apply Forall_take|done].
    + destruct (N.eqb_spec version 1) as [->|]; [|done].
      destruct (varint_read_u64 r2) as [[hash r3]|] eqn:E3; [|done]. apply varint_iff in E3 as (lh & -> & Hh); [|done]. apply bytes_app in Hb as [_ Hb].
      destruct (varint_read_u64 r3) as [[size r4]|] eqn:E4; [|done]. apply varint_iff in E4 as (ls & -> & Hs); [|done]. apply bytes_app in Hb as [_ Hb].
      destruct ((size <=? 64) && (size <=? len r4)) eqn:E5; [|done]. apply andb_prop in E5 as [E5 E6]. apply N.leb_le in E5, E6. intros _.
      exists (lv ++ lc ++ lh ++ ls ++ take (N.to_nat size) r4), (drop (N.to_nat size) r4). split; [by rewrite <- !app_assoc, take_drop|]. left.
      assert (El : len (take (N.to_nat size) r4) = size) by (unfold len in *; rewrite take_length; lia).
      exists lv, lc, lh, ls, codec, hash, (take (N.to_nat size) r4). rewrite El. repeat (split; [done|]). split; [by apply Forall_take|done].
  - intros (pre & rest & -> & [H|H]).
    + destruct H as (lv & lc & lh & ls & codec & hash & d & Hv & Hc & Hh & Hs & Hl & Hd & ->). rewrite <- !app_assoc in *.
      apply bytes_app in Hb as Hb1. destruct Hb1 as [_ Hb1]. apply bytes_app in Hb1 as Hb2. destruct Hb2 as [_ Hb2].
      apply bytes_app in Hb2 as Hb3. destruct Hb3 as [_ Hb3].
      rewrite (proj2 (varint_iff (lv ++ lc ++ lh ++ ls ++ d ++ rest) 1 (lc ++ lh ++ ls ++ d ++ rest) Hb)) by (by exists lv).
      rewrite (proj2 (varint_iff (lc ++ lh ++ ls ++ d ++ rest) codec (lh ++ ls ++ d ++ rest) Hb1)) by (by exists lc).
      change (1 =? 18) with false. cbn [andb]. change (1 =? 1) with true. cbn iota.
      rewrite (proj2 (varint_iff (lh ++ ls ++ d ++ rest) hash (ls ++ d ++ rest) Hb2)) by (by exists lh).
      rewrite (proj2 (varint_iff (ls ++ d ++ rest) (len d) (d ++ rest) Hb3)) by (by exists ls).
      destruct (N.leb_spec (len d) 64); [|lia]. cbn [andb]. destruct (N.leb_spec (len d) (len (d ++ rest))) as [|L]; [done|].
      exfalso. unfold len in L. rewrite app_length in L. lia.
    + destruct H as (lv & lc & d & Hv & Hc & Hl & Hd & ->). rewrite <- !app_assoc in *. apply bytes_app in Hb as Hb1. destruct Hb1 as [_ Hb1].
      rewrite (proj2 (varint_iff (lv ++ lc ++ d ++ rest) 18 (lc ++ d ++ rest) Hb)) by (by exists lv).
      rewrite (proj2 (varint_iff (lc ++ d ++ rest) 32 (d ++ rest) Hb1)) by (by exists lc).
      change (18 =? 18) with true. change (32 =? 32) with true. cbn [andb]. destruct (N.leb_spec 32 (len (d ++ rest))) as [|L]; [done|].
      exfalso. unfold len in *. rewrite app_length in L. lia.
Qed.
Lemma v1_loose bs codec hash d : cid_v1 bs codec hash d -> cid_v1_loose bs /\ bytes bs.
Proof.
  intros (Hc & Hh & Hl & Hd & lc & lh & Vc & Vh & ->). split.
  - exists [1], lc, lh, [len d], codec, hash, d. assert (varint64 [1] 1) by (apply varint64_small; [by constructor|done]).
    assert (varint64 [len d] (len d)). { apply varint64_small; [constructor; lia|]. eapply N.le_lt_trans; [exact Hl|done]. }
    split; [done|]. split; [by apply varint64_small|]. split; [by apply varint64_small|]. done.
  - constructor; [done|]. apply bytes_app. split; [by eapply varint_bytes|]. apply bytes_app. split; [by eapply varint_bytes|]. constructor; [lia|done].
Qed.
Lemma ascii_utf8 l : Forall (fun c => c < 128) l -> from_utf8 l = Some l /\ utf8 l = l /\ Forall scalar l.
Proof.
  induction 1 as [|c l Hc Hl (I1 & I2 & I3)]; [split; [done|split; [done|constructor]]|]. split; [|split].
  - cbn [from_utf8]. destruct (N.ltb_spec c 128); [|lia]. by rewrite I1.
  - unfold utf8 in *. cbn [map concat]. rewrite I2. unfold utf8_char. destruct (N.ltb_spec c 128); [done|lia].
  - constructor; [left; lia|done].
Qed.
Lemma letters_ascii bs c : base32 bs c -> Forall (fun x => x < 128) c.
Proof.
  intros (vs & Hv & -> & _). rewrite letters_sym by done. induction Hv as [|v vs H _ IH]; constructor; [|done]. unfold sym32. destruct (v <? 26) eqn:E; [apply N.ltb_lt in E|]; lia.
Qed.
Lemma varint_ne l n : varint l n -> (1 <= length l)%nat.
Proof. destruct 1; cbn; lia. Qed.
Lemma varint64_ne l n : varint64 l n -> (1 <= length l)%nat.
Proof. intros (m & H & _). by eapply varint_ne. Qed.
Lemma cid_long bs pre rest : bs = pre ++ rest -> cid_v1_loose pre \/ cid_v0_loose pre -> (2 <= length bs)%nat.
Proof.
  intros -> [H|H]; rewrite app_length.
  - destruct H as (lv & lc & lh & ls & codec & hash & d & Hv & Hc & _ & _ & _ & _ & ->). rewrite !app_length. apply varint64_ne in Hv, Hc. lia.
  - destruct H as (lv & lc & d & Hv & Hc & _ & _ & ->). rewrite !app_length. apply varint64_ne in Hv, Hc. lia.
Qed.

(** Which texts in base32 are taken, and for which bytes *)
Lemma cid_bytes_iff other c b :
  cid_bytes (ipfs_cfg other) (98 :: c) b <->
  bytes b /\ base32 b c /\ exists pre rest, b = pre ++ rest /\ (cid_v1_loose pre \/ cid_v0_loose pre).
Proof.
  unfold cid_bytes. cbn [ipfs_cfg runtime_messages g_decode g_cid_ok multibase_decode]. change (98 =? 98) with true. cbn iota. rewrite dec32_iff. split.
  - intros (_ & _ & _ & [Hb Hc] & Hok). split; [done|]. split; [done|]. by apply cid_ok_iff.
  - intros (Hb & Hc & Hok). pose proof Hok as (pre & rest & E & Hp). pose proof (letters_ascii _ _ Hc) as Ha.
    assert (Ha' : Forall (fun x => x < 128) (98 :: c)) by (by constructor). apply ascii_utf8 in Ha' as (_ & H1 & H2).
    split; [by exists (98 :: c)|]. split.
    + pose proof (cid_long _ _ _ E Hp) as L. destruct Hc as (vs & _ & -> & HL & _). unfold len in *. cbn [length]. rewrite map_length. lia.
    + split; [by destruct c|]. split; [done|]. by apply cid_ok_iff.
Qed.
Lemma varint_short k : forall l n, varint l n -> n < 2 ^ (7 * N.of_nat (S k)) -> (length l <= S k)%nat.
Proof.
  induction k as [|k IH]; intros l n H Hn; rewrite room_pow in Hn; destruct H as [b Hb|b l n Hb H0 H]; cbn [length]; try lia.
  apply IH in H; lia.
Qed.
Lemma v1_short bs codec hash d : cid_v1 bs codec hash d -> len bs <= 86.
Proof.
  intros (Hc & Hh & Hl & _ & lc & lh & Vc & Vh & ->). apply (varint_short 9) in Vc; [|eapply N.lt_trans; [exact Hc|done]].
  apply (varint_short 9) in Vh; [|eapply N.lt_trans; [exact Hh|done]]. unfold len in *. cbn [length]. rewrite !app_length. cbn [length]. lia.
Qed.

Lemma v1_accepted other env st who m info s bs codec hash d c length :
  controls (gv_msa env) who m -> gv_schema env s = Some info -> si_location info = IPFS ->
  cid_v1 bs codec hash d -> base32 bs c -> is_ok (mg_dispatch (ipfs_cfg other) env st (Signed who) (AddIpfsMessage s (98 :: c) length)) = true.
Proof.
  intros Hm Hs Hl Hv Hc. apply accepted_iff; [done|]. exists who, m, info. split; [done|]. split; [done|]. split; [done|]. split; [done|].
  exists bs. split.
  - apply cid_bytes_iff. apply v1_loose in Hv as [Hv Hb]. split; [done|]. split; [done|]. exists bs, []. split; [by rewrite app_nil_r|by left].
  - apply v1_short in Hv. unfold prefix_size. cbn [ipfs_cfg runtime_messages g_max]. destruct (N.ltb_spec (len bs) 64); [lia|].
    destruct (N.ltb_spec (len bs) 16384); lia.
Qed.
Lemma accepted_cid other env st who s c length st' :
  mg_dispatch (ipfs_cfg other) env st (Signed who) (AddIpfsMessage s (98 :: c) length) = Ok st' ->
  exists b pre rest, bytes b /\ base32 b c /\ b = pre ++ rest /\ (cid_v1_loose pre \/ cid_v0_loose pre).
Proof.
  intros H. assert (Ha : is_ok (mg_dispatch (ipfs_cfg other) env st (Signed who) (AddIpfsMessage s (98 :: c) length)) = true) by (by rewrite H).
  apply accepted_iff in Ha as (w & m & info & _ & _ & _ & _ & b & Hb & _); [|done].
  apply cid_bytes_iff in Hb as (H1 & H2 & pre & rest & H3 & H4). by exists b, pre, rest.
Qed.
Lemma unchanged other env st who s c length st' :
  length <= u32_max -> mg_dispatch (ipfs_cfg other) env st (Signed who) (AddIpfsMessage s (98 :: c) length) = Ok st' ->
  exists r, r ∈ get_messages (ipfs_cfg other) st' s IPFS (mg_block st) /\ mr_index r = mg_index st
    /\ mr_cid r = Some (98 :: c) /\ mr_length r = Some length.
Proof.
  intros Hl H. destruct (accepted_cid _ _ _ _ _ _ _ _ H) as (b & _ & _ & Hb & Hc & _).
  assert (Hd : g_decode (ipfs_cfg other) (98 :: c) = Some b) by (apply dec32_iff; done).
  assert (He : g_decode (ipfs_cfg other) (g_encode (ipfs_cfg other) b) = Some b) by (apply dec_enc32; done).
  destruct (ipfs_lemma (ipfs_cfg other) ltac:(done) env st who s (98 :: c) length st' b He Hl H Hd) as (r & H1 & H2 & H3 & (c' & H4 & H5) & _).
  exists r. split; [done|]. split; [done|]. split; [|done]. rewrite H4. f_equal.
  apply get_elem in H1 as (_ & i & msg & _ & E). rewrite E in H4. unfold map_to_response in H4. destruct (default ([], 0) (dec_offchain (ms_payload msg))) as [cid l'].
  cbn [mr_cid ipfs_cfg runtime_messages g_encode] in H4. injection H4 as <-. unfold multibase_encode in *. f_equal.
  apply dec32_iff in H5 as [_ H5]. apply base32_enc in H5, Hc; [|done|done]. congruence.
Qed.
Lemma other_base other env st who s cid length st' b :
  length <= u32_max -> mg_dispatch (ipfs_cfg other) env st (Signed who) (AddIpfsMessage s cid length) = Ok st' ->
  multibase_decode other cid = Some b -> bytes b ->
  exists r c, r ∈ get_messages (ipfs_cfg other) st' s IPFS (mg_block st) /\ mr_index r = mg_index st
    /\ mr_cid r = Some (98 :: c) /\ base32 b c /\ mr_length r = Some length.
Proof.
  intros Hl H Hd Hb.
  assert (He : g_decode (ipfs_cfg other) (g_encode (ipfs_cfg other) b) = Some b) by (apply dec_enc32; done).
  destruct (ipfs_lemma (ipfs_cfg other) ltac:(done) env st who s cid length st' b He Hl H Hd) as (r & H1 & H2 & H3 & (c' & H4 & H5) & _).
  apply get_elem in H1 as (Hx & i & msg & Hi & E). pose proof H4 as H6. rewrite E in H6. unfold map_to_response in H6. destruct (default ([], 0) (dec_offchain (ms_payload msg))) as [x l'].
  cbn [mr_cid ipfs_cfg runtime_messages g_encode] in H6. injection H6 as <-.
  exists r, (enc32 x). split; [apply get_elem; split; [done|]; by exists i, msg|]. split; [done|]. split; [done|]. split; [|done].
  by apply dec32_iff in H5 as [_ H5].
Qed.

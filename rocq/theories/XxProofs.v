(** Twox128 does not collide on the 65536 schema ids. The steps of XXH64 that
    follow the last byte are injective, so it is enough to look at the 65536
    values before them, which is done by computation. *)
From Verif Require Import Prelude Scale XxHash.

Definition W : N := 18446744073709551616.

Lemma w64_mod n : w64 n = n mod W.
Proof. unfold w64. change 18446744073709551615 with (N.ones 64). by rewrite N.land_ones. Qed.
Lemma w64_lt n : w64 n < W.
Proof. rewrite w64_mod. by apply N.mod_lt. Qed.

Lemma mul64_inj p q a b : p * q mod W = 1 -> a < W -> b < W -> mul64 a p = mul64 b p -> a = b.
Proof.
  unfold mul64. rewrite !w64_mod. intros Hpq Ha Hb H.
  assert (E : forall x, x < W -> (x * p mod W) * q mod W = x).
  { intros x Hx. rewrite N.mul_mod_idemp_l by done. rewrite <- N.mul_assoc, <- N.mul_mod_idemp_r by done.
    rewrite Hpq, N.mul_1_r. by apply N.mod_small. }
  rewrite <- (E a Ha), <- (E b Hb), H. done.
Qed.

Lemma xorshift_inj k a b : 0 < k -> N.lxor a (N.shiftr a k) = N.lxor b (N.shiftr b k) -> a = b.
Proof.
  intros Hk H. apply N.lxor_eq. set (d := N.lxor a b).
  assert (E : d = N.shiftr d k).
  { unfold d. rewrite N.shiftr_lxor. apply N.bits_inj. intros i.
    assert (Hi := f_equal (fun x => N.testbit x i) H). cbn in Hi. rewrite !N.lxor_spec in *.
    destruct (N.testbit a i), (N.testbit b i), (N.testbit (N.shiftr a k) i), (N.testbit (N.shiftr b k) i); done. }
  rewrite N.shiftr_div_pow2 in E. destruct (N.eq_dec d 0) as [|Hd]; [done|].
  assert (d / 2 ^ k < d); [|lia]. apply N.div_lt; [lia|].
  apply N.lt_le_trans with (2 ^ 1); [done|]. apply N.pow_le_mono_r; lia.
Qed.

Lemma lt_W x : x < W <-> forall i, 64 <= i -> N.testbit x i = false.
Proof.
  split.
  - intros Hx i Hi. destruct (N.eq_dec x 0) as [->|Hz]; [apply N.bits_0|].
    apply N.bits_above_log2. apply N.log2_lt_pow2; [lia|]. eapply N.lt_le_trans; [exact Hx|].
    change W with (2 ^ 64). apply N.pow_le_mono_r; lia.
  - intros H. destruct (N.eq_dec x 0) as [->|Hz]; [done|].
    change W with (2 ^ 64). apply N.log2_lt_pow2; [lia|].
    destruct (N.lt_ge_cases (N.log2 x) 64) as [|Hge]; [done|]. pose proof (N.bit_log2 x Hz) as Hb. rewrite H in Hb; done.
Qed.
Lemma lxor_lt a b : a < W -> b < W -> N.lxor a b < W.
Proof. rewrite !lt_W. intros Ha Hb i Hi. by rewrite N.lxor_spec, Ha, Hb. Qed.
Lemma shiftr_lt a k : a < W -> N.shiftr a k < W.
Proof. rewrite !lt_W. intros Ha i Hi. rewrite N.shiftr_spec'. apply Ha. lia. Qed.
Lemma mul64_lt a p : mul64 a p < W. Proof. apply w64_lt. Qed.

Lemma rotl64_inj r a b : 0 < r < 64 -> a < W -> b < W -> rotl64 a r = rotl64 b r -> a = b.
Proof.
  intros Hr Ha Hb H. rewrite lt_W in Ha, Hb. apply N.bits_inj. intros j.
  destruct (N.lt_ge_cases j 64) as [Hj|Hj]; [|by rewrite Ha, Hb].
  assert (Hbit : forall i, N.testbit (rotl64 a r) i = N.testbit (rotl64 b r) i) by (by rewrite H).
  unfold rotl64, w64 in Hbit. change 18446744073709551615 with (N.ones 64) in Hbit.
  destruct (N.lt_ge_cases j (64 - r)) as [Hlo|Hhi].
  - specialize (Hbit (j + r)). rewrite !N.lor_spec, !N.land_spec, !N.shiftr_spec' in Hbit.
    rewrite !N.shiftl_spec_high' in Hbit by lia. rewrite N.ones_spec_low in Hbit by lia.
    rewrite (Ha (j + r + (64 - r))), (Hb (j + r + (64 - r))) in Hbit by lia. rewrite N.add_sub, !andb_true_r, !orb_false_r in Hbit. done.
  - specialize (Hbit (j - (64 - r))). rewrite !N.lor_spec, !N.land_spec, !N.shiftr_spec' in Hbit.
    rewrite !N.shiftl_spec_low in Hbit by lia. cbn [andb orb] in Hbit.
    by replace (j - (64 - r) + (64 - r)) with j in Hbit by lia.
Qed.

Lemma rotl64_lt x r : x < W -> rotl64 x r < W.
Proof.
  intros Hx. unfold rotl64. pose proof (w64_lt (N.shiftl x r)) as H1. pose proof (shiftr_lt x (64 - r) Hx) as H2.
  rewrite lt_W in *. intros i Hi. by rewrite N.lor_spec, H1, H2.
Qed.

Lemma avalanche_lt a : a < W -> xx_avalanche a < W.
Proof. intros Ha. unfold xx_avalanche. cbn zeta. apply lxor_lt; [|apply shiftr_lt]; apply mul64_lt. Qed.
Lemma avalanche_inj a b : a < W -> b < W -> xx_avalanche a = xx_avalanche b -> a = b.
Proof.
  intros Ha Hb H. unfold xx_avalanche in H. cbn zeta in H.
  apply xorshift_inj in H; [|done].
  apply (mul64_inj P3 16855272203555305545) in H; [|vm_compute; reflexivity|apply lxor_lt; [apply mul64_lt|apply shiftr_lt, mul64_lt]..].
  apply xorshift_inj in H; [|done].
  apply (mul64_inj P2 839798700976720815) in H; [|vm_compute; reflexivity|apply lxor_lt; [done|by apply shiftr_lt]..].
  apply xorshift_inj in H; done.
Qed.

(** ** The values before the last injective steps *)
Fixpoint halves (l : list N) : list N * list N :=
  match l with
  | [] => ([], [])
  | x :: l' => let (e, o) := halves l' in if N.even x then (N.div2 x :: e, o) else (e, N.div2 x :: o)
  end.
Fixpoint distinct (fuel : nat) (l : list N) : bool :=
  match l with
  | [] => true
  | [_] => true
  | _ => match fuel with O => false | S f => let (e, o) := halves l in distinct f e && distinct f o end
  end.

Lemma in_halves l x : x ∈ l -> let (e, o) := halves l in if N.even x then N.div2 x ∈ e else N.div2 x ∈ o.
Proof.
  induction l as [|y l IH]; cbn; intros H; [by apply elem_of_nil in H|].
  destruct (halves l) as [e o]. apply elem_of_cons in H as [<-|H].
  - destruct (N.even x); apply elem_of_cons; by left.
  - specialize (IH H). destruct (N.even y), (N.even x); try apply elem_of_cons; auto.
Qed.
Lemma halves_nodup l : let (e, o) := halves l in NoDup e -> NoDup o -> NoDup l.
Proof.
  induction l as [|y l IH]; cbn; [intros; constructor|]. pose proof (in_halves l y) as Hin. destruct (halves l) as [e o].
  destruct (N.even y); intros He Ho.
  - apply NoDup_cons in He as [Hn He]. apply NoDup_cons. split; [auto|by apply IH].
  - apply NoDup_cons in Ho as [Hn Ho]. apply NoDup_cons. split; [auto|by apply IH].
Qed.
Lemma distinct_nodup fuel : forall l, distinct fuel l = true -> NoDup l.
Proof.
  induction fuel as [|f IH]; intros l H.
  - destruct l as [|x [|y l]]; [constructor|apply NoDup_singleton|done].
  - destruct l as [|x [|y l]]; [constructor|apply NoDup_singleton|].
    cbn -[halves] in H. pose proof (halves_nodup (x :: y :: l)) as Hh. destruct (halves (x :: y :: l)) as [e o].
    apply andb_true_iff in H as [He Ho]. apply Hh; by apply IH.
Qed.

Definition all_bytes : list N := map N.of_nat (seq 0 256).
Definition spread (hs ts : list N) : list N := flat_map (fun h => map (N.lxor h) ts) hs.
Definition first_byte (a : N) : N := mul64 (rotl64 (N.lxor 2870177450012600263 (mul64 a P5)) 11) P1.
Definition second_byte (b : N) : N := mul64 b P5.

Lemma spread_distinct : distinct 64 (spread (map first_byte all_bytes) (map second_byte all_bytes)) = true.
Proof. vm_compute. reflexivity. Qed.

Lemma in_all_bytes a : a < 256 -> a ∈ all_bytes.
Proof.
  intros H. unfold all_bytes. apply elem_of_list_In, in_map_iff. exists (N.to_nat a). split; [lia|]. apply in_seq. lia.
Qed.

Lemma spread_inj (f g : N -> N) (la lb : list N) a b a' b' :
  NoDup (spread (map f la) (map g lb)) -> a ∈ la -> b ∈ lb -> a' ∈ la -> b' ∈ lb ->
  N.lxor (f a) (g b) = N.lxor (f a') (g b') -> a = a' /\ b = b'.
Proof.
  intros Hn Ha Hb Ha' Hb' E.
  assert (Hrow : forall x l y z, NoDup (map (N.lxor x) (map g l)) -> y ∈ l -> z ∈ l -> N.lxor x (g y) = N.lxor x (g z) -> y = z).
  { clear. intros x l y z. induction l as [|w l IH]; intros Hn Hy Hz E; [by apply elem_of_nil in Hy|].
    cbn in Hn. apply NoDup_cons in Hn as [Hw Hn].
    assert (Hin : forall v, v ∈ l -> N.lxor x (g v) ∈ map (N.lxor x) (map g l)).
    { intros v Hv. apply elem_of_list_In. do 2 apply in_map. by apply elem_of_list_In. }
    apply elem_of_cons in Hy as [->|Hy]; apply elem_of_cons in Hz as [->|Hz]; [done| | |auto].
    - exfalso. apply Hw. rewrite E. auto.
    - exfalso. apply Hw. rewrite <- E. auto. }
  induction la as [|w la IH]; [by apply elem_of_nil in Ha|].
  unfold spread in Hn. cbn in Hn. apply NoDup_app in Hn as (H1 & H2 & H3).
  assert (Hin : forall v u, v ∈ la -> u ∈ lb -> N.lxor (f v) (g u) ∈ spread (map f la) (map g lb)).
  { intros v u Hv Hu. apply elem_of_list_In, in_flat_map. exists (f v). rewrite elem_of_list_In in Hv, Hu.
    split; [by apply in_map|]. by do 2 apply in_map. }
  assert (Hin1 : forall u, u ∈ lb -> N.lxor (f w) (g u) ∈ map (N.lxor (f w)) (map g lb)).
  { intros u Hu. apply elem_of_list_In. rewrite elem_of_list_In in Hu. by do 2 apply in_map. }
  apply elem_of_cons in Ha as [->|Ha]; apply elem_of_cons in Ha' as [->|Ha'].
  - split; [done|]. eapply Hrow; eassumption.
  - exfalso. apply (H2 (N.lxor (f w) (g b))); [by apply Hin1|]. rewrite E. by apply Hin.
  - exfalso. apply (H2 (N.lxor (f w) (g b'))); [by apply Hin1|]. rewrite <- E. by apply Hin.
  - by apply IH.
Qed.

Lemma xxh64_two a b : xxh64 0 [a; b] = xx_avalanche (mul64 (rotl64 (N.lxor (first_byte a) (second_byte b)) 11) P1).
Proof. reflexivity. Qed.

Lemma xxh64_two_inj a b a' b' : a < 256 -> b < 256 -> a' < 256 -> b' < 256 ->
  xxh64 0 [a; b] = xxh64 0 [a'; b'] -> a = a' /\ b = b'.
Proof.
  intros Ha Hb Ha' Hb' H. rewrite !xxh64_two in H.
  assert (HW : forall x y, N.lxor (first_byte x) (second_byte y) < W) by (intros; apply lxor_lt; apply mul64_lt).
  apply avalanche_inj in H; [|apply mul64_lt..].
  apply (mul64_inj P1 614540362697595703) in H; [|vm_compute; reflexivity|apply rotl64_lt, HW..].
  apply rotl64_inj in H; [|done|apply HW..].
  eapply spread_inj; [|..|exact H]; try (by apply in_all_bytes).
  eapply distinct_nodup. exact spread_distinct.
Qed.

Lemma twox_128_schema_inj a b : a < 65536 -> b < 65536 -> twox_128 (enc_u16 a) = twox_128 (enc_u16 b) -> a = b.
Proof.
  intros Ha Hb H. unfold twox_128 in H. apply app_inj_1 in H as [H _]; [|by rewrite !enc_u64_length].
  apply le_bytes_inj in H; [|change (256 ^ N.of_nat 8) with W; unfold enc_u16; cbn [le_bytes]; rewrite xxh64_two; apply avalanche_lt, mul64_lt..].
  unfold enc_u16 in H. cbn [le_bytes] in H. apply xxh64_two_inj in H as [H1 H2]; [|by apply N.mod_lt..].
  rewrite !N.mod_small in H2 by (apply N.div_lt_upper_bound; lia).
  rewrite (N.div_mod a 256), (N.div_mod b 256) by done. by rewrite H1, H2.
Qed.

(** ** The hash of any content can be made any number by adding eight bytes
    after a whole number of stripes. *)
Lemma mul64_onto p q x : q * p mod W = 1 -> x < W -> mul64 (mul64 x q) p = x.
Proof.
  intros Hpq Hx. unfold mul64. rewrite !w64_mod. rewrite N.mul_mod_idemp_l by done.
  rewrite <- N.mul_assoc, <- N.mul_mod_idemp_r by done. rewrite Hpq, N.mul_1_r. by apply N.mod_small.
Qed.
Lemma rotl64_onto r x : 0 < r < 64 -> x < W -> rotl64 (rotl64 x (64 - r)) r = x.
Proof.
  intros Hr Hx. pose proof (rotl64_lt (rotl64 x (64 - r)) r (rotl64_lt x (64 - r) Hx)) as Hl.
  rewrite lt_W in Hl. pose proof Hx as Hx'. rewrite lt_W in Hx'.
  apply N.bits_inj. intros i. destruct (N.lt_ge_cases i 64) as [Hi|Hi]; [|by rewrite Hl, Hx'].
  unfold rotl64, w64. change 18446744073709551615 with (N.ones 64). replace (64 - (64 - r)) with r by lia.
  rewrite N.lor_spec, N.land_spec, N.shiftr_spec', N.ones_spec_low by lia. rewrite andb_true_r.
  destruct (N.lt_ge_cases i r) as [Hlo|Hhi].
  - rewrite N.shiftl_spec_low by lia. rewrite N.lor_spec, N.land_spec, N.shiftr_spec', N.ones_spec_low by lia.
    rewrite N.shiftl_spec_high' by lia. replace (i + (64 - r) - (64 - r)) with i by lia.
    rewrite (Hx' (i + (64 - r) + r)) by lia. by rewrite andb_true_r, orb_false_r.
  - rewrite N.shiftl_spec_high' by lia. rewrite !N.lor_spec, !N.land_spec, !N.shiftr_spec'.
    rewrite N.ones_spec_low by lia. rewrite N.shiftl_spec_low by lia. replace (i - r + r) with i by lia.
    rewrite (N.ones_spec_high 64 (i + (64 - r))) by lia. rewrite (Hx' (i + (64 - r) + r)) by lia.
    by rewrite andb_false_r, !orb_false_r.
Qed.
Lemma xorshift_onto k x : 0 < k -> x < W -> exists y, y < W /\ N.lxor y (N.shiftr y k) = x.
Proof.
  intros Hk.
  assert (Hn : forall n x, N.shiftr x (N.of_nat n) = 0 -> x < W -> exists y, y < W /\ N.lxor y (N.shiftr y k) = x).
  { induction n as [n IH] using lt_wf_ind. intros z Hz Hlt.
    destruct (N.le_gt_cases (N.of_nat n) k) as [Hle|Hgt].
    - exists z. split; [done|].
      replace (N.shiftr z k) with 0; [by rewrite N.lxor_0_r|]. symmetry.
      replace k with (N.of_nat n + (k - N.of_nat n)) by lia. by rewrite <- N.shiftr_shiftr, Hz, N.shiftr_0_l.
    - destruct (IH (n - N.to_nat k)%nat ltac:(lia) (N.shiftr z k)) as (y & Hy & E).
      + rewrite N.shiftr_shiftr. by replace (k + N.of_nat (n - N.to_nat k)) with (N.of_nat n) by lia.
      + by apply shiftr_lt.
      + exists (N.lxor z y). split; [by apply lxor_lt|].
        rewrite N.shiftr_lxor. rewrite <- N.lxor_assoc, (N.lxor_assoc z y).
        replace (N.lxor y (N.shiftr z k)) with (N.shiftr y k); [by rewrite N.lxor_assoc, N.lxor_nilpotent, N.lxor_0_r|].
        rewrite <- E. by rewrite <- N.lxor_assoc, N.lxor_nilpotent, N.lxor_0_l. }
  intros Hx. apply (Hn 64%nat); [|done]. change (N.of_nat 64) with 64. rewrite N.shiftr_div_pow2. by apply N.div_small.
Qed.
Lemma avalanche_onto x : x < W -> exists h, h < W /\ xx_avalanche h = x.
Proof.
  intros Hx. destruct (xorshift_onto 32 x) as (a & Ha & Ea); [done..|].
  destruct (xorshift_onto 29 (mul64 a 16855272203555305545)) as (b & Hb & Eb); [done|apply mul64_lt|].
  destruct (xorshift_onto 33 (mul64 b 839798700976720815)) as (c & Hc & Ec); [done|apply mul64_lt|].
  exists c. split; [done|]. unfold xx_avalanche. cbn zeta. rewrite Ec.
  rewrite (mul64_onto P2) by (done || (vm_compute; reflexivity)). rewrite Eb.
  rewrite (mul64_onto P3) by (done || (vm_compute; reflexivity)). exact Ea.
Qed.
Lemma add64_onto c x : c < W -> x < W -> exists y, y < W /\ add64 y c = x.
Proof.
  intros Hc Hx. exists ((x + (W - c)) mod W). split; [by apply N.mod_lt|].
  unfold add64. rewrite w64_mod, N.add_mod_idemp_l by done. replace (x + (W - c) + c) with (x + 1 * W) by lia.
  rewrite N.mod_add by done. by apply N.mod_small.
Qed.
Lemma round_onto x : x < W -> exists lane, lane < W /\ xx_round 0 lane = x.
Proof.
  intros Hx. set (y := rotl64 (mul64 x 614540362697595703) (64 - 31)).
  assert (Hy : y < W) by (apply rotl64_lt, mul64_lt).
  exists (mul64 y 839798700976720815). split; [apply mul64_lt|]. unfold xx_round.
  rewrite (mul64_onto P2) by (done || (vm_compute; reflexivity)).
  unfold add64. rewrite N.add_0_l, w64_mod, N.mod_small by done. unfold y. rewrite rotl64_onto by (apply mul64_lt || done).
  by rewrite (mul64_onto P1) by (done || (vm_compute; reflexivity)).
Qed.
Definition eight_step (h lane : N) : N := add64 (mul64 (rotl64 (N.lxor h (xx_round 0 lane)) 27) P1) P4.
Lemma eight_step_onto h x : h < W -> x < W -> exists lane, lane < W /\ eight_step h lane = x.
Proof.
  intros Hh Hx. destruct (add64_onto P4 x) as (a & Ha & Ea); [done..|].
  set (b := rotl64 (mul64 a 614540362697595703) (64 - 27)). assert (Hb : b < W) by (apply rotl64_lt, mul64_lt).
  destruct (round_onto (N.lxor h b)) as (lane & Hl & El); [by apply lxor_lt|]. exists lane. split; [done|].
  unfold eight_step. rewrite El, <- N.lxor_assoc, N.lxor_nilpotent, N.lxor_0_l.
  unfold b. rewrite rotl64_onto by (apply mul64_lt || done).
  by rewrite (mul64_onto P1) by (done || (vm_compute; reflexivity)).
Qed.

Lemma stripes_only k : forall fuel v1 v2 v3 v4 d, length d = (32 * k)%nat -> (k < fuel)%nat ->
  exists h, forall w, length w = 8%nat -> xx_stripes fuel v1 v2 v3 v4 (d ++ w) = (h, w).
Proof.
  induction k as [|k IH]; intros fuel v1 v2 v3 v4 d Hd Hf; destruct fuel as [|fuel]; try lia.
  - assert (d = []) as -> by (apply nil_length_inv; lia). eexists. intros w Hw. cbn [xx_stripes app].
    destruct (32 <=? length w)%nat eqn:E; [apply Nat.leb_le in E; lia|]. reflexivity.
  - destruct (IH fuel
      (xx_round v1 (le_val (take 8 (drop 0 d)))) (xx_round v2 (le_val (take 8 (drop 8 d))))
      (xx_round v3 (le_val (take 8 (drop 16 d)))) (xx_round v4 (le_val (take 8 (drop 24 d)))) (drop 32 d)) as [h Hh].
    { rewrite drop_length. lia. } { lia. }
    exists h. intros w Hw. cbn [xx_stripes].
    destruct (32 <=? length (d ++ w))%nat eqn:E; [|apply Nat.leb_gt in E; rewrite app_length in E; lia].
    assert (Hlane : forall i, (i <= 24)%nat -> take 8 (drop i (d ++ w)) = take 8 (drop i d)).
    { intros i Hi. rewrite drop_app_le by lia. rewrite take_app_le; [done|]. rewrite drop_length. lia. }
    rewrite !Hlane by lia. rewrite drop_app_le by lia. by apply Hh.
Qed.
Lemma enc_u64_bytes x : x < W -> le_val (enc_u64 x) = x.
Proof. intros Hx. by apply le_val_bytes. Qed.

(** stripes, then eight free bytes *)
Lemma xxh64_forced seed d x : Nat.modulo (length d) 32 = 0%nat -> x < W ->
  exists w, length w = 8%nat /\ Forall (fun b => b < 256) w /\ xxh64 seed (d ++ w) = x.
Proof.
  intros Hd Hx. destruct (avalanche_onto x Hx) as (a & Ha & Ea).
  assert (Hs : exists h, forall w, length w = 8%nat ->
     xxh64 seed (d ++ w) = xx_avalanche (xx_eights (S (length (d ++ w))) (add64 h (len d + 8)) w)).
  { destruct d as [|y d].
    - exists (add64 seed P5). intros w Hw. cbn [app]. unfold xxh64. rewrite (proj2 (Nat.leb_gt _ _)) by lia.
      unfold len. rewrite Hw. reflexivity.
    - set (d' := y :: d) in *.
      assert (exists k, length d' = (32 * k)%nat /\ (0 < k)%nat) as (k & Hk & Hk0).
      { assert (1 <= length d')%nat by (unfold d'; cbn; lia). exists (length d' / 32)%nat.
        pose proof (Nat.div_mod (length d') 32 ltac:(lia)) as Hm. rewrite Hd in Hm.
        generalize dependent (length d' / 32)%nat. intros q Hq. lia. }
      destruct (stripes_only k (S (length d' + 8)) (add64 (add64 seed P1) P2) (add64 seed P2) seed
        (w64 (seed + 18446744073709551616 - P1)) d' Hk) as [h Hh]; [lia|].
      exists h. intros w Hw. unfold xxh64. rewrite (proj2 (Nat.leb_le _ _)) by (rewrite app_length; lia).
      rewrite app_length, Hw. rewrite Hh by done. unfold len. rewrite app_length, Hw.
      by replace (N.of_nat (length d' + 8)) with (N.of_nat (length d') + 8) by lia. }
  destruct Hs as [h Hh]. destruct (eight_step_onto (add64 h (len d + 8)) a) as (lane & Hl & El); [apply w64_lt|done|].
  exists (enc_u64 lane). split; [apply enc_u64_length|]. split; [apply le_bytes_byte|].
  rewrite Hh by apply enc_u64_length. rewrite <- Ea, <- El. f_equal.
  assert (Hf : forall fuel b, xx_eights (S (S fuel)) b (enc_u64 lane) = eight_step b lane).
  { intros fuel b. change (S (S fuel)) with (S (1 + fuel)). cbn [xx_eights]. rewrite enc_u64_length. cbn [Nat.leb].
    rewrite take_ge, drop_ge by (by rewrite enc_u64_length). rewrite enc_u64_bytes by done. reflexivity. }
  rewrite app_length, enc_u64_length. replace (S (length d + 8)) with (S (S (length d + 7))) by lia. apply Hf.
Qed.

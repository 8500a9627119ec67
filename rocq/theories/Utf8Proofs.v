(** Facts about UTF-8, decimal digits and splitting. *)
From Verif Require Import Prelude Utf8.

Lemma scalarb_iff c : scalarb c = true <-> scalar c.
Proof. unfold scalarb, scalar. lia. Qed.

Lemma div64 a r : r < 64 -> (a * 64 + r) / 64 = a /\ (a * 64 + r) mod 64 = r.
Proof.
  intros H. split.
  - symmetry. apply (N.div_unique _ _ _ r); lia.
  - symmetry. apply (N.mod_unique _ _ a r); lia.
Qed.

Lemma mod64_lt a : a mod 64 < 64.
Proof. apply N.mod_lt. lia. Qed.
Lemma divmod64 a : a = a / 64 * 64 + a mod 64.
Proof. pose proof (N.div_mod a 64 ltac:(lia)). lia. Qed.
Lemma div4096 a : a / 4096 = a / 64 / 64.
Proof. rewrite N.div_div by lia. reflexivity. Qed.
Lemma div262144 a : a / 262144 = a / 64 / 64 / 64.
Proof. rewrite !N.div_div by lia. reflexivity. Qed.

Lemma from_utf8_char c bs : scalar c -> from_utf8 (utf8_char c ++ bs) = option_map (cons c) (from_utf8 bs).
Proof.
  intros Hc. unfold utf8_char.
  destruct (c <? 128) eqn:E1.
  - cbn [app from_utf8]. rewrite E1. done.
  - destruct (c <? 2048) eqn:E2.
    + cbn [app from_utf8].
      pose proof (divmod64 c). pose proof (mod64_lt c).
      assert (c / 64 < 32) by (apply N.div_lt_upper_bound; lia).
      rewrite (proj2 (N.ltb_ge _ _)) by lia. rewrite (proj2 (N.ltb_lt _ _)) by lia.
      replace ((192 + c / 64 - 192) * 64 + (128 + c mod 64 - 128)) with c by lia.
      unfold contb. replace (_ && _ && _) with true by lia. done.
    + destruct (c <? 65536) eqn:E3; cbn [app from_utf8].
      * rewrite div4096. pose proof (divmod64 c). pose proof (mod64_lt c).
        pose proof (divmod64 (c / 64)). pose proof (mod64_lt (c / 64)).
        assert (c / 64 / 64 < 16) by (rewrite N.div_div by lia; apply N.div_lt_upper_bound; lia).
        rewrite (proj2 (N.ltb_ge _ _)) by lia. rewrite (proj2 (N.ltb_ge _ _)) by lia.
        rewrite (proj2 (N.ltb_lt _ _)) by lia.
        replace ((224 + c / 64 / 64 - 224) * 4096 + (128 + (c / 64) mod 64 - 128) * 64 + (128 + c mod 64 - 128)) with c by lia.
        apply scalarb_iff in Hc. rewrite Hc. unfold contb. replace (_ && _ && _ && _) with true by lia. done.
      * rewrite div4096, div262144. pose proof (divmod64 c). pose proof (mod64_lt c).
        pose proof (divmod64 (c / 64)). pose proof (mod64_lt (c / 64)).
        pose proof (divmod64 (c / 64 / 64)). pose proof (mod64_lt (c / 64 / 64)).
        assert (c / 64 / 64 / 64 < 8) by (rewrite !N.div_div by lia; apply N.div_lt_upper_bound; unfold scalar in Hc; lia).
        rewrite (proj2 (N.ltb_ge _ _)) by lia. rewrite (proj2 (N.ltb_ge _ _)) by lia.
        rewrite (proj2 (N.ltb_ge _ _)) by lia.
        replace ((240 + c / 64 / 64 / 64 - 240) * 262144 + (128 + (c / 64 / 64) mod 64 - 128) * 4096 + (128 + (c / 64) mod 64 - 128) * 64 + (128 + c mod 64 - 128)) with c by lia.
        apply scalarb_iff in Hc. rewrite Hc. unfold contb. replace (_ && _ && _ && _ && _ && _) with true by lia. done.
Qed.

Lemma from_utf8_app s bs : Forall scalar s ->
  from_utf8 (utf8 s ++ bs) = option_map (app s) (from_utf8 bs).
Proof.
  induction 1 as [|c s Hc Hs IH].
  - cbn. by destruct (from_utf8 bs).
  - change (utf8 (c :: s)) with (utf8_char c ++ utf8 s). rewrite <- app_assoc, from_utf8_char by done.
    rewrite IH. by destruct (from_utf8 bs).
Qed.
Lemma from_utf8_utf8 s : Forall scalar s -> from_utf8 (utf8 s) = Some s.
Proof.
  intros H. rewrite <- (app_nil_r (utf8 s)), from_utf8_app by done. cbn. by rewrite app_nil_r.
Qed.

Lemma from_utf8_sound n : forall bs s, (length bs <= n)%nat -> from_utf8 bs = Some s -> Forall scalar s /\ utf8 s = bs.
Proof.
  induction n as [|n IH]; intros bs s Hn H.
  { destruct bs; cbn in *; [by injection H as <-|lia]. }
  destruct bs as [|b0 r0]; cbn [from_utf8] in H; [by injection H as <-|].
  assert (Hrec : forall r, (length r <= n)%nat -> forall c s', option_map (cons c) (from_utf8 r) = Some s' ->
     exists s0, s' = c :: s0 /\ Forall scalar s0 /\ utf8 s0 = r).
  { intros r Hr c s' Hs'. destruct (from_utf8 r) as [s0|] eqn:E; [|done]. injection Hs' as <-.
    exists s0. split; [done|]. by apply IH. }
  cbn in Hn. destruct (b0 <? 128) eqn:E0.
  { apply Hrec in H as (s0 & -> & Hs & <-); [|lia]. split.
    - constructor; [unfold scalar; lia|done].
    - change (utf8 (b0 :: s0)) with (utf8_char b0 ++ utf8 s0). unfold utf8_char. by rewrite E0. }
  destruct r0 as [|b1 r1]; [done|]. cbn in Hn. destruct (b0 <? 224) eqn:E1.
  { destruct (_ && _ && _) eqn:E; [|done]. unfold contb in E.
    apply Hrec in H as (s0 & -> & Hs & <-); [|lia].
    destruct (div64 (b0 - 192) (b1 - 128)) as [Hd Hm]; [lia|]. split.
    - constructor; [unfold scalar; lia|done].
    - match goal with |- utf8 (?x :: _) = _ => set (c := x) in * end. change (utf8 (c :: s0)) with (utf8_char c ++ utf8 s0). unfold utf8_char.
      rewrite (proj2 (N.ltb_ge c 128)) by lia. rewrite (proj2 (N.ltb_lt c 2048)) by lia.
      rewrite Hd, Hm. cbn [app]. repeat f_equal; lia. }
  destruct r1 as [|b2 r2]; [done|]. cbn in Hn. destruct (b0 <? 240) eqn:E2.
  { destruct (_ && _ && _ && _) eqn:E; [|done]. unfold contb in E.
    apply Hrec in H as (s0 & -> & Hs & <-); [|lia].
    replace ((b0 - 224) * 4096 + (b1 - 128) * 64 + (b2 - 128)) with (((b0 - 224) * 64 + (b1 - 128)) * 64 + (b2 - 128)) in * by lia.
    destruct (div64 ((b0 - 224) * 64 + (b1 - 128)) (b2 - 128)) as [Hd Hm]; [lia|].
    destruct (div64 (b0 - 224) (b1 - 128)) as [Hd' Hm']; [lia|]. split.
    - constructor; [apply scalarb_iff; lia|done].
    - match goal with |- utf8 (?x :: _) = _ => set (c := x) in * end. change (utf8 (c :: s0)) with (utf8_char c ++ utf8 s0). unfold utf8_char.
      rewrite (proj2 (N.ltb_ge c 128)) by lia. rewrite (proj2 (N.ltb_ge c 2048)) by lia. rewrite (proj2 (N.ltb_lt c 65536)) by lia.
      rewrite div4096, Hd, Hm, Hd', Hm'. cbn [app]. repeat f_equal; lia. }
  destruct r2 as [|b3 r3]; [done|]. cbn in Hn.
  destruct (_ && _ && _ && _ && _ && _) eqn:E; [|done]. unfold contb in E.
  apply Hrec in H as (s0 & -> & Hs & <-); [|lia].
  replace ((b0 - 240) * 262144 + (b1 - 128) * 4096 + (b2 - 128) * 64 + (b3 - 128))
    with ((((b0 - 240) * 64 + (b1 - 128)) * 64 + (b2 - 128)) * 64 + (b3 - 128)) in * by lia.
  destruct (div64 (((b0 - 240) * 64 + (b1 - 128)) * 64 + (b2 - 128)) (b3 - 128)) as [Hd Hm]; [lia|].
  destruct (div64 ((b0 - 240) * 64 + (b1 - 128)) (b2 - 128)) as [Hd' Hm']; [lia|].
  destruct (div64 (b0 - 240) (b1 - 128)) as [Hd'' Hm'']; [lia|]. split.
  - constructor; [apply scalarb_iff; lia|done].
  - match goal with |- utf8 (?x :: _) = _ => set (c := x) in * end. change (utf8 (c :: s0)) with (utf8_char c ++ utf8 s0). unfold utf8_char.
    rewrite (proj2 (N.ltb_ge c 128)) by lia. rewrite (proj2 (N.ltb_ge c 2048)) by lia. rewrite (proj2 (N.ltb_ge c 65536)) by lia.
    rewrite div4096, div262144, Hd, Hm, Hd', Hm', Hd'', Hm''. cbn [app]. repeat f_equal; lia.
Qed.
Lemma utf8_from bs s : from_utf8 bs = Some s -> Forall scalar s /\ utf8 s = bs.
Proof. apply (from_utf8_sound (length bs)). done. Qed.

Lemma utf8_inj a b : Forall scalar a -> Forall scalar b -> utf8 a = utf8 b -> a = b.
Proof.
  intros Ha Hb H. apply from_utf8_utf8 in Ha, Hb. congruence.
Qed.

Lemma utf8_app a b : utf8 (a ++ b) = utf8 a ++ utf8 b.
Proof. unfold utf8. by rewrite map_app, concat_app. Qed.

Lemma utf8_ascii s : Forall (fun c => c < 128) s -> utf8 s = s.
Proof.
  induction 1 as [|c s Hc _ IH]; [done|]. change (utf8 (c :: s)) with (utf8_char c ++ utf8 s). rewrite IH.
  unfold utf8_char. by rewrite (proj2 (N.ltb_lt _ _)).
Qed.

(** ** Digits *)
Definition is_digit (c : N) : Prop := 48 <= c < 58.

Lemma digits_fuel_spec fuel : forall n, n < 10 ^ N.of_nat fuel -> (0 < fuel)%nat ->
  Forall is_digit (digits_fuel fuel n) /\ digits_fuel fuel n <> [] /\ (length (digits_fuel fuel n) <= fuel)%nat.
Proof.
  induction fuel as [|fuel IH]; intros n Hn Hf; [lia|]. cbn [digits_fuel].
  destruct (n <? 10) eqn:E.
  - split; [|split; [done|cbn; lia]]. constructor; [unfold is_digit; lia|constructor].
  - assert (Hfu : (0 < fuel)%nat).
    { destruct fuel; [|lia]. change (10 ^ N.of_nat 1) with 10 in Hn. lia. }
    destruct (IH (n / 10)) as (H1 & H2 & H3); [|done|].
    { apply N.div_lt_upper_bound; [lia|]. rewrite Nat2N.inj_succ, N.pow_succ_r' in Hn. lia. }
    split; [|split].
    + apply Forall_app. split; [done|]. constructor; [|constructor].
      pose proof (N.mod_lt n 10). unfold is_digit. lia.
    + by destruct (digits_fuel fuel (n / 10)).
    + rewrite app_length. cbn. lia.
Qed.

Lemma digits_spec n : n <= u16_max -> Forall is_digit (digits n) /\ digits n <> [] /\ (length (digits n) <= 5)%nat.
Proof. intros H. apply digits_fuel_spec; [|lia]. change (10 ^ N.of_nat 5) with 100000. unfold u16_max in H. lia. Qed.

Lemma parse_digits_app s c acc v : parse_digits acc s = Some v ->
  is_digit c -> v * 10 + (c - 48) <= u16_max -> parse_digits acc (s ++ [c]) = Some (v * 10 + (c - 48)).
Proof.
  intros H Hc Hv. revert acc H. induction s as [|x s IH]; intros acc H; cbn [parse_digits app] in *.
  - injection H as ->. unfold digit_value. unfold is_digit in Hc.
    replace (_ && _) with true by lia. unfold chk_mul. rewrite (proj2 (N.leb_le _ _)) by lia.
    unfold chk_add. by rewrite (proj2 (N.leb_le _ _)).
  - destruct (digit_value x); [|done]. destruct (chk_mul u16_max acc 10); [|done].
    destruct (chk_add u16_max n0 n); [|done]. by apply IH.
Qed.

Lemma parse_digits_fuel fuel : forall n, n < 10 ^ N.of_nat fuel -> (0 < fuel)%nat -> n <= u16_max -> parse_digits 0 (digits_fuel fuel n) = Some n.
Proof.
  induction fuel as [|fuel IH]; intros n Hn Hf Hu; [lia|]. cbn [digits_fuel].
  destruct (n <? 10) eqn:E.
  - cbn [parse_digits]. unfold digit_value. replace (_ && _) with true by lia.
    unfold chk_mul. replace (0 * 10 <=? u16_max) with true by (unfold u16_max; lia).
    unfold chk_add. rewrite (proj2 (N.leb_le _ _)) by lia. f_equal. lia.
  - assert (Hfu : (0 < fuel)%nat).
    { destruct fuel; [|lia]. change (10 ^ N.of_nat 1) with 10 in Hn. lia. }
    pose proof (N.div_mod n 10 ltac:(lia)). pose proof (N.mod_lt n 10 ltac:(lia)).
    rewrite (parse_digits_app _ _ _ (n / 10)).
    + f_equal. lia.
    + apply IH; [|done|lia]. apply N.div_lt_upper_bound; [lia|]. rewrite Nat2N.inj_succ, N.pow_succ_r' in Hn. lia.
    + unfold is_digit. lia.
    + lia.
Qed.

Lemma parse_digits_of n : n <= u16_max -> parse_u16 (digits n) = Some n.
Proof.
  intros H. pose proof (digits_spec n H) as (Hd & Hne & _).
  assert (Hp : parse_digits 0 (digits n) = Some n).
  { apply parse_digits_fuel; [|lia|done]. change (10 ^ N.of_nat 5) with 100000. unfold u16_max in H. lia. }
  destruct (digits n) as [|c s] eqn:E; [done|]. cbn [parse_u16].
  inversion Hd as [|? ? Hc _]; subst. unfold is_digit in Hc.
  by rewrite (proj2 (N.eqb_neq c 43)) by lia.
Qed.

Lemma parse_digits_bound s : forall acc v, acc <= u16_max -> parse_digits acc s = Some v -> v <= u16_max.
Proof.
  induction s as [|c s IH]; intros acc v Ha H; cbn [parse_digits] in H; [by injection H as <-|].
  destruct (digit_value c); [|done]. destruct (chk_mul u16_max acc 10); [|done].
  unfold chk_add in H. destruct (_ <=? _) eqn:E; [|done]. apply N.leb_le in E. by apply IH in H.
Qed.
Lemma parse_u16_bound s v : parse_u16 s = Some v -> v <= u16_max.
Proof.
  unfold parse_u16. intros H. destruct s as [|c s]; [done|].
  destruct (c =? 43); [destruct s; [done|]|]; eapply parse_digits_bound; try exact H; unfold u16_max; lia.
Qed.

(** ** Splitting *)
Lemma split_on_plain c s : c ∉ s -> split_on c s = [s].
Proof.
  induction s as [|x s IH]; intros H; [done|]. cbn [split_on].
  apply not_elem_of_cons in H as [H1 H2]. rewrite (proj2 (N.eqb_neq x c)) by congruence. by rewrite IH.
Qed.
Lemma split_on_app c a b : c ∉ a -> split_on c (a ++ c :: b) = a :: split_on c b.
Proof.
  induction a as [|x a IH]; intros H; cbn [app split_on].
  - by rewrite N.eqb_refl.
  - apply not_elem_of_cons in H as [H1 H2]. rewrite (proj2 (N.eqb_neq x c)) by congruence. by rewrite IH.
Qed.

(** Proof of property C149. *)
From Verif Require Import Prelude Sums CapModel CapSpec CapProofs CapMore.

(** ** What holds *)
Lemma own_share cfg f h s t amt st' :
  let st := cap_run cfg cap_genesis h in
  one_target f h -> cap_apply cfg st (OpUnstake s t amt) = Ok st' ->
  let a := active st s - active st' s in
  let c := issued st t - issued st' t in
  a <= targeted st s t /\ targeted st s t <= tokens_at st t
  /\ (c <= targeted_capacity st s t \/ c * tokens_at st t * 10 ^ 9 <= issued st t * a * 10 ^ 9 + 2 * issued st t * tokens_at st t + 10 ^ 9 * tokens_at st t).
Proof.
  intros st Hf H. cbv zeta.
  assert (tok_inv cfg st /\ single_inv f st) as [HT (I1 & I2 & I3)].
  { unfold st. eapply (run_ind_in cfg _ (fun st => tok_inv cfg st /\ single_inv f st)); [exact Hf|..].
    - split; [exact (tok_inv_run cfg [])|]. unfold single_inv; cbn. split; [|split].
      + intros *. by rewrite lookup_empty.
      + intros *. by rewrite lookup_empty.
      + intros k. unfold tokens_at, targeted_to; cbn. by rewrite lookup_empty, msum_empty.
    - intros s0 op s1 Hop [HT HI] He. split; [by eapply tok_inv_preserved|]. exact (single_inv_preserved cfg f s0 op s1 Hop HT HI He). }
  destruct (unstake_reduces_lemma cfg st s t amt st' H) as (actual & c & _ & Ha & Hi & _ & Hfull & Hpart). rewrite <- Ha, Hi.
  apply (apply_effect cfg) in H. inversion H; subst; clear H.
  match goal with X : cs_targets st !! (s, t) = Some tg |- _ => rename X into Ht end.
  match goal with X : cs_staking st !! s = Some a0 |- _ => rename X into Hs end.
  assert (Etg : targeted st s t = tg_amount tg) by (unfold targeted; by rewrite Ht).
  assert (Ea : active st s = tg_amount tg).
  { destruct (I1 _ _ _ Ht) as [_ E]. unfold active. by rewrite E. }
  assert (Hle : targeted st s t <= tokens_at st t).
  { rewrite I3, Etg. unfold targeted_to. pose proof (msum_lookup_le (fun k t0 => if k.2 =? t then tg_amount t0 else 0) _ _ _ Ht) as L. cbn in L.
    rewrite N.eqb_refl in L. exact L. }
  assert (Hpos : 0 < tg_amount tg).
  { destruct (I1 _ _ _ Ht) as [_ E]. destruct (HT s) as (_ & _ & _ & P & _). by apply P in E as [E _]. }
  match goal with |- ?x <= _ /\ _ => set (act := x) in * end.
  assert (Hal : act <= targeted st s t) by (unfold act; lia). split; [exact Hal|]. split; [exact Hle|].
  destruct (decide (targeted st s t = act)) as [E|E].
  - left. destruct (Hfull E) as [-> _]. lia.
  - right. destruct (Hpart E) as [Ec _]. destruct (share_lemma act (tokens_at st t) (issued st t)) as (S1 & _ & S2 & _); [lia|lia|].
    rewrite <- Ec in S1, S2. replace (issued st t - (issued st t - c)) with c by lia. exact S2.
Qed.

(** ** The attack *)
Section wipe.
Context (cfg : CapCfg) (valid : N -> bool) (a t p b : N).
Let d := b - k_min_token cfg.
Let c := capacity_generated cfg d.
Context (Hper : k_per_token cfg <= 10 ^ 9) (Hd : 0 < d) (Hmin : k_min_stake cfg <= d) (Ht : valid t = true) (Hp : valid p = true) (Hne : p <> t).
Context (Hch : 0 < k_max_chunks cfg).

Lemma one_stake st q act : valid q = true -> cs_bal st !! a = Some b -> default 0 (cs_staking st !! a) = act -> cs_unlocks st !! a = None ->
  targeted st a q + d <= u128_max -> targeted_capacity st a q + d <= u128_max -> tokens_at st q + d <= u128_max ->
  issued st q + d <= u128_max -> remaining st q + d <= u128_max -> act + d <= u128_max ->
  let st' := cap_step cfg st (OpStake valid a q d) in
  cs_bal st' !! a = Some b /\ default 0 (cs_staking st' !! a) = act + d /\ cs_unlocks st' = cs_unlocks st
  /\ cs_targets st' = <[(a, q) := {| tg_amount := targeted st a q + d; tg_capacity := targeted_capacity st a q + c |}]> (cs_targets st)
  /\ cs_cap st' = <[q := {| cd_remaining := remaining st q + c; cd_tokens := tokens_at st q + d; cd_issued := issued st q + c;
                            cd_last := last_replenished st q |}]> (cs_cap st).
Proof.
  intros Hq Hb Ha Hu B1 B2 B3 B4 B5 B6. pose proof (generated_le cfg valid t b Hper Hd Hmin Ht) as Hgen. fold d in Hgen. fold c in Hgen.
  cbv zeta. match goal with |- cs_bal ?x !! _ = _ /\ _ => remember x as st' eqn:E end. revert E.
  unfold cap_step. cbn [cap_apply]. unfold stake, ensure_can_stake, get_stakable_amount_for. rewrite Hb. cbn [default from_option id]. fold d.
  rewrite N.min_id, Hq. destruct (N.ltb_spec 0 d); [|lia]. cbn beta iota zeta. rewrite Ha.
  unfold chk_add at 1. destruct (N.leb_spec (act + d) u128_max); [|lia].
  destruct (N.leb_spec (k_min_stake cfg) (act + d)); [|lia]. cbn beta iota zeta.
  unfold increase_stake_and_issue_capacity. fold c.
  unfold chk_add at 1. destruct (N.leb_spec (d + act) u128_max); [|lia]. cbn beta iota zeta.
  unfold tg_deposit, cd_deposit. fold (targeted st a q) (targeted_capacity st a q) (tokens_at st q) (remaining st q) (issued st q) (last_replenished st q).
  unfold chk_add. destruct (N.leb_spec (d + targeted st a q) u128_max); [|lia].
  destruct (N.leb_spec (c + targeted_capacity st a q) u128_max); [|lia].
  destruct (N.leb_spec (d + tokens_at st q) u128_max); [|lia].
  destruct (N.leb_spec (c + remaining st q) u128_max); [|lia].
  destruct (N.leb_spec (c + issued st q) u128_max); [|lia]. cbn beta iota zeta.
  unfold set_staking_account_and_lock. rewrite Hu. cbn [default from_option id]. change (chunks_total []) with 0.
  unfold chk_add. destruct (N.leb_spec (d + act + 0) u128_max); [|lia]. cbn beta iota zeta.
  unfold set_staking_account, set_target_details_for, set_capacity_for, set_freeze.
  destruct (N.eqb_spec (d + act) 0); [lia|]. cbn [tg_amount].
  destruct (N.eqb_spec (d + targeted st a q) 0); [lia|]. cbn. intros ->. cbn.
  split; [exact Hb|]. split; [rewrite lookup_insert; cbn; lia|]. split; [done|].
  split; f_equal; f_equal; lia.
Qed.

Variable st0 : CapState.
Hypothesis Hb0 : cs_bal st0 !! a = Some b.
Hypothesis Hs0 : cs_staking st0 !! a = None.
Hypothesis Hu0 : cs_unlocks st0 !! a = None.
Hypothesis Hg0 : forall q, cs_targets st0 !! (a, q) = None.
Hypothesis Hri : forall q, remaining st0 q <= issued st0 q.

Record prep (k : N) (st : CapState) : Prop := {
  pr_bal : cs_bal st !! a = Some b;
  pr_active : default 0 (cs_staking st !! a) = (k + 1) * d;
  pr_unlocks : cs_unlocks st = cs_unlocks st0;
  pr_t : cs_targets st !! (a, t) = Some {| tg_amount := d; tg_capacity := c |};
  pr_p : targeted st a p = k * d /\ targeted_capacity st a p = k * c;
  pr_cap_t : cs_cap st !! t = Some {| cd_remaining := remaining st0 t + c; cd_tokens := tokens_at st0 t + d; cd_issued := issued st0 t + c; cd_last := last_replenished st0 t |};
  pr_cap_p : remaining st p = remaining st0 p + k * c /\ tokens_at st p = tokens_at st0 p + k * d /\ issued st p = issued st0 p + k * c;
  pr_others : forall s q, s <> a -> cs_targets st !! (s, q) = cs_targets st0 !! (s, q)
}.
Definition room (q n : N) : Prop := tokens_at st0 q + (n + 1) * d <= u128_max /\ issued st0 q + (n + 1) * d <= u128_max.

Lemma prep_start : room t 0 -> prep 0 (cap_step cfg st0 (OpStake valid a t d)).
Proof.
  intros [R1 R2]. pose proof (Hri t) as Ri. assert (Z : forall q, targeted st0 a q = 0 /\ targeted_capacity st0 a q = 0).
  { intros q. unfold targeted, targeted_capacity. by rewrite Hg0. }
  destruct (Z t) as [Z1 Z2].
  destruct (one_stake st0 t 0) as (A & B & C & D & E); try done; try lia; [by rewrite Hs0|].
  rewrite Z1, Z2 in D. split; try done.
  - rewrite B. lia.
  - rewrite D, lookup_insert. done.
  - unfold targeted, targeted_capacity. rewrite D, lookup_insert_ne by congruence. rewrite Hg0. done.
  - rewrite E. apply lookup_insert.
  - unfold remaining, tokens_at, issued. rewrite E, lookup_insert_ne by congruence. lia.
  - intros s q Hs. rewrite D, lookup_insert_ne by congruence. done.
Qed.
Lemma prep_step k st : prep k st -> room p k -> (k + 2) * d <= u128_max -> prep (k + 1) (cap_step cfg st (OpStake valid a p d)).
Proof.
  intros [P1 P2 P3 P4 [P5 P6] P7 (P8 & P9 & P10) P11] [R1 R2] Hm. pose proof (Hri p) as Ri. pose proof (generated_le cfg valid t b Hper Hd Hmin Ht) as Hgen. fold d in Hgen. fold c in Hgen.
  assert (k * c <= k * d) by nia.
  destruct (one_stake st p ((k + 1) * d)) as (A & B & C & D & E); try done; try (rewrite ?P5, ?P6, ?P8, ?P9, ?P10; lia); [by rewrite P3|].
  rewrite P5, P6 in D. rewrite P8, P9, P10 in E. split; try done.
  - rewrite B. lia.
  - by rewrite C.
  - rewrite D, lookup_insert_ne by congruence. done.
  - unfold targeted, targeted_capacity. rewrite D, lookup_insert. cbn. lia.
  - rewrite E, lookup_insert_ne by congruence. done.
  - unfold remaining, tokens_at, issued. rewrite E, lookup_insert. cbn [default from_option id fmap option_fmap option_map cd_remaining cd_tokens cd_issued].
    fold (remaining st0 p) (tokens_at st0 p) (issued st0 p). repeat split; lia.
  - intros s q Hs. rewrite D, lookup_insert_ne by congruence. by apply P11.
Qed.
Lemma prep_run n : forall k st, prep k st -> room p (k + N.of_nat n) -> (k + N.of_nat n + 1) * d <= u128_max ->
  prep (k + N.of_nat n) (cap_run cfg st (repeat (OpStake valid a p d) n)).
Proof.
  induction n as [|n IH]; intros k st Hk R Hm; [cbn; by rewrite N.add_0_r|].
  replace (k + N.of_nat (S n)) with ((k + 1) + N.of_nat n) in * by lia. cbn [repeat]. apply (IH (k + 1)); [|done|done].
  assert ((k + 2) * d <= (k + 1 + N.of_nat n + 1) * d) by (apply N.mul_le_mono_r; lia).
  apply prep_step; [done| |lia]. destruct R. split; lia.
Qed.

Definition attack (n : nat) : list CapOp :=
  OpStake valid a t d :: repeat (OpStake valid a p d) n ++ [OpUnstake a t ((N.of_nat n + 1) * d)].
Lemma wipe n : (1 <= n)%nat -> tokens_at st0 t <= N.of_nat n * d -> room t (N.of_nat n) -> room p (N.of_nat n) -> (N.of_nat n + 1) * d <= u128_max ->
  let st := cap_run cfg st0 (attack n) in
  issued st t = 0 /\ remaining st t = 0 /\ active st a = 0 /\ cs_bal st !! a = Some b
  /\ (forall s q, s <> a -> cs_targets st !! (s, q) = cs_targets st0 !! (s, q)).
Proof.
  intros Hn Hw Rt Rp Hm. unfold attack. cbv zeta. set (st1 := cap_step cfg st0 (OpStake valid a t d)).
  change (cap_run cfg st0 (OpStake valid a t d :: repeat (OpStake valid a p d) n ++ [OpUnstake a t ((N.of_nat n + 1) * d)]))
    with (cap_run cfg st1 (repeat (OpStake valid a p d) n ++ [OpUnstake a t ((N.of_nat n + 1) * d)])).
  unfold cap_run. rewrite !fold_left_app. fold (cap_run cfg st1 (repeat (OpStake valid a p d) n)).
  assert (P : prep (N.of_nat n) (cap_run cfg st1 (repeat (OpStake valid a p d) n))).
  { pose proof (prep_run n 0 st1) as Q. rewrite !N.add_0_l in Q. apply Q; [|done|done]. apply prep_start. destruct Rt.
    assert ((0 + 1) * d <= (N.of_nat n + 1) * d) by (apply N.mul_le_mono_r; lia). split; lia. }
  set (st := cap_run cfg st1 _) in *. clearbody st. destruct P as [P1 P2 P3 P4 _ P7 _ P11]. cbn [fold_left]. set (A := (N.of_nat n + 1) * d) in *.
  assert (HA : 0 < A) by (unfold A; nia). assert (Hs : cs_staking st !! a = Some A).
  { destruct (cs_staking st !! a); cbn in P2; [congruence|lia]. }
  match goal with |- issued ?x _ = _ /\ _ => remember x as st' eqn:E end. revert E.
  unfold cap_step. cbn [cap_apply]. unfold unstake, decrease_active_staking_balance. destruct (N.ltb_spec 0 A); [|lia]. cbn beta iota zeta. rewrite Hs, N.leb_refl.
  cbn beta iota zeta. unfold sd_withdraw. rewrite N.sub_diag. destruct (N.leb_spec 0 (k_min_stake cfg)); [|lia]. cbn beta iota zeta.
  unfold add_unlock_chunk. cbn [set_staking_account k_set_staking cs_unlocks]. rewrite P3, Hu0. cbn [default from_option id]. change (len (@nil Chunk)) with 0.
  destruct (N.ltb_spec 0 (k_max_chunks cfg)); [|lia]. cbn beta iota zeta. unfold reduce_capacity.
  cbn -[calculate_capacity_reduction N.sub N.add]. rewrite P4, P7. cbn [tg_amount tg_capacity cd_tokens cd_issued].
  assert (d <> A) by (unfold A; nia). destruct (N.eqb_spec d A); [done|].
  assert (Er : calculate_capacity_reduction A (tokens_at st0 t + d) (issued st0 t + c) = issued st0 t + c).
  { destruct (decide (A = tokens_at st0 t + d)) as [->|Hq]; [apply reduction_full|].
    unfold calculate_capacity_reduction, perbill_from_rational. assert (tokens_at st0 t + d < A) as L by (unfold A in *; nia).
    apply N.ltb_lt in L. rewrite L, orb_true_r. unfold perbill_mul_ceil, div_up, billion.
    rewrite N.add_comm, N.mul_comm. rewrite N.div_add by done. reflexivity. }
  rewrite Er. cbn beta iota zeta. unfold tg_withdraw, set_target_details_for. cbn [tg_amount].
  replace (d - A) with 0 by lia. cbn. intros ->.
  unfold issued, remaining, active. cbn. rewrite !N.eqb_refl. fold (issued st0 t) (remaining st0 t). rewrite !lookup_insert, lookup_delete. cbn. pose proof (Hri t).
  split; [lia|]. split; [lia|]. split; [done|]. split; [done|]. intros s q Hs'. rewrite lookup_delete_ne by congruence. by apply P11.
Qed.
End wipe.

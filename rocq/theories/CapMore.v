(** Staking the same tokens again and again. *)
From Verif Require Import Prelude Sums CapModel CapSpec CapProofs.

Section again.
Context (cfg : CapCfg) (valid : N -> bool) (a p b : N).
Let d := b - k_min_token cfg.
Let c := capacity_generated cfg d.
Context (Hper : k_per_token cfg <= 10 ^ 9) (Hd : 0 < d) (Hmin : k_min_stake cfg <= d) (Hp : valid p = true).

Lemma generated_le : c <= d.
Proof.
  unfold c, capacity_generated, perbill_mul.
  set (x := k_per_token cfg * d).
  assert (Hx : x <= d * billion) by (unfold x, billion; nia).
  pose proof (N.div_mod x billion ltac:(unfold billion; lia)) as Hdm.
  destruct (billion / 2 <? x mod billion) eqn:E.
  - assert (x / billion < d); [|lia].
    apply N.div_lt_upper_bound; [unfold billion; lia|].
    apply N.ltb_lt in E. assert (0 < x mod billion) by lia.
    destruct (N.eq_dec x (d * billion)) as [Heq|]; [|lia].
    rewrite Heq in H. rewrite N.mod_mul in H by (unfold billion; lia). lia.
  - apply N.div_le_upper_bound; [unfold billion; lia|]. lia.
Qed.

Record again_inv (n : N) (st : CapState) : Prop := {
  ai_bal : cs_bal st !! a = Some b;
  ai_active : default 0 (cs_staking st !! a) = n * d;
  ai_chunks : cs_unlocks st !! a = None;
  ai_target : default tg_default (cs_targets st !! (a, p)) = {| tg_amount := n * d; tg_capacity := n * c |};
  ai_cap : default cd_default (cs_cap st !! p) = {| cd_remaining := n * c; cd_tokens := n * d; cd_issued := n * c; cd_last := 0 |}
}.

Lemma again_step n st : again_inv n st -> (n + 1) * d <= u128_max ->
  again_inv (n + 1) (cap_step cfg st (OpStake valid a p d)).
Proof.
  intros [Hb Ha Hc Ht Hcd] Hmax. pose proof generated_le as Hgen.
  assert (Hc' : (n + 1) * c <= u128_max) by nia.
  unfold cap_step. simpl. unfold stake, ensure_can_stake, get_stakable_amount_for.
  rewrite Hb. simpl. fold d. rewrite N.min_id.
  rewrite Hp. destruct (N.ltb_spec 0 d); [|lia]. simpl. rewrite Ha.
  unfold chk_add at 1. destruct (N.leb_spec (n * d + d) u128_max); [|lia].
  destruct (N.leb_spec (k_min_stake cfg) (n * d + d)); [|lia]. simpl.
  unfold increase_stake_and_issue_capacity. fold c.
  unfold chk_add at 1. destruct (N.leb_spec (d + n * d) u128_max); [|lia].
  rewrite Ht, Hcd. unfold tg_deposit, cd_deposit. simpl.
  unfold chk_add. destruct (N.leb_spec (d + n * d) u128_max); [|lia].
  destruct (N.leb_spec (c + n * c) u128_max); [|lia]. simpl.
  unfold set_staking_account_and_lock. rewrite Hc. simpl.
  change (chunks_total []) with 0.
  unfold chk_add. destruct (N.leb_spec (d + n * d + 0) u128_max); [|lia]. simpl.
  unfold set_staking_account, set_target_details_for, set_capacity_for.
  destruct (N.eqb_spec (d + n * d) 0); [lia|]. simpl.
  destruct (N.eqb_spec (d + n * d) 0); [lia|]. simpl.
  split; simpl.
  - exact Hb.
  - rewrite lookup_insert. simpl. lia.
  - exact Hc.
  - rewrite lookup_insert. simpl. f_equal; lia.
  - rewrite lookup_insert. simpl. f_equal; lia.
Qed.

Lemma again_run n st k : again_inv k st -> (k + N.of_nat n) * d <= u128_max ->
  again_inv (k + N.of_nat n) (cap_run cfg st (repeat (OpStake valid a p d) n)).
Proof.
  revert st k. induction n as [|n IH]; intros st k Hi Hm.
  - simpl. by rewrite N.add_0_r.
  - replace (k + N.of_nat (S n)) with ((k + 1) + N.of_nat n) in * by lia.
    simpl. apply IH; [|exact Hm]. apply again_step; [exact Hi|]. nia.
Qed.

Lemma again_lemma n :
  N.of_nat n * d <= u128_max ->
  let st := cap_run cfg cap_genesis (OpBalances {[a := b]} :: repeat (OpStake valid a p d) n) in
  token_balance st a = b /\ active st a = N.of_nat n * d /\ issued st p = N.of_nat n * c /\ remaining st p = N.of_nat n * c.
Proof.
  intros Hm. simpl.
  destruct (again_run n (cap_step cfg cap_genesis (OpBalances {[a := b]})) 0) as [H1 H2 H3 H4 H5].
  - split; try reflexivity. simpl. by rewrite lookup_singleton.
  - rewrite N.add_0_l. exact Hm.
  - rewrite N.add_0_l in *. unfold token_balance, active, issued, remaining.
    rewrite H1, H2, H5. done.
Qed.
End again.

Lemma again_theorem cfg valid a p b n :
  let d := b - k_min_token cfg in
  let after k := cap_run cfg cap_genesis (OpBalances {[a := b]} :: repeat (OpStake valid a p d) k) in
  k_per_token cfg <= 10 ^ 9 -> valid p = true -> 0 < d -> k_min_stake cfg <= d ->
  N.of_nat n * d <= u128_max ->
  token_balance (after n) a = b /\ active (after n) a = N.of_nat n * d /\
  issued (after n) p = N.of_nat n * issued (after 1%nat) p /\
  remaining (after n) p = N.of_nat n * remaining (after 1%nat) p.
Proof.
  intros d after H1 H2 H3 H4 H5.
  destruct (again_lemma cfg valid a p b H1 H3 H4 H2 n H5) as (A & B & C & D).
  fold d in A, B, C, D. unfold after. repeat (split; [assumption|]).
  destruct n as [|n]; [by rewrite C, D|].
  destruct (again_lemma cfg valid a p b H1 H3 H4 H2 1%nat) as (_ & _ & C1 & D1); [fold d; nia|].
  fold d in C1, D1. rewrite C, D, C1, D1. change (N.of_nat 1) with 1. rewrite !N.mul_1_l. done.
Qed.

(** Properties C20-C31, C37, C38: staking and capacity. *)
From Verif Require Import Prelude Sums CapModel CapSpec CapProofs CapMore.

(** A history used below: two stakers, two providers, epochs of two blocks;
    account 1 stakes 40 and unstakes 15, provider 7 spends, the unstaked tokens
    thaw after three epochs and are withdrawn. *)
Definition demo_cfg : CapCfg :=
  {| k_min_stake := 10; k_min_token := 5; k_max_chunks := 2; k_thaw := 3;
     k_max_epoch_len := 100; k_per_token := 500000000 |}.
Definition anyone (_ : N) : bool := true.
Definition demo_history : list CapOp :=
  [ OpBalances {[1 := 100; 2 := 200]}; OpSetEpochLength true 2;
    OpStake anyone 1 7 40; OpStake anyone 2 7 60; OpBlock 2;
    OpSpend 7 30; OpSpend 7 15; OpSpend 7 15; OpUnstake 1 7 15; OpBlock 3; OpBlock 4; OpWithdraw 1;
    OpBlock 6; OpBlock 8; OpWithdraw 1 ].
Definition demo_state : CapState := cap_run demo_cfg cap_genesis demo_history.
Example demo_observations :
  (active demo_state 1, unlocking demo_state 1, frozen demo_state 1, cs_epoch demo_state,
   issued demo_state 7, remaining demo_state 7) = (25, 0, 25, 4, 42, 0) /\
  map snd (cs_log demo_state) =
    [ EpochLengthUpdated 2; Staked 1 7 40 20; Staked 2 7 60 30; CapacityWithdrawn 7 30;
      CapacityWithdrawn 7 15; UnStaked 1 7 15 8; StakeWithdrawn 1 15 ].
Proof. vm_compute. split; reflexivity. Qed.

(** C20. *)
Theorem C20_frozen_is_stake_plus_unlocking :
  forall cfg h a,
    let st := cap_run cfg cap_genesis h in
    frozen st a = active st a + unlocking st a.
Proof. exact frozen_lemma. Qed.
Print Assumptions C20_frozen_is_stake_plus_unlocking.

(** C21. At any time, what an account has withdrawn so far is at most what it
    had unstaked in epochs that are at least the thaw period ago. *)
Theorem C21_no_early_withdrawal :
  forall cfg h a,
    let st := cap_run cfg cap_genesis h in
    cs_epoch st + k_thaw cfg <= u32_max ->
    withdrawn_total a (cs_log st) <= unstaked_before (k_thaw cfg) (cs_epoch st) a (cs_log st).
Proof. exact no_early_lemma. Qed.
Print Assumptions C21_no_early_withdrawal.

(** C21. A withdrawal releases exactly the chunks that have thawed. *)
Theorem C21_withdrawal_releases_thawed_chunks :
  forall cfg h a st',
    let st := cap_run cfg cap_genesis h in
    cap_apply cfg st (OpWithdraw a) = Ok st' ->
    cs_log st' = cs_log st ++
      [(cs_epoch st, StakeWithdrawn a (values (filter (fun c => ck_thaw c <= cs_epoch st) (chunks st a))))] /\
    chunks st' a = filter (fun c => cs_epoch st < ck_thaw c) (chunks st a).
Proof. exact withdraw_exact_lemma. Qed.
Print Assumptions C21_withdrawal_releases_thawed_chunks.

Example C21_example :
  let early := cap_run demo_cfg cap_genesis (take 12 demo_history) in
  chunks early 1 = [{| ck_value := 15; ck_thaw := 4 |}] /\ cs_epoch early = 2 /\
  cap_apply demo_cfg early (OpWithdraw 1) = Err KNoThawedTokenAvailable.
Proof. vm_compute. repeat split; reflexivity. Qed.

(** C22. *)
Theorem C22_staked_tokens_conserved :
  forall cfg h a,
    let st := cap_run cfg cap_genesis h in
    staked_total a (cs_log st) = active st a + unlocking st a + withdrawn_total a (cs_log st).
Proof. exact conservation_lemma. Qed.
Print Assumptions C22_staked_tokens_conserved.

(** C23. *)
Theorem C23_unlocking_list_bounded :
  forall cfg h a, len (chunks (cap_run cfg cap_genesis h) a) <= k_max_chunks cfg.
Proof. exact chunk_bound_lemma. Qed.
Print Assumptions C23_unlocking_list_bounded.

Theorem C23_unstake_keeps_every_chunk :
  forall cfg st s t amt st',
    cap_apply cfg st (OpUnstake s t amt) = Ok st' ->
    exists c, chunks st' s = chunks st s ++ [c] /\ ck_value c = active st s - active st' s /\ amt <= ck_value c /\
      (cs_epoch st + k_thaw cfg <= u32_max -> ck_thaw c = cs_epoch st + k_thaw cfg).
Proof. exact unstake_appends_lemma. Qed.
Print Assumptions C23_unstake_keeps_every_chunk.

Theorem C23_unstake_refused_when_full :
  forall cfg st s t amt st',
    k_max_chunks cfg <= len (chunks st s) -> cap_apply cfg st (OpUnstake s t amt) <> Ok st'.
Proof. exact unstake_full_lemma. Qed.
Print Assumptions C23_unstake_refused_when_full.

(** C24. *)
Theorem C24_remaining_at_most_issued :
  forall cfg h m, remaining (cap_run cfg cap_genesis h) m <= issued (cap_run cfg cap_genesis h) m.
Proof. exact remaining_lemma. Qed.
Print Assumptions C24_remaining_at_most_issued.

(** C25. From any reachable state, over any continuation within the same epoch:
    what a provider spends is at most what it had issued plus what stakes
    issued to it meanwhile. *)
Theorem C25_spending_per_epoch_bounded :
  forall cfg h0 h m,
    let st := cap_run cfg cap_genesis h0 in
    no_bare_replenish h ->
    cs_epoch (cap_run cfg st h) = cs_epoch st ->
    exists l, cs_log (cap_run cfg st h) = cs_log st ++ l /\ spent m l <= issued st m + granted m l.
Proof. exact spend_bound_lemma. Qed.
Print Assumptions C25_spending_per_epoch_bounded.

(** In the demo, provider 7 (50 issued) spends 45 in epoch 1, and its third
    spend is refused; a restake in the same epoch adds only its own capacity. *)
Example C25_example :
  let st := cap_run demo_cfg cap_genesis (take 5 demo_history) in
  let h := [OpSpend 7 30; OpSpend 7 15; OpSpend 7 15; OpStake anyone 1 7 20; OpSpend 7 15; OpSpend 7 1] in
  cs_epoch (cap_run demo_cfg st h) = cs_epoch st /\
  drop (length (cs_log st)) (cs_log (cap_run demo_cfg st h)) =
    [(1, CapacityWithdrawn 7 30); (1, CapacityWithdrawn 7 15); (1, Staked 1 7 20 10); (1, CapacityWithdrawn 7 15)] /\
  issued st 7 = 50.
Proof. vm_compute. repeat split; reflexivity. Qed.

(** C25. A payment goes through exactly when the provider's available capacity
    (all that is issued, if it has not been replenished in this epoch) covers
    it, and then takes exactly that much from that provider. *)
Theorem C25_payment_exact :
  forall cfg st m fee,
    let avail := if last_replenished st m <? cs_epoch st then issued st m else remaining st m in
    (is_ok (cap_apply cfg st (OpSpend m fee)) = true <-> is_Some (cs_cap st !! m) /\ fee <= avail) /\
    (forall st', cap_apply cfg st (OpSpend m fee) = Ok st' ->
       remaining st' m = avail - fee /\ issued st' m = issued st m /\ tokens_at st' m = tokens_at st m /\
       last_replenished st' m = N.max (last_replenished st m) (cs_epoch st) /\
       (forall m', m' <> m -> cs_cap st' !! m' = cs_cap st !! m') /\
       cs_log st' = cs_log st ++ [(cs_epoch st, CapacityWithdrawn m fee)] /\
       cs_staking st' = cs_staking st /\ cs_targets st' = cs_targets st /\ cs_unlocks st' = cs_unlocks st /\
       cs_freeze st' = cs_freeze st /\ cs_epoch st' = cs_epoch st).
Proof. exact payment_lemma. Qed.
Print Assumptions C25_payment_exact.

(** C26. *)
Theorem C26_no_dust_stakes :
  forall cfg h a,
    let st := cap_run cfg cap_genesis h in
    cs_staking st !! a = None \/ (k_min_stake cfg <= active st a /\ 0 < active st a).
Proof. exact no_dust_lemma. Qed.
Print Assumptions C26_no_dust_stakes.

(** C27. Only the start of a block changes the epoch, by one, exactly when the
    length in force has elapsed; only the root call changes the length. *)
Theorem C27_epoch_progress :
  forall cfg st op,
    cs_epoch st <= u32_max ->
    let st' := cap_step cfg st op in
    cs_epoch st <= cs_epoch st' <= cs_epoch st + 1 /\
    (cs_epoch st' <> cs_epoch st \/ cs_epoch_start st' <> cs_epoch_start st ->
     exists n, op = OpBlock n /\ cs_epoch_len st <= n - cs_epoch_start st /\ cs_epoch_start st' = n) /\
    (forall n, op = OpBlock n -> cs_epoch_len st <= n - cs_epoch_start st -> cs_epoch st < u32_max ->
     cs_epoch st' = cs_epoch st + 1 /\ cs_epoch_start st' = n) /\
    (cs_epoch_len st' <> cs_epoch_len st ->
     exists n, op = OpSetEpochLength true n /\ n <= k_max_epoch_len cfg /\ cs_epoch_len st' = n).
Proof. exact epoch_step_lemma. Qed.
Print Assumptions C27_epoch_progress.

(** C27. Over [k] consecutive blocks with an unchanged length [L], exactly
    [k / L] epochs start. *)
Theorem C27_consecutive_blocks :
  forall cfg st k,
    0 < cs_epoch_len st ->
    let n := N.of_nat k in
    cs_epoch st + n / cs_epoch_len st <= u32_max ->
    let st' := cap_run cfg st (blocks_after (cs_epoch_start st) k) in
    cs_epoch st' = cs_epoch st + n / cs_epoch_len st /\
    cs_epoch_start st' = cs_epoch_start st + cs_epoch_len st * (n / cs_epoch_len st) /\
    cs_epoch_len st' = cs_epoch_len st.
Proof. exact epochs_consecutive_lemma. Qed.
Print Assumptions C27_consecutive_blocks.

Example C27_example :
  cs_epoch (cap_run demo_cfg cap_genesis (blocks_after 0 250)) = 2.
Proof. vm_compute. reflexivity. Qed.

(** C28, what holds: one stake never takes more than the balance less the
    minimum that must stay, adds exactly that to the active stake, and issues
    capacity at the configured ratio (parts per billion, rounded to nearest). *)
Theorem C28_each_stake_backed_partial :
  forall cfg st valid s t amt st',
    cap_apply cfg st (OpStake valid s t amt) = Ok st' ->
    exists actual c, cs_log st' = cs_log st ++ [(cs_epoch st, Staked s t actual c)] /\
      0 < actual <= amt /\ actual + k_min_token cfg <= token_balance st s /\
      active st' s = active st s + actual /\ valid t = true /\
      2 * (c * 10 ^ 9) <= 2 * (actual * k_per_token cfg) + 10 ^ 9 /\
      2 * (actual * k_per_token cfg) <= 2 * (c * 10 ^ 9) + 10 ^ 9 /\
      issued st' t = issued st t + c /\ remaining st' t = remaining st t + c /\
      tokens_at st' t = tokens_at st t + actual /\
      targeted st' s t = targeted st s t + actual /\ targeted_capacity st' s t = targeted_capacity st s t + c.
Proof. exact stake_backed_lemma. Qed.
Print Assumptions C28_each_stake_backed_partial.

(** C28 fails: an account that never had more than 105 tokens has an active
    stake of 300, by staking the same tokens three times. *)
Theorem C28_stake_backed_refuted :
  exists h, active (cap_run demo_cfg cap_genesis h) 1 = 300 /\
    Forall (fun op => match op with OpBalances b => b = {[1 := 105]} | _ => True end) h.
Proof.
  exists [OpBalances {[1 := 105]}; OpStake anyone 1 7 100; OpStake anyone 1 7 100; OpStake anyone 1 7 100].
  split; [vm_compute; reflexivity|repeat constructor].
Qed.
Print Assumptions C28_stake_backed_refuted.

(** C28 fails without any limit, under every configuration: an account that
    holds [b] tokens, of which all but the minimum that must stay are staked [n]
    times over, has [n] times that stake and its provider [n] times the
    capacity of one stake, for every [n] up to the range of the numbers. *)
Theorem C28_unlimited_refuted :
  forall cfg valid a p b n,
    let d := b - k_min_token cfg in
    let after k := cap_run cfg cap_genesis (OpBalances {[a := b]} :: repeat (OpStake valid a p d) k) in
    k_per_token cfg <= 10 ^ 9 -> valid p = true -> 0 < d -> k_min_stake cfg <= d ->
    N.of_nat n * d <= u128_max ->
    token_balance (after n) a = b /\ active (after n) a = N.of_nat n * d /\
    issued (after n) p = N.of_nat n * issued (after 1%nat) p /\
    remaining (after n) p = N.of_nat n * remaining (after 1%nat) p.
Proof. exact again_theorem. Qed.
Print Assumptions C28_unlimited_refuted.

(** The mainnet parameters qualify. *)
Example C28_unlimited_example :
  k_per_token runtime_cap_cfg <= 10 ^ 9 /\ k_min_stake runtime_cap_cfg <= 200000000 - k_min_token runtime_cap_cfg /\
  N.of_nat 1000 * 100000000 <= u128_max /\
  issued (cap_run runtime_cap_cfg cap_genesis [OpBalances {[1 := 200000000]}; OpStake anyone 1 7 100000000]) 7 = 2000000.
Proof. vm_compute. repeat split; discriminate. Qed.

(** C29, what holds: when each staker stakes to a single provider. *)
Theorem C29_totals_single_target_partial :
  forall cfg f h m,
    one_target f h ->
    tokens_at (cap_run cfg cap_genesis h) m = targeted_to (cap_run cfg cap_genesis h) m.
Proof. exact single_lemma. Qed.
Print Assumptions C29_totals_single_target_partial.

Example C29_example :
  one_target (fun _ => 7) demo_history /\ tokens_at demo_state 7 = 85 /\ targeted_to demo_state 7 = 85.
Proof. vm_compute. split; [repeat constructor|split; reflexivity]. Qed.

(** C29 fails: a staker with 10 on provider 7 and 90 on provider 8 unstakes all
    100 through provider 7. Another staker's 50 tokens at provider 7 are no
    longer counted, and provider 8 keeps its capacity with nobody's stake left
    behind it. *)
Theorem C29_totals_refuted :
  exists h,
    let st := cap_run demo_cfg cap_genesis h in
    tokens_at st 7 = 0 /\ targeted st 2 7 = 50 /\
    active st 1 = 0 /\ issued st 8 = 45 /\ targeted st 1 8 = 90.
Proof.
  exists [OpBalances {[1 := 1000; 2 := 1000]}; OpStake anyone 2 7 50;
          OpStake anyone 1 7 10; OpStake anyone 1 8 90; OpUnstake 1 7 100].
  vm_compute. repeat split; reflexivity.
Qed.
Print Assumptions C29_totals_refuted.

(** C30. Unstaking the whole targeted amount gives back that target's whole
    capacity; otherwise the reduction is the share defined below, and never
    more than what is issued. *)
Theorem C30_unstake_reduces_capacity :
  forall cfg st s t amt st',
    cap_apply cfg st (OpUnstake s t amt) = Ok st' ->
    exists actual c,
      cs_log st' = cs_log st ++ [(cs_epoch st, UnStaked s t actual c)] /\
      actual = active st s - active st' s /\
      issued st' t = issued st t - c /\ remaining st' t = remaining st t - c /\
      (targeted st s t = actual ->
         c = targeted_capacity st s t /\ targeted st' s t = 0 /\ targeted_capacity st' s t = 0) /\
      (targeted st s t <> actual ->
         c = calculate_capacity_reduction actual (tokens_at st t) (issued st t) /\ c <= issued st t).
Proof. exact unstake_reduces_lemma. Qed.
Print Assumptions C30_unstake_reduces_capacity.

(** C30. The share of [p] out of [q] tokens in [i] capacity differs from the
    exact [i * p / q] by at most [1 + 2 i / 10^9] upwards and [2 i / 10^9]
    downwards, and is all of [i] when [p = q]. *)
Theorem C30_share_is_proportional :
  forall p q i,
    0 < q -> p <= q ->
    let c := calculate_capacity_reduction p q i in
    c <= i /\ (p = q -> c = i) /\
    c * q * 10 ^ 9 <= i * p * 10 ^ 9 + 2 * i * q + 10 ^ 9 * q /\
    i * p * 10 ^ 9 <= c * q * 10 ^ 9 + 2 * i * q.
Proof. exact share_lemma. Qed.
Print Assumptions C30_share_is_proportional.

Example C30_example : calculate_capacity_reduction 15 100 50 = 8.
Proof. vm_compute. reflexivity. Qed.

(** C31 fails: a successful replenish_by_amount changes nothing. *)
Theorem C31_replenish_by_amount_refuted :
  (forall st m n st', cap_replenish_by_amount st m n = Ok st' -> st' = st) /\
  exists h n st', let st := cap_run demo_cfg cap_genesis h in
    0 < n /\ cap_replenish_by_amount st 7 n = Ok st' /\
    remaining st 7 + n <= issued st 7 /\ remaining st' 7 = remaining st 7.
Proof.
  split.
  - intros st m n st'. unfold cap_replenish_by_amount. destruct (cs_cap st !! m); intros H; by inv_ok.
  - exists (take 6 demo_history), 5. eexists. vm_compute. repeat split; discriminate.
Qed.
Print Assumptions C31_replenish_by_amount_refuted.

(** C37. Thawed tokens can be withdrawn: no reachable state blocks it. *)
Theorem C37_thawed_tokens_withdrawable :
  forall cfg h a c,
    let st := cap_run cfg cap_genesis h in
    c ∈ chunks st a -> ck_thaw c <= cs_epoch st ->
    exists st', cap_apply cfg st (OpWithdraw a) = Ok st'.
Proof. exact withdraw_live_lemma. Qed.
Print Assumptions C37_thawed_tokens_withdrawable.

(** C38. A staker with a free unlocking slot can always unstake everything, in
    one call to some target. *)
Theorem C38_stake_recoverable :
  forall cfg h s,
    let st := cap_run cfg cap_genesis h in
    0 < active st s -> len (chunks st s) < k_max_chunks cfg ->
    exists t st', cap_apply cfg st (OpUnstake s t (active st s)) = Ok st' /\
                  active st' s = 0 /\ unlocking st' s = unlocking st s + active st s.
Proof. exact unstake_live_lemma. Qed.
Print Assumptions C38_stake_recoverable.

Example C38_example : active demo_state 1 = 25 /\ chunks demo_state 1 = [].
Proof. vm_compute. split; reflexivity. Qed.

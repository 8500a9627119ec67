(** The capacity pallet: pallets/capacity/src/lib.rs and types.rs. *)
From Verif Require Import Prelude Sums.

(** [Error<T>], pallets/capacity/src/lib.rs:265-300, plus the generic errors *)
Inductive CapErr :=
| KBadOrigin | KArith
| KInvalidTarget | KInsufficientBalance | KInsufficientStakingAmount | KZeroAmountNotAllowed
| KNotAStakingAccount | KNoUnstakedTokensAvailable | KUnstakedAmountIsZero
| KAmountToUnstakeExceedsAmountStaked | KStakerTargetRelationshipNotFound
| KTargetCapacityNotFound | KMaxUnlockingChunksExceeded | KMaxEpochLengthExceeded
| KBalanceTooLowtoStake | KNoThawedTokenAvailable.

(** [Config], pallets/capacity/src/lib.rs:88-155: MinimumStakingAmount,
    MinimumTokenBalance, MaxUnlockingChunks, UnstakingThawPeriod, MaxEpochLength,
    CapacityPerToken in parts per billion. *)
Record CapCfg := {
  k_min_stake : N;
  k_min_token : N;
  k_max_chunks : N;
  k_thaw : N;
  k_max_epoch_len : N;
  k_per_token : N
}.

(** runtime/common/src/constants.rs:375-400 (mainnet values) *)
Definition runtime_cap_cfg : CapCfg :=
  {| k_min_stake := 1000000; k_min_token := 100000000; k_max_chunks := 4; k_thaw := 30;
     k_max_epoch_len := 7200; k_per_token := 20000000 |}.

(** types.rs:38-43 [UnlockChunk] *)
Record Chunk := { ck_value : N; ck_thaw : N }.
(** types.rs:78-83 [StakingTargetDetails] *)
Record Target := { tg_amount : N; tg_capacity : N }.
(** types.rs:103-112 [CapacityDetails] *)
Record CapDetails := { cd_remaining : N; cd_tokens : N; cd_issued : N; cd_last : N }.
Definition tg_default : Target := {| tg_amount := 0; tg_capacity := 0 |}.
Definition cd_default : CapDetails := {| cd_remaining := 0; cd_tokens := 0; cd_issued := 0; cd_last := 0 |}.

(** [Event<T>], lib.rs:223-262 *)
Inductive CapEvent :=
| Staked (account target amount capacity : N)
| UnStaked (account target amount capacity : N)
| StakeWithdrawn (account amount : N)
| CapacityWithdrawn (msa amount : N)
| EpochLengthUpdated (blocks : N).

(** Storage, lib.rs:158-215, the token pallet's free balances and the freezes
    under [FreezeReason::CapacityStaking], and the events so far, each with the
    epoch in which it was emitted. *)
Record CapState := {
  cs_staking : gmap N N;
  cs_targets : gmap (N * N) Target;
  cs_cap : gmap N CapDetails;
  cs_unlocks : gmap N (list Chunk);
  cs_epoch : N;
  cs_epoch_start : N;
  cs_epoch_len : N;
  cs_freeze : gmap N N;
  cs_bal : gmap N N;
  cs_log : list (N * CapEvent)
}.

(** Epoch length defaults to 100 (lib.rs:196-200). *)
Definition cap_genesis : CapState :=
  {| cs_staking := ∅; cs_targets := ∅; cs_cap := ∅; cs_unlocks := ∅; cs_epoch := 0;
     cs_epoch_start := 0; cs_epoch_len := 100; cs_freeze := ∅; cs_bal := ∅; cs_log := [] |}.

Definition k_set_staking st x := {| cs_staking := x; cs_targets := cs_targets st; cs_cap := cs_cap st; cs_unlocks := cs_unlocks st; cs_epoch := cs_epoch st; cs_epoch_start := cs_epoch_start st; cs_epoch_len := cs_epoch_len st; cs_freeze := cs_freeze st; cs_bal := cs_bal st; cs_log := cs_log st |}.
Definition k_set_targets st x := {| cs_staking := cs_staking st; cs_targets := x; cs_cap := cs_cap st; cs_unlocks := cs_unlocks st; cs_epoch := cs_epoch st; cs_epoch_start := cs_epoch_start st; cs_epoch_len := cs_epoch_len st; cs_freeze := cs_freeze st; cs_bal := cs_bal st; cs_log := cs_log st |}.
Definition k_set_cap st x := {| cs_staking := cs_staking st; cs_targets := cs_targets st; cs_cap := x; cs_unlocks := cs_unlocks st; cs_epoch := cs_epoch st; cs_epoch_start := cs_epoch_start st; cs_epoch_len := cs_epoch_len st; cs_freeze := cs_freeze st; cs_bal := cs_bal st; cs_log := cs_log st |}.
Definition k_set_unlocks st x := {| cs_staking := cs_staking st; cs_targets := cs_targets st; cs_cap := cs_cap st; cs_unlocks := x; cs_epoch := cs_epoch st; cs_epoch_start := cs_epoch_start st; cs_epoch_len := cs_epoch_len st; cs_freeze := cs_freeze st; cs_bal := cs_bal st; cs_log := cs_log st |}.
Definition k_set_epoch st e s := {| cs_staking := cs_staking st; cs_targets := cs_targets st; cs_cap := cs_cap st; cs_unlocks := cs_unlocks st; cs_epoch := e; cs_epoch_start := s; cs_epoch_len := cs_epoch_len st; cs_freeze := cs_freeze st; cs_bal := cs_bal st; cs_log := cs_log st |}.
Definition k_set_epoch_len st x := {| cs_staking := cs_staking st; cs_targets := cs_targets st; cs_cap := cs_cap st; cs_unlocks := cs_unlocks st; cs_epoch := cs_epoch st; cs_epoch_start := cs_epoch_start st; cs_epoch_len := x; cs_freeze := cs_freeze st; cs_bal := cs_bal st; cs_log := cs_log st |}.
Definition k_set_freeze st x := {| cs_staking := cs_staking st; cs_targets := cs_targets st; cs_cap := cs_cap st; cs_unlocks := cs_unlocks st; cs_epoch := cs_epoch st; cs_epoch_start := cs_epoch_start st; cs_epoch_len := cs_epoch_len st; cs_freeze := x; cs_bal := cs_bal st; cs_log := cs_log st |}.
Definition k_set_bal st x := {| cs_staking := cs_staking st; cs_targets := cs_targets st; cs_cap := cs_cap st; cs_unlocks := cs_unlocks st; cs_epoch := cs_epoch st; cs_epoch_start := cs_epoch_start st; cs_epoch_len := cs_epoch_len st; cs_freeze := cs_freeze st; cs_bal := x; cs_log := cs_log st |}.
Definition k_emit st ev := {| cs_staking := cs_staking st; cs_targets := cs_targets st; cs_cap := cs_cap st; cs_unlocks := cs_unlocks st; cs_epoch := cs_epoch st; cs_epoch_start := cs_epoch_start st; cs_epoch_len := cs_epoch_len st; cs_freeze := cs_freeze st; cs_bal := cs_bal st; cs_log := cs_log st ++ [(cs_epoch st, ev)] |}.

(** ** Perbill (sp-arithmetic, a dependency) *)
Definition billion : N := 1000000000.
Definition div_up (a b : N) : N := (a + (b - 1)) / b.
(** [Perbill * n]: rounds to nearest, ties down *)
Definition perbill_mul (part n : N) : N :=
  let q := part * n / billion in
  let r := (part * n) mod billion in
  if billion / 2 <? r then q + 1 else q.
(** [Perbill::mul_ceil] *)
Definition perbill_mul_ceil (part n : N) : N := div_up (part * n) billion.
(** [Perbill::from_rational]: saturates at one; both numbers are first scaled
    down so that the denominator fits the accuracy. *)
Definition perbill_from_rational (p q : N) : N :=
  if (q =? 0) || (q <? p) then billion
  else let f := N.max 1 (div_up q billion) in (p / f) * billion / (q / f).

(** types.rs:186-190 [unlock_chunks_total]: saturating fold *)
Definition chunks_total (l : list Chunk) : N :=
  fold_left (fun acc c => sat_add u128_max acc (ck_value c)) l 0.

(** types.rs:195-210 [unlock_chunks_reap_thawed] *)
Definition chunks_reap (l : list Chunk) (epoch : N) : list Chunk * N :=
  (filter (fun c => epoch < ck_thaw c) l,
   fold_left (fun acc c => sat_add u128_max acc (ck_value c)) (filter (fun c => ck_thaw c <= epoch) l) 0).

Section cap.
Variable cfg : CapCfg.

(** lib.rs:558-566 *)
Definition get_stakable_amount_for (st : CapState) (staker proposed : N) : N :=
  N.min (default 0 (cs_bal st !! staker) - k_min_token cfg) proposed.

(** lib.rs:429-453; [valid] is [T::TargetValidator::validate], i.e. being a
    registered provider *)
Definition ensure_can_stake (st : CapState) (valid : N -> bool) (staker target amount : N) : res CapErr (N * N) :=
  ensure! 0 <? amount else KZeroAmountNotAllowed in
  ensure! valid target else KInvalidTarget in
  let active := default 0 (cs_staking st !! staker) in
  let stakable := get_stakable_amount_for st staker amount in
  ensure! 0 <? stakable else KBalanceTooLowtoStake in
  match chk_add u128_max active stakable with
  | None => Err KArith
  | Some new_active =>
      ensure! k_min_stake cfg <=? new_active else KInsufficientStakingAmount in
      Ok (active, stakable)
  end.

(** lib.rs:627-630 *)
Definition capacity_generated (amount : N) : N := perbill_mul (k_per_token cfg) amount.

(** types.rs:90-95 *)
Definition tg_deposit (t : Target) (amount capacity : N) : option Target :=
  match chk_add u128_max amount (tg_amount t), chk_add u128_max capacity (tg_capacity t) with
  | Some a, Some c => Some {| tg_amount := a; tg_capacity := c |}
  | _, _ => None
  end.

(** types.rs:98-101 *)
Definition tg_withdraw (t : Target) (amount capacity : N) : Target :=
  {| tg_amount := tg_amount t - amount; tg_capacity := tg_capacity t - capacity |}.

(** types.rs:121-133 *)
Definition cd_deposit (d : CapDetails) (amount capacity : N) : option CapDetails :=
  match chk_add u128_max amount (cd_tokens d), chk_add u128_max capacity (cd_remaining d),
        chk_add u128_max capacity (cd_issued d) with
  | Some t, Some r, Some i =>
      Some {| cd_remaining := r; cd_tokens := t; cd_issued := i; cd_last := cd_last d |}
  | _, _, _ => None
  end.

(** types.rs:136-138 *)
Definition cd_can_replenish (d : CapDetails) (epoch : N) : bool := cd_last d <? epoch.
(** types.rs:142-145 *)
Definition cd_replenish_all (d : CapDetails) (epoch : N) : CapDetails :=
  {| cd_remaining := cd_issued d; cd_tokens := cd_tokens d; cd_issued := cd_issued d; cd_last := epoch |}.
(** types.rs:149-152 *)
Definition cd_replenish_by (d : CapDetails) (amount epoch : N) : CapDetails :=
  {| cd_remaining := sat_add u128_max amount (cd_remaining d); cd_tokens := cd_tokens d;
     cd_issued := cd_issued d; cd_last := epoch |}.
(** types.rs:156-161 *)
Definition cd_deduct (d : CapDetails) (amount : N) : option CapDetails :=
  match chk_sub (cd_remaining d) amount with
  | Some r => Some {| cd_remaining := r; cd_tokens := cd_tokens d; cd_issued := cd_issued d; cd_last := cd_last d |}
  | None => None
  end.
(** types.rs:165-169 *)
Definition cd_withdraw (d : CapDetails) (capacity tokens : N) : CapDetails :=
  {| cd_remaining := cd_remaining d - capacity; cd_tokens := cd_tokens d - tokens;
     cd_issued := cd_issued d - capacity; cd_last := cd_last d |}.

(** lib.rs:495-501 *)
Definition set_staking_account (st : CapState) (staker active : N) : CapState :=
  k_set_staking st (if active =? 0 then delete staker (cs_staking st)
                    else <[staker := active]> (cs_staking st)).

(** lib.rs:504-514 *)
Definition set_target_details_for (st : CapState) (staker target : N) (t : Target) : CapState :=
  k_set_targets st (if tg_amount t =? 0 then delete (staker, target) (cs_targets st)
                    else <[(staker, target) := t]> (cs_targets st)).

(** lib.rs:517-522 *)
Definition set_capacity_for (st : CapState) (target : N) (d : CapDetails) : CapState :=
  k_set_cap st (<[target := d]> (cs_cap st)).

(** pallet_balances [set_freeze]: sets the amount frozen under the reason; an
    amount of zero removes it; the balance is not checked. *)
Definition set_freeze (st : CapState) (who amount : N) : CapState :=
  k_set_freeze st (if amount =? 0 then delete who (cs_freeze st) else <[who := amount]> (cs_freeze st)).

(** lib.rs:481-493 *)
Definition set_staking_account_and_lock (st : CapState) (staker active : N) : res CapErr CapState :=
  let unlocks := default [] (cs_unlocks st !! staker) in
  match chk_add u128_max active (chunks_total unlocks) with
  | None => Err KArith
  | Some total => Ok (set_staking_account (set_freeze st staker total) staker active)
  end.

(** lib.rs:457-478 *)
Definition increase_stake_and_issue_capacity (st : CapState) (staker active target amount : N) : res CapErr (CapState * N) :=
  match chk_add u128_max amount active with
  | None => Err KArith
  | Some active' =>
      let capacity := capacity_generated amount in
      match tg_deposit (default tg_default (cs_targets st !! (staker, target))) amount capacity with
      | None => Err KArith
      | Some t' =>
          match cd_deposit (default cd_default (cs_cap st !! target)) amount capacity with
          | None => Err KArith
          | Some d' =>
              let! st1 := set_staking_account_and_lock st staker active' in
              Ok (set_capacity_for (set_target_details_for st1 staker target t') target d', capacity)
          end
      end
  end.

(** lib.rs:320-345 *)
Definition stake (st : CapState) (valid : N -> bool) (staker target amount : N) : res CapErr CapState :=
  let! (active, actual) := ensure_can_stake st valid staker target amount in
  let! (st1, capacity) := increase_stake_and_issue_capacity st staker active target actual in
  Ok (k_emit st1 (Staked staker target actual capacity)).

(** types.rs:54-67 [StakingDetails::withdraw]: new active amount, amount unstaked *)
Definition sd_withdraw (active amount : N) : N * N :=
  if active - amount <=? k_min_stake cfg then (0, active) else (active - amount, amount).

(** lib.rs:525-536 *)
Definition decrease_active_staking_balance (st : CapState) (unstaker amount : N) : res CapErr (CapState * N) :=
  match cs_staking st !! unstaker with
  | None => Err KNotAStakingAccount
  | Some active =>
      ensure! amount <=? active else KAmountToUnstakeExceedsAmountStaked in
      let '(new_active, actual) := sd_withdraw active amount in
      Ok (set_staking_account st unstaker new_active, actual)
  end.

(** lib.rs:538-555 *)
Definition add_unlock_chunk (st : CapState) (unstaker amount : N) : res CapErr CapState :=
  let unlocks := default [] (cs_unlocks st !! unstaker) in
  ensure! len unlocks <? k_max_chunks cfg else KMaxUnlockingChunksExceeded in
  Ok (k_set_unlocks st (<[unstaker := unlocks ++
        [{| ck_value := amount; ck_thaw := sat_add u32_max (cs_epoch st) (k_thaw cfg) |}]]> (cs_unlocks st))).

(** lib.rs:633-639 *)
Definition calculate_capacity_reduction (unstaking total_staked total_capacity : N) : N :=
  perbill_mul_ceil (perbill_from_rational unstaking total_staked) total_capacity.

(** lib.rs:597-624 *)
Definition reduce_capacity (st : CapState) (unstaker target amount : N) : res CapErr (CapState * N) :=
  match cs_targets st !! (unstaker, target) with
  | None => Err KStakerTargetRelationshipNotFound
  | Some t =>
      match cs_cap st !! target with
      | None => Err KTargetCapacityNotFound
      | Some d =>
          let c := if tg_amount t =? amount then tg_capacity t
                   else calculate_capacity_reduction amount (cd_tokens d) (cd_issued d) in
          Ok (set_target_details_for (set_capacity_for st target (cd_withdraw d c amount))
                unstaker target (tg_withdraw t amount c), c)
      end
  end.

(** lib.rs:376-397 *)
Definition unstake (st : CapState) (unstaker target amount : N) : res CapErr CapState :=
  ensure! 0 <? amount else KUnstakedAmountIsZero in
  let! (st1, actual) := decrease_active_staking_balance st unstaker amount in
  let! st2 := add_unlock_chunk st1 unstaker actual in
  let! (st3, c) := reduce_capacity st2 unstaker target actual in
  Ok (k_emit st3 (UnStaked unstaker target actual c)).

(** lib.rs:356-364, 568-594. [thaw] removes the freeze. *)
Definition withdraw_unstaked (st : CapState) (staker : N) : res CapErr CapState :=
  match cs_unlocks st !! staker with
  | None => Err KNoUnstakedTokensAvailable
  | Some unlocks =>
      let '(rest, amount) := chunks_reap unlocks (cs_epoch st) in
      ensure! negb (amount =? 0) else KNoThawedTokenAvailable in
      let st1 := k_set_unlocks st (match rest with
                                   | [] => delete staker (cs_unlocks st)
                                   | _ => <[staker := rest]> (cs_unlocks st)
                                   end) in
      let total_unlocking := match rest with [] => 0 | _ => chunks_total rest end in
      let total := sat_add u128_max (default 0 (cs_staking st1 !! staker)) total_unlocking in
      Ok (k_emit (set_freeze st1 staker total) (StakeWithdrawn staker amount))
  end.

(** lib.rs:408-415 *)
Definition set_epoch_length (st : CapState) (root : bool) (n : N) : res CapErr CapState :=
  ensure! root else KBadOrigin in
  ensure! n <=? k_max_epoch_len cfg else KMaxEpochLengthExceeded in
  Ok (k_emit (k_set_epoch_len st n) (EpochLengthUpdated n)).

(** lib.rs:641-658 [start_new_epoch_if_needed], run by [on_initialize] *)
Definition on_initialize (st : CapState) (block : N) : CapState :=
  if cs_epoch_len st <=? block - cs_epoch_start st
  then k_set_epoch st (sat_add u32_max (cs_epoch st) 1) block
  else st.

(** lib.rs:663-668 *)
Definition cap_balance (st : CapState) (msa : N) : N :=
  match cs_cap st !! msa with Some d => cd_remaining d | None => 0 end.

(** lib.rs:671-684 *)
Definition cap_deduct (st : CapState) (msa amount : N) : res CapErr CapState :=
  match cs_cap st !! msa with
  | None => Err KTargetCapacityNotFound
  | Some d =>
      match cd_deduct d amount with
      | None => Err KInsufficientBalance
      | Some d' => Ok (k_emit (set_capacity_for st msa d') (CapacityWithdrawn msa amount))
      end
  end.

(** lib.rs:698-708 *)
Definition cap_replenish_all_for (st : CapState) (msa : N) : res CapErr CapState :=
  match cs_cap st !! msa with
  | None => Err KTargetCapacityNotFound
  | Some d => Ok (set_capacity_for st msa (cd_replenish_all d (cs_epoch st)))
  end.

(** lib.rs:711-719: the changed details are not written back *)
Definition cap_replenish_by_amount (st : CapState) (msa amount : N) : res CapErr CapState :=
  match cs_cap st !! msa with
  | None => Err KTargetCapacityNotFound
  | Some d => let _ := cd_replenish_by d amount (cs_epoch st) in Ok st
  end.

(** lib.rs:721-726 *)
Definition cap_can_replenish (st : CapState) (msa : N) : bool :=
  match cs_cap st !! msa with Some d => cd_can_replenish d (cs_epoch st) | None => false end.

(** pallets/frequency-tx-payment/src/payment.rs:46-56: what paying a fee with
    capacity does to an MSA's capacity *)
Definition cap_spend (st : CapState) (msa fee : N) : res CapErr CapState :=
  let! st1 := (if cap_can_replenish st msa then cap_replenish_all_for st msa else Ok st) in
  cap_deduct st1 msa fee.

(** Everything that can happen to this state. [OpBalances] stands for any
    change of free balances made by the rest of the chain. *)
Inductive CapOp :=
| OpStake (valid : N -> bool) (staker target amount : N)
| OpUnstake (unstaker target amount : N)
| OpWithdraw (staker : N)
| OpSetEpochLength (root : bool) (n : N)
| OpSpend (msa fee : N)
| OpReplenishAll (msa : N)
| OpReplenishBy (msa amount : N)
| OpBlock (n : N)
| OpBalances (b : gmap N N).

Definition cap_apply (st : CapState) (op : CapOp) : res CapErr CapState :=
  match op with
  | OpStake valid s t a => stake st valid s t a
  | OpUnstake s t a => unstake st s t a
  | OpWithdraw s => withdraw_unstaked st s
  | OpSetEpochLength r n => set_epoch_length st r n
  | OpSpend m f => cap_spend st m f
  | OpReplenishAll m => cap_replenish_all_for st m
  | OpReplenishBy m a => cap_replenish_by_amount st m a
  | OpBlock n => Ok (on_initialize st n)
  | OpBalances b => Ok (k_set_bal st b)
  end.

Definition cap_step (st : CapState) (op : CapOp) : CapState :=
  match cap_apply st op with Ok st' => st' | Err _ => st end.

Definition cap_run (st : CapState) (h : list CapOp) : CapState := fold_left cap_step h st.

End cap.

(** Property C149: unstaking takes away the unstaker's own share of a provider's capacity. *)
From Verif Require Import Prelude CapModel CapSpec WipeProofs.
From Verif Require Import SigModel MsaModel TrModel FeeModel RtModel GenModel RtSpec DeployedProperties SpendSpec.

(** ** C149, for stakers who each stake with a single provider. What is unstaked was staked for
    this provider by the unstaker, and the provider loses at most the capacity generated by
    that staker, or the share [a / tokens] of what is issued, up to rounding. *)
Theorem C149_own_share_partial :
  forall cfg f h s t amt st',
  let st := cap_run cfg cap_genesis h in
  one_target f h -> cap_apply cfg st (OpUnstake s t amt) = Ok st' ->
  let a := active st s - active st' s in
  let c := issued st t - issued st' t in
  a <= targeted st s t /\ targeted st s t <= tokens_at st t
  /\ (c <= targeted_capacity st s t
      \/ c * tokens_at st t * 10 ^ 9 <= issued st t * a * 10 ^ 9 + 2 * issued st t * tokens_at st t + 10 ^ 9 * tokens_at st t).
Proof. exact own_share. Qed.
Print Assumptions C149_own_share_partial.

(** In general it fails, from every state and for every configuration. Whatever others have
    staked for provider [t], an account [a] without stake, with only [d] tokens to spare, can
    take all capacity of [t] away: it stakes its [d] tokens once for [t] and, the same tokens
    again, [n] times for another provider [p], so that [n * d] is at least what all others
    have staked for [t]; then it unstakes everything from [t]. Nobody else's stake has
    changed. The remaining conditions keep the totals within 128 bits. *)
Theorem C149_wiped_out_refuted :
  forall cfg valid a t p b n st,
  let d := b - k_min_token cfg in
  let all_in := (N.of_nat n + 1) * d in
  k_per_token cfg <= 10 ^ 9 -> 0 < k_max_chunks cfg -> 0 < d -> k_min_stake cfg <= d ->
  valid t = true -> valid p = true -> p <> t ->
  cs_bal st !! a = Some b -> cs_staking st !! a = None -> cs_unlocks st !! a = None -> (forall q, cs_targets st !! (a, q) = None) ->
  (forall q, remaining st q <= issued st q) ->
  (1 <= n)%nat -> tokens_at st t <= N.of_nat n * d ->
  (forall q, q = t \/ q = p -> tokens_at st q + all_in <= u128_max /\ issued st q + all_in <= u128_max) ->
  let st' := cap_run cfg st ([OpStake valid a t d] ++ repeat (OpStake valid a p d) n ++ [OpUnstake a t all_in]) in
  issued st' t = 0 /\ remaining st' t = 0
  /\ (forall s, s <> a -> targeted st' s t = targeted st s t /\ targeted_capacity st' s t = targeted_capacity st s t).
Proof.
  intros cfg valid a t p b n st d all_in H1 H2 H3 H4 H5 H6 H7 H8 H9 H10 H11 H12 H13 H14 H15. cbv zeta.
  pose proof (H15 t (or_introl eq_refl)) as Rt. pose proof (H15 p (or_intror eq_refl)) as Rp.
  destruct (wipe cfg valid a t p b H1 H3 H4 H5 H6 H7 H2 st H8 H9 H10 H11 H12 n H13 H14 Rt Rp) as (A & B & _ & _ & C).
  { fold d. fold all_in. destruct Rt. lia. }
  split; [exact A|]. split; [exact B|]. intros s Hs. specialize (C s t Hs). unfold targeted, targeted_capacity. rewrite <- C. done.
Qed.
Print Assumptions C149_wiped_out_refuted.

(** On the deployed runtime. Key 1 stakes 10 tokens for its own MSA 1, a provider. Key 5, with 3
    tokens, sends a single transaction, a batch: MSA 1 is left without any capacity, now and
    in all later epochs, though its stake is still there. *)
Definition rich_ex : gmap N N := <[1 := 10000000000]> (<[5 := 300000000]> ∅).
Definition two_ex : RtState :=
  rt_run (deployed open_ex) (rt_start rich_ex 65500 (tr_initial rich_ex))
    [ SBlock 5; tx_ex 1 0 (RMsa Create); SGov (GProvider 1 [80]); tx_ex 5 0 (RMsa Create); SGov (GProvider 5 [81]);
      tx_ex 1 1 (RCapacity (KStake 1 1000000000)) ].
Definition wiped_ex : RtState :=
  rt_run (deployed open_ex) two_ex
    [ tx_ex 5 1 (RUtility Batch ([RCapacity (KStake 1 150000000)] ++ repeat (RCapacity (KStake 2 150000000)) 7 ++ [RCapacity (KUnstake 1 1200000000)])) ].
Example C149_deployed :
  capacity_left two_ex 1 = 20000000 /\ capacity_issued two_ex 1 = 20000000
  /\ capacity_left wiped_ex 1 = 0 /\ capacity_issued wiped_ex 1 = 0
  /\ targeted (rs_cap wiped_ex) 1 1 = 1000000000 /\ targeted_capacity (rs_cap wiped_ex) 1 1 = 20000000
  /\ active (rs_cap wiped_ex) 1 = 1000000000.
Proof. vm_compute. repeat split; reflexivity. Qed.

(** The hypotheses are met: for the capacity state of that example, key 5 and [n = 6]. *)
Example C149_met :
  let st := rs_cap two_ex in let cfg := r_cap (deployed open_ex) in let b := default 0 (cs_bal st !! 5) in let d := b - k_min_token cfg in
  k_per_token cfg <= 10 ^ 9 /\ 0 < k_max_chunks cfg /\ 0 < d /\ k_min_stake cfg <= d
  /\ cs_bal st !! 5 = Some b /\ cs_staking st !! 5 = None /\ cs_unlocks st !! 5 = None /\ map_to_list (cs_targets st) = [((1, 1), {| tg_amount := 1000000000; tg_capacity := 20000000 |})]
  /\ remaining st 1 <= issued st 1 /\ 0 < tokens_at st 1 <= 6 * d.
Proof. vm_compute. repeat split; try reflexivity; discriminate. Qed.
(** A staker with one provider unstakes part. *)
Example C149_single :
  let h := [OpBalances {[1 := 1000; 2 := 1000]}; OpStake (fun _ => true) 2 7 50; OpStake (fun _ => true) 1 7 100] in
  let cfg := {| k_min_stake := 5; k_min_token := 3; k_max_chunks := 4; k_thaw := 2; k_max_epoch_len := 100; k_per_token := 500000000 |} in
  one_target (fun _ => 7) h /\ exists st', cap_apply cfg (cap_run cfg cap_genesis h) (OpUnstake 1 7 40) = Ok st' /\ issued st' 7 < issued (cap_run cfg cap_genesis h) 7.
Proof. cbv zeta. split; [repeat constructor|]. eexists. split; [vm_compute; reflexivity|vm_compute; reflexivity]. Qed.

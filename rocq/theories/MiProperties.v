(** Properties C90 and C92: the migrations from balance locks to freezes. Pre-states
    are those of the pallets after arbitrary histories, with any other locks and
    freezes on the accounts. *)
From Verif Require Import Prelude CapModel CapSpec CapProperties TrModel TrSpec TrProperties MiModel MiSpec MiProofs.

(** ** C90. Every account with active stake has, after the migration, exactly the
    amount frozen that was locked before (its stake and what it is unstaking), its
    lock is gone, and its other locks and freezes are the same. Partial: accounts
    that have no active stake but are still unstaking, see the refutation. *)
Theorem C90_freeze_replaces_lock_partial :
  forall cfg h pre,
    let st := cap_run cfg cap_genesis h in
    locked_stakes st pre ->
    let post := migrate_to_v3 runtime_max_freezes pre in
    forall who,
    known_freezes (cm_tokens pre) -> 0 < active st who ->
    freeze_of (cm_tokens post) capacity_staking who = lock_of (cm_tokens pre) staking_id who
    /\ lock_of (cm_tokens pre) staking_id who = active st who + unlocking st who
    /\ lock_of (cm_tokens post) staking_id who = 0
    /\ tk_frozen (cm_tokens post) who = tk_frozen (cm_tokens pre) who
    /\ (forall id, id <> staking_id -> lock_of (cm_tokens post) id who = lock_of (cm_tokens pre) id who)
    /\ (forall r, r <> capacity_staking -> freeze_of (cm_tokens post) r who = freeze_of (cm_tokens pre) r who).
Proof. exact cap_replaced. Qed.
Print Assumptions C90_freeze_replaces_lock_partial.

(** No account can spend more, or less, after the migration than before. *)
Theorem C90_same_tokens_protected :
  forall cfg h pre who,
    locked_stakes (cap_run cfg cap_genesis h) pre -> known_freezes (cm_tokens pre) ->
    tk_frozen (cm_tokens (migrate_to_v3 runtime_max_freezes pre)) who = tk_frozen (cm_tokens pre) who.
Proof. exact cap_protected. Qed.
Print Assumptions C90_same_tokens_protected.

(** Accounts without active stake are not touched; nor are the stakes. *)
Theorem C90_others_untouched :
  forall cfg h pre,
    let st := cap_run cfg cap_genesis h in
    locked_stakes st pre ->
    let post := migrate_to_v3 runtime_max_freezes pre in
    forall who, active st who = 0 ->
      (forall id, lock_of (cm_tokens post) id who = lock_of (cm_tokens pre) id who) /\
      (forall r, freeze_of (cm_tokens post) r who = freeze_of (cm_tokens pre) r who).
Proof. exact cap_untouched. Qed.
Print Assumptions C90_others_untouched.
Theorem C90_stakes_untouched :
  forall max pre, cm_ledger (migrate_to_v3 max pre) = cm_ledger pre /\ cm_unlocks (migrate_to_v3 max pre) = cm_unlocks pre.
Proof. exact cap_keeps. Qed.
Print Assumptions C90_stakes_untouched.

(** Running it again changes nothing, whatever the state. *)
Theorem C90_idempotent :
  forall max st, migrate_to_v3 max (migrate_to_v3 max st) = migrate_to_v3 max st.
Proof. exact cap_again. Qed.
Print Assumptions C90_idempotent.

(** ** A pre-state. Account 1 staked 100 and is unstaking 40 of it; account 2 staked
    50 and is unstaking all of it; account 1 has another lock of 10 under id 9. *)
Definition mig_h : list CapOp :=
  [ OpBalances {[1 := 1000; 2 := 1000]}; OpStake anyone 1 7 100; OpStake anyone 2 7 50; OpUnstake 1 7 40; OpUnstake 2 7 50 ].
Definition mig_pre : CapMig :=
  let st := cap_run demo_cfg cap_genesis mig_h in
  {| cm_version := 2; cm_ledger := cs_staking st; cm_unlocks := cs_unlocks st;
     cm_tokens := {| tk_locks := {[1 := {[staking_id := 100; 9 := 10]}; 2 := {[staking_id := 50]}]}; tk_freezes := {[1 := {[time_release_vesting := 70]}]} |} |}.
Lemma mig_pre_ok : locked_stakes (cap_run demo_cfg cap_genesis mig_h) mig_pre /\ known_freezes (cm_tokens mig_pre).
Proof.
  split; [split; [vm_compute; reflexivity|]; split; [reflexivity|]; split; [reflexivity|]|].
  - intros who. assert (E : cs_freeze (cap_run demo_cfg cap_genesis mig_h) = {[1 := 100; 2 := 50]}) by (apply (bool_decide_eq_true_1 _); vm_compute; reflexivity). rewrite E.
    unfold locks_of, freezes_of. cbn [mig_pre cm_tokens tk_locks tk_freezes].
    destruct (N.eq_dec who 1) as [->|H1]; [split; reflexivity|]. destruct (N.eq_dec who 2) as [->|H2]; [split; reflexivity|].
    rewrite !lookup_insert_ne by congruence. rewrite !lookup_singleton_ne by congruence. split; reflexivity.
  - intros who r. unfold freezes_of. cbn [mig_pre cm_tokens tk_freezes]. destruct (N.eq_dec who 1) as [->|H1].
    + rewrite lookup_singleton. cbn [default]. destruct (N.eq_dec r time_release_vesting) as [->|H]; [by right|]. unfold default, id. by rewrite lookup_singleton_ne.
    + rewrite lookup_singleton_ne by done. unfold default. by rewrite lookup_empty.
Qed.
Example C90_example :
  let st := cap_run demo_cfg cap_genesis mig_h in let post := migrate_to_v3 runtime_max_freezes mig_pre in
  active st 1 = 60 /\ unlocking st 1 = 40 /\ freeze_of (cm_tokens post) capacity_staking 1 = 100 /\ lock_of (cm_tokens post) staking_id 1 = 0
  /\ tk_frozen (cm_tokens post) 1 = 100.
Proof. vm_compute. done. Qed.

(** ** C90 is not true as listed: account 2 has 50 locked and no active stake. The
    migration passes it over: nothing is frozen and the lock stays. Withdrawing the
    50 later succeeds but thaws a freeze that is not there; no code of the pallet
    removes the lock, so the tokens stay locked although the pallet has forgotten
    them. *)
Theorem C90_unlock_only_refuted :
  exists cfg h pre who,
    let st := cap_run cfg cap_genesis h in let post := migrate_to_v3 runtime_max_freezes pre in
    locked_stakes st pre /\ known_freezes (cm_tokens pre)
    /\ lock_of (cm_tokens pre) staking_id who = 50
    /\ freeze_of (cm_tokens post) capacity_staking who = 0 /\ lock_of (cm_tokens post) staking_id who = 50
    /\ exists later st', cap_apply cfg (cap_run cfg st later) (OpWithdraw who) = Ok st'
                      /\ active st' who = 0 /\ unlocking st' who = 0 /\ frozen st' who = 0.
Proof.
  exists demo_cfg, mig_h, mig_pre, 2. destruct mig_pre_ok as [H1 H2]. split; [exact H1|]. split; [exact H2|].
  split; [by vm_compute|]. split; [by vm_compute|]. split; [by vm_compute|].
  exists [OpBlock 1; OpBlock 100; OpBlock 101; OpBlock 201; OpBlock 301; OpBlock 401]. eexists. split; [vm_compute; reflexivity|]. by vm_compute.
Qed.
Print Assumptions C90_unlock_only_refuted.

(** ** C92. After the migration of a state reached by any history, the freeze of
    every account is the sum of the totals of its schedules (at most the greatest
    amount there is), its lock is gone, and its other locks and freezes are the same. *)
Theorem C92_frozen_amount :
  forall cfg b items st0 h, genesis_build cfg (tr_initial b) items = Ok st0 -> times_from 0 h ->
  let st := tr_run cfg st0 h in
  forall pre, locked_schedules st pre -> known_freezes (tm_tokens pre) ->
  let post := tr_migrate_to_v2 runtime_max_freezes pre in
  forall who,
    freeze_of (tm_tokens post) time_release_vesting who = N.min u128_max (Sums.sumN (map total_of (t_schedules st who)))
    /\ (tr_sched st !! who <> None -> lock_of (tm_tokens post) release_id who = 0)
    /\ (forall id, id <> release_id -> lock_of (tm_tokens post) id who = lock_of (tm_tokens pre) id who)
    /\ (forall r, r <> time_release_vesting -> freeze_of (tm_tokens post) r who = freeze_of (tm_tokens pre) r who).
Proof. exact tr_frozen_eq. Qed.
Print Assumptions C92_frozen_amount.

(** It covers what is unreleased at every time from then on, whatever is done next. *)
Theorem C92_freeze_covers_unreleased :
  forall cfg b items st0 h, genesis_build cfg (tr_initial b) items = Ok st0 -> times_from 0 h ->
  let st := tr_run cfg st0 h in
  forall pre, locked_schedules st pre -> known_freezes (tm_tokens pre) ->
  let post := tr_migrate_to_v2 runtime_max_freezes pre in
  forall who t, last_time 0 h <= t ->
    unreleased_of st who t <= freeze_of (tm_tokens post) time_release_vesting who.
Proof. exact tr_covers. Qed.
Print Assumptions C92_freeze_covers_unreleased.
Theorem C92_covers_for_ever :
  forall cfg b items st0 h, genesis_build cfg (tr_initial b) items = Ok st0 -> times_from 0 h ->
  let st := tr_run cfg st0 h in
  forall pre, locked_schedules st pre -> known_freezes (tm_tokens pre) ->
  let post := tr_migrate_to_v2 runtime_max_freezes pre in
  forall st' h' who t, goes_on st post st' -> times_from (last_time 0 h) h' -> last_time (last_time 0 h) h' <= t ->
    unreleased_of (tr_run cfg st' h') who t <= vesting_frozen (tr_run cfg st' h') who.
Proof. exact tr_for_ever. Qed.
Print Assumptions C92_covers_for_ever.
(** The next claim brings the freeze down to what is unreleased. *)
Theorem C92_claim_releases_the_rest :
  forall cfg b items st0 h, genesis_build cfg (tr_initial b) items = Ok st0 -> times_from 0 h ->
  let st := tr_run cfg st0 h in
  forall pre, locked_schedules st pre -> known_freezes (tm_tokens pre) ->
  let post := tr_migrate_to_v2 runtime_max_freezes pre in
  forall st' x who now, goes_on st post st' -> last_time 0 h <= now ->
    exists st'', tr_apply cfg st' now (TClaimFor (Some x) who) = Ok st'' /\ vesting_frozen st'' who = unreleased_of st who now.
Proof. exact tr_claims. Qed.
Print Assumptions C92_claim_releases_the_rest.
Theorem C92_idempotent :
  forall max st, tr_migrate_to_v2 max (tr_migrate_to_v2 max st) = tr_migrate_to_v2 max st.
Proof. exact tr_again. Qed.
Print Assumptions C92_idempotent.

(** Account 1 of the vesting example: 32 are locked at block 12 of its schedules'
    total of 51, which the migration freezes; 51 cover the 32. *)
Definition mig_tr : TrMig :=
  {| tm_version := 1; tm_sched := tr_sched (vest_run vest_h);
     tm_tokens := {| tk_locks := {[1 := {[release_id := 32]}]}; tk_freezes := ∅ |} |}.
Example C92_example :
  let st := vest_run vest_h in let post := tr_migrate_to_v2 runtime_max_freezes mig_tr in
  locked_schedules st mig_tr /\ known_freezes (tm_tokens mig_tr)
  /\ freeze_of (tm_tokens post) time_release_vesting 1 = 51 /\ unreleased_of st 1 12 = 32 /\ lock_of (tm_tokens post) release_id 1 = 0.
Proof.
  cbn zeta. split; [split; [vm_compute; reflexivity|]; split; [reflexivity|]|].
  - intros who. assert (E : tr_freeze (vest_run vest_h) = {[1 := 32]}) by (apply (bool_decide_eq_true_1 _); vm_compute; reflexivity). rewrite E. unfold locks_of, freezes_of. cbn [mig_tr tm_tokens tk_locks tk_freezes].
    rewrite lookup_empty. destruct (N.eq_dec who 1) as [->|H1]; [split; reflexivity|]. by rewrite !lookup_singleton_ne.
  - split; [intros who r; unfold freezes_of; cbn [mig_tr tm_tokens tk_freezes]; rewrite lookup_empty; unfold default; by rewrite lookup_empty|]. by vm_compute.
Qed.

(** Vocabulary of the properties of the lock-to-freeze migrations. *)
From Verif Require Import Prelude Sums CapModel CapSpec TrModel TrSpec MiModel.

Definition lock_of (t : Tokens) (id who : N) : N := default 0 (locks_of t who !! id).
Definition freeze_of (t : Tokens) (reason who : N) : N := default 0 (freezes_of t who !! reason).

(** Freezes exist for the two reasons of this runtime only. *)
Definition known_freezes (t : Tokens) : Prop :=
  forall who r, freezes_of t who !! r <> None -> r = capacity_staking \/ r = time_release_vesting.

(** The state before the capacity migration: that of the pallet after some history,
    with a lock of the amount that the present pallet would freeze. (The code before
    the migration is not in /repo; it is taken to be the present one but for that.) *)
Definition locked_stakes (st : CapState) (pre : CapMig) : Prop :=
  cm_version pre < 3 /\ cm_ledger pre = cs_staking st /\ cm_unlocks pre = cs_unlocks st
  /\ forall who, locks_of (cm_tokens pre) who !! staking_id = cs_freeze st !! who
              /\ freezes_of (cm_tokens pre) who !! capacity_staking = None.

(** The same for time release. *)
Definition locked_schedules (st : TrState) (pre : TrMig) : Prop :=
  tm_version pre < 2 /\ tm_sched pre = tr_sched st
  /\ forall who, locks_of (tm_tokens pre) who !! release_id = tr_freeze st !! who
              /\ freezes_of (tm_tokens pre) who !! time_release_vesting = None.
(** The pallet goes on with the freezes of the migration. *)
Definition goes_on (st : TrState) (post : TrMig) (st' : TrState) : Prop :=
  tr_sched st' = tm_sched post /\ tr_bal st' = tr_bal st /\ tr_added st' = tr_added st
  /\ forall who, vesting_frozen st' who = freeze_of (tm_tokens post) time_release_vesting who.

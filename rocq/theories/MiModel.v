(** The migrations that turn balance locks into freezes:
    pallets/capacity/src/migration/v3.rs and pallets/time-release/src/migration/v2.rs. *)
From Verif Require Import Prelude CapModel TrModel.

(** ** The part of pallet_balances that is concerned (a dependency, not in /repo):
    the locks and freezes of every account, by identifier. There they are vectors
    in which an identifier occurs at most once; the freezes hold at most
    [MaxFreezes] entries. Accounts are taken to exist. *)
Record Tokens := { tk_locks : gmap N (gmap N N); tk_freezes : gmap N (gmap N N) }.
Definition locks_of (t : Tokens) (who : N) : gmap N N := default ∅ (tk_locks t !! who).
Definition freezes_of (t : Tokens) (who : N) : gmap N N := default ∅ (tk_freezes t !! who).
Definition put_freezes (t : Tokens) (who : N) (f : gmap N N) : Tokens := {| tk_locks := tk_locks t; tk_freezes := <[who := f]> (tk_freezes t) |}.
(** [MutateFreeze::set_freeze]; [None] is TooManyFreezes *)
Definition tk_set_freeze (max_freezes : N) (t : Tokens) (reason who amount : N) : option Tokens :=
  let f := freezes_of t who in
  if amount =? 0 then Some (put_freezes t who (delete reason f))
  else match f !! reason with
       | Some _ => Some (put_freezes t who (<[reason := amount]> f))
       | None => if N.of_nat (size f) <? max_freezes then Some (put_freezes t who (<[reason := amount]> f)) else None
       end.
(** [LockableCurrency::remove_lock] *)
Definition tk_remove_lock (t : Tokens) (id who : N) : Tokens :=
  {| tk_locks := <[who := delete id (locks_of t who)]> (tk_locks t); tk_freezes := tk_freezes t |}.
(** An account can spend what is above the greatest of its locks and freezes. *)
Definition greatest (m : gmap N N) : N := map_fold (fun _ a b => N.max a b) 0 m.
Definition tk_frozen (t : Tokens) (who : N) : N := N.max (greatest (locks_of t who)) (greatest (freezes_of t who)).

(** ** [translate_lock_to_freeze]: capacity v3.rs:32-61, time-release v2.rs:31-61.
    A failed freeze is only logged; the lock is removed all the same. *)
Definition translate_lock_to_freeze (max_freezes reason lock_id : N) (t : Tokens) (e : N * N) : Tokens :=
  let '(who, amount) := e in
  tk_remove_lock (default t (tk_set_freeze max_freezes t reason who amount)) lock_id who.

(** The identifiers: v3.rs:22 [STAKING_ID], v2.rs:18 [RELEASE_LOCK_ID], and the two
    freeze reasons (runtime composite enum); runtime/common/src/constants.rs:139. *)
Definition staking_id : N := 1.
Definition release_id : N := 2.
Definition capacity_staking : N := 1.
Definition time_release_vesting : N := 2.
Definition runtime_max_freezes : N := 2.

(** ** Capacity: the staking ledger, the unlocks, the storage version. *)
Record CapMig := { cm_version : N; cm_ledger : gmap N N; cm_unlocks : gmap N (list Chunk); cm_tokens : Tokens }.
(** v3.rs:63-67 *)
Definition get_unlocking_total_for (st : CapMig) (who : N) : N := chunks_total (default [] (cm_unlocks st !! who)).
(** v3.rs:76-119 [on_runtime_upgrade] without the weights. [map_to_list] stands for
    the order of the storage's iteration. *)
Definition migrate_to_v3 (max_freezes : N) (st : CapMig) : CapMig :=
  if 3 <=? cm_version st then st
  else {| cm_version := 3; cm_ledger := cm_ledger st; cm_unlocks := cm_unlocks st;
          cm_tokens := fold_left (translate_lock_to_freeze max_freezes capacity_staking staking_id)
                         (map (fun '(who, active) => (who, sat_add u128_max active (get_unlocking_total_for st who))) (map_to_list (cm_ledger st)))
                         (cm_tokens st) |}.

(** ** Time release *)
Record TrMig := { tm_version : N; tm_sched : gmap N (list Sched); tm_tokens : Tokens }.
(** v2.rs:167-180 *)
Definition calculate_total_scheduled_frozen (l : list Sched) : N :=
  fold_left (fun acc s => sat_add u128_max acc (default 0 (sc_total s))) l 0.
(** v2.rs:72-126 *)
Definition tr_migrate_to_v2 (max_freezes : N) (st : TrMig) : TrMig :=
  if 2 <=? tm_version st then st
  else {| tm_version := 2; tm_sched := tm_sched st;
          tm_tokens := fold_left (translate_lock_to_freeze max_freezes time_release_vesting release_id)
                         (map (fun '(who, l) => (who, calculate_total_scheduled_frozen l)) (map_to_list (tm_sched st)))
                         (tm_tokens st) |}.

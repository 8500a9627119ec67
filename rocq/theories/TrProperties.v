(** Properties C32-C36, C39: vesting. *)
From Verif Require Import Prelude Sums TrModel TrSpec TrProofs.

(** A chain used below: account 1 has a schedule at genesis; account 2 sends it
    another one at block 5; claims happen at blocks 12 and 31. *)
Definition vest_cfg : TrCfg := {| t_min := 5; t_max := 3; t_ed := 2 |}.
Definition vest_s1 : Sched := {| sc_start := 0; sc_period := 10; sc_count := 3; sc_per := 7 |}.
Definition vest_s2 : Sched := {| sc_start := 3; sc_period := 4; sc_count := 5; sc_per := 6 |}.
Definition vest_items : list (N * Sched) := [(1, vest_s1)].
Definition vest_bal : gmap N N := <[1 := 50]> (<[2 := 31]> ∅).
Definition vest_h : list (N * TrCall) :=
  [ (5, TTransfer true 2 1 vest_s2); (12, TClaimFor (Some 9) 1) ].
Definition vest_run (h : list (N * TrCall)) : TrState :=
  match genesis_build vest_cfg (tr_initial vest_bal) vest_items with
  | Ok st0 => tr_run vest_cfg st0 h
  | Err _ => tr_initial ∅
  end.
Example vest_demo :
  (exists st0, genesis_build vest_cfg (tr_initial vest_bal) vest_items = Ok st0) /\
  times_from 0 vest_h /\ last_time 0 vest_h = 12 /\
  vesting_frozen (vest_run []) 1 = 21 /\
  vesting_frozen (vest_run (take 1 vest_h)) 1 = 51 /\
  vesting_frozen (vest_run vest_h) 1 = 32 /\ unreleased_of (vest_run vest_h) 1 12 = 32 /\
  (t_balance (vest_run vest_h) 1, t_balance (vest_run vest_h) 2) = (80, 0) /\
  t_schedules (vest_run (vest_h ++ [(31, TClaimFor (Some 9) 1)])) 1 = [] /\
  vesting_frozen (vest_run (vest_h ++ [(31, TClaimFor (Some 9) 1)])) 1 = 0.
Proof. vm_compute. split; [eexists; reflexivity|]. repeat split; try reflexivity; discriminate. Qed.

(** C32. In every reachable state, and at every time from the last call on, the
    freeze is at least what the schedules have not yet released. *)
Theorem C32_freeze_covers_unreleased :
  forall cfg b items st0 h a t,
    genesis_build cfg (tr_initial b) items = Ok st0 -> times_from 0 h -> last_time 0 h <= t ->
    unreleased_of (tr_run cfg st0 h) a t <= vesting_frozen (tr_run cfg st0 h) a.
Proof. exact covers_lemma. Qed.
Print Assumptions C32_freeze_covers_unreleased.

(** C32 and C35. A claim by any signer for any account succeeds. It sets the
    freeze of that account to the unreleased amount (never raising it), removes
    only schedules with nothing left to release, and touches nothing else. *)
Theorem C35_claim_effect :
  forall cfg b items st0 h now x a,
    genesis_build cfg (tr_initial b) items = Ok st0 -> times_from 0 h -> last_time 0 h <= now ->
    let st := tr_run cfg st0 h in
    exists st', tr_apply cfg st now (TClaimFor (Some x) a) = Ok st' /\
      vesting_frozen st' a = unreleased_of st a now /\
      vesting_frozen st' a <= vesting_frozen st a /\
      unreleased_of st' a now = unreleased_of st a now /\
      t_schedules st' a = filter (fun s => 0 < unreleased s now) (t_schedules st a) /\
      (forall c, c <> a -> t_schedules st' c = t_schedules st c /\ vesting_frozen st' c = vesting_frozen st c) /\
      tr_bal st' = tr_bal st.
Proof. exact claim_lemma. Qed.
Print Assumptions C35_claim_effect.

Theorem C32_equal_after_claim :
  forall cfg b items st0 h now x a,
    genesis_build cfg (tr_initial b) items = Ok st0 -> times_from 0 h -> last_time 0 h <= now ->
    let st' := tr_run cfg st0 (h ++ [(now, TClaimFor (Some x) a)]) in
    vesting_frozen st' a = unreleased_of st' a now.
Proof. exact equal_after_claim_lemma. Qed.
Print Assumptions C32_equal_after_claim.

Theorem C35_claim_idempotent :
  forall cfg b items st0 h now x y a st1,
    genesis_build cfg (tr_initial b) items = Ok st0 -> times_from 0 h -> last_time 0 h <= now ->
    tr_apply cfg (tr_run cfg st0 h) now (TClaimFor (Some x) a) = Ok st1 ->
    tr_apply cfg st1 now (TClaimFor (Some y) a) = Ok st1.
Proof. exact claim_idempotent_lemma. Qed.
Print Assumptions C35_claim_idempotent.

(** C33. For a schedule the pallet accepts, the amount frozen at [t] is the
    per-period amount times the number of due dates after [t]. *)
Theorem C33_schedule_arithmetic :
  forall s t, valid_sched s ->
    sc_frozen s t = Some (unreleased s t) /\
    (t < sc_start s + sc_period s -> unreleased s t = total_of s) /\
    (sc_start s + sc_period s * sc_count s <= t -> unreleased s t = 0) /\
    (forall t', t <= t' -> unreleased s t' <= unreleased s t) /\
    sc_end s = Some (sc_start s + sc_period s * sc_count s) /\ sc_total s = Some (total_of s).
Proof. exact arithmetic_lemma. Qed.
Print Assumptions C33_schedule_arithmetic.

(** C33. The pallet accepts only such schedules, and of those all that reach
    the minimum amount. *)
Theorem C33_accepted_iff_valid :
  forall cfg s,
    (exists total, ensure_valid_release_schedule cfg s = Ok total) <->
    (valid_sched s /\ t_min cfg <= total_of s).
Proof. exact accepted_iff_lemma. Qed.
Print Assumptions C33_accepted_iff_valid.

Example C33_example :
  valid_sched vest_s2 /\
  map (unreleased vest_s2) [0; 6; 7; 10; 11; 22; 23] = [30; 30; 24; 24; 18; 6; 0].
Proof. split; [|reflexivity]. unfold valid_sched, total_of; cbn. repeat split; discriminate. Qed.

(** C34. *)
Theorem C34_transfer_effect :
  forall cfg b items st0 h now allowed from to s st',
    genesis_build cfg (tr_initial b) items = Ok st0 -> times_from 0 h -> last_time 0 h <= now ->
    let st := tr_run cfg st0 h in
    tr_apply cfg st now (TTransfer allowed from to s) = Ok st' ->
    valid_sched s /\ t_min cfg <= total_of s /\
    total_of s <= t_balance st from /\
    t_schedules st' to = filter (fun s => 0 < unreleased s now) (t_schedules st to) ++ [s] /\
    vesting_frozen st' to = unreleased_of st to now + total_of s /\
    (forall c, c <> to -> t_schedules st' c = t_schedules st c /\ vesting_frozen st' c = vesting_frozen st c) /\
    (from <> to ->
       t_balance st' to = t_balance st to + total_of s /\
       (t_balance st' from = t_balance st from - total_of s \/
        (t_balance st' from = 0 /\ t_balance st from - total_of s < t_ed cfg))) /\
    (from = to -> tr_bal st' = tr_bal st) /\
    (forall c, c <> to -> c <> from -> t_balance st' c = t_balance st c).
Proof. exact transfer_lemma. Qed.
Print Assumptions C34_transfer_effect.

(** C34. A transfer goes through exactly when its schedule is valid and large
    enough, the token pallet allows it, the sender has the tokens, the
    receiver's frozen total does not overflow and a slot is free. *)
Theorem C34_transfer_accepted_iff :
  forall cfg b items st0 h now allowed from to s,
    genesis_build cfg (tr_initial b) items = Ok st0 -> times_from 0 h -> last_time 0 h <= now ->
    let st := tr_run cfg st0 h in
    is_ok (tr_apply cfg st now (TTransfer allowed from to s)) = true <->
    valid_sched s /\ t_min cfg <= total_of s /\ allowed = true /\ total_of s <= t_balance st from /\
    unreleased_of st to now + total_of s <= u128_max /\
    len (filter (fun s => 0 < unreleased s now) (t_schedules st to)) < t_max cfg.
Proof. exact transfer_iff_lemma. Qed.
Print Assumptions C34_transfer_accepted_iff.

Theorem C34_refused_changes_nothing :
  forall cfg st now c e, tr_apply cfg st now c = Err e -> tr_step cfg st (now, c) = st.
Proof. exact refused_lemma. Qed.
Print Assumptions C34_refused_changes_nothing.

Theorem C34_schedules_bounded :
  forall cfg b items st0 h a,
    genesis_build cfg (tr_initial b) items = Ok st0 -> times_from 0 h ->
    len (t_schedules (tr_run cfg st0 h) a) <= t_max cfg /\ Forall valid_sched (t_schedules (tr_run cfg st0 h) a).
Proof. exact bounded_lemma. Qed.
Print Assumptions C34_schedules_bounded.

(** C36. Take all schedules an account ever received, at genesis or by
    transfer, with no root update of them: right after a claim, what is frozen
    plus what they have released is their total. *)
Theorem C36_conservation :
  forall cfg b items st0 h now x a st',
    genesis_build cfg (tr_initial b) items = Ok st0 -> times_from 0 h -> last_time 0 h <= now ->
    no_update a h ->
    tr_apply cfg (tr_run cfg st0 h) now (TClaimFor (Some x) a) = Ok st' ->
    let got := added_to a items ++ added_to a (tr_added st') in
    vesting_frozen st' a + sumN (map (fun s => released s now) got) = sumN (map total_of got).
Proof. exact conservation_lemma. Qed.
Print Assumptions C36_conservation.

(** C36. The received schedules are those of the successful transfers. *)
Theorem C36_added_is_transfers :
  forall cfg b items st0 h now allowed from to s st',
    genesis_build cfg (tr_initial b) items = Ok st0 -> times_from 0 h -> last_time 0 h <= now ->
    tr_apply cfg (tr_run cfg st0 h) now (TTransfer allowed from to s) = Ok st' ->
    tr_added st' = tr_added (tr_run cfg st0 h) ++ [(to, s)].
Proof. exact added_lemma. Qed.
Print Assumptions C36_added_is_transfers.

Example C36_example :
  no_update 1 vest_h /\ added_to 1 (tr_added (vest_run vest_h)) = [vest_s2] /\
  map (fun s => released s 12) [vest_s1; vest_s2] = [7; 12] /\ map total_of [vest_s1; vest_s2] = [21; 30].
Proof. split; [repeat constructor|]. vm_compute. repeat split; reflexivity. Qed.

(** C39. *)
Theorem C39_no_panic :
  forall cfg b items st0 h now c,
    genesis_build cfg (tr_initial b) items = Ok st0 -> times_from 0 h -> last_time 0 h <= now ->
    tr_apply cfg (tr_run cfg st0 h) now c <> Err TPanic.
Proof. exact no_panic_lemma. Qed.
Print Assumptions C39_no_panic.

(** Without the validity check a claim would panic. *)
Example C39_example : sc_frozen {| sc_start := 0; sc_period := 0; sc_count := 1; sc_per := 1 |} 3 = None.
Proof. reflexivity. Qed.

(** C97. A root update is accepted exactly when the new schedules are valid,
    few enough and covered by the balance, and replaces that account's
    schedules and freeze, nothing else. *)
Theorem C97_root_update_accepted_iff :
  forall cfg st now root who l,
    is_ok (tr_apply cfg st now (TUpdate root who l)) = true <->
    root = true /\ len l <= t_max cfg /\
    (l = [] \/ Forall (fun s => valid_sched s /\ t_min cfg <= total_of s) l /\
               sumN (map total_of l) <= u128_max /\ sumN (map total_of l) <= t_balance st who).
Proof. exact update_iff_lemma. Qed.
Print Assumptions C97_root_update_accepted_iff.

Theorem C97_root_update_effect :
  forall cfg st now root who l st',
    tr_apply cfg st now (TUpdate root who l) = Ok st' ->
    t_schedules st' who = l /\ vesting_frozen st' who = sumN (map total_of l) /\ tr_bal st' = tr_bal st /\
    (forall c, c <> who -> t_schedules st' c = t_schedules st c /\ vesting_frozen st' c = vesting_frozen st c).
Proof. exact update_effect_lemma. Qed.
Print Assumptions C97_root_update_effect.

Example C97_example :
  is_ok (tr_apply vest_cfg (vest_run vest_h) 20 (TUpdate true 1 [vest_s2; vest_s1])) = true /\
  is_ok (tr_apply vest_cfg (vest_run vest_h) 20 (TUpdate true 1 [vest_s2; vest_s2; vest_s1])) = false /\
  is_ok (tr_apply vest_cfg (vest_run vest_h) 20 (TUpdate false 1 [vest_s2])) = false.
Proof. vm_compute. repeat split; reflexivity. Qed.

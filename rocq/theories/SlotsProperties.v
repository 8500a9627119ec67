(** Property C152: can somebody keep others from sending an account vested
    tokens? *)
From Verif Require Import Prelude Sums TrModel TrSpec TrProofs SlotsSpec SlotsProofs.

(** What happens elsewhere does not get in the way. A vesting transfer to [a]
    goes through at time [now]. Then come any calls that neither send [a] a
    schedule nor, by root, replace those of [a]. At any later time the same
    schedule is still accepted from everybody who has the tokens for it.
    Missing: the same when others send [a] schedules, which is false, see
    below. *)
Theorem C152_undisturbed_partial :
  forall cfg b items st0 h now h2 t from from' a s,
    genesis_build cfg (tr_initial b) items = Ok st0 -> times_from 0 h -> last_time 0 h <= now ->
    is_ok (tr_apply cfg (tr_run cfg st0 h) now (TTransfer true from a s)) = true ->
    times_from now h2 -> last_time now h2 <= t -> leaves_alone a h2 ->
    total_of s <= t_balance (tr_run cfg st0 (h ++ h2)) from' ->
    is_ok (tr_apply cfg (tr_run cfg st0 (h ++ h2)) t (TTransfer true from' a s)) = true.
Proof. exact undisturbed. Qed.
Print Assumptions C152_undisturbed_partial.

(** Anybody can fill the slots of an account that has no schedules. It costs
    the number of slots times the least amount a schedule may have. From then
    on, whatever else happens short of a root update of that account, every
    vesting transfer to it is refused until the last block number there is. *)
Theorem C152_blocked_refuted :
  forall cfg b items st0 h a x p now,
    genesis_build cfg (tr_initial b) items = Ok st0 -> times_from 0 h -> last_time 0 h <= now -> now < u32_max ->
    t_schedules (tr_run cfg st0 h) a = [] -> x <> a -> 0 < p -> t_min cfg <= p -> t_max cfg * p <= u128_max ->
    t_max cfg * p + t_ed cfg <= t_balance (tr_run cfg st0 h) x ->
    t_balance (tr_run cfg st0 (h ++ fill (t_max cfg) now x a p)) x = t_balance (tr_run cfg st0 h) x - t_max cfg * p
    /\ forall h2 t allowed from s,
       times_from now h2 -> last_time now h2 <= t -> t < u32_max -> no_update a h2 ->
       exists e, tr_apply cfg (tr_run cfg st0 (h ++ fill (t_max cfg) now x a p ++ h2)) t (TTransfer allowed from a s) = Err e.
Proof. exact blocked. Qed.
Print Assumptions C152_blocked_refuted.

(** The deployed limits (runtime/common/src/constants.rs:43-48, 120-126): fifty
    of the smallest units close account 2 to vesting transfers. The third
    account, with a hundred tokens, could have sent one before. *)
Definition slots_cfg : TrCfg := {| t_min := 0; t_max := 50; t_ed := 1000000 |}.
Definition slots_bal : gmap N N := <[1 := 1000050]> (<[2 := 1000000]> (<[3 := 10000000000]> ∅)).
Definition slots_s : Sched := {| sc_start := 10; sc_period := 100; sc_count := 12; sc_per := 100000000 |}.
Example C152_deployed :
  is_ok (tr_apply slots_cfg (tr_initial slots_bal) 7 (TTransfer true 3 2 slots_s)) = true
  /\ t_balance (tr_run slots_cfg (tr_initial slots_bal) (fill 50 7 1 2 1)) 1 = 1000000
  /\ forall h2 t allowed from s,
       times_from 7 h2 -> last_time 7 h2 <= t -> t < u32_max -> no_update 2 h2 ->
       exists e, tr_apply slots_cfg (tr_run slots_cfg (tr_initial slots_bal) (fill 50 7 1 2 1 ++ h2)) t
         (TTransfer allowed from 2 s) = Err e.
Proof.
  split; [vm_compute; reflexivity|].
  assert (HH := C152_blocked_refuted slots_cfg slots_bal [] (tr_initial slots_bal) [] 2 1 1 7).
  do 10 (match type of HH with ?P -> _ =>
    let K := fresh in assert (K : P) by (vm_compute; (reflexivity || discriminate || exact I)); specialize (HH K); clear K end).
  destruct HH as [A B].
  cbn [app] in A, B. change (t_max slots_cfg) with 50 in A, B. split; [|exact B].
  rewrite A. vm_compute. reflexivity.
Qed.

(** The hypotheses of the first theorem: a schedule is sent to account 1 and
    account 2 claims, then the transfer from account 3 is as welcome as before. *)
Example C152_met :
  let h2 := [(8, TTransfer true 3 1 slots_s); (9, TClaimFor (Some 5) 2)] in
  is_ok (tr_apply slots_cfg (tr_initial slots_bal) 7 (TTransfer true 3 2 slots_s)) = true
  /\ times_from 7 h2 /\ last_time 7 h2 <= 2000 /\ leaves_alone 2 h2
  /\ total_of slots_s <= t_balance (tr_run slots_cfg (tr_initial slots_bal) h2) 3
  /\ is_ok (tr_apply slots_cfg (tr_run slots_cfg (tr_initial slots_bal) h2) 2000 (TTransfer true 3 2 slots_s)) = true.
Proof.
  cbv zeta. split; [vm_compute; reflexivity|]. split; [cbn; lia|]. split; [vm_compute; discriminate|].
  split; [split; repeat constructor; cbn; lia|]. split; [vm_compute; discriminate|vm_compute; reflexivity].
Qed.

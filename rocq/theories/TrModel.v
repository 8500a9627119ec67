(** The time-release (vesting) pallet: pallets/time-release/src/lib.rs and types.rs. *)
From Verif Require Import Prelude.

(** lib.rs:120-135 [Error], arithmetic errors, [TCurrency] for errors of the
    token pallet, and [TPanic] for a failed [expect]. *)
Inductive TrErr :=
| TZeroReleasePeriod | TZeroReleasePeriodCount | TInsufficientBalanceToFreeze
| TAmountLow | TMaxReleaseSchedulesExceeded | TOverflow | TBadOrigin | TCurrency | TPanic.

(** types.rs:15-25 [ReleaseSchedule]: block numbers and counts are u32, amounts u128 *)
Record Sched := { sc_start : N; sc_period : N; sc_count : N; sc_per : N }.

(** types.rs:31-34 *)
Definition sc_end (s : Sched) : option N :=
  match chk_mul u32_max (sc_period s) (sc_count s) with
  | Some x => chk_add u32_max x (sc_start s)
  | None => None
  end.

(** types.rs:37-39 *)
Definition sc_total (s : Sched) : option N := chk_mul u128_max (sc_per s) (sc_count s).

(** types.rs:46-58; [None] is a panic of one of the two [expect]s *)
Definition sc_frozen (s : Sched) (time : N) : option N :=
  if sc_period s =? 0 then None
  else let full := (time - sc_start s) / sc_period s in
       let unrealized := sc_count s - full in
       chk_mul u128_max (sc_per s) unrealized.

(** lib.rs:94-115: MinReleaseTransfer, MaxReleaseSchedules; the existential
    deposit of the token pallet *)
Record TrCfg := { t_min : N; t_max : N; t_ed : N }.

(** [ReleaseSchedules] (lib.rs:170-178), the freeze under
    [TimeReleaseVesting], the free balances, and the schedules added so far by
    [ReleaseScheduleAdded] events. *)
Record TrState := {
  tr_sched : gmap N (list Sched);
  tr_freeze : gmap N N;
  tr_bal : gmap N N;
  tr_added : list (N * Sched)
}.

Section tr.
Variable cfg : TrCfg.

Definition t_schedules (st : TrState) (who : N) : list Sched := default [] (tr_sched st !! who).
Definition t_balance (st : TrState) (who : N) : N := default 0 (tr_bal st !! who).

(** pallet_balances [set_freeze] and [thaw] (zero removes the freeze) *)
Definition t_set_freeze (st : TrState) (who amount : N) : TrState :=
  {| tr_sched := tr_sched st;
     tr_freeze := if amount =? 0 then delete who (tr_freeze st) else <[who := amount]> (tr_freeze st);
     tr_bal := tr_bal st; tr_added := tr_added st |}.
Definition t_thaw (st : TrState) (who : N) : TrState :=
  {| tr_sched := tr_sched st; tr_freeze := delete who (tr_freeze st); tr_bal := tr_bal st; tr_added := tr_added st |}.
Definition t_set_sched (st : TrState) (who : N) (l : list Sched) : TrState :=
  {| tr_sched := <[who := l]> (tr_sched st); tr_freeze := tr_freeze st; tr_bal := tr_bal st; tr_added := tr_added st |}.
Definition t_del_sched (st : TrState) (who : N) : TrState :=
  {| tr_sched := delete who (tr_sched st); tr_freeze := tr_freeze st; tr_bal := tr_bal st; tr_added := tr_added st |}.

(** [retain] with a predicate that may panic *)
Fixpoint retain_frozen (l : list Sched) (now : N) : option (list Sched) :=
  match l with
  | [] => Some []
  | s :: l' =>
      match sc_frozen s now, retain_frozen l' now with
      | Some x, Some k => Some (if x =? 0 then k else s :: k)
      | _, _ => None
      end
  end.

(** lib.rs:354-368 *)
Definition prune_schedules_for (st : TrState) (who now : N) : res TrErr (TrState * list Sched) :=
  match retain_frozen (t_schedules st who) now with
  | None => Err TPanic
  | Some [] => Ok (t_del_sched st who, [])
  | Some l => Ok (t_set_sched st who l, l)
  end.

(** the fold of lib.rs:376-378: unchecked addition *)
Fixpoint fold_frozen (l : list Sched) (now acc : N) : option N :=
  match l with
  | [] => Some acc
  | s :: l' => match sc_frozen s now with
               | Some x => fold_frozen l' now (wrap_add u128_max acc x)
               | None => None
               end
  end.

(** lib.rs:371-381 *)
Definition prune_and_get_frozen_balance (st : TrState) (who now : N) : res TrErr (TrState * N) :=
  let! (st1, l) := prune_schedules_for st who now in
  match fold_frozen l now 0 with
  | Some x => Ok (st1, x)
  | None => Err TPanic
  end.

(** lib.rs:342-351 *)
Definition do_claim (st : TrState) (who now : N) : res TrErr TrState :=
  let! (st1, frozen) := prune_and_get_frozen_balance st who now in
  if frozen =? 0 then Ok (t_thaw st1 who) else Ok (t_set_freeze st1 who frozen).

(** lib.rs:460-472 *)
Definition ensure_valid_release_schedule (s : Sched) : res TrErr N :=
  ensure! negb (sc_period s =? 0) else TZeroReleasePeriod in
  ensure! negb (sc_count s =? 0) else TZeroReleasePeriodCount in
  match sc_end s with
  | None => Err TOverflow
  | Some _ =>
      match sc_total s with
      | None => Err TOverflow
      | Some total =>
          ensure! t_min cfg <=? total else TAmountLow in
          Ok total
      end
  end.

(** The token pallet's [transfer] with [Preservation::Expendable]. [allowed]
    stands for its own checks (freezes, existential deposit of the receiver,
    consumers, overflow). A rest below the existential deposit is swept. *)
Definition t_transfer (st : TrState) (allowed : bool) (from to amount : N) : res TrErr TrState :=
  ensure! allowed else TCurrency in
  ensure! amount <=? t_balance st from else TCurrency in
  if from =? to then Ok st
  else let rest := t_balance st from - amount in
       let rest := if rest <? t_ed cfg then 0 else rest in
       Ok {| tr_sched := tr_sched st; tr_freeze := tr_freeze st;
             tr_bal := <[to := t_balance st to + amount]> (<[from := rest]> (tr_bal st));
             tr_added := tr_added st |}.

(** lib.rs:383-402 *)
Definition do_transfer (st : TrState) (now : N) (allowed : bool) (from to : N) (s : Sched) : res TrErr TrState :=
  let! amount := ensure_valid_release_schedule s in
  let! (st1, frozen) := prune_and_get_frozen_balance st to now in
  match chk_add u128_max frozen amount with
  | None => Err TOverflow
  | Some total =>
      let! st2 := t_transfer st1 allowed from to amount in
      let st3 := t_set_freeze st2 to total in
      ensure! len (t_schedules st3 to) <? t_max cfg else TMaxReleaseSchedulesExceeded in
      Ok (t_set_sched st3 to (t_schedules st3 to ++ [s]))
  end.

(** lib.rs:262-289 *)
Definition t_call_transfer (st : TrState) (now : N) (allowed : bool) (from to : N) (s : Sched) : res TrErr TrState :=
  let! _ := (if to =? from
             then match sc_total s with
                  | None => Err TOverflow
                  | Some total => ensure! total <=? t_balance st from else TInsufficientBalanceToFreeze in Ok tt
                  end
             else Ok tt) in
  let! st1 := do_transfer st now allowed from to s in
  Ok {| tr_sched := tr_sched st1; tr_freeze := tr_freeze st1; tr_bal := tr_bal st1;
        tr_added := tr_added st1 ++ [(to, s)] |}.

(** the [try_fold] of lib.rs:418-425 *)
Fixpoint fold_valid (l : list Sched) (acc : N) : res TrErr N :=
  match l with
  | [] => Ok acc
  | s :: l' =>
      let! amount := ensure_valid_release_schedule s in
      match chk_add u128_max acc amount with
      | None => Err TOverflow
      | Some acc' => fold_valid l' acc'
      end
  end.

(** lib.rs:404-433, 452-456 *)
Definition do_update_release_schedules (st : TrState) (who : N) (l : list Sched) : res TrErr TrState :=
  ensure! len l <=? t_max cfg else TMaxReleaseSchedulesExceeded in
  match l with
  | [] => Ok (t_thaw (t_del_sched st who) who)
  | _ =>
      let! total := fold_valid l 0 in
      ensure! total <=? t_balance st who else TInsufficientBalanceToFreeze in
      Ok (t_set_sched (t_set_freeze st who total) who l)
  end.

(** lib.rs:192-228: genesis, starting from the endowed balances. An error here
    is a panic of the chain's construction. *)
Fixpoint genesis_build (st : TrState) (items : list (N * Sched)) : res TrErr TrState :=
  match items with
  | [] => Ok st
  | (who, s) :: items' =>
      let l := t_schedules st who ++ [s] in
      ensure! len l <=? t_max cfg else TPanic in
      match fold_valid l 0 with
      | Err _ => Err TPanic
      | Ok total =>
          ensure! total <=? t_balance st who else TPanic in
          genesis_build (t_set_sched (t_set_freeze st who total) who l) items'
      end
  end.

Definition tr_initial (balances : gmap N N) : TrState :=
  {| tr_sched := ∅; tr_freeze := ∅; tr_bal := balances; tr_added := [] |}.

(** Calls (lib.rs:241-336). [claim] is [TClaimFor] by the account itself.
    [TBalances] stands for balance changes made by the rest of the chain. *)
Inductive TrCall :=
| TClaimFor (signer : option N) (who : N)
| TTransfer (allowed : bool) (from to : N) (s : Sched)
| TUpdate (root : bool) (who : N) (l : list Sched)
| TBalances (b : gmap N N).

Definition tr_apply (st : TrState) (now : N) (c : TrCall) : res TrErr TrState :=
  match c with
  | TClaimFor signer who => match signer with Some _ => do_claim st who now | None => Err TBadOrigin end
  | TTransfer allowed from to s => t_call_transfer st now allowed from to s
  | TUpdate root who l => ensure! root else TBadOrigin in do_update_release_schedules st who l
  | TBalances b => Ok {| tr_sched := tr_sched st; tr_freeze := tr_freeze st; tr_bal := b; tr_added := tr_added st |}
  end.

(** A call and the (relay chain) block number at which it runs. *)
Definition tr_step (st : TrState) (e : N * TrCall) : TrState :=
  match tr_apply st e.1 e.2 with Ok st' => st' | Err _ => st end.
Definition tr_run (st : TrState) (h : list (N * TrCall)) : TrState := fold_left tr_step h st.

End tr.

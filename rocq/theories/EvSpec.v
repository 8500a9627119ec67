(** What somebody knows who follows the events only. *)
From Verif Require Import Prelude CapModel CapSpec EvModel TrModel TrSpec.

(** ** MSA *)

(** The MSA that key [k] controls. *)
Definition key_told (k : N) (evs : list MsaEvent) : option N :=
  fold_left (fun o e =>
    match e with
    | MsaCreated m k' | PublicKeyAdded m k' => if k' =? k then Some m else o
    | PublicKeyDeleted k' => if k' =? k then None else o
    | _ => o
    end) evs None.

Definition provider_told (p : N) (evs : list MsaEvent) : Prop := ProviderCreated p ∈ evs.

(** Whether [d] delegates to [p]: the last thing said about the two. *)
Definition delegation_told (p d : N) (evs : list MsaEvent) : bool :=
  fold_left (fun b e =>
    match e with
    | DelegationGranted p' d' => if (p' =? p) && (d' =? d) then true else b
    | DelegationRevoked p' d' => if (p' =? p) && (d' =? d) then false else b
    | _ => b
    end) evs false.

(** The event is about the delegation of [d] to [p]. *)
Definition about (p d : N) (e : MsaEvent) : Prop :=
  e = DelegationGranted p d \/ e = DelegationRevoked p d \/ e = DelegationUpdated p d.

(** ** Capacity; each event comes with the epoch in which it happened *)

(** The tokens account [a] has staked. *)
Definition active_told (a : N) (log : list (N * CapEvent)) : N :=
  fold_left (fun x e =>
    match e.2 with
    | Staked b _ n _ => if b =? a then x + n else x
    | UnStaked b _ n _ => if b =? a then x - n else x
    | _ => x
    end) log 0.

(** Tokens and capacity that account [a] has put on provider [m]. When no tokens are
    left there is no capacity left either. *)
Definition target_told (a m : N) (log : list (N * CapEvent)) : N * N :=
  fold_left (fun x e =>
    match e.2 with
    | Staked b t n c => if (b =? a) && (t =? m) then (x.1 + n, x.2 + c) else x
    | UnStaked b t n c =>
        if (b =? a) && (t =? m) then (if x.1 <=? n then (0, 0) else (x.1 - n, x.2 - c)) else x
    | _ => x
    end) log (0, 0).

(** What is known of a provider: tokens staked to it, capacity issued to it,
    capacity it has left, epoch of its last replenishment. *)
Record Account := { ac_tokens : N; ac_issued : N; ac_left : N; ac_epoch : N }.
(** Spending in a new epoch starts from all that was issued. *)
Definition provider_acc (m : N) (log : list (N * CapEvent)) : Account :=
  fold_left (fun x e =>
    match e.2 with
    | Staked _ t n c =>
        if t =? m
        then {| ac_tokens := ac_tokens x + n; ac_issued := ac_issued x + c; ac_left := ac_left x + c; ac_epoch := ac_epoch x |}
        else x
    | UnStaked _ t n c =>
        if t =? m
        then {| ac_tokens := ac_tokens x - n; ac_issued := ac_issued x - c; ac_left := ac_left x - c; ac_epoch := ac_epoch x |}
        else x
    | CapacityWithdrawn p n =>
        if p =? m
        then {| ac_tokens := ac_tokens x; ac_issued := ac_issued x;
                ac_left := (if ac_epoch x <? e.1 then ac_issued x else ac_left x) - n;
                ac_epoch := N.max (ac_epoch x) e.1 |}
        else x
    | _ => x
    end) log {| ac_tokens := 0; ac_issued := 0; ac_left := 0; ac_epoch := 0 |}.

(** The amounts account [a] is unstaking, each with the epoch from which it can be
    withdrawn (a 32-bit number). *)
Definition unlocking_told (thaw a : N) (log : list (N * CapEvent)) : list (N * N) :=
  fold_left (fun l e =>
    match e.2 with
    | UnStaked b _ n _ => if b =? a then l ++ [(n, N.min u32_max (e.1 + thaw))] else l
    | StakeWithdrawn b _ => if b =? a then filter (fun x => e.1 < x.2) l else l
    | _ => l
    end) log [].

(** The length of an epoch in blocks. *)
Definition epoch_length_told (log : list (N * CapEvent)) : N :=
  fold_left (fun x e => match e.2 with EpochLengthUpdated n => n | _ => x end) log 100.

(** ** Vesting *)

(** The schedules of account [a], starting from [l0]: a new schedule and a claim both
    drop the ones with nothing left to release. *)
Definition schedules_told (l0 : list Sched) (a : N) (evs : list (N * TrEvent)) : list Sched :=
  fold_left (fun l e =>
    match e.2 with
    | ReleaseScheduleAdded _ b s => if b =? a then filter (fun x => 0 < unreleased x e.1) l ++ [s] else l
    | Claimed b _ => if b =? a then filter (fun x => 0 < unreleased x e.1) l else l
    | ReleaseSchedulesUpdated _ => l
    end) evs l0.

(** What the [Claimed] events of account [a] add up to. *)
Definition claimed_sum (a : N) (evs : list (N * TrEvent)) : N :=
  Sums.sumN (map (fun e => match e.2 with Claimed b n => if b =? a then n else 0 | _ => 0 end) evs).

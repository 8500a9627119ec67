(** Vocabulary of the capacity properties. *)
From Verif Require Import Prelude Sums CapModel.

(** What an account sees. *)
Definition active (st : CapState) (a : N) : N := default 0 (cs_staking st !! a).
Definition frozen (st : CapState) (a : N) : N := default 0 (cs_freeze st !! a).
Definition chunks (st : CapState) (a : N) : list Chunk := default [] (cs_unlocks st !! a).
Definition values (l : list Chunk) : N := sumN (map ck_value l).
Arguments values : simpl never.
Definition unlocking (st : CapState) (a : N) : N := values (chunks st a).
Definition token_balance (st : CapState) (a : N) : N := default 0 (cs_bal st !! a).
(** What a provider has. *)
Definition remaining (st : CapState) (m : N) : N := cd_remaining (default cd_default (cs_cap st !! m)).
Definition issued (st : CapState) (m : N) : N := cd_issued (default cd_default (cs_cap st !! m)).
Definition tokens_at (st : CapState) (m : N) : N := cd_tokens (default cd_default (cs_cap st !! m)).
(** The epoch in which provider [m] was last replenished. *)
Definition last_replenished (st : CapState) (m : N) : N := cd_last (default cd_default (cs_cap st !! m)).
(** The amount staker [s] has targeted to [m], and the sum of that over all stakers. *)
Definition targeted (st : CapState) (s m : N) : N := tg_amount (default tg_default (cs_targets st !! (s, m))).
Definition targeted_capacity (st : CapState) (s m : N) : N := tg_capacity (default tg_default (cs_targets st !! (s, m))).
Definition targeted_to (st : CapState) (m : N) : N :=
  msum (fun k t => if k.2 =? m then tg_amount t else 0) (cs_targets st).
Definition targeted_by (st : CapState) (s : N) : N :=
  msum (fun k t => if k.1 =? s then tg_amount t else 0) (cs_targets st).

(** Sums over the event log. *)
Definition log_sum (f : N -> CapEvent -> N) (l : list (N * CapEvent)) : N :=
  sumN (map (fun e => f e.1 e.2) l).
Arguments log_sum : simpl never.
(** tokens account [a] was reported to have staked *)
Definition staked_total a := log_sum (fun _ e =>
  match e with Staked b _ n _ => if b =? a then n else 0 | _ => 0 end).
(** tokens account [a] was reported to have withdrawn *)
Definition withdrawn_total a := log_sum (fun _ e =>
  match e with StakeWithdrawn b n => if b =? a then n else 0 | _ => 0 end).
(** tokens account [a] unstaked in epochs [e] with [e + thaw <= t] *)
Definition unstaked_before thaw t a := log_sum (fun ep e =>
  match e with UnStaked b _ n _ => if (b =? a) && (ep + thaw <=? t) then n else 0 | _ => 0 end).
(** capacity provider [m] spent *)
Definition spent m := log_sum (fun _ e =>
  match e with CapacityWithdrawn p n => if p =? m then n else 0 | _ => 0 end).
(** capacity issued to provider [m] by stakes *)
Definition granted m := log_sum (fun _ e =>
  match e with Staked _ t _ c => if t =? m then c else 0 | _ => 0 end).

(** Histories in which capacity is replenished only by paying (the only caller
    of [replenish_all_for] in the runtime, payment.rs:52). *)
Definition no_bare_replenish (h : list CapOp) : Prop :=
  Forall (fun op => match op with OpReplenishAll _ => False | _ => True end) h.

(** Histories in which each staker [s] stakes to one provider [f s] only. *)
Definition one_target (f : N -> N) (h : list CapOp) : Prop :=
  Forall (fun op => match op with OpStake _ s t _ => t = f s | _ => True end) h.

(** The blocks [s+1 .. s+k]. *)
Definition blocks_after (s : N) (k : nat) : list CapOp :=
  map (fun i => OpBlock (s + N.of_nat i)) (seq 1 k).

(** Smallest integer [x] with [x * d >= n]. *)
Definition is_ceil (x n d : N) : Prop := n <= x * d /\ forall y, n <= y * d -> x <= y.

(** Vocabulary of C152: filling the vesting slots of somebody else. *)
From Verif Require Import Prelude Sums TrModel TrSpec.

(** One payment of [p] tokens, due at the last block number there is. *)
Definition last_day (p : N) : Sched := {| sc_start := u32_max - 1; sc_period := 1; sc_count := 1; sc_per := p |}.

(** [x] sends [a] this schedule [n] times at time [now]. *)
Definition fill (n : N) (now x a p : N) : list (N * TrCall) :=
  repeat (now, TTransfer true x a (last_day p)) (N.to_nat n).

(** Nobody sends [a] a schedule, and root does not replace those of [a]. *)
Definition leaves_alone (a : N) (h : list (N * TrCall)) : Prop :=
  no_update a h /\ Forall (fun e => match e.2 with TTransfer _ _ w _ => w <> a | _ => True end) h.

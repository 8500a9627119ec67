(** Vocabulary of the vesting properties. *)
From Verif Require Import Prelude Sums TrModel.

(** The payments of a schedule fall due at [start + i * period] for
    [i = 1 .. count]; number of them that are still to come after time [t]. *)
Definition due_later (s : Sched) (t : N) : N :=
  N.of_nat (length (filter (fun i => t < sc_start s + N.of_nat i * sc_period s) (seq 1 (N.to_nat (sc_count s))))).
Definition unreleased (s : Sched) (t : N) : N := sc_per s * due_later s t.
Definition total_of (s : Sched) : N := sc_per s * sc_count s.
Definition released (s : Sched) (t : N) : N := total_of s - unreleased s t.

(** A schedule the pallet accepts: at least one period of positive length, and
    its end and total fit the machine integers. *)
Definition valid_sched (s : Sched) : Prop :=
  0 < sc_period s /\ 0 < sc_count s /\
  sc_start s + sc_period s * sc_count s <= u32_max /\ total_of s <= u128_max.

(** Sum of what an account's schedules still hold back at time [t]. *)
Definition unreleased_of (st : TrState) (a t : N) : N :=
  sumN (map (fun s => unreleased s t) (t_schedules st a)).
Definition vesting_frozen (st : TrState) (a : N) : N := default 0 (tr_freeze st !! a).

(** Times never go backwards, all at or after [t0]. *)
Fixpoint times_from (t0 : N) (h : list (N * TrCall)) : Prop :=
  match h with [] => True | e :: h' => t0 <= e.1 /\ times_from e.1 h' end.
Fixpoint last_time (t0 : N) (h : list (N * TrCall)) : N :=
  match h with [] => t0 | e :: h' => last_time e.1 h' end.

(** All schedules transferred to [a] so far. *)
Definition added_to (a : N) (l : list (N * Sched)) : list Sched :=
  map snd (filter (fun e => e.1 = a) l).

(** No root update of [a]'s schedules. *)
Definition no_update (a : N) (h : list (N * TrCall)) : Prop :=
  Forall (fun e => match e.2 with TUpdate _ w _ => w <> a | _ => True end) h.

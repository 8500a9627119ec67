(** Vocabulary of C154: what an account can spend. *)
From Verif Require Import Prelude CapModel TrModel RtModel.

(** The tokens of an account that neither staking nor vesting holds back. *)
Definition usable (s : RtState) (a : N) : N := balance s a - frozen s a.

(** Root does not replace the vesting schedules of [a] in this step. *)
Definition not_rescheduled (a : N) (x : RtStep) : Prop :=
  match x with SGov (GSchedules w _) => w <> a | _ => True end.

(** Vocabulary for the rules that governance sets. *)
From Verif Require Import Prelude CapModel ScModel TrModel RtModel.

(** The number of blocks of an epoch; the longest model of a schema; what is vesting for an account. *)
Definition epoch_length (s : RtState) : N := cs_epoch_len (rs_cap s).
Definition longest_model (s : RtState) : N := sc_max_bytes (rs_sc s).
Definition vesting (s : RtState) (a : N) : list Sched := t_schedules (rs_tr s) a.

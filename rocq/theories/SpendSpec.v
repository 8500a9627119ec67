(** Vocabulary for the use of capacity. *)
From Verif Require Import Prelude CapModel RtModel MsaSpec ConsentSpec.

(** The capacity an MSA has left, and what it starts each epoch with. *)
Definition capacity_left (s : RtState) (m : N) : N := match cs_cap (rs_cap s) !! m with Some d => cd_remaining d | None => 0 end.
Definition capacity_issued (s : RtState) (m : N) : N := match cs_cap (rs_cap s) !! m with Some d => cd_issued d | None => 0 end.

(** The transaction is to be paid with capacity. *)
Definition with_capacity (c : RtCall) : Prop := match c with RPay _ | RPayBatch _ => True | _ => False end.

(** Somebody who had staked for [m] takes stake away. *)
Definition unstaked (g : Deed) (m : N) : Prop :=
  exists a, what g = RCapacity (KUnstake m a) /\ is_Some (cs_targets (rs_cap (at_ g)) !! (by_ g, m)).

(** Property C148: the capacity of an MSA is for its own keys. *)
From Verif Require Import Prelude CommonTypes SigModel MsaModel CapModel TrModel MgModel FeeModel RtModel GenModel.
From Verif Require Import MsaSpec RtSpec DeployedProperties ConsentSpec SpendSpec SpendProofs.

(** ** C148. If an MSA has less capacity left than before, then on the way a key of this MSA
    sent a transaction to be paid with capacity, or somebody who had staked for the MSA
    took stake away. From any state, along any history. *)
Theorem C148_left :
  forall cfg s h m, capacity_left (rt_run cfg s h) m < capacity_left s m ->
  exists h1 x h2, h = h1 ++ x :: h2 /\ let s1 := rt_run cfg s h1 in
    (exists t, x = STx t /\ with_capacity (tx_call t) /\ controls (rs_msa s1) (tx_who t) m)
    \/ (exists g, g ∈ step_deeds cfg s1 x /\ unstaked g m).
Proof. exact spend_run. Qed.
Print Assumptions C148_left.

(** What the MSA can spend per epoch falls only by the latter. *)
Theorem C148_issued :
  forall cfg s h m, capacity_issued (rt_run cfg s h) m < capacity_issued s m ->
  exists h1 x h2, h = h1 ++ x :: h2 /\ exists g, g ∈ step_deeds cfg (rt_run cfg s h1) x /\ unstaked g m.
Proof. exact issued_run. Qed.
Print Assumptions C148_issued.

(** In the running example MSA 1 has capacity. Key 1 pays with it for a message; then the
    staker, key 1 as well, takes the stake away in a batch. *)
Definition spend_x : RtStep := tx_ex 1 (nonce state_ex 1) (RPay (RMessages (AddOnchainMessage None 1 [7; 7]))).
Definition paid_ex : RtState := rt_run (deployed open_ex) state_ex [spend_x].
Definition unstake_x : RtStep := tx_ex 1 (nonce paid_ex 1) (RUtility Batch [ROther PSystem; RCapacity (KUnstake 1 300000000)]).
Definition after_ex : RtState := rt_run (deployed open_ex) paid_ex [unstake_x].
Example C148_instance :
  capacity_left paid_ex 1 < capacity_left state_ex 1 /\ capacity_issued paid_ex 1 = capacity_issued state_ex 1
  /\ 0 < capacity_left after_ex 1 < capacity_left paid_ex 1 /\ capacity_issued after_ex 1 < capacity_issued paid_ex 1.
Proof. vm_compute. repeat split; reflexivity. Qed.

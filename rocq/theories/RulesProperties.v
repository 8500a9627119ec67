(** Property C150: the rules are changed only by governance. *)
From Verif Require Import Prelude CommonTypes SigModel MsaModel CapModel TrModel TrSpec ScModel MgModel FeeModel RtModel GenModel.
From Verif Require Import RtSpec DeployedProperties ConsentSpec RulesSpec RulesProofs.

(** ** C150. The length of an epoch and the longest model of a schema are as at the start, or
    as root has set them. *)
Theorem C150_set_by_root :
  forall cfg s h, let s' := rt_run cfg s h in
  (epoch_length s' = epoch_length s \/ SGov (GEpochLength (epoch_length s')) ∈ h)
  /\ (longest_model s' = longest_model s \/ SGov (GSchemas true (SetMaxSchemaModelBytes (longest_model s'))) ∈ h).
Proof. intros cfg s h. exact (rules_run cfg h s). Qed.
Print Assumptions C150_set_by_root.

(** Everything that vests for an account was there at the start, was sent to it as such by a
    call that took effect, or was set by root. *)
Theorem C150_vesting_has_a_source :
  forall cfg s h a e, e ∈ vesting (rt_run cfg s h) a ->
  e ∈ vesting s a
  \/ (exists g, g ∈ all_deeds cfg s h /\ what g = RTime (VTransfer a e))
  \/ (exists l, SGov (GSchedules a l) ∈ h /\ e ∈ l).
Proof. intros cfg s h a e. exact (new_run cfg h s a e). Qed.
Print Assumptions C150_vesting_has_a_source.

(** Nobody but root takes a schedule away before its last payment is due. *)
Theorem C150_vesting_stays :
  forall cfg s h a e, relays_from (rs_relay s) h -> (forall l, SGov (GSchedules a l) ∉ h) ->
  e ∈ vesting s a -> valid_sched e ->
  let s' := rt_run cfg s h in 0 < unreleased e (rs_relay s') -> e ∈ vesting s' a.
Proof. intros cfg s h a e. exact (stays_run cfg h s a e). Qed.
Print Assumptions C150_vesting_stays.

(** In the running example something vests for key 5. Key 1 tries to change the rules, alone
    and in a batch, in vain; key 5 claims in time, which leaves the schedule, and after its
    end, which removes it. Root changes the rules. *)
Definition sched_ex : Sched := {| sc_start := 10; sc_period := 5; TrModel.sc_count := 4; sc_per := 1000000 |}.
Definition try_ex : list RtStep :=
  [ tx_ex 1 (nonce state_ex 1) (RCapacity (KSetEpochLength 7));
    tx_ex 1 (nonce state_ex 1 + 1) (RUtility ForceBatch [RSchemas (SetMaxSchemaModelBytes 9); RTime (VUpdate 5 []); RCapacity (KSetEpochLength 7)]);
    SBlock 20; tx_ex 5 (nonce state_ex 5) (RTime VClaim) ].
Definition tried_ex : RtState := rt_run (deployed open_ex) state_ex try_ex.
Definition ended_ex : RtState := rt_run (deployed open_ex) tried_ex [ SBlock 30; tx_ex 1 (nonce tried_ex 1) (RTime (VClaimFor 5)) ].
Definition ruled_ex : RtState := rt_run (deployed open_ex) tried_ex [ SGov (GEpochLength 7); SGov (GSchemas true (SetMaxSchemaModelBytes 9)); SGov (GSchedules 5 []) ].
Example C150_instance :
  relays_from (rs_relay state_ex) try_ex /\ valid_sched sched_ex /\ vesting state_ex 5 = [sched_ex]
  /\ (0 < unreleased sched_ex (rs_relay tried_ex) < total_of sched_ex) /\ vesting tried_ex 5 = [sched_ex]
  /\ epoch_length tried_ex = epoch_length state_ex /\ longest_model tried_ex = 65500 /\ nonce tried_ex 1 = nonce state_ex 1 + 2
  /\ vesting ended_ex 5 = []
  /\ epoch_length ruled_ex = 7 /\ longest_model ruled_ex = 9 /\ vesting ruled_ex 5 = [].
Proof. vm_compute. repeat split; try reflexivity; discriminate. Qed.

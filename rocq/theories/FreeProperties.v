(** Property C154: nobody else makes the tokens of an account unusable. *)
From Verif Require Import Prelude Scale CommonTypes SigModel MsaModel CapModel TrModel HModel ScModel StModel MgModel FeeModel RtModel.
From Verif Require Import MsaSpec CapSpec TrSpec RtSpec RtMoreSpec RtProperties FreeSpec FreeProofs.
From Verif Require TrProperties.

(** Take any state that the chain reaches, and an account that has no proxy and
    is not the account of a multisig. While it sends nothing, what neither
    staking nor vesting holds back of its tokens does not get less, whatever all
    others, governance and time do; for instance, if others send it tokens that
    vest. Only root can change that, with new schedules for the account. *)
Theorem C154_usable_stays :
  forall cfg b mm items v h0 h a, genesis_build (r_tr cfg) (tr_initial b) items = Ok v -> relays_from 0 (h0 ++ h) ->
  let s := rt_run cfg (rt_start b mm v) h0 in
  alone cfg s a -> Forall (not_by a) h -> Forall (not_rescheduled a) h ->
  usable s a <= usable (rt_run cfg s h) a.
Proof. exact usable_lemma. Qed.
Print Assumptions C154_usable_stays.

(** 1 sends 3 and itself tokens that vest: 3 can use as many as before. When part
    of them is released, 5 claims for 3, and 3 can use 24 more. With a schedule
    from root it could use less. *)
Definition gifts : list RtStep :=
  [ send 1 4 (RTime (VTransfer 3 TrProperties.vest_s2)); send 1 5 (RTime (VTransfer 1 TrProperties.vest_s1)); SBlock 20; send 5 1 (RTime (VClaimFor 3)) ].
Definition big : Sched := {| sc_start := 0; sc_period := 100; TrModel.sc_count := 1; sc_per := 400 |}.
Example C154_nonvacuous :
  genesis_build (r_tr demo) (tr_initial demo_bal) [] = Ok (tr_initial demo_bal) /\ relays_from 0 (demo_h ++ gifts)
  /\ alone demo demo_st 3 /\ Forall (not_by 3) gifts /\ Forall (not_rescheduled 3) gifts
  /\ (balance demo_st 3, usable demo_st 3) = (500, 500)
  /\ (balance (rt_run demo demo_st (take 1 gifts)) 3, usable (rt_run demo demo_st (take 1 gifts)) 3) = (530, 500)
  /\ (balance (rt_run demo demo_st gifts) 3, usable (rt_run demo demo_st gifts) 3) = (530, 524)
  /\ usable (rt_run demo demo_st [SGov (GSchedules 3 [big])]) 3 = 100.
Proof.
  split; [reflexivity|]. split; [cbn; lia|]. split; [split; [vm_compute; reflexivity|cbn; lia]|].
  split; [repeat constructor; discriminate|]. split; [repeat constructor|]. vm_compute. repeat split; reflexivity.
Qed.

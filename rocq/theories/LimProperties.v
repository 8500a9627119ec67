(** Properties C139 and C140: what limits the number of transactions. *)
From Verif Require Import Prelude CommonTypes Sums SigModel MsaModel CapModel TrModel HModel FeeModel RtModel.
From Verif Require Import MsaSpec CapSpec FeeSpec RtSpec LimSpec LimProofs.
From Verif Require Import RtProperties.

(** ** C139. While the epoch stays the same, the fees of all capacity
    transactions that keys of MSA [m] got included, failed or not, are together
    what the log says [m] has spent, at most the capacity [m] had at the start
    and what was granted to it since. Each costs at least 177812, the fee's
    fixed part, which bounds their number. *)
Theorem C139_capacity_throughput : forall cfg m b mm v h1 h2,
  relays_from 0 (h1 ++ h2) -> lengths_ok h2 ->
  let s := rt_run cfg (rt_start b mm v) h1 in
  let s' := rt_run cfg s h2 in
  cs_epoch (rs_cap s') = cs_epoch (rs_cap s) ->
  exists l, cs_log (rs_cap s') = cs_log (rs_cap s) ++ l
    /\ spent m l = sumN (capacity_fees cfg m s h2)
    /\ sumN (capacity_fees cfg m s h2) <= issued (rs_cap s) m + granted m l
    /\ 177812 * len (capacity_fees cfg m s h2) <= issued (rs_cap s) m + granted m l.
Proof. exact throughput. Qed.
Print Assumptions C139_capacity_throughput.

(** MSA 1 of the example sends capacity transactions: the first and the last are
    included, the second, of a key without an MSA, is not. The last call fails,
    as key 8 was given to an MSA by the first, and is paid for. *)
Definition sponsor8 : RtCall := RMsa (CreateSponsored 8 8 {| ap_msa := 1; ap_schemas := []; ap_exp := 50 |}).
Definition spend_h : list RtStep := [send 1 4 (RPay sponsor8); send 3 0 (RPay sponsor8); send 1 5 (RPayBatch [sponsor8])].
Example C139_instance :
  relays_from 0 (demo_h ++ spend_h) /\ lengths_ok spend_h
  /\ cs_epoch (rs_cap (rt_run demo demo_st spend_h)) = cs_epoch (rs_cap demo_st)
  /\ capacity_fees demo 1 demo_st spend_h = [2987184; 2987184]
  /\ issued (rs_cap demo_st) 1 = 20000000
  /\ remaining (rs_cap (rt_run demo demo_st spend_h)) 1 = 20000000 - 2 * 2987184
  /\ ms_keys (rs_msa (rt_run demo demo_st spend_h)) !! 8 = Some 4.
Proof.
  split; [vm_compute; repeat split; discriminate|]. split; [repeat constructor; vm_compute; discriminate|].
  vm_compute. repeat split; reflexivity.
Qed.

(** ** C140. A free transaction that succeeds undoes exactly one thing: it
    detaches a key, revokes a delegation or retires a handle. *)
Theorem C140_undo_partial : forall cfg s t s',
  0 < rs_block s -> is_pays_no_call (tx_call t) = true -> tx_apply cfg s t = Ok (s', None) ->
  things s' + 1 = things s.
Proof. exact undo. Qed.
Print Assumptions C140_undo_partial.

(** A call in a transaction that pays makes at most two such things (the key and
    the delegation of a sponsored MSA), nothing else makes any. So the free
    transactions that succeeded are at most twice the calls that were paid for,
    from any state on and from genesis. *)
Theorem C140_paid_in_advance_partial : forall cfg s h,
  0 < rs_block s ->
  free_successes cfg s h + things (rt_run cfg s h) <= things s + 2 * len (paid_calls h).
Proof. intros cfg s h. apply advance. Qed.
Theorem C140_paid_since_genesis_partial : forall cfg b mm v r h,
  free_successes cfg (rt_start b mm v) (SBlock r :: h) <= 2 * len (paid_calls h).
Proof.
  intros cfg b mm v r h. cbn [free_successes]. 
  pose proof (advance cfg h (rt_step cfg (rt_start b mm v) (SBlock r)) ltac:(cbn; lia)) as H.
  change (things (rt_step cfg (rt_start b mm v) (SBlock r))) with 0 in H. lia.
Qed.
Print Assumptions C140_paid_in_advance_partial.
Print Assumptions C140_paid_since_genesis_partial.

(** Key 7 revokes the delegation of its MSA and retires the MSA in the next
    block. It never had a token. The key and the delegation were made by one
    call, that of key 1. *)
Definition leave_h : list RtStep := [send 7 0 (RMsa (RevokeByDelegator 1)); SBlock 6; send 7 0 (RMsa RetireMsa)].
Example C140_instance :
  free_successes demo demo_st leave_h = 2 /\ things demo_st = 4 /\ things (rt_run demo demo_st leave_h) = 2
  /\ free_successes demo demo_start (demo_h ++ leave_h) = 2 /\ len (paid_calls demo_h) = 5
  /\ balance demo_st 7 = 0 /\ 0 < rs_block demo_st.
Proof. vm_compute. repeat split; reflexivity. Qed.

(** But a free transaction may be included and fail. After the delegation was
    revoked, until the end of the block, the check still lets revocations pass.
    A key without tokens has no nonce to increase, so the same transaction can be
    included any number of times: no fee is paid, nothing is undone and the state
    stays as it is. *)
Definition revoke7 : Tx := tx_ 7 0 (RMsa (RevokeByDelegator 1)).
Definition revoked_st : RtState := rt_run demo demo_st [STx revoke7].
Lemma second_revocation : tx_apply demo revoked_st revoke7 = Ok (revoked_st, Some (XMsa DelegationRevoked)).
Proof. vm_compute. reflexivity. Qed.
Theorem C140_free_noop_refuted :
  revoked_st = rt_run demo demo_start (demo_h ++ [STx revoke7])
  /\ is_pays_no_call (tx_call revoke7) = true /\ balance revoked_st 7 = 0 /\ tx_tip revoke7 = 0
  /\ tx_apply demo revoked_st revoke7 = Ok (revoked_st, Some (XMsa DelegationRevoked))
  /\ forall n, rt_run demo revoked_st (replicate n (STx revoke7)) = revoked_st.
Proof.
  split; [unfold revoked_st, demo_st, rt_run; rewrite fold_left_app; reflexivity|].
  split; [reflexivity|]. split; [vm_compute; reflexivity|]. split; [reflexivity|].
  split; [exact second_revocation|]. exact (noop_run demo revoked_st revoke7 _ second_revocation).
Qed.
Print Assumptions C140_free_noop_refuted.

(** Property C151: stakers can take their tokens back. *)
From Verif Require Import Prelude CommonTypes SigModel MsaModel CapModel CapSpec TrModel MgModel FeeModel RtModel GenModel.
From Verif Require Import MsaSpec RtSpec DeployedProperties FundsSpec FundsProofs.

(** ** C151, for those who can pay the fee. Whoever has staked and has room for one more
    unlocking chunk can unstake everything by one transaction, which is accepted and
    succeeds. Whatever happened before. *)
Theorem C151_unstake_partial :
  forall cfg b mm v h w n tip, relays_from 0 h ->
  let s := rt_run cfg (rt_start b mm v) h in
  0 < active (rs_cap s) w -> len (chunks (rs_cap s) w) < k_max_chunks (r_cap cfg) ->
  exists p, let c := RCapacity (KUnstake p (active (rs_cap s) w)) in affordable cfg s w c n tip ->
  exists s', tx_apply cfg s {| tx_who := w; tx_nonce := nonce s w; tx_call := c; tx_len := n; tx_tip := tip |} = Ok (s', None)
    /\ active (rs_cap s') w = 0 /\ unlocking (rs_cap s') w = unlocking (rs_cap s) w + active (rs_cap s) w.
Proof. exact unstake_tx. Qed.
Print Assumptions C151_unstake_partial.

(** As soon as something is thawed, it can be withdrawn, with everything else that is. *)
Theorem C151_withdraw_partial :
  forall cfg b mm v h w n tip k, relays_from 0 h ->
  let s := rt_run cfg (rt_start b mm v) h in
  k ∈ chunks (rs_cap s) w -> ck_thaw k <= cs_epoch (rs_cap s) ->
  let c := RCapacity KWithdraw in affordable cfg s w c n tip ->
  exists s', tx_apply cfg s {| tx_who := w; tx_nonce := nonce s w; tx_call := c; tx_len := n; tx_tip := tip |} = Ok (s', None)
    /\ forall k', k' ∈ chunks (rs_cap s') w -> cs_epoch (rs_cap s) < ck_thaw k'.
Proof. exact withdraw_tx. Qed.
Print Assumptions C151_withdraw_partial.

(** Missing, and false: that they can pay. An account without an MSA that has frozen all it
    has is cut off: nothing that it sends is accepted, however long it waits, so that its
    stake stays. *)
Theorem C151_cut_off_refuted :
  forall cfg w s h, fees_charged cfg -> ms_keys (rs_msa s) !! w = None -> balance s w <= frozen s w -> Forall (own_step w) h ->
  active (rs_cap (rt_run cfg s h)) w = active (rs_cap s) w /\ balance (rt_run cfg s h) w = balance s w.
Proof. intros cfg w s h H1 H2 H3 H4. destruct (locked_out cfg w h s H1 (conj H2 H3) H4) as (A & B & _). done. Qed.
Print Assumptions C151_cut_off_refuted.

(** This is reached by staking twice, in a batch: key 7 has 5 tokens and stakes 3 of them, and then 3 again.
    When it has 2 more tokens it can unstake. *)
Definition bal7_ex : gmap N N := <[1 := 10000000000]> (<[7 := 500000000]> ∅).
Definition twice_h : list RtStep :=
  [ SBlock 5; tx_ex 1 0 (RMsa Create); SGov (GProvider 1 [80]);
    tx_ex 7 0 (RUtility Batch [RCapacity (KStake 1 300000000); RCapacity (KStake 1 300000000)]) ].
Definition start7_ex : RtState := rt_start bal7_ex 65500 (tr_initial bal7_ex).
Definition twice_ex : RtState := rt_run (deployed open_ex) start7_ex twice_h.
Definition unstake7_ex : RtStep := tx_ex 7 (nonce twice_ex 7) (RCapacity (KUnstake 1 600000000)).
Definition helped_ex : RtState := rt_run (deployed open_ex) twice_ex [ tx_ex 1 (nonce twice_ex 1) (RBalances (TransferKeepAlive 7 200000000)); unstake7_ex ].
Lemma ex_fees : fees_charged (deployed open_ex).
Proof. intros c n tip H. cbn. rewrite H. lia. Qed.
Example C151_stuck :
  relays_from 0 twice_h /\ active (rs_cap twice_ex) 7 = 600000000 /\ chunks (rs_cap twice_ex) 7 = []
  /\ ms_keys (rs_msa twice_ex) !! 7 = None /\ balance twice_ex 7 = 499999000 /\ frozen twice_ex 7 = 600000000
  /\ rt_step (deployed open_ex) twice_ex unstake7_ex = twice_ex
  /\ active (rs_cap helped_ex) 7 = 0 /\ unlocking (rs_cap helped_ex) 7 = 600000000.
Proof.
  split; [cbn; repeat split; discriminate|]. split; [vm_compute; reflexivity|]. split; [vm_compute; reflexivity|]. split; [vm_compute; reflexivity|].
  split; [vm_compute; reflexivity|]. split; [vm_compute; reflexivity|]. split; [vm_compute; reflexivity|]. split; vm_compute; reflexivity.
Qed.
Theorem C151_stuck_refuted :
  exists s, s = rt_run (deployed open_ex) start7_ex twice_h
  /\ forall h, Forall (own_step 7) h -> active (rs_cap (rt_run (deployed open_ex) s h)) 7 = 600000000.
Proof.
  exists twice_ex. split; [reflexivity|]. intros h Hh. destruct C151_stuck as (_ & A & _ & K & B & F & _).
  destruct (C151_cut_off_refuted (deployed open_ex) 7 twice_ex h ex_fees K) as [E _]; [rewrite B, F; discriminate|exact Hh|]. by rewrite E.
Qed.
Print Assumptions C151_stuck_refuted.

(** The conditions of the first two theorems are met: the staker of the running example. *)
Example C151_met :
  let s := state_ex in let c := RCapacity (KUnstake 1 (active (rs_cap s) 1)) in
  0 < active (rs_cap s) 1 /\ len (chunks (rs_cap s) 1) < k_max_chunks (r_cap (deployed open_ex)) /\ affordable (deployed open_ex) s 1 c 100 0.
Proof. vm_compute. repeat split; discriminate. Qed.
Definition waits_ex : list RtStep := tx_ex 1 (nonce state_ex 1) (RCapacity (KUnstake 1 300000000)) :: SGov (GEpochLength 1) :: repeat (SBlock 20) 40.
Definition thawed_ex : RtState := rt_run (deployed open_ex) state_ex waits_ex.
Example C151_met_withdraw :
  existsb (fun k => ck_thaw k <=? cs_epoch (rs_cap thawed_ex)) (chunks (rs_cap thawed_ex) 1) = true
  /\ affordable (deployed open_ex) thawed_ex 1 (RCapacity KWithdraw) 100 0.
Proof. vm_compute. split; [reflexivity|discriminate]. Qed.

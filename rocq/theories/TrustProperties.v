(** Property C147: an MSA belongs to the keys it was entrusted to. *)
From Verif Require Import Prelude CommonTypes Sums SigModel MsaModel CapModel TrModel HModel RtModel GenModel.
From Verif Require Import MsaSpec HSpec RtSpec LimSpec LeaveSpec LeaveProofs LeaveProperties DeployedProperties ConsentSpec TrustSpec TrustProofs.
From Verif Require ConsentProofs.

(** ** C147. Whatever happened, through whatever wrapped calls: every key of an MSA goes back
    to the creation of the MSA, by a chain of keys of which each signed, while it was on the
    MSA, for the next. *)
Theorem C147_chain_of_trust :
  forall cfg b mm v h k m, relays_from 0 h ->
  let s0 := rt_start b mm v in
  controls (rs_msa (rt_run cfg s0 h)) k m -> trusted cfg m (all_deeds cfg s0 h) k.
Proof. exact chain_lemma. Qed.
Print Assumptions C147_chain_of_trust.

(** Whoever holds a key of an MSA can make it the only one, with free transactions that the
    deployed runtime accepts, within the same block. The handle, the delegations, all
    balances and the keys of other MSAs stay. *)
Theorem C147_take_back :
  forall d s h k m, reached d s h -> free_is_free (d_fee d) -> controls (rs_msa s) k m ->
  exists h', let s' := rt_run (deployed d) s h' in
    Forall (free_step k (rs_relay s)) h'
    /\ free_successes (deployed d) s h' = transactions h'
    /\ new_blocks h' = 0
    /\ reached d s' (h ++ h')
    /\ sole_key m s' k
    /\ rs_h s' = rs_h s /\ ms_deleg (rs_msa s') = ms_deleg (rs_msa s) /\ rs_bal s' = rs_bal s
    /\ (forall k' m', m' <> m -> controls (rs_msa s') k' m' <-> controls (rs_msa s) k' m').
Proof.
  intros d s h k m [(b & mm & items & v & Hg & ->) Hr] Hf Hk.
  destruct (take_lemma (deployed d) k m _ Hf Hk) as (h' & T & Nb & So & Dg & Hh).
  exists h'. cbv zeta. split; [apply (t_steps _ _ _ _ _ T)|]. split; [apply (t_all _ _ _ _ _ T)|]. split; [exact Nb|].
  split.
  { split; [exists b, mm, items, v; split; [exact Hg|by rewrite run_app]|].
    apply (LeaveProofs.relays_app (deployed d) h (rt_start b mm v) h' Hr). eapply trip_relays, (t_steps _ _ _ _ _ T). }
  split; [exact So|]. split; [exact Hh|]. split; [exact Dg|]. split; [apply (t_bal _ _ _ _ _ T)|].
  intros k' m' Hm. apply (t_other _ _ _ _ _ T k' m' Hm).
Qed.
Print Assumptions C147_take_back.

(** And the only key of an MSA stays the only one, whatever happens, until it signs for
    another. *)
Theorem C147_stays_mine :
  forall cfg b mm v h h' m k, relays_from 0 (h ++ h') ->
  let s := rt_run cfg (rt_start b mm v) h in
  sole_key m s k ->
  (forall k', controls (rs_msa (rt_run cfg s h')) k' m -> k' = k)
  \/ exists g k', g ∈ all_deeds cfg s h' /\ k' <> k /\ vouched cfg m g k k'.
Proof. exact mine_lemma. Qed.
Print Assumptions C147_stays_mine.

(** Key 5 creates MSA 2 and signs for key 6, which signs for key 7; key 7 takes key 5 off.
    Then keys 6 and 7 are on MSA 2, and key 6 can have it for itself. *)
Definition chain_h : list RtStep :=
  [ SBlock 5; tx_ex 1 0 (RMsa Create); tx_ex 5 0 (RMsa Create);
    tx_ex 1 1 (RMsa (AddPublicKey 5 1005 1006 {| ak_msa := 2; ak_exp := 50; ak_key := 6 |}));
    tx_ex 1 2 (RMsa (AddPublicKey 6 2006 1007 {| ak_msa := 2; ak_exp := 51; ak_key := 7 |}));
    tx_ex 7 0 (RMsa (DeletePublicKey 5)) ].
Definition chain_st : RtState := rt_run (deployed open_ex) (rt_start bal_ex 65500 (tr_initial bal_ex)) chain_h.
Example C147_instance :
  reached open_ex chain_st chain_h /\ free_is_free (d_fee open_ex)
  /\ controls (rs_msa chain_st) 6 2 /\ controls (rs_msa chain_st) 7 2 /\ ~ controls (rs_msa chain_st) 5 2.
Proof.
  split; [split; [|vm_compute; repeat split; discriminate]; exists bal_ex, 65500, [], (tr_initial bal_ex); split; reflexivity|].
  split; [intros c n Hc; cbn; by rewrite Hc|]. vm_compute. split; [reflexivity|]. split; [reflexivity|discriminate].
Qed.
(** After key 6 took key 7 off it is the only one. *)
Lemma C147_sole : sole_key 2 (rt_run (deployed open_ex) chain_st [tx_ex 6 0 (RMsa (DeletePublicKey 7))]) 6.
Proof.
  assert (E : map_to_list (filter (fun km : N * N => km.2 = 2) (ms_keys (rs_msa (rt_run (deployed open_ex) chain_st [tx_ex 6 0 (RMsa (DeletePublicKey 7))])))) = [(6, 2)])
    by (vm_compute; reflexivity).
  intros k'. unfold controls. split.
  - intros H. assert (In : (k', 2) ∈ [(6, 2)]) by (rewrite <- E; apply elem_of_map_to_list, map_filter_lookup_Some; by split).
    apply elem_of_list_singleton in In. congruence.
  - intros ->. vm_compute. reflexivity.
Qed.

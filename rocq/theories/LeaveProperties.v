(** C141: everyone can leave. *)
From Verif Require Import Prelude CommonTypes Sums SigModel MsaModel CapModel TrModel HModel RtModel GenModel.
From Verif Require Import MsaSpec HSpec RtSpec LimSpec LeaveSpec LeaveProofs DeployedProperties.
From Verif Require HProperties MsaProofs.

(** ** C141. Whoever holds a key of an MSA can get rid of the MSA, alone, with free
    transactions and without tokens, within as many blocks as signatures may last.
    The deployed runtime accepts each of these transactions. Afterwards no key
    controls the MSA and it has no handle; balances and the keys of others are as
    before. For histories without wrapped calls, and unless the MSA is a provider. *)
Theorem C141_leave_partial :
  forall d s h k m,
    reached d s h -> all_plain h -> free_is_free (d_fee d) -> 0 < rs_block s ->
    controls (rs_msa s) k m -> ms_prov (rs_msa s) !! m = None ->
    exists h', let s' := rt_run (deployed d) s h' in
      Forall (free_step k (rs_relay s)) h'
      /\ free_successes (deployed d) s h' = transactions h'
      /\ new_blocks h' <= 100
      /\ reached d s' (h ++ h')
      /\ (forall k', ~ controls (rs_msa s') k' m)
      /\ hs_name (rs_h s') !! m = None
      /\ rs_bal s' = rs_bal s
      /\ (forall k' m', m' <> m -> controls (rs_msa s') k' m' <-> controls (rs_msa s) k' m').
Proof.
  intros d s h k m [(b & mm & items & v & Hg & ->) Hr] Hp Hf Hb Hk Hn.
  destruct (leave_lemma (deployed d) Hf k m (proj1 HProperties.C50_runtime_generator) (proj2 HProperties.C50_runtime_generator _ _)
    b mm v h Hr Hp ltac:(vm_compute; discriminate) Hb Hk Hn) as (h' & T & Nb & Nk & Nh).
  exists h'. cbv zeta. split; [apply (t_steps _ _ _ _ _ T)|]. split; [apply (t_all _ _ _ _ _ T)|]. split; [exact Nb|].
  split.
  { split; [exists b, mm, items, v; split; [exact Hg|by rewrite run_app]|].
    apply (relays_app (deployed d) h (rt_start b mm v) h' Hr). eapply trip_relays, (t_steps _ _ _ _ _ T). }
  split; [exact Nk|]. split; [exact Nh|]. split; [apply (t_bal _ _ _ _ _ T)|].
  intros k' m' Hm. apply (t_other _ _ _ _ _ T k' m' Hm).
Qed.
Print Assumptions C141_leave_partial.

(** Key 5 of the running example: its MSA 2 has a handle and a delegation. *)
Example C141_instance :
  reached open_ex state_ex history_ex /\ all_plain history_ex /\ free_is_free (d_fee open_ex) /\ 0 < rs_block state_ex
  /\ controls (rs_msa state_ex) 5 2 /\ ms_prov (rs_msa state_ex) !! 2 = None
  /\ is_Some (hs_name (rs_h state_ex) !! 2) /\ is_Some (ms_deleg (rs_msa state_ex) !! (2, 1)).
Proof.
  split; [exact (proj1 (proj2 C129_reached))|]. split; [exact (proj2 (proj2 C129_reached))|].
  split; [intros c n Hc; cbn; by rewrite Hc|]. split; [vm_compute; reflexivity|]. split; [vm_compute; reflexivity|].
  split; [vm_compute; reflexivity|]. split; [vm_compute; eauto|]. vm_compute; eauto.
Qed.

(** ** Not after wrapped calls. If fewer keys are on an MSA than the stored count
    says, then whatever anybody does with plain calls, some key stays on it. *)
Theorem C141_locked_in :
  forall cfg m s l h,
    m <= ms_max (rs_msa s) -> keys_listing (rs_msa s) m l -> l <> [] ->
    key_count (rs_msa s) m = len l + 1 -> key_count (rs_msa s) m <= u8_max ->
    relays_from (rs_relay s) h -> all_plain h -> exists k, controls (rs_msa (rt_run cfg s h)) k m.
Proof. exact locked_in_lemma. Qed.
Print Assumptions C141_locked_in.

(** And a stranger can do this to others: keys 5 and 6 are on MSA 2; key 1, of MSA
    1, deletes key 6 in a batch. Key 5 can never retire MSA 2 by plain calls. *)
Definition locked_h : list RtStep :=
  [ SBlock 5; tx_ex 1 0 (RMsa Create); tx_ex 5 0 (RMsa Create);
    tx_ex 1 1 (RMsa (AddPublicKey 5 1005 1006 {| ak_msa := 2; ak_exp := 50; ak_key := 6 |}));
    tx_ex 1 2 (RUtility Batch [ROther PSystem; RMsa (DeletePublicKey 6)]) ].
Definition locked_st : RtState := rt_run (deployed open_ex) (rt_start bal_ex 65500 (tr_initial bal_ex)) locked_h.
Lemma locked_obs : ms_max (rs_msa locked_st) = 2 /\ key_count (rs_msa locked_st) 2 = 2 /\ rs_relay locked_st = 5 /\ rs_block locked_st = 1
  /\ ms_keys (rs_msa locked_st) !! 5 = Some 2 /\ ms_prov (rs_msa locked_st) !! 2 = None
  /\ (map_to_list (MsaProofs.kmap (ms_keys (rs_msa locked_st)) 2)).*1 = [5].
Proof. vm_compute. repeat split; reflexivity. Qed.
Lemma locked_reached : reached open_ex locked_st locked_h.
Proof.
  split; [|vm_compute; repeat split; discriminate]. exists bal_ex, 65500, [], (tr_initial bal_ex). split; reflexivity.
Qed.
Lemma locked_relays h' : relays_from 0 (locked_h ++ h') -> relays_from 5 h'.
Proof. unfold locked_h. cbn [app relays_from]. tauto. Qed.

Theorem C141_leave_refuted :
  exists d s h k m,
    reached d s h /\ free_is_free (d_fee d) /\ 0 < rs_block s /\ controls (rs_msa s) k m /\ ms_prov (rs_msa s) !! m = None
    /\ (forall h', reached d (rt_run (deployed d) s h') (h ++ h') -> all_plain h' ->
          exists k', controls (rs_msa (rt_run (deployed d) s h')) k' m).
Proof.
  pose proof locked_obs as E. pose proof (MsaProofs.keys_listing_exists (rs_msa locked_st) 2) as L.
  destruct E as (E1 & E2 & E3 & E4 & E5 & E6 & E7). rewrite E7 in L.
  exists open_ex, locked_st, locked_h, 5, 2. split; [exact locked_reached|].
  split; [intros c n Hc; cbn; by rewrite Hc|]. split; [rewrite E4; reflexivity|]. split; [exact E5|]. split; [exact E6|].
  intros h' [_ Hr] Hp. eapply locked_in_lemma; [rewrite E1; apply N.le_refl|exact L|discriminate|rewrite E2; reflexivity|rewrite E2; vm_compute; discriminate| |exact Hp].
  rewrite E3. exact (locked_relays h' Hr).
Qed.
Print Assumptions C141_leave_refuted.

(** Properties C111-C116 of the composed runtime. *)
From Verif Require Import Prelude Scale CommonTypes SigModel MsaModel CapModel TrModel HModel ScModel StModel MgModel FeeModel RtModel.
From Verif Require Import MsaSpec CapSpec TrSpec StSpec RtSpec RtMoreSpec RtMore RtRefs RtProperties.
From Verif Require HProperties StProperties.

(** ** C111 *)
Theorem C111_narrow_proxies :
  forall cfg real force c o s s', rt_dispatch cfg (RProxy real force c) o s = Ok s' ->
  (forall t, (o_who o, t) ∈ default [] (rs_proxies s !! real) -> narrow t) ->
  s' = s \/ (o_who o, PStaking) ∈ default [] (rs_proxies s !! real) /\
    exists target amount x, c = RCapacity (KStake target amount) /\ s' = up_cap_ s x
    /\ cap_apply (r_cap cfg) (cap_view s) (OpStake (is_registered_provider (rs_msa s)) real target amount) = Ok x.
Proof. exact narrow_lemma. Qed.
Print Assumptions C111_narrow_proxies.

(** Account 1 makes 3 its staking proxy and 5 its governance proxy. 3 can stake
    1's tokens on provider 1, and cannot unstake them, send them away or stake
    in a batch; 5 can do nothing. *)
Definition narrow_st : RtState := rt_run demo demo_st [send 1 4 (RAddProxy 3 PStaking); send 1 5 (RAddProxy 5 PGovernance)].
Definition for1 (who n : N) (c : RtCall) : N * N :=
  let s := rt_step demo narrow_st (send who n (RProxy 1 None c)) in (active (rs_cap s) 1, balance s 1).
Example C111_nonvacuous :
  (forall t, (3, t) ∈ default [] (rs_proxies narrow_st !! 1) -> narrow t)
  /\ for1 3 0 (RCapacity (KStake 1 5000000)) = (1005000000, 9999999970)
  /\ for1 3 0 (RCapacity (KUnstake 1 5000000)) = (1000000000, 9999999970)
  /\ for1 3 0 (RBalances (TransferAllowDeath 3 100)) = (1000000000, 9999999970)
  /\ for1 3 0 (RUtility Batch [RCapacity (KStake 1 5000000)]) = (1000000000, 9999999970)
  /\ for1 5 1 (RCapacity (KStake 1 5000000)) = (1000000000, 9999999970).
Proof.
  split; [|vm_compute; repeat split; reflexivity].
  intros t H. change (default [] (rs_proxies narrow_st !! 1)) with [(3, PStaking); (5, PGovernance)] in H.
  unfold narrow. set_solver.
Qed.

(** ** C112: nothing in the runtime creates tokens *)
Theorem C112_no_tokens_created :
  forall cfg s h, total_tokens (rt_run cfg s h) <= total_tokens s.
Proof. intros cfg s h. apply total_run. Qed.
Print Assumptions C112_no_tokens_created.

(** While an account that has no proxy and is not the account of a multisig sends
    nothing, its balance does not go down, and its stake, the tokens it is
    unstaking, its nonce and its proxies stay as they are, whatever all others,
    governance and time do. *)
Theorem C112_untouched :
  forall cfg s a h, alone cfg s a -> Forall (not_by a) h ->
  let s' := rt_run cfg s h in
  alone cfg s' a /\ balance s a <= balance s' a /\ nonce s' a = nonce s a /\ same_stake a (rs_cap s) (rs_cap s').
Proof. exact alone_lemma. Qed.
Print Assumptions C112_untouched.

(** Account 1, with its stake: 6 sends it tokens, 5 acts for a multisig that
    includes 1, 3 tries to act as its proxy, governance changes the epoch. *)
Definition others : list RtStep :=
  [ send 6 0 (RBalances (TransferKeepAlive 1 100)); SBlock 7; send 5 1 (RMultisig1 [1] (RBalances (TransferAllowDeath 5 3)));
    send 3 0 (RProxy 1 None (RBalances (TransferAllowDeath 3 100))); SGov (GEpochLength 50) ].
Example C112_nonvacuous :
  alone demo demo_st 1 /\ Forall (not_by 1) others
  /\ (total_tokens demo_st, total_tokens (rt_run demo demo_st others)) = (10000001565, 10000001550)
  /\ (balance demo_st 1, balance (rt_run demo demo_st others) 1) = (9999999980, 10000000080)
  /\ (active (rs_cap demo_st) 1, nonce demo_st 1) = (1000000000, 4).
Proof.
  split; [split; [reflexivity|cbn; lia]|]. split; [repeat constructor; discriminate|]. vm_compute. repeat split; reflexivity.
Qed.

(** ** C113 *)
Theorem C113_capacity_of_providers :
  forall cfg b mm v h m, let s := rt_run cfg (rt_start b mm v) h in
  is_Some (cs_cap (rs_cap s) !! m) -> is_registered_provider (rs_msa s) m = true.
Proof. exact provider_lemma. Qed.
Print Assumptions C113_capacity_of_providers.
Example C113_nonvacuous :
  is_Some (cs_cap (rs_cap demo_st) !! 1) /\ is_registered_provider (rs_msa demo_st) 3 = false
  /\ result (tx_apply demo demo_st (tx_ 1 4 (RCapacity (KStake 3 1000000)))) = Some (Some (XCapacity KInvalidTarget)).
Proof. vm_compute. eauto. Qed.

(** ** C114. What holds: with no call wrapped in another. *)
Theorem C114_handles_have_owners_partial :
  forall cfg b mm v h m, relays_from 0 h -> all_plain h ->
  let s := rt_run cfg (rt_start b mm v) h in has_handle s m -> has_key s m.
Proof. exact handle_lemma. Qed.
Print Assumptions C114_handles_have_owners_partial.

(** Missing: wrapped calls. 5's MSA 3 has the handle "foo.10"; 5 retires the MSA
    in a batch, where the check that it has no handle is not made. The handle
    stays, and nobody can retire it any more. *)
Definition claim3 : list RtStep := [ send 1 4 (RHandles (ClaimHandle 5 5 {| hp_base := HProperties.foo; hp_exp := 50 |})) ].
Definition retire_in_batch : RtStep := send 5 1 (RUtility Batch [ROther PSystem; RMsa RetireMsa]).
Definition orphan_h : list RtStep := demo_h ++ claim3 ++ [retire_in_batch].
Lemma orphan_keys : bool_decide (ms_keys (rs_msa (rt_run demo demo_start orphan_h)) = list_to_map [(1, 1); (7, 2)]) = true.
Proof. vm_compute. reflexivity. Qed.
Lemma orphan_handle : has_handle (rt_run demo demo_start orphan_h) 3.
Proof. vm_compute. eauto. Qed.
Lemma orphan_no_key : ~ has_key (rt_run demo demo_start orphan_h) 3.
Proof.
  intros [k Hk]. unfold controls in Hk. rewrite (bool_decide_eq_true_1 _ orphan_keys) in Hk.
  apply elem_of_list_to_map_2 in Hk. apply elem_of_cons in Hk as [Hk|Hk]; [discriminate|].
  apply elem_of_list_singleton in Hk. discriminate.
Qed.
Theorem C114_batch_refuted :
  exists cfg b mm v h m, relays_from 0 h /\
  has_handle (rt_run cfg (rt_start b mm v) h) m /\ ~ has_key (rt_run cfg (rt_start b mm v) h) m.
Proof.
  exists demo, demo_bal, 65500, (tr_initial demo_bal), orphan_h, 3. split; [vm_compute; repeat split; discriminate|].
  exact (conj orphan_handle orphan_no_key).
Qed.
Print Assumptions C114_batch_refuted.
Example C114_nonvacuous :
  let s := rt_run demo demo_start (demo_h ++ claim3) in
  relays_from 0 (demo_h ++ claim3) /\ all_plain (demo_h ++ claim3) /\ has_handle s 3 /\ controls (rs_msa s) 5 3
  /\ rt_step demo s (send 5 1 (RMsa RetireMsa)) = s.
Proof.
  split; [vm_compute; repeat split; discriminate|]. split; [repeat constructor|].
  split; [vm_compute; eauto|]. split; vm_compute; reflexivity.
Qed.

(** ** C115. As long as nobody stakes or withdraws, what an account has staked or
    is unstaking stays frozen and in the account, as far as it was there. *)
Theorem C115_staked_tokens_stay :
  forall cfg s h a, Forall no_staking h ->
  let s' := rt_run cfg s h in
  CapSpec.frozen (rs_cap s') a = CapSpec.frozen (rs_cap s) a
  /\ N.min (balance s a) (CapSpec.frozen (rs_cap s) a) <= balance s' a.
Proof. intros cfg s h a F. exact (stake_run cfg h s F a). Qed.
Print Assumptions C115_staked_tokens_stay.
(** 1 unstakes half of its stake and sends away all it can. *)
Definition unstake_h : list RtStep :=
  [ send 1 4 (RCapacity (KUnstake 1 500000000)); send 1 5 (RBalances (TransferAllowDeath 6 9999999960)); send 1 6 (RBalances (TransferAll 6 false)) ].
Example C115_nonvacuous :
  Forall no_staking unstake_h
  /\ (balance demo_st 1, CapSpec.frozen (rs_cap demo_st) 1) = (9999999980, 1000000000)
  /\ (balance (rt_run demo demo_st unstake_h) 1, active (rs_cap (rt_run demo demo_st unstake_h)) 1) = (1000000000, 500000000).
Proof.
  split; [repeat constructor; intros c Hc; cbn in Hc; apply elem_of_list_singleton in Hc as ->; done|].
  split; vm_compute; reflexivity.
Qed.

(** ** C116. Whatever is stored belongs to an MSA that was issued and to a schema
    that is registered for that kind of storage. *)
Theorem C116_pages :
  forall cfg b mm v h l, sizes_ok (r_st cfg) -> hashes_ok (r_st cfg) -> g_max (r_mg cfg) <= u32_max -> relays_from 0 h -> loc_ok l ->
  let s := rt_run cfg (rt_start b mm v) h in
  stored_at cfg s l -> schema_at s (loc_schema l) (loc_kind l) /\ MsaSpec.issued (rs_msa s) (loc_msa l).
Proof. exact pages_lemma. Qed.
Print Assumptions C116_pages.
Theorem C116_messages :
  forall cfg b mm v h k sch i m, sizes_ok (r_st cfg) -> hashes_ok (r_st cfg) -> g_max (r_mg cfg) <= u32_max -> relays_from 0 h ->
  let s := rt_run cfg (rt_start b mm v) h in
  mg_messages (rs_mg s) !! (k, sch, i) = Some m ->
  MsaSpec.issued (rs_msa s) (ms_provider m) /\
  match ms_source m with
  | Some d => schema_at s sch OnChain /\ MsaSpec.issued (rs_msa s) d
  | None => schema_at s sch IPFS
  end.
Proof. exact messages_lemma. Qed.
Print Assumptions C116_messages.

(** Two schemas, a message under the first and a page under the second. A page
    under the first is refused. *)
Definition model8 : list N := repeat 34 8.
Definition stored_h : list RtStep :=
  [ SGov (GSchemas true (CreateSchemaViaGovernance 1 model8 AvroBinary OnChain []));
    SGov (GSchemas true (CreateSchemaViaGovernance 1 model8 AvroBinary Paginated []));
    send 1 4 (RMessages (AddOnchainMessage None 1 [7; 7]));
    send 5 1 (RStorage (UpsertPage 3 1 0 0 [8])); send 5 2 (RStorage (UpsertPage 3 2 0 0 [9])) ].
Definition stored_st : RtState := rt_run demo demo_st stored_h.
Example C116_nonvacuous :
  sizes_ok (r_st demo) /\ hashes_ok (r_st demo) /\ g_max (r_mg demo) <= u32_max
  /\ relays_from 0 (demo_h ++ stored_h)
  /\ map_to_list (mg_messages (rs_mg stored_st)) = [(1, 1, 0, {| ms_payload := [7; 7]; ms_provider := 1; ms_source := Some 1 |})]
  /\ stored_at demo stored_st (PageLoc 3 2 0) /\ ~ stored_at demo stored_st (PageLoc 3 1 0).
Proof.
  destruct (StProperties.toy_ok (fun s k _ => s mod 1000 =? k)) as (H1 & H2 & _).
  split; [exact H1|]. split; [exact H2|]. split; [vm_compute; discriminate|]. split; [vm_compute; repeat split; discriminate|].
  split; [vm_compute; reflexivity|]. split; [eexists; vm_compute; reflexivity|].
  intros [p Hp]. vm_compute in Hp. discriminate.
Qed.

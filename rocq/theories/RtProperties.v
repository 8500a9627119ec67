(** Properties C15, C80, C81, C84-C88 and C108-C110 of the composed runtime. *)
From Verif Require Import Prelude Scale CommonTypes SigModel MsaModel CapModel TrModel StModel HModel ScModel MgModel FeeModel RtModel.
From Verif Require Import MsaSpec CapSpec TrSpec FeeSpec RtSpec RtProofs RtProj RtFinal RtFinal2.
From Verif Require MsaProperties StProperties MgProperties HProperties TrProperties StSpec.

(** ** A chain used by the examples. Signature [s] verifies for the key [s mod
    1000]; a call that pays costs 5 tokens and the tip. *)
Definition demo : RtCfg :=
  {| r_mainnet := false; r_msa := MsaProperties.toy_cfg; r_sc := runtime_schemas (fun _ _ => true); r_h := HProperties.toy;
     r_st := StProperties.toy_st; r_mg := MgProperties.toy_mg; r_cap := runtime_cap_cfg; r_tr := TrProperties.vest_cfg; r_ed := 2;
     r_max_batch := 3; r_token_fee := fun c _ tip => if is_pays_no_call c then 0 else 5 + tip; r_multi := fun who _ => 1000 + who;
     r_verify := fun s k _ => s mod 1000 =? k; r_council := fun _ _ => false |}.
Definition demo_mainnet : RtCfg :=
  {| r_mainnet := true; r_msa := r_msa demo; r_sc := r_sc demo; r_h := r_h demo; r_st := r_st demo; r_mg := r_mg demo; r_cap := r_cap demo;
     r_tr := r_tr demo; r_ed := 2; r_max_batch := 3; r_token_fee := r_token_fee demo; r_multi := r_multi demo; r_verify := r_verify demo;
     r_council := r_council demo |}.
Definition demo_bal : gmap N N := <[1 := 10000000000]> (<[3 := 500]> (<[5 := 500]> (<[6 := 500]> (<[1006 := 90]> ∅)))).
Definition demo_start : RtState := rt_start demo_bal 65500 (tr_initial demo_bal).
Definition tx_ (who n : N) (c : RtCall) : Tx := {| tx_who := who; tx_nonce := n; tx_call := c; tx_len := 100; tx_tip := 0 |}.
Definition send (who n : N) (c : RtCall) : RtStep := STx (tx_ who n c).

(** Key 1 creates MSA 1, registers it as a provider, stakes on it, and sponsors
    MSA 2 for key 7, which holds no tokens. Key 5 creates MSA 3. *)
Definition demo_h : list RtStep :=
  [ SBlock 5; send 1 0 (RMsa Create); send 1 1 (RMsa (CreateProvider [80]));
    send 1 2 (RCapacity (KStake 1 1000000000));
    send 1 3 (RMsa (CreateSponsored 7 7 {| ap_msa := 1; ap_schemas := []; ap_exp := 50 |}));
    send 5 0 (RMsa Create) ].
Definition demo_st : RtState := rt_run demo demo_start demo_h.
Example demo_reached :
  map_to_list (ms_keys (rs_msa demo_st)) = [(1, 1); (7, 2); (5, 3)]
  /\ (nonce demo_st 1, nonce demo_st 5, nonce demo_st 7) = (4, 1, 0)
  /\ (balance demo_st 1, balance demo_st 5, remaining (rs_cap demo_st) 1) = (9999999980, 495, 20000000)
  /\ relays_from 0 demo_h.
Proof. vm_compute. repeat split; try reflexivity; discriminate. Qed.

(** ** C15. What is true: a key is detached only by a transaction with a call to
    delete that key, or to retire, somewhere in it; and if this call is the
    transaction's own call, its signer controls the MSA. *)
Theorem C15_detach_partial :
  forall cfg s x k m, controls (rs_msa s) k m -> ~ controls (rs_msa (rt_step cfg s x)) k m ->
  exists t, x = STx t
    /\ (RMsa (DeletePublicKey k) ∈ leaves (tx_call t) \/ RMsa RetireMsa ∈ leaves (tx_call t))
    /\ (plain (tx_call t) -> controls (rs_msa s) (tx_who t) m).
Proof. intros cfg s x. apply detach_step. Qed.
Print Assumptions C15_detach_partial.

(** Missing: wrapped calls, for which the property is false. The runtime admits a
    batch if any of its calls is allowed, and the check that the signer owns the
    key is made for the transaction's own call only. So whoever has any MSA can
    detach any key of any other, in every state. *)
Theorem C15_anyone_detaches_refuted :
  forall cfg s who own k m, controls (rs_msa s) who own -> controls (rs_msa s) k m -> exists s',
  rt_dispatch cfg (RUtility Batch [ROther PSystem; RMsa (DeletePublicKey k)]) (signed who) s = Ok s'
  /\ ms_keys (rs_msa s') = delete k (ms_keys (rs_msa s)).
Proof. intros cfg s who own k m. apply batch_detach. Qed.
Print Assumptions C15_anyone_detaches_refuted.

(** As a transaction in a reachable state: account 5 takes MSA 2's only key. *)
Theorem C15_stranger_refuted :
  exists cfg start h t k m,
    let s := rt_run cfg start h in
    let s' := rt_step cfg s (STx t) in
    start = rt_start (rs_bal start) 65500 (tr_initial (rs_bal start)) /\
    controls (rs_msa s) k m /\ ~ controls (rs_msa s) (tx_who t) m /\ ~ controls (rs_msa s') k m.
Proof.
  exists demo, demo_start, demo_h, (tx_ 5 1 (RUtility Batch [ROther PSystem; RMsa (DeletePublicKey 7)])), 7, 2.
  split; [reflexivity|]. split; [vm_compute; reflexivity|]. split; vm_compute; discriminate.
Qed.
Print Assumptions C15_stranger_refuted.

Example C15_nonvacuous :
  let s := rt_run demo demo_st [ send 1 4 (RMsa (AddPublicKey 7 1007 2008 {| ak_msa := 2; ak_exp := 50; ak_key := 8 |})) ] in
  controls (rs_msa s) 8 2 /\ ~ controls (rs_msa (rt_step demo s (send 7 0 (RMsa (DeletePublicKey 8))))) 8 2.
Proof. split; vm_compute; [reflexivity|discriminate]. Qed.

(** ** C80 *)
Theorem C80_accepted_exactly_when :
  forall cfg s t calls, wraps (tx_call t) calls -> tx_len t <= u32_max ->
  is_ok (tx_apply cfg s t) = true <->
  tx_nonce t = nonce s (tx_who t) /\ eligible calls /\ r_ed cfg <= balance s (tx_who t)
  /\ exists m, controls (rs_msa s) (tx_who t) m /\ is_Some (cs_cap (rs_cap s) !! m)
     /\ capacity_fee calls (tx_len t) <= spendable (rs_cap s) m.
Proof. exact accepted_lemma. Qed.
Print Assumptions C80_accepted_exactly_when.

(** Whatever the wrapped calls do and whether they succeed, exactly the fee
    leaves the capacity of the signer's MSA, and no other capacity, stake or
    balance changes. *)
Theorem C80_charged_exactly :
  forall cfg s t calls s' r, wraps (tx_call t) calls -> tx_len t <= u32_max -> tx_apply cfg s t = Ok (s', r) ->
  exists m, controls (rs_msa s) (tx_who t) m
  /\ remaining (rs_cap s') m + capacity_fee calls (tx_len t) = spendable (rs_cap s) m
  /\ issued (rs_cap s') m = issued (rs_cap s) m
  /\ (forall m', m' <> m -> cs_cap (rs_cap s') !! m' = cs_cap (rs_cap s) !! m')
  /\ cs_staking (rs_cap s') = cs_staking (rs_cap s) /\ cs_targets (rs_cap s') = cs_targets (rs_cap s)
  /\ cs_unlocks (rs_cap s') = cs_unlocks (rs_cap s) /\ cs_freeze (rs_cap s') = cs_freeze (rs_cap s)
  /\ rs_bal s' = rs_bal s /\ rs_tr s' = rs_tr s.
Proof. exact charge_lemma. Qed.
Print Assumptions C80_charged_exactly.

Definition sponsor8 : RtCall := RMsa (CreateSponsored 8 8 {| ap_msa := 1; ap_schemas := []; ap_exp := 50 |}).
Example C80_nonvacuous :
  is_ok (tx_apply demo demo_st (tx_ 1 4 (RPay sponsor8))) = true
  /\ capacity_fee [sponsor8] 100 = 2987184
  /\ let s := rt_step demo demo_st (send 1 4 (RPay sponsor8)) in
     (remaining (rs_cap s) 1, ms_keys (rs_msa s) !! 8) = (17012816, Some 4)
  (* the same by key 7, which has no tokens, and by account 3, which has no MSA *)
  /\ tx_apply demo demo_st (tx_ 7 0 (RPay sponsor8)) = Err IPayment
  /\ tx_apply demo demo_st (tx_ 3 0 (RPay sponsor8)) = Err IInvalidMsaKey.
Proof. vm_compute. repeat split. Qed.

(** ** C81 *)
Theorem C81_too_long :
  forall cfg s t l s' r, tx_call t = RPayBatch l -> r_max_batch cfg < len l -> tx_len t <= u32_max ->
  tx_apply cfg s t = Ok (s', r) -> r = Some XBatchTooLong /\ same_but_fee s s'.
Proof. exact too_long_lemma. Qed.
Print Assumptions C81_too_long.

Theorem C81_atomic :
  forall cfg s t calls s' e, wraps (tx_call t) calls -> tx_len t <= u32_max ->
  tx_apply cfg s t = Ok (s', Some e) -> same_but_fee s s'.
Proof. exact atomic_lemma. Qed.
Print Assumptions C81_atomic.

Theorem C81_all_ran :
  forall cfg s t calls s', wraps (tx_call t) calls -> tx_len t <= u32_max -> tx_apply cfg s t = Ok (s', None) ->
  (forall l, tx_call t = RPayBatch l -> len l <= r_max_batch cfg) /\
  exists s1, same_but_fee s s1 /\ all_ran cfg (tx_who t) calls s1 s'.
Proof. exact ran_lemma. Qed.
Print Assumptions C81_all_ran.

(** Sponsoring key 8 twice: the second fails, so the first is undone. *)
Definition result (x : res TxErr (RtState * option RtErr)) : option (option RtErr) := match x with Ok (_, r) => Some r | Err _ => None end.
Definition sponsor9 : RtCall := RMsa (CreateSponsored 9 9 {| ap_msa := 1; ap_schemas := []; ap_exp := 50 |}).
Example C81_nonvacuous :
  result (tx_apply demo demo_st (tx_ 1 4 (RPayBatch [sponsor8; sponsor8]))) = Some (Some (XMsa (SigError SignatureAlreadySubmitted)))
  /\ ms_keys (rs_msa (rt_step demo demo_st (send 1 4 (RPayBatch [sponsor8; sponsor8])))) !! 8 = None
  /\ ms_keys (rs_msa (rt_step demo demo_st (send 1 4 (RPayBatch [sponsor8; sponsor9])))) !! 9 = Some 5
  /\ result (tx_apply demo demo_st (tx_ 1 4 (RPayBatch [sponsor8; sponsor8; sponsor8; sponsor8]))) = Some (Some XBatchTooLong).
Proof. vm_compute. repeat split. Qed.

(** ** C84. A transaction that was included, and that paid or whose account had
    tokens, is rejected for ever while the account's nonce is not reset. *)
Theorem C84_never_again_partial :
  forall cfg b mm v h t s1 r h',
  let s := rt_run cfg (rt_start b mm v) h in
  is_pays_no_call (tx_call t) = false \/ 0 < balance s (tx_who t) ->
  tx_apply cfg s t = Ok (s1, r) -> (forall i, nonce (rt_run cfg s1 (take i h')) (tx_who t) <> 0) ->
  tx_apply cfg (rt_run cfg s1 h') t = Err IStale.
Proof. exact stale_lemma. Qed.
Print Assumptions C84_never_again_partial.
Theorem C84_passkey_never_again_partial :
  forall cfg b mm v h p s1 r h',
  let s := rt_run cfg (rt_start b mm v) h in
  passkey_apply cfg s p = Ok (s1, r) -> (forall i, nonce (rt_run cfg s1 (take i h')) (pk_account p) <> 0) ->
  passkey_apply cfg (rt_run cfg s1 h') p = Err IStale.
Proof. exact passkey_stale_lemma. Qed.
Print Assumptions C84_passkey_never_again_partial.
(** Nonces never fall, except to zero: after 2^32 transactions, or by a step with
    a call that moves tokens (which can remove the account). *)
Theorem C84_reset_partial :
  forall cfg s x w, (forall a, nonce s a <= u32_max) ->
  nonce (rt_step cfg s x) w <= u32_max /\ (nonce s w <= nonce (rt_step cfg s x) w \/
  nonce (rt_step cfg s x) w = 0 /\ (nonce s w = u32_max \/ exists c, c ∈ calls_of x /\ moves_tokens c)).
Proof. intros cfg s x w. apply nonce_step. Qed.
Print Assumptions C84_reset_partial.

(** Missing, and false: a free transaction from an account without tokens leaves
    no nonce. Key 7 revokes the delegation to MSA 1, later grants it again, and
    then anybody can submit the old revocation once more. *)
Definition revoke7 : Tx := tx_ 7 0 (RMsa (RevokeByDelegator 1)).
Theorem C84_free_replay_refuted :
  exists cfg start h h' t s1 s2,
    start = rt_start (rs_bal start) 65500 (tr_initial (rs_bal start)) /\
    tx_apply cfg (rt_run cfg start h) t = Ok (s1, None) /\ tx_apply cfg (rt_run cfg s1 h') t = Ok (s2, None) /\
    (forall x, x ∈ h' -> x <> STx t).
Proof.
  exists demo, demo_start, demo_h,
    [SBlock 6; send 1 4 (RMsa (GrantDelegation 7 1007 {| ap_msa := 1; ap_schemas := []; ap_exp := 50 |})); SBlock 7], revoke7.
  eexists _, _. split; [reflexivity|]. split; [vm_compute; reflexivity|]. split; [vm_compute; reflexivity|].
  intros x H. repeat (apply elem_of_cons in H as [->|H]; [discriminate|]). inversion H.
Qed.
Print Assumptions C84_free_replay_refuted.

(** So does the removal of an account: 3 pays 100 to 6, later empties the
    account, and when it has tokens again the first payment can be repeated. *)
Theorem C84_reaped_replay_refuted :
  exists cfg start h' t s1 s2,
    start = rt_start (rs_bal start) 65500 (tr_initial (rs_bal start)) /\ is_pays_no_call (tx_call t) = false /\
    tx_apply cfg start t = Ok (s1, None) /\ tx_apply cfg (rt_run cfg s1 h') t = Ok (s2, None) /\
    (forall x, x ∈ h' -> x <> STx t).
Proof.
  exists demo, demo_start,
    [send 3 1 (RBalances (TransferAll 6 false)); send 1 0 (RBalances (TransferAllowDeath 3 300))], (tx_ 3 0 (RBalances (TransferAllowDeath 6 100))).
  eexists _, _. split; [reflexivity|]. split; [reflexivity|]. split; [vm_compute; reflexivity|]. split; [vm_compute; reflexivity|].
  intros x H. repeat (apply elem_of_cons in H as [->|H]; [discriminate|]). inversion H.
Qed.
Print Assumptions C84_reaped_replay_refuted.

Example C84_nonvacuous :
  let t := tx_ 3 0 (RBalances (TransferAllowDeath 6 100)) in
  let s1 := rt_step demo demo_st (STx t) in
  is_ok (tx_apply demo demo_st t) = true /\ nonce s1 3 = 1 /\ tx_apply demo s1 t = Err IStale
  /\ nonce (rt_run demo s1 [send 3 1 (RMsa Create)]) 3 = 2.
Proof. vm_compute. repeat split. Qed.

(** ** C85, C86 *)
Theorem C85_approved_partial :
  forall cfg s p s' r, passkey_apply cfg s p = Ok (s', r) ->
  r_verify cfg (pk_proof p) (pk_account p) (wrap_binary_data (pk_public_key p)) = true.
Proof. intros cfg s p s' r H. apply passkey_lemma in H. tauto. Qed.
Print Assumptions C85_approved_partial.

(** Missing, and false: the passkey's own signature is never looked at. *)
Theorem C85_signature_ignored_refuted :
  forall cfg s p sg, passkey_apply cfg s
    {| pk_public_key := pk_public_key p; pk_signature := sg; pk_account := pk_account p; pk_nonce := pk_nonce p; pk_proof := pk_proof p; pk_call := pk_call p |}
  = passkey_apply cfg s p.
Proof. exact passkey_ignores. Qed.
Print Assumptions C85_signature_ignored_refuted.

(** Account 3's approval of a passkey is public; with it and no signature anybody
    can send 3's tokens to 9. *)
Definition stolen : PasskeyPayload :=
  {| pk_public_key := [2; 1]; pk_signature := []; pk_account := 3; pk_nonce := 0; pk_proof := 3; pk_call := RBalances (TransferAllowDeath 9 400) |}.
Example C85_example :
  let s := rt_step demo demo_st (SPasskey stolen) in (balance demo_st 3, balance s 3, balance s 9) = (500, 95, 400).
Proof. vm_compute. reflexivity. Qed.

Theorem C86_only_transfers :
  forall cfg s p s' r, passkey_apply cfg s p = Ok (s', r) ->
  r_mainnet cfg = false /\ (exists c, pk_call p = RBalances c) /\ pk_nonce p = nonce s (pk_account p)
  /\ s' = up_nonce_ (up_bal_ s (rs_bal s')) (rs_nonce s')
  /\ (forall a, a <> pk_account p -> balance s a <= balance s' a).
Proof.
  intros cfg s p s' r H. apply passkey_lemma in H as (H1 & H2 & H3 & _ & H4 & H5).
  split; [done|]. split; [done|]. split; [done|]. split; [|done]. destruct s, s'. unfold rest in H4. cbn in *. unfold up_nonce_, up_bal_ in *. cbn in *. congruence.
Qed.
Print Assumptions C86_only_transfers.
Example C86_nonvacuous : is_ok (passkey_apply demo demo_st stolen) = true /\ passkey_apply demo_mainnet demo_st stolen = Err ICall.
Proof. vm_compute. repeat split. Qed.

(** ** C87 *)
Theorem C87_some_allowed_partial :
  forall cfg k l o s s', rt_dispatch cfg (RUtility k l) o s = Ok s' -> exists c, c ∈ l /\ ~ blocked c.
Proof. exact batch_some. Qed.
Print Assumptions C87_some_allowed_partial.

(** On mainnet, no transaction, however nested, registers a provider or a schema;
    governance does. *)
Theorem C87_governance_only_partial :
  forall cfg s x, r_mainnet cfg = true -> (forall c, x <> SGov c) ->
  let s' := rt_step cfg s x in
  ms_prov (rs_msa s') = ms_prov (rs_msa s) /\ ScModel.sc_count (rs_sc s') = ScModel.sc_count (rs_sc s)
  /\ sc_infos (rs_sc s') = sc_infos (rs_sc s) /\ sc_models (rs_sc s') = sc_models (rs_sc s) /\ sc_names (rs_sc s') = sc_names (rs_sc s).
Proof. intros cfg s x Hm Hx. by apply registry_step. Qed.
Print Assumptions C87_governance_only_partial.

(** Missing, and false: one allowed call opens the batch for any blocked one. *)
Theorem C87_batch_refuted :
  forall mainnet k c, blocked c -> base_filter mainnet (RUtility k [ROther PSystem; c]) = true.
Proof. intros mainnet k c _. exact (batch_any mainnet k c). Qed.
Print Assumptions C87_batch_refuted.
Example C87_example :
  is_ok (rt_dispatch demo (RUtility Batch [ROther PSystem; RMsa (CreateProvider [81])]) (signed 5) demo_st) = true
  /\ is_registered_provider (rs_msa (rt_step demo demo_st (send 5 1 (RUtility Batch [ROther PSystem; RMsa (CreateProvider [81])])))) 3 = true
  /\ is_registered_provider (rs_msa (rt_step demo_mainnet demo_st (send 5 1 (RUtility Batch [ROther PSystem; RMsa (CreateProvider [81])])))) 3 = false
  /\ rt_dispatch demo (RUtility Batch [RMsa (CreateProvider [81])]) (signed 5) demo_st = Err XFiltered.
Proof. vm_compute. repeat split. Qed.

(** ** C88 *)
Theorem C88_superset_partial :
  forall a b c, is_superset a b = true -> c <> ROther (PProxy true) -> proxy_filter b c = true -> proxy_filter a c = true.
Proof. exact superset_lemma. Qed.
Print Assumptions C88_superset_partial.
(** Missing, and false: NonTransfer counts as a superset of CancelProxy but does
    not allow reject_announcement. *)
Theorem C88_cancel_refuted :
  exists a b c, is_superset a b = true /\ proxy_filter b c = true /\ proxy_filter a c = false.
Proof. by exists PNonTransfer, PCancelProxy, (ROther (PProxy true)). Qed.
Print Assumptions C88_cancel_refuted.
Example C88_nonvacuous : is_superset PNonTransfer PStaking = true /\ proxy_filter PStaking (RCapacity (KStake 1 2)) = true.
Proof. done. Qed.

(** ** C108 *)
Theorem C108_restricted_proxies :
  forall cfg real force c o s s', rt_dispatch cfg (RProxy real force c) o s = Ok s' ->
  exists t, (o_who o, t) ∈ default [] (rs_proxies s !! real) /\ (forall f, force = Some f -> t = f)
  /\ (s' = s \/ proxy_filter t c = true /\ exists o', o_who o' = real /\ rt_dispatch cfg c o' s = Ok s')
  /\ (t <> PAny -> no_multisig c -> rs_bal s' = rs_bal s).
Proof. exact proxy_lemma. Qed.
Print Assumptions C108_restricted_proxies.
(** Account 6 makes 3 its NonTransfer proxy. A transfer by 3 for 6 has no effect,
    also in a batch; creating an MSA works. Through a multisig of which 6 is a
    member (threshold one), 3 can move the multisig's tokens. *)
Definition proxy_st : RtState := rt_run demo demo_st [send 6 0 (RAddProxy 3 PNonTransfer)].
Definition as6 (c : RtCall) : RtState := rt_step demo proxy_st (send 3 0 (RProxy 6 None c)).
Example C108_example :
  balance (as6 (RBalances (TransferAllowDeath 3 100))) 6 = 495 /\ balance (as6 (RUtility Batch [RBalances (TransferAllowDeath 3 100)])) 6 = 495
  /\ ms_keys (rs_msa (as6 (RMsa Create))) !! 6 = Some 4
  /\ (balance proxy_st 1006, balance (as6 (RMultisig1 [9] (RBalances (TransferAllowDeath 3 80)))) 1006) = (90, 10).
Proof. vm_compute. repeat split. Qed.

(** ** C109. The parts of a runtime state are states that the pallets reach on
    their own, so what is proved of the pallets holds in the runtime. [plain]
    histories project to histories without wrapped calls. *)
Theorem C109_projection :
  forall cfg b mm v h, relays_from 0 h ->
  let s := rt_run cfg (rt_start b mm v) h in
  (exists hm, rs_msa s = msa_run (r_msa cfg) msa_genesis hm /\ blocks_from 0 hm /\ last_block 0 hm <= rs_block s
     /\ schemas_from 0 hm /\ last_schema 0 hm <= ScModel.sc_count (rs_sc s)
     /\ (all_plain h -> all_top hm))
  /\ (exists hs, rs_sc s = sc_run (r_sc cfg) (sc_genesis mm) hs)
  /\ (exists hh, rs_h s = h_run (r_h cfg) h_genesis hh /\ Forall (fun x => he_block (hx_env x) <= rs_block s) hh
     /\ (all_plain h -> Forall (fun x => hx_top x = true) hh))
  /\ (exists ht, rs_st s = st_run (r_st cfg) st_genesis ht /\ StSpec.envs_ok ht)
  /\ (exists hg, rs_mg s = mg_run (r_mg cfg) mg_genesis hg /\ mg_block (rs_mg s) = rs_block s)
  /\ (exists hc, rs_cap s = cap_run (r_cap cfg) cap_genesis hc /\ no_bare_replenish hc)
  /\ (exists hr, rs_tr s = tr_run (r_tr cfg) v hr /\ times_from 0 hr /\ last_time 0 hr <= rs_relay s).
Proof. exact projection_lemma. Qed.
Print Assumptions C109_projection.

(** ** C110 *)
Theorem C110_vesting_tokens_stay :
  forall cfg b mm items v h a t, genesis_build (r_tr cfg) (tr_initial b) items = Ok v -> relays_from 0 h ->
  let s := rt_run cfg (rt_start b mm v) h in
  rs_relay s <= t -> unreleased_of (rs_tr s) a t <= vesting_frozen (rs_tr s) a /\ vesting_frozen (rs_tr s) a <= balance s a.
Proof. exact vesting_lemma. Qed.
Print Assumptions C110_vesting_tokens_stay.

(** 1 sends 3 a schedule of 30 tokens; 3 can then send away 490 of its 530 tokens
    but not 520, and the rest after the schedule has ended. *)
Definition vest_st : RtState := rt_run demo demo_st [send 1 4 (RTime (VTransfer 3 TrProperties.vest_s2))].
Example C110_nonvacuous :
  (balance vest_st 3, unreleased_of (rs_tr vest_st) 3 5) = (530, 30)
  /\ result (tx_apply demo vest_st (tx_ 3 0 (RBalances (TransferAllowDeath 6 520)))) = Some (Some XToken)
  /\ balance (rt_step demo vest_st (send 3 0 (RBalances (TransferAllowDeath 6 490)))) 3 = 35
  /\ balance (rt_run demo vest_st [SBlock 40; send 3 0 (RTime VClaim); send 3 1 (RBalances (TransferAllowDeath 6 520))]) 3 = 0.
Proof. vm_compute. repeat split. Qed.

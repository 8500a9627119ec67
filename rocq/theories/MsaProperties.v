(** Properties C04-C14 and C16 of the MSA pallet. Histories are arbitrary lists
    of calls with arbitrary origins; each step says whether the call was a
    transaction of its own or wrapped in another call. The signature check
    [c_verify] is arbitrary. *)
From Verif Require Import Prelude Scale SigModel MsaModel MsaSpec MsaProofs MsaDelegProofs.

(** ** A concrete history used by the examples.
    The toy scheme: signature [k + 1000 * n] verifies for key [k]. *)
Definition toy_cfg : MsaCfg := runtime_cfg (fun s k _ => s mod 1000 =? k).
Definition toy_env (b : N) : MsaEnv := {| e_block := b; e_max_schema := 20; e_has_handle := fun _ => false |}.
Definition tx (b : N) (o : Origin) (c : MsaCall) : MsaStep :=
  {| s_env := toy_env b; s_origin := o; s_call := c; s_top := true |}.

(** Key 1 creates MSA 1 and registers it as a provider, key 2 creates MSA 2 and
    adds key 3 to it, MSA 2 delegates schemas 4 and 5 to MSA 1, and key 7 gets
    the sponsored MSA 3 with schema 9. *)
Definition toy_history : list MsaStep :=
  [ tx 10 (Signed 1) Create;
    tx 10 (Signed 1) (CreateProvider [80; 49]);
    tx 11 (Signed 2) Create;
    tx 12 (Signed 2) (AddPublicKey 2 2 3 {| ak_msa := 2; ak_exp := 50; ak_key := 3 |});
    tx 13 (Signed 1) (GrantDelegation 2 1002 {| ap_msa := 1; ap_schemas := [4; 5]; ap_exp := 50 |});
    tx 14 (Signed 1) (CreateSponsored 7 7 {| ap_msa := 1; ap_schemas := [9]; ap_exp := 50 |}) ].
Definition toy_state : MsaState := msa_run toy_cfg msa_genesis toy_history.

Example toy_state_reached :
  map_to_list (ms_keys toy_state) = [(1, 1); (3, 2); (7, 3); (2, 2)] /\
  ms_max toy_state = 3 /\ all_top toy_history /\ blocks_from 1 toy_history /\ schemas_from 0 toy_history.
Proof.
  split; [vm_compute; reflexivity|]. split; [vm_compute; reflexivity|].
  split; [repeat constructor|]. cbn. repeat split; lia.
Qed.

(** ** C04. The ids announced by creations are strictly increasing, in every
    history, whether calls are wrapped or not. *)
Theorem C04_msa_ids_never_reused :
  forall cfg h, StronglySorted N.lt (created_ids (ms_log (msa_run cfg msa_genesis h))).
Proof. exact (fun cfg h => proj1 (ids_inv_run cfg h)). Qed.
Print Assumptions C04_msa_ids_never_reused.

(** C04. Every MSA that a key controls was issued. *)
Theorem C04_controlled_ids_were_issued :
  forall cfg h k m,
    controls (msa_run cfg msa_genesis h) k m -> issued (msa_run cfg msa_genesis h) m.
Proof. exact (fun cfg h => proj2 (proj2 (ids_inv_run cfg h))). Qed.
Print Assumptions C04_controlled_ids_were_issued.

(** After retiring MSA 2, the next id is 4, not 2. *)
Example C04_example :
  created_ids (ms_log (msa_run toy_cfg toy_state
    [ tx 20 (Signed 3) (DeletePublicKey 2); tx 20 (Signed 3) (RevokeByDelegator 1);
      tx 21 (Signed 3) RetireMsa; tx 22 (Signed 3) Create ])) = [1; 2; 3; 4].
Proof. vm_compute. reflexivity. Qed.

(** ** C05. (That a key controls at most one MSA is the type of the map.) For
    histories in which no MSA call is wrapped in another call; what is missing
    are histories with wrapped calls, for which it is false
    ([C05_wrapped_calls_refuted]). *)
Theorem C05_key_count_exact_partial :
  forall cfg h m l,
    all_top h -> keys_listing (msa_run cfg msa_genesis h) m l ->
    key_count (msa_run cfg msa_genesis h) m = len l /\ len l <= c_max_keys cfg.
Proof. exact key_count_lemma. Qed.
Print Assumptions C05_key_count_exact_partial.

(** A listing always exists, so the previous theorem is never vacuous. *)
Theorem C05_listing_exists :
  forall st m, exists l, keys_listing st m l.
Proof. exact (fun st m => ex_intro _ _ (keys_listing_exists st m)). Qed.
Print Assumptions C05_listing_exists.

Example C05_example : keys_listing toy_state 2 [3; 2] /\ key_count toy_state 2 = 2.
Proof.
  split; [|vm_compute; reflexivity]. pose proof (keys_listing_exists toy_state 2) as H.
  replace (map_to_list _).*1 with [3; 2] in H by (vm_compute; reflexivity). done.
Qed.

(** ** C06. For every dispatched call, wrapped or not. A key that newly controls
    an MSA either got a fresh one (its own creation, or a sponsored creation
    that it signed) or was added with both signatures. *)
Theorem C06_key_attached_only_with_both_signatures :
  forall cfg env st o call st' k m,
    msa_dispatch cfg env st o call = Ok st' -> controls st' k m -> ~ controls st k m ->
    (m = ms_max st + 1 /\ ms_max st' = m /\
     (o = Signed k /\ call = Create \/
      exists who proof pl, o = Signed who /\ call = CreateSponsored k proof pl /\
        controls st who (ap_msa pl) /\ signed_by cfg proof k (enc_add_provider pl))) \/
    (exists who okey op np p, o = Signed who /\ call = AddPublicKey okey op np p /\
       ak_msa p = m /\ ak_key p = k /\ controls st okey m /\
       signed_by cfg op okey (enc_add_key p) /\ signed_by cfg np k (enc_add_key p)).
Proof. exact attach_lemma. Qed.
Print Assumptions C06_key_attached_only_with_both_signatures.

Example C06_example :
  is_ok (msa_dispatch toy_cfg (toy_env 20) toy_state (Signed 9)
    (AddPublicKey 3 3003 8 {| ak_msa := 2; ak_exp := 50; ak_key := 8 |})) = true /\
  is_ok (msa_dispatch toy_cfg (toy_env 20) toy_state (Signed 9)
    (AddPublicKey 7 3007 8 {| ak_msa := 2; ak_exp := 50; ak_key := 8 |})) = false /\
  is_ok (msa_dispatch toy_cfg (toy_env 20) toy_state (Signed 9)
    (AddPublicKey 3 3003 5008 {| ak_msa := 2; ak_exp := 50; ak_key := 9 |})) = false.
Proof. vm_compute. repeat split; reflexivity. Qed.

(** ** C07. For transactions of their own. *)
Theorem C07_key_detached_only_by_own_msa :
  forall cfg h env o call k m,
    let st := msa_run cfg msa_genesis h in
    let st' := msa_tx cfg env st o call in
    all_top h -> controls st k m -> ~ controls st' k m ->
    exists who, o = Signed who /\ controls st who m /\
      (call = DeletePublicKey k /\ who <> k \/
       call = RetireMsa /\ who = k /\ forall k', controls st k' m -> k' = k).
Proof. exact detach_lemma. Qed.
Print Assumptions C07_key_detached_only_by_own_msa.

Example C07_example :
  ms_keys (msa_tx toy_cfg (toy_env 20) toy_state (Signed 2) (DeletePublicKey 3)) !! 3 = None /\
  ms_keys (msa_tx toy_cfg (toy_env 20) toy_state (Signed 1) (DeletePublicKey 3)) !! 3 = Some 2.
Proof. vm_compute. split; reflexivity. Qed.

(** C07. In any state whatsoever, also one reached with wrapped calls: whoever
    detaches a key by a top-level transaction controls the same MSA. *)
Theorem C07_detached_by_own_msa_in_any_state :
  forall cfg st env o call k m,
    controls st k m -> ~ controls (msa_tx cfg env st o call) k m ->
    exists who, o = Signed who /\ controls st who m /\
      (call = DeletePublicKey k /\ who <> k \/ call = RetireMsa /\ who = k).
Proof. exact detach_any_lemma. Qed.
Print Assumptions C07_detached_by_own_msa_in_any_state.

(** C07, C05 fail for wrapped calls: key 7 of MSA 3 removes key 3 of MSA 2, and
    the key count of MSA 2 stays at two although one key is left. *)
Theorem C07_wrapped_calls_refuted :
  exists cfg h env who key m,
    all_top h /\
    let st := msa_run cfg msa_genesis h in
    let st' := msa_step cfg st {| s_env := env; s_origin := Signed who; s_call := DeletePublicKey key; s_top := false |} in
    controls st key m /\ ~ controls st who m /\ ~ controls st' key m /\
    key_count st' m = 2 /\ keys_listing st' m [2].
Proof.
  exists toy_cfg, toy_history, (toy_env 20), 7, 3, 2.
  split; [repeat constructor|]. cbn zeta.
  set (st' := msa_step _ _ _). split; [vm_compute; reflexivity|].
  split; [vm_compute; discriminate|]. split; [vm_compute; discriminate|]. split; [vm_compute; reflexivity|].
  pose proof (keys_listing_exists st' 2) as H.
  replace (map_to_list _).*1 with [2] in H by (vm_compute; reflexivity). done.
Qed.
Print Assumptions C07_wrapped_calls_refuted.

(** C05, for all histories: the stored count is not the number of keys. *)
Theorem C05_wrapped_calls_refuted :
  exists cfg h m l,
    keys_listing (msa_run cfg msa_genesis h) m l /\ key_count (msa_run cfg msa_genesis h) m <> len l.
Proof.
  exists toy_cfg, (toy_history ++ [{| s_env := toy_env 20; s_origin := Signed 7; s_call := DeletePublicKey 3; s_top := false |}]), 2, [2].
  set (st' := msa_run _ _ _). split; [|vm_compute; discriminate].
  pose proof (keys_listing_exists st' 2) as H.
  replace (map_to_list _).*1 with [2] in H by (vm_compute; reflexivity). done.
Qed.
Print Assumptions C05_wrapped_calls_refuted.

(** ** C08. All continuations, wrapped calls included. *)
Theorem C08_retirement_is_permanent :
  forall cfg h1 h2 m k,
    let st := msa_run cfg msa_genesis h1 in
    issued st m -> (forall k', ~ controls st k' m) -> ~ controls (msa_run cfg st h2) k m.
Proof. exact retired_lemma. Qed.
Print Assumptions C08_retirement_is_permanent.

(** MSA 3 can be retired once its delegation is revoked. *)
Example C08_example :
  let st := msa_run toy_cfg msa_genesis
    (toy_history ++ [ tx 20 (Signed 7) (RevokeByDelegator 1); tx 21 (Signed 7) RetireMsa ]) in
  created_ids (ms_log st) = [1; 2; 3] /\ filter (fun kv => kv.2 = 3) (map_to_list (ms_keys st)) = [].
Proof. vm_compute. split; reflexivity. Qed.

(** ** C09. In every history, wrapped calls included. *)
Theorem C09_providers_stay_registered :
  forall cfg h1 h2 m name,
    let st := msa_run cfg msa_genesis h1 in
    ms_prov st !! m = Some name ->
    ms_prov (msa_run cfg st h2) !! m = Some name /\ len name <= c_max_name cfg.
Proof. exact provider_stays_lemma. Qed.
Print Assumptions C09_providers_stay_registered.

(** The controlling key, for histories in which no MSA call is wrapped. What is
    missing are the others, for which it is false. *)
Theorem C09_providers_are_controlled_partial :
  forall cfg h m name,
    let st := msa_run cfg msa_genesis h in
    all_top h -> ms_prov st !! m = Some name -> exists k, controls st k m.
Proof.
  intros cfg h m name st Ht Hm. destruct (provider_lemma cfg h [] m name) as (_ & _ & H); [by rewrite app_nil_r|done|exact H].
Qed.
Print Assumptions C09_providers_are_controlled_partial.

(** Key 7 of MSA 3 removes the only key of provider 1 by a wrapped call. *)
Theorem C09_wrapped_calls_refuted :
  exists cfg h m name,
    let st := msa_run cfg msa_genesis h in
    ms_prov st !! m = Some name /\ forall k, ~ controls st k m.
Proof.
  exists toy_cfg, (toy_history ++ [{| s_env := toy_env 20; s_origin := Signed 7; s_call := DeletePublicKey 1; s_top := false |}]), 1, [80; 49].
  cbn zeta. set (st' := msa_run _ _ _). split; [vm_compute; reflexivity|].
  intros k Hk. destruct (keys_listing_exists st' 1) as [_ H]. apply H in Hk.
  replace (map_to_list _).*1 with (@nil N) in Hk by (vm_compute; reflexivity). by apply elem_of_nil in Hk.
Qed.
Print Assumptions C09_wrapped_calls_refuted.

Example C09_example : ms_prov toy_state !! 1 = Some [80; 49].
Proof. vm_compute. reflexivity. Qed.

(** ** C10. The delegation itself, every dispatched call in every state. *)
Theorem C10_delegation_needs_delegator_signature :
  forall cfg env st o call st' p d top,
    msa_dispatch cfg env st o call = Ok st' ->
    ~ delegation_ok env st p d -> delegation_ok env st' p d ->
    (exists schemas, grant_step cfg st
       {| s_env := env; s_origin := o; s_call := call; s_top := top |} p d schemas) \/
    (exists who key proof pl, o = Signed who /\ call = CreateSponsored key proof pl /\
       controls st who p /\ ap_msa pl = p /\ d = ms_max st + 1 /\ controls st' key d /\
       signed_by cfg proof key (enc_add_provider pl)).
Proof. exact grant_lemma. Qed.
Print Assumptions C10_delegation_needs_delegator_signature.

(** C10. A schema becomes usable in later blocks only if the signed payload
    names it. *)
Theorem C10_schema_needs_delegator_signature_partial :
  forall cfg h env env' o call st' p d s top,
    let st := msa_run cfg msa_genesis h in
    msa_dispatch cfg env st o call = Ok st' ->
    blocks_from 1 h -> last_block 1 h <= e_block env -> e_block env < e_block env' ->
    ~ schema_ok env' st p d s -> schema_ok env' st' p d s ->
    (exists schemas, s ∈ schemas /\ grant_step cfg st
       {| s_env := env; s_origin := o; s_call := call; s_top := top |} p d schemas) \/
    (exists who key proof pl, o = Signed who /\ call = CreateSponsored key proof pl /\
       s ∈ ap_schemas pl /\
       controls st who p /\ ap_msa pl = p /\ d = ms_max st + 1 /\ controls st' key d /\
       signed_by cfg proof key (enc_add_provider pl)).
Proof. exact schema_grant_lemma. Qed.
Print Assumptions C10_schema_needs_delegator_signature_partial.

(** Missing from the partial theorem: the rest of the block of the call itself.
    There the full statement is false in two ways. A provider whose delegation
    was revoked can, with a signed grant of schema 5 only, use schema 4 again
    until the end of the block. *)
Theorem C10_same_block_refuted :
  exists cfg h env who dkey proof pl p d s,
    all_top h /\ blocks_from 1 h /\ last_block 1 h <= e_block env /\
    let st := msa_run cfg msa_genesis h in
    let st' := msa_tx cfg env st (Signed who) (GrantDelegation dkey proof pl) in
    s ∉ ap_schemas pl /\ ~ schema_ok env st p d s /\ schema_ok env st' p d s.
Proof.
  exists toy_cfg, (toy_history ++ [tx 15 (Signed 2) (RevokeByDelegator 1)]), (toy_env 20), 1, 2, 2002,
    {| ap_msa := 1; ap_schemas := [5]; ap_exp := 60 |}, 1, 2, 4.
  split; [repeat constructor|]. split; [cbn; repeat split; lia|]. split; [cbn; lia|].
  cbn zeta. split; [|split].
  - cbn. intros H. apply elem_of_list_singleton in H. discriminate.
  - vm_compute. discriminate.
  - vm_compute. reflexivity.
Qed.
Print Assumptions C10_same_block_refuted.

(** And revoking a schema that is already revoked makes it usable again in the
    block of the second revocation. *)
Theorem C10_double_schema_revocation_refuted :
  exists cfg h env who p d s,
    all_top h /\ blocks_from 1 h /\ last_block 1 h <= e_block env /\
    let st := msa_run cfg msa_genesis h in
    let st' := msa_tx cfg env st (Signed who) (RevokeSchemaPermissions p [s]) in
    ~ schema_ok env st p d s /\ schema_ok env st' p d s.
Proof.
  exists toy_cfg, (toy_history ++ [tx 15 (Signed 2) (RevokeSchemaPermissions 1 [4])]), (toy_env 20), 2, 1, 2, 4.
  split; [repeat constructor|]. split; [cbn; repeat split; lia|]. split; [cbn; lia|].
  cbn zeta. split; vm_compute; [discriminate|reflexivity].
Qed.
Print Assumptions C10_double_schema_revocation_refuted.

Example C10_example :
  let st' := msa_tx toy_cfg (toy_env 20) toy_state (Signed 1)
               (GrantDelegation 3 2003 {| ap_msa := 1; ap_schemas := [6]; ap_exp := 60 |}) in
  ensure_valid_schema_grant (toy_env 21) toy_state 1 2 6 21 = Err SchemaNotGranted /\
  ensure_valid_schema_grant (toy_env 21) st' 1 2 6 21 = Ok tt.
Proof. vm_compute. split; reflexivity. Qed.

(** ** C11. *)
Theorem C11_grant_installs_exactly_the_requested_schemas :
  forall cfg h env who dkey proof pl d st',
    let st := msa_run cfg msa_genesis h in
    blocks_from 1 h -> last_block 1 h <= e_block env ->
    msa_dispatch cfg env st (Signed who) (GrantDelegation dkey proof pl) = Ok st' ->
    controls st dkey d ->
    forall env' s, e_block env < e_block env' ->
      (schema_ok env' st' (ap_msa pl) d s <-> s ∈ ap_schemas pl).
Proof. exact exact_grant_lemma. Qed.
Print Assumptions C11_grant_installs_exactly_the_requested_schemas.

(** With a duplicated schema in the list and an existing grant of 4 and 5. *)
Example C11_example :
  exists st', msa_dispatch toy_cfg (toy_env 20) toy_state (Signed 1)
    (GrantDelegation 3 2003 {| ap_msa := 1; ap_schemas := [6; 5; 6]; ap_exp := 60 |}) = Ok st' /\
  map_to_list (dg_perms (default dg_default (ms_deleg st' !! (2, 1)))) = [(5, 0); (4, 20); (6, 0)].
Proof. eexists. split; vm_compute; reflexivity. Qed.

(** ** C12. After a successful revocation by either side, if any later check in
    a later block passes then a grant signed by the delegator came between. *)
Theorem C12_revocation_is_lasting :
  forall cfg h1 h2 env who p d call st1 env',
    let st := msa_run cfg msa_genesis h1 in
    1 <= e_block env -> e_block env < e_block env' ->
    (call = RevokeByDelegator p /\ controls st who d \/ call = RevokeByProvider d /\ controls st who p) ->
    msa_dispatch cfg env st (Signed who) call = Ok st1 ->
    let st2 := msa_run cfg st1 h2 in
    (delegation_ok env' st2 p d \/ exists s, schema_ok env' st2 p d s) ->
    exists ha y hb schemas, h2 = ha ++ y :: hb /\ grant_step cfg (msa_run cfg st1 ha) y p d schemas.
Proof. exact revocation_lemma. Qed.
Print Assumptions C12_revocation_is_lasting.

Example C12_example :
  exists st1, msa_dispatch toy_cfg (toy_env 20) toy_state (Signed 1) (RevokeByProvider 2) = Ok st1 /\
  ensure_valid_delegation (toy_env 21) st1 1 2 None = Err DelegationRevoked /\
  is_ok (ensure_valid_delegation (toy_env 21)
    (msa_run toy_cfg st1 [tx 21 (Signed 1) (GrantDelegation 3 2003 {| ap_msa := 1; ap_schemas := [6]; ap_exp := 60 |})])
    1 2 None) = true.
Proof. eexists. repeat split; vm_compute; reflexivity. Qed.

(** ** C13. *)
Theorem C13_delegation_bounds :
  forall cfg h d p dg,
    schemas_from 0 h -> ms_deleg (msa_run cfg msa_genesis h) !! (d, p) = Some dg ->
    N.of_nat (size (dg_perms dg)) <= c_max_grants cfg /\
    forall s, is_Some (dg_perms dg !! s) -> s <= last_schema 0 h.
Proof. exact delegation_bounds_lemma. Qed.
Print Assumptions C13_delegation_bounds.

Example C13_example :
  is_Some (ms_deleg toy_state !! (2, 1)) /\
  is_ok (msa_dispatch toy_cfg (toy_env 20) toy_state (Signed 1)
    (GrantDelegation 3 2003 {| ap_msa := 1; ap_schemas := [21]; ap_exp := 60 |})) = false.
Proof. vm_compute. split; [by eexists|reflexivity]. Qed.

(** ** C14. Deleting a key and retiring: always. *)
Theorem C14_admitted_key_calls_succeed :
  forall cfg env st who call,
    (exists key, call = DeletePublicKey key) \/ call = RetireMsa ->
    msa_validate env st (Signed who) call = Ok tt ->
    exists st', msa_dispatch cfg env st (Signed who) call = Ok st'.
Proof. exact free_delete_lemma. Qed.
Print Assumptions C14_admitted_key_calls_succeed.

(** C14. All free calls, if no delegation was revoked earlier in the same block. *)
Theorem C14_admitted_free_calls_succeed_partial :
  forall cfg h env who call,
    let st := msa_run cfg msa_genesis h in
    blocks_from 1 h -> last_block 1 h <= e_block env ->
    free_call call ->
    msa_validate env st (Signed who) call = Ok tt ->
    (forall p d dg, ms_deleg st !! (d, p) = Some dg -> dg_revoked dg <> e_block env) ->
    exists st', msa_dispatch cfg env st (Signed who) call = Ok st'.
Proof. exact free_calls_lemma. Qed.
Print Assumptions C14_admitted_free_calls_succeed_partial.

(** Missing: a second revocation of the same delegation in the same block is
    admitted for free and then fails. *)
Theorem C14_double_revocation_refuted :
  exists cfg h env who call,
    all_top h /\ blocks_from 1 h /\ last_block 1 h <= e_block env /\ free_call call /\
    let st := msa_run cfg msa_genesis h in
    msa_validate env st (Signed who) call = Ok tt /\
    msa_dispatch cfg env st (Signed who) call = Err DelegationRevoked.
Proof.
  exists toy_cfg, (toy_history ++ [tx 20 (Signed 2) (RevokeByDelegator 1)]), (toy_env 20), 1, (RevokeByProvider 2).
  split; [repeat constructor|]. split; [cbn; repeat split; lia|]. split; [cbn; lia|]. split; [done|].
  split; vm_compute; reflexivity.
Qed.
Print Assumptions C14_double_revocation_refuted.

Example C14_example :
  msa_validate (toy_env 20) toy_state (Signed 2) (RevokeByDelegator 1) = Ok tt /\
  msa_validate (toy_env 20) toy_state (Signed 2) (DeletePublicKey 3) = Ok tt /\
  msa_validate (toy_env 20) toy_state (Signed 2) RetireMsa = Err VMoreThanOneKeyExists.
Proof. vm_compute. repeat split; reflexivity. Qed.

(** ** C16. If the delegator existed in block [b] and no grant for the pair was
    made after block [b], the later answer about block [b] is the one the check
    gave at the end of block [b]. *)
Theorem C16_past_checks_tell_the_truth_partial :
  forall cfg h1 h2 env p d b,
    let st1 := msa_run cfg msa_genesis h1 in
    let st2 := msa_run cfg st1 h2 in
    issued st1 d -> b <= e_block env ->
    Forall (fun x => b < e_block (s_env x)) h2 ->
    (forall ha y hb schemas, h2 = ha ++ y :: hb -> ~ grant_step cfg (msa_run cfg st1 ha) y p d schemas) ->
    (is_ok (ensure_valid_delegation env st2 p d (Some b)) = true <->
     delegation_ok (at_block env b) st1 p d).
Proof. exact past_check_lemma. Qed.
Print Assumptions C16_past_checks_tell_the_truth_partial.

(** Missing: with a grant after block [b] the answer can be wrong. The check for
    block 5 passes although the delegation was only made in block 13. *)
Theorem C16_past_checks_refuted :
  exists cfg h env p d b,
    all_top h /\ blocks_from 1 h /\ last_block 1 h <= e_block env /\
    is_ok (ensure_valid_delegation env (msa_run cfg msa_genesis h) p d (Some b)) = true /\
    ~ active_in_block cfg h env p d b.
Proof.
  exists toy_cfg, toy_history, (toy_env 20), 1, 2, 5.
  split; [repeat constructor|]. split; [cbn; repeat split; lia|]. split; [cbn; lia|].
  split; [vm_compute; reflexivity|].
  intros (h1 & h2 & Hh & H1 & _ & Hok). destruct h1 as [|x h1].
  - vm_compute in Hok. discriminate.
  - injection Hh as <- _. inversion H1 as [|? ? Hx _]; subst. cbn in Hx. lia.
Qed.
Print Assumptions C16_past_checks_refuted.

Example C16_example :
  let st2 := msa_run toy_cfg toy_state [tx 20 (Signed 2) (RevokeByDelegator 1)] in
  is_ok (ensure_valid_delegation (toy_env 30) st2 1 2 (Some 18)) = true /\
  is_ok (ensure_valid_delegation (toy_env 30) st2 1 2 (Some 21)) = false.
Proof. vm_compute. split; reflexivity. Qed.

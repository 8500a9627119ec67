(** Further properties of the MSA pallet: C01 for whole calls, C08 and C12
    completed, C19, C93 for the MSA payloads, C94, C95, C96. *)
From Verif Require Import Prelude Scale SigModel MsaModel MsaSpec MsaProofs MsaMoreProofs MsaProperties.

(** ** C01 for whole calls. In every history, wrapped calls included, in which
    blocks do not decrease: after a call that carried signature [s] went
    through, a later call carrying [s] with an expiry that is not later does
    not go through. *)
Theorem C01_signed_call_single_use :
  forall cfg h1 x h2 y s e e',
    2 <= c_max_sigs cfg -> blocks_from 0 (h1 ++ x :: h2 ++ [y]) ->
    step_succeeds cfg (msa_run cfg msa_genesis h1) x ->
    (s, e) ∈ carried (s_call x) -> (s, e') ∈ carried (s_call y) -> e' <= e ->
    ~ step_succeeds cfg (msa_run cfg msa_genesis (h1 ++ x :: h2)) y.
Proof. exact call_replay_lemma. Qed.
Print Assumptions C01_signed_call_single_use.

(** The new-key signature of the toy history cannot be used in a grant, even
    after the key has been removed again. *)
Example C01_call_example :
  let y := tx 15 (Signed 1) (GrantDelegation 3 3 {| ap_msa := 1; ap_schemas := [4]; ap_exp := 50 |}) in
  let y' := tx 15 (Signed 1) (GrantDelegation 3 1003 {| ap_msa := 1; ap_schemas := [4]; ap_exp := 50 |}) in
  blocks_from 0 (toy_history ++ [y]) /\
  step_succeeds toy_cfg (msa_run toy_cfg msa_genesis (take 3 toy_history))
    (tx 12 (Signed 2) (AddPublicKey 2 2 3 {| ak_msa := 2; ak_exp := 50; ak_key := 3 |})) /\
  ~ step_succeeds toy_cfg toy_state y /\ step_succeeds toy_cfg toy_state y'.
Proof.
  cbn zeta. split; [cbn; repeat split; lia|]. split; [split; [done|vm_compute; reflexivity]|]. split.
  - intros [_ H]. vm_compute in H. discriminate.
  - split; [done|vm_compute; reflexivity].
Qed.

(** ** C08. A retirement goes through exactly when the sender is the only key of
    an MSA that is not a provider, has no handle and has no active delegation. *)
Theorem C08_retirement_conditions :
  forall cfg h env who,
    all_top h ->
    let st := msa_run cfg msa_genesis h in
    step_succeeds cfg st {| s_env := env; s_origin := Signed who; s_call := RetireMsa; s_top := true |} <->
    exists m, controls st who m /\ ms_prov st !! m = None /\ e_has_handle env m = false /\
      (forall k, controls st k m -> k = who) /\ (forall p, ~ delegation_ok env st p m).
Proof. exact retire_sole_key_lemma. Qed.
Print Assumptions C08_retirement_conditions.

Example C08_conditions_example :
  ~ step_succeeds toy_cfg toy_state (tx 20 (Signed 7) RetireMsa) /\
  step_succeeds toy_cfg (msa_run toy_cfg toy_state [tx 20 (Signed 7) (RevokeByDelegator 1)]) (tx 21 (Signed 7) RetireMsa).
Proof.
  split.
  - intros [H _]. specialize (H eq_refl). vm_compute in H. discriminate.
  - split; [intros _|]; vm_compute; reflexivity.
Qed.

(** ** C12 for single schemas. In the blocks after a successful
    revoke_schema_permissions the named schemas of that delegation are refused,
    and every other grant of every delegation is as before. *)
Theorem C12_schema_revocation_effect :
  forall cfg env st who p ids st' env' d0 p0 s,
    1 <= e_block env -> e_block env < e_block env' ->
    msa_dispatch cfg env st (Signed who) (RevokeSchemaPermissions p ids) = Ok st' ->
    exists d, controls st who d /\
    (schema_ok env' st' p0 d0 s <-> schema_ok env' st p0 d0 s /\ ~ (d0 = d /\ p0 = p /\ s ∈ ids)).
Proof. exact schema_revocation_lemma. Qed.
Print Assumptions C12_schema_revocation_effect.

Example C12_schema_example :
  exists st', msa_dispatch toy_cfg (toy_env 20) toy_state (Signed 3) (RevokeSchemaPermissions 1 [4]) = Ok st' /\
  ensure_valid_schema_grant (toy_env 21) st' 1 2 4 21 = Err SchemaNotGranted /\
  ensure_valid_schema_grant (toy_env 21) st' 1 2 5 21 = Ok tt.
Proof. eexists. repeat split; vm_compute; reflexivity. Qed.

(** ** C19. All histories, wrapped calls included. *)
Theorem C19_delegations_target_registered_providers :
  forall cfg h d p dg,
    ms_deleg (msa_run cfg msa_genesis h) !! (d, p) = Some dg ->
    d <> p /\ is_Some (ms_prov (msa_run cfg msa_genesis h) !! p).
Proof. exact target_lemma. Qed.
Print Assumptions C19_delegations_target_registered_providers.

Example C19_example :
  is_Some (ms_deleg toy_state !! (3, 1)) /\
  msa_dispatch toy_cfg (toy_env 20) toy_state (Signed 2)
    (GrantDelegation 7 2007 {| ap_msa := 2; ap_schemas := [4]; ap_exp := 60 |}) = Err ProviderNotRegistered /\
  msa_dispatch toy_cfg (toy_env 20) toy_state (Signed 1)
    (GrantDelegation 1 2001 {| ap_msa := 1; ap_schemas := [4]; ap_exp := 60 |}) = Err InvalidSelfProvider.
Proof. split; [by eexists|]. split; vm_compute; reflexivity. Qed.

(** ** C93, MSA payloads. The bytes that are signed determine the payload, and
    are never those of the other kind. The ranges are those of the types. *)
Theorem C93_add_key_signature_binds_payload_partial :
  forall p q,
    add_key_in_range p -> add_key_in_range q ->
    wrap_binary_data (enc_add_key p) = wrap_binary_data (enc_add_key q) -> p = q.
Proof. exact add_key_bytes_lemma. Qed.
Print Assumptions C93_add_key_signature_binds_payload_partial.

Theorem C93_add_provider_signature_binds_payload_partial :
  forall p q,
    add_provider_in_range p -> add_provider_in_range q ->
    wrap_binary_data (enc_add_provider p) = wrap_binary_data (enc_add_provider q) -> p = q.
Proof. exact add_provider_bytes_lemma. Qed.
Print Assumptions C93_add_provider_signature_binds_payload_partial.

Theorem C93_msa_payload_kinds_differ_partial :
  forall p q, wrap_binary_data (enc_add_key p) <> wrap_binary_data (enc_add_provider q).
Proof. exact add_key_not_provider_lemma. Qed.
Print Assumptions C93_msa_payload_kinds_differ_partial.

Example C93_example :
  enc_add_provider {| ap_msa := 258; ap_schemas := [4; 500]; ap_exp := 7 |}
  = [2; 1; 0; 0; 0; 0; 0; 0; 8; 4; 0; 244; 1; 7; 0; 0; 0].
Proof. vm_compute. reflexivity. Qed.

(** ** C94. What the query reports is what the check decides, for every block
    that is not in the future. *)
Theorem C94_reported_grants_agree_with_check :
  forall env st p d s b,
    b <= e_block env ->
    is_ok (ensure_valid_schema_grant env st p d s b) = true <-> listed_at (get_granted_schemas st d p) s b.
Proof. exact listing_lemma. Qed.
Print Assumptions C94_reported_grants_agree_with_check.

Example C94_example :
  get_granted_schemas (msa_run toy_cfg toy_state
    [tx 20 (Signed 2) (RevokeSchemaPermissions 1 [4]); tx 22 (Signed 2) (RevokeByDelegator 1)]) 2 1
  = Ok [(5, 22); (4, 20)].
Proof. vm_compute. reflexivity. Qed.

(** ** C95. Either side of an active delegation can end it with a transaction of
    its own, unless it was already ended in the same block. *)
Theorem C95_active_delegation_can_be_revoked :
  forall cfg h env d p key,
    blocks_from 1 h -> last_block 1 h <= e_block env ->
    let st := msa_run cfg msa_genesis h in
    (controls st key d ->
     let x := {| s_env := env; s_origin := Signed key; s_call := RevokeByDelegator p; s_top := true |} in
     delegation_ok env st p d -> (forall dg, ms_deleg st !! (d, p) = Some dg -> dg_revoked dg <> e_block env) ->
     step_succeeds cfg st x) /\
    (controls st key p ->
     let x := {| s_env := env; s_origin := Signed key; s_call := RevokeByProvider d; s_top := true |} in
     delegation_ok env st p d -> (forall dg, ms_deleg st !! (d, p) = Some dg -> dg_revoked dg <> e_block env) ->
     step_succeeds cfg st x).
Proof. exact revoke_available_lemma. Qed.
Print Assumptions C95_active_delegation_can_be_revoked.

Example C95_example :
  controls toy_state 3 2 /\ delegation_ok (toy_env 20) toy_state 1 2 /\
  (dg_revoked <$> ms_deleg toy_state !! (2, 1)) = Some 0.
Proof. split; [|split]; vm_compute; reflexivity. Qed.

(** ** C96. A key that controls no MSA can always create one, while ids last. *)
Theorem C96_create_available :
  forall cfg h env who top,
    1 <= c_max_keys cfg ->
    let st := msa_run cfg msa_genesis h in
    ms_max st < u64_max -> (forall m, ~ controls st who m) ->
    let x := {| s_env := env; s_origin := Signed who; s_call := Create; s_top := top |} in
    step_succeeds cfg st x /\ controls (msa_step cfg st x) who (ms_max st + 1).
Proof. exact create_available_lemma. Qed.
Print Assumptions C96_create_available.

Example C96_example :
  ms_max toy_state < u64_max /\ ms_keys toy_state !! 9 = None /\
  ms_keys (msa_step toy_cfg toy_state (tx 20 (Signed 9) Create)) !! 9 = Some 4.
Proof. vm_compute. repeat split; reflexivity. Qed.

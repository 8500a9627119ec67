(** The MSA pallet: pallets/msa/src/lib.rs, pallets/msa/src/types.rs. *)
From Verif Require Import Prelude Scale SigModel.

(** Errors: [Error<T>] of pallets/msa/src/lib.rs:300-412 plus the two generic
    dispatch errors that occur. *)
Inductive MsaErr :=
| BadOrigin | ArithOverflow
| InvalidSignature | AddProviderSignatureVerificationFailed
| MsaOwnershipInvalidSignature | NewKeyOwnershipInvalidSignature
| SigError (e : SigErr)
| NoKeyExists | NotMsaOwner | KeyAlreadyRegistered | KeyLimitExceeded | MsaIdOverflow
| UnauthorizedProvider | UnauthorizedDelegator | InvalidSelfProvider
| ProviderNotRegistered | DuplicateProvider | DuplicateProviderRegistryEntry
| ExceedsMaxProviderNameSize | ExceedsMaxSchemaGrantsPerDelegation | InvalidSchemaId
| SchemaNotGranted | DelegationNotFound | DelegationRevoked | CannotPredictValidityPastCurrentBlock.

(** [ValidityError], pallets/msa/src/lib.rs:1775-1792 *)
Inductive ValidityErr :=
| VInvalidDelegation | VInvalidMsaKey | VRegisteredProviderCannotBeRetired
| VMoreThanOneKeyExists | VSelfRemoval | VNotKeyOwner | VNonZeroProviderDelegations
| VHandleNotRetired.

(** The pallet's [Config]: MaxPublicKeysPerMsa (u8), MaxSchemaGrantsPerDelegation,
    MaxProviderNameSize, MortalityWindowSize, MaxSignaturesStored, and the
    signature verification ([MultiSignature::verify], a dependency): signature,
    account, message bytes. *)
Record MsaCfg := {
  c_max_keys : N;
  c_max_grants : N;
  c_max_name : N;
  c_window : N;
  c_max_sigs : N;
  c_verify : N -> N -> list N -> bool
}.

(** What a call sees of the rest of the chain: the block number, the highest
    registered schema id ([SchemaValidator::are_all_schema_ids_valid],
    pallets/schemas/src/lib.rs:881-892) and whether an MSA has a handle. *)
Record MsaEnv := {
  e_block : N;
  e_max_schema : N;
  e_has_handle : N -> bool
}.

(** common/primitives/src/msa.rs:97-105 [Delegation] *)
Record Delegation := { dg_revoked : N; dg_perms : gmap N N }.
(** common/primitives/src/msa.rs:127-145 *)
Definition dg_default : Delegation := {| dg_revoked := 0; dg_perms := ∅ |}.

(** Key events recorded by [offchain_index_event] (pallets/msa/src/offchain_storage.rs:86-105),
    with the block and the MSA id under which they are indexed. *)
Inductive KeyEvent :=
| EvMsaCreated (msa key : N)
| EvKeyAdded (msa key : N)
| EvKeyDeleted (msa key : N).

(** Storage, pallets/msa/src/lib.rs:146-240. [ms_deleg] is keyed by
    (delegator, provider). [ms_log] is the list of key events with their block. *)
Record MsaState := {
  ms_max : N;
  ms_keys : gmap N N;
  ms_count : gmap N N;
  ms_prov : gmap N (list N);
  ms_deleg : gmap (N * N) Delegation;
  ms_sigs : SigReg;
  ms_log : list (N * KeyEvent)
}.

Definition msa_genesis : MsaState :=
  {| ms_max := 0; ms_keys := ∅; ms_count := ∅; ms_prov := ∅; ms_deleg := ∅;
     ms_sigs := sig_empty; ms_log := [] |}.

Definition set_max st x := {| ms_max := x; ms_keys := ms_keys st; ms_count := ms_count st; ms_prov := ms_prov st; ms_deleg := ms_deleg st; ms_sigs := ms_sigs st; ms_log := ms_log st |}.
Definition set_keys st x y := {| ms_max := ms_max st; ms_keys := x; ms_count := y; ms_prov := ms_prov st; ms_deleg := ms_deleg st; ms_sigs := ms_sigs st; ms_log := ms_log st |}.
Definition set_prov st x := {| ms_max := ms_max st; ms_keys := ms_keys st; ms_count := ms_count st; ms_prov := x; ms_deleg := ms_deleg st; ms_sigs := ms_sigs st; ms_log := ms_log st |}.
Definition set_deleg st x := {| ms_max := ms_max st; ms_keys := ms_keys st; ms_count := ms_count st; ms_prov := ms_prov st; ms_deleg := x; ms_sigs := ms_sigs st; ms_log := ms_log st |}.
Definition set_sigs st x := {| ms_max := ms_max st; ms_keys := ms_keys st; ms_count := ms_count st; ms_prov := ms_prov st; ms_deleg := ms_deleg st; ms_sigs := x; ms_log := ms_log st |}.
Definition add_log st b ev := {| ms_max := ms_max st; ms_keys := ms_keys st; ms_count := ms_count st; ms_prov := ms_prov st; ms_deleg := ms_deleg st; ms_sigs := ms_sigs st; ms_log := ms_log st ++ [(b, ev)] |}.

(** pallets/msa/src/types.rs:22-30 [AddKeyData] *)
Record AddKeyData := { ak_msa : N; ak_exp : N; ak_key : N }.
(** pallets/msa/src/types.rs:33-41 [AddProvider] *)
Record AddProvider := { ap_msa : N; ap_schemas : list N; ap_exp : N }.

(** derived [Encode], fields in order *)
Definition enc_add_key (p : AddKeyData) : list N :=
  enc_u64 (ak_msa p) ++ enc_u32 (ak_exp p) ++ enc_account (ak_key p).
Definition enc_add_provider (p : AddProvider) : list N :=
  enc_u64 (ap_msa p) ++ enc_u16s (ap_schemas p) ++ enc_u32 (ap_exp p).

Section msa.
Variable cfg : MsaCfg.

(** pallets/msa/src/lib.rs:1102-1113 *)
Definition verify_signature (s signer : N) (payload : list N) : bool :=
  c_verify cfg s signer (wrap_binary_data payload).

(** pallets/msa/src/lib.rs:1380-1397 on the pallet's state *)
Definition msa_register_signature (env : MsaEnv) (st : MsaState) (s exp : N) : res MsaErr MsaState :=
  match register_signature (c_max_sigs cfg) (c_window cfg) (ms_sigs st) (e_block env) s exp with
  | Ok r => Ok (set_sigs st r)
  | Err e => Err (SigError e)
  end.

(** pallets/msa/src/lib.rs:1312-1315 *)
Definition ensure_valid_msa_key (st : MsaState) (key : N) : res MsaErr N :=
  match ms_keys st !! key with Some m => Ok m | None => Err NoKeyExists end.

(** pallets/msa/src/lib.rs:1089-1094 *)
Definition ensure_msa_owner (st : MsaState) (who msa : N) : res MsaErr unit :=
  let! m := ensure_valid_msa_key st who in
  ensure! m =? msa else NotMsaOwner in Ok tt.

(** pallets/msa/src/lib.rs:1054-1056 *)
Definition is_registered_provider (st : MsaState) (msa : N) : bool :=
  match ms_prov st !! msa with Some _ => true | None => false end.

(** [PublicKeyCountForMsaId] is a ValueQuery with default 0 *)
Definition key_count (st : MsaState) (msa : N) : N := default 0 (ms_count st !! msa).

(** pallets/msa/src/lib.rs:1009-1032, without the [on_success] callback, which
    the callers below run afterwards (the callbacks do not read the key maps). *)
Definition add_key (st : MsaState) (msa key : N) : res MsaErr MsaState :=
  match ms_keys st !! key with
  | Some _ => Err KeyAlreadyRegistered
  | None =>
      match chk_add u8_max (key_count st msa) 1 with
      | None => Err ArithOverflow
      | Some c =>
          ensure! c <=? c_max_keys cfg else KeyLimitExceeded in
          Ok (set_keys st (<[key := msa]> (ms_keys st)) (<[msa := c]> (ms_count st)))
      end
  end.

(** pallets/msa/src/lib.rs:938-944 *)
Definition get_next_msa_id (st : MsaState) : res MsaErr N :=
  match chk_add u64_max (ms_max st) 1 with Some n => Ok n | None => Err MsaIdOverflow end.

(** pallets/msa/src/lib.rs:1259-1276. The key must be registered, to any MSA;
    the counter decremented is the one of [msa]. [Some 0] is never stored; the
    u8 subtraction on it would wrap. *)
Definition delete_key_for_msa (st : MsaState) (msa key : N) : res MsaErr MsaState :=
  match ms_keys st !! key with
  | None => Err NoKeyExists
  | Some _ =>
      let count' := match ms_count st !! msa with
                    | Some c => if c =? 1 then delete msa (ms_count st)
                                else <[msa := wrap_add u8_max c 255]> (ms_count st)
                    | None => ms_count st
                    end in
      Ok (set_keys st (delete key (ms_keys st)) count')
  end.

(** pallets/msa/src/types.rs:98-103 [try_insert_schema]; BoundedBTreeMap::try_insert *)
Definition try_insert_schema (d : Delegation) (id : N) : res MsaErr Delegation :=
  if (N.of_nat (size (dg_perms d)) <? c_max_grants cfg) || bool_decide (is_Some (dg_perms d !! id))
  then Ok {| dg_revoked := dg_revoked d; dg_perms := <[id := 0]> (dg_perms d) |}
  else Err ExceedsMaxSchemaGrantsPerDelegation.

(** pallets/msa/src/types.rs:65-71 *)
Fixpoint try_insert_schemas (d : Delegation) (ids : list N) : res MsaErr Delegation :=
  match ids with
  | [] => Ok d
  | id :: ids' => let! d' := try_insert_schema d id in try_insert_schemas d' ids'
  end.

(** pallets/msa/src/types.rs:106-119 *)
Definition try_get_mut_schema (d : Delegation) (id block : N) : res MsaErr Delegation :=
  match dg_perms d !! id with
  | None => Err SchemaNotGranted
  | Some _ => Ok {| dg_revoked := dg_revoked d; dg_perms := <[id := block]> (dg_perms d) |}
  end.

(** pallets/msa/src/types.rs:74-83 *)
Fixpoint try_get_mut_schemas (d : Delegation) (ids : list N) (block : N) : res MsaErr Delegation :=
  match ids with
  | [] => Ok d
  | id :: ids' => let! d' := try_get_mut_schema d id block in try_get_mut_schemas d' ids' block
  end.

(** pallets/msa/src/lib.rs:1040-1051 *)
Definition ensure_all_schema_ids_are_valid (env : MsaEnv) (ids : list N) : res MsaErr unit :=
  ensure! len ids <=? c_max_grants cfg else ExceedsMaxSchemaGrantsPerDelegation in
  ensure! forallb (fun i => i <=? e_max_schema env) ids else InvalidSchemaId in
  Ok tt.

(** pallets/msa/src/lib.rs:1120-1133, 1231-1252 *)
Definition add_provider (env : MsaEnv) (st : MsaState) (provider delegator : N) (ids : list N) : res MsaErr MsaState :=
  match ms_deleg st !! (delegator, provider) with
  | Some _ => Err DuplicateProvider
  | None =>
      let! _ := ensure_all_schema_ids_are_valid env ids in
      let! d := try_insert_schemas dg_default ids in
      Ok (set_deleg st (<[(delegator, provider) := d]> (ms_deleg st)))
  end.

(** pallets/msa/src/lib.rs:1139-1194 *)
Definition upsert_schema_permissions (env : MsaEnv) (st : MsaState) (provider delegator : N) (ids : list N) : res MsaErr MsaState :=
  let d := default dg_default (ms_deleg st !! (delegator, provider)) in
  let! _ := ensure_all_schema_ids_are_valid env ids in
  let revoke_ids := filter (fun k => k ∉ ids /\ dg_perms d !! k = Some 0) (map_to_list (dg_perms d)).*1 in
  let update_ids := filter (fun k => is_Some (dg_perms d !! k)) ids in
  let insert_ids := filter (fun k => dg_perms d !! k = None) ids in
  let! d1 := try_get_mut_schemas d revoke_ids (e_block env) in
  let! d2 := try_get_mut_schemas d1 update_ids 0 in
  let! d3 := try_insert_schemas d2 insert_ids in
  Ok (set_deleg st (<[(delegator, provider) := {| dg_revoked := 0; dg_perms := dg_perms d3 |}]> (ms_deleg st))).

(** pallets/msa/src/lib.rs:982-1001 *)
Definition revoke_permissions_for_schemas (env : MsaEnv) (st : MsaState) (delegator provider : N) (ids : list N) : res MsaErr MsaState :=
  match ms_deleg st !! (delegator, provider) with
  | None => Err DelegationNotFound
  | Some d =>
      let! _ := ensure_all_schema_ids_are_valid env ids in
      let! d' := try_get_mut_schemas d ids (e_block env) in
      Ok (set_deleg st (<[(delegator, provider) := d']> (ms_deleg st)))
  end.

(** pallets/msa/src/lib.rs:1284-1304 *)
Definition revoke_provider (env : MsaEnv) (st : MsaState) (provider delegator : N) : res MsaErr MsaState :=
  match ms_deleg st !! (delegator, provider) with
  | None => Err DelegationNotFound
  | Some d =>
      ensure! dg_revoked d =? 0 else DelegationRevoked in
      Ok (set_deleg st (<[(delegator, provider) := {| dg_revoked := e_block env; dg_perms := dg_perms d |}]> (ms_deleg st)))
  end.

(** pallets/msa/src/lib.rs:1207-1226 *)
Definition create_provider_for (st : MsaState) (msa : N) (name : list N) : res MsaErr MsaState :=
  ensure! len name <=? c_max_name cfg else ExceedsMaxProviderNameSize in
  match ms_prov st !! msa with
  | Some _ => Err DuplicateProviderRegistryEntry
  | None => Ok (set_prov st (<[msa := name]> (ms_prov st)))
  end.

(** pallets/msa/src/lib.rs:1067-1081 *)
Definition ensure_valid_registered_provider (st : MsaState) (delegator_key provider_key : N) : res MsaErr (N * N) :=
  let! p := ensure_valid_msa_key st provider_key in
  let! d := ensure_valid_msa_key st delegator_key in
  ensure! negb (d =? p) else InvalidSelfProvider in
  ensure! is_registered_provider st p else ProviderNotRegistered in
  Ok (p, d).

(** pallets/msa/src/lib.rs:1545-1573; [block = None] is the current block *)
Definition ensure_valid_delegation (env : MsaEnv) (st : MsaState) (provider delegator : N) (block : option N) : res MsaErr Delegation :=
  match ms_deleg st !! (delegator, provider) with
  | None => Err DelegationNotFound
  | Some d =>
      let! b := match block with
                | Some b => ensure! b <=? e_block env else CannotPredictValidityPastCurrentBlock in Ok b
                | None => Ok (e_block env)
                end in
      if dg_revoked d =? 0 then Ok d
      else ensure! b <=? dg_revoked d else DelegationRevoked in Ok d
  end.

(** pallets/msa/src/lib.rs:1591-1614 *)
Definition ensure_valid_schema_grant (env : MsaEnv) (st : MsaState) (provider delegator schema block : N) : res MsaErr unit :=
  let! d := ensure_valid_delegation env st provider delegator (Some block) in
  match dg_perms d !! schema with
  | None => Err SchemaNotGranted
  | Some r => if r =? 0 then Ok tt else ensure! block <=? r else SchemaNotGranted in Ok tt
  end.

(** pallets/msa/src/lib.rs:1323-1361, for a given provider *)
Definition get_granted_schemas (st : MsaState) (delegator provider : N) : res MsaErr (list (N * N)) :=
  match ms_deleg st !! (delegator, provider) with
  | None => Err DelegationNotFound
  | Some d =>
      if bool_decide (dg_perms d = ∅) then Err SchemaNotGranted
      else Ok (map (fun '(id, r) =>
                 if (0 <? dg_revoked d) && ((dg_revoked d <? r) || (r =? 0))
                 then (id, dg_revoked d) else (id, r)) (map_to_list (dg_perms d)))
  end.

(** The extrinsics. *)
Inductive MsaCall :=
| Create
| CreateSponsored (delegator_key proof : N) (payload : AddProvider)
| CreateProvider (name : list N)
| GrantDelegation (delegator_key proof : N) (payload : AddProvider)
| RevokeByDelegator (provider : N)
| AddPublicKey (owner_key owner_proof new_key_proof : N) (payload : AddKeyData)
| DeletePublicKey (key : N)
| RevokeByProvider (delegator : N)
| RevokeSchemaPermissions (provider : N) (ids : list N)
| RetireMsa
| ProposeToBeProvider (name : list N)
| CreateProviderViaGovernance (key : N) (name : list N).

(** Origins: a signed account, or an origin accepted by
    [CreateProviderViaGovernanceOrigin]. *)
Inductive Origin := Signed (who : N) | Gov.

Definition signed_ (o : Origin) : res MsaErr N :=
  match o with Signed w => Ok w | Gov => Err BadOrigin end.

(** pallets/msa/src/lib.rs:919-931 [create_account] without callback *)
Definition create_account (st : MsaState) (key : N) : res MsaErr (MsaState * N) :=
  let! id := get_next_msa_id st in
  let! st1 := add_key st id key in
  Ok (set_max st1 id, id).

Definition msa_dispatch (env : MsaEnv) (st : MsaState) (o : Origin) (call : MsaCall) : res MsaErr MsaState :=
  match call with
  | Create => (* lib.rs:427-437 *)
      let! who := signed_ o in
      let! (st1, id) := create_account st who in
      Ok (add_log st1 (e_block env) (EvMsaCreated id who))
  | CreateSponsored dkey proof p => (* lib.rs:464-507 *)
      let! who := signed_ o in
      ensure! verify_signature proof dkey (enc_add_provider p) else InvalidSignature in
      let! st1 := msa_register_signature env st proof (ap_exp p) in
      let! pid := ensure_valid_msa_key st1 who in
      ensure! ap_msa p =? pid else UnauthorizedProvider in
      ensure! is_registered_provider st1 pid else ProviderNotRegistered in
      let! (st2, id) := create_account st1 dkey in
      let! st3 := add_provider env st2 pid id (ap_schemas p) in
      Ok (add_log st3 (e_block env) (EvMsaCreated id dkey))
  | CreateProvider name => (* lib.rs:522-530 *)
      let! who := signed_ o in
      let! pid := ensure_valid_msa_key st who in
      create_provider_for st pid name
  | GrantDelegation dkey proof p => (* lib.rs:554-583 *)
      let! who := signed_ o in
      ensure! verify_signature proof dkey (enc_add_provider p) else AddProviderSignatureVerificationFailed in
      let! st1 := msa_register_signature env st proof (ap_exp p) in
      let! (pid, did) := ensure_valid_registered_provider st1 dkey who in
      ensure! ap_msa p =? pid else UnauthorizedDelegator in
      upsert_schema_permissions env st1 pid did (ap_schemas p)
  | RevokeByDelegator pid => (* lib.rs:598-620 *)
      let! who := signed_ o in
      match ms_keys st !! who with
      | Some did => revoke_provider env st pid did
      | None => Ok st
      end
  | AddPublicKey okey oproof nproof p => (* lib.rs:649-694 *)
      let! _ := signed_ o in
      ensure! verify_signature oproof okey (enc_add_key p) else MsaOwnershipInvalidSignature in
      ensure! verify_signature nproof (ak_key p) (enc_add_key p) else NewKeyOwnershipInvalidSignature in
      let! st1 := msa_register_signature env st oproof (ak_exp p) in
      let! st2 := msa_register_signature env st1 nproof (ak_exp p) in
      let! _ := ensure_msa_owner st2 okey (ak_msa p) in
      let! st3 := add_key st2 (ak_msa p) (ak_key p) in
      Ok (add_log st3 (e_block env) (EvKeyAdded (ak_msa p) (ak_key p)))
  | DeletePublicKey key => (* lib.rs:712-735 *)
      let! who := signed_ o in
      match ms_keys st !! who with
      | Some m =>
          let! st1 := delete_key_for_msa st m key in
          Ok (add_log st1 (e_block env) (EvKeyDeleted m key))
      | None => Ok st
      end
  | RevokeByProvider did => (* lib.rs:750-775 *)
      let! who := signed_ o in
      match ms_keys st !! who with
      | Some pid => revoke_provider env st pid did
      | None => Ok st
      end
  | RevokeSchemaPermissions pid ids => (* lib.rs:796-810 *)
      let! who := signed_ o in
      let! did := ensure_valid_msa_key st who in
      revoke_permissions_for_schemas env st did pid ids
  | RetireMsa => (* lib.rs:832-854 *)
      let! who := signed_ o in
      match ms_keys st !! who with
      | Some m =>
          let! st1 := delete_key_for_msa st m who in
          Ok (add_log st1 (e_block env) (EvKeyDeleted m who))
      | None => Ok st
      end
  | ProposeToBeProvider name => (* lib.rs:862-882; creates a council proposal, no MSA storage *)
      ensure! len name <=? c_max_name cfg else ExceedsMaxProviderNameSize in
      let! who := signed_ o in
      let! _ := ensure_valid_msa_key st who in
      Ok st
  | CreateProviderViaGovernance key name => (* lib.rs:895-907 *)
      match o with
      | Signed _ => Err BadOrigin
      | Gov =>
          let! pid := ensure_valid_msa_key st key in
          create_provider_for st pid name
      end
  end.

(** pallets/msa/src/lib.rs:1636-1676 *)
Definition validate_revocation (env : MsaEnv) (st : MsaState) (provider delegator : N) : res ValidityErr unit :=
  match ensure_valid_delegation env st provider delegator None with
  | Ok _ => Ok tt
  | Err _ => Err VInvalidDelegation
  end.

(** pallets/msa/src/lib.rs:1690-1717 *)
Definition validate_key_delete (st : MsaState) (signer key : N) : res ValidityErr unit :=
  ensure! negb (signer =? key) else VSelfRemoval in
  match ms_keys st !! signer, ms_keys st !! key with
  | Some m, Some m' => ensure! m =? m' else VNotKeyOwner in Ok tt
  | _, _ => Err VInvalidMsaKey
  end.

(** pallets/msa/src/lib.rs:1757-1763 *)
Definition has_active_delegations (env : MsaEnv) (st : MsaState) (delegator : N) : bool :=
  existsb (fun kd : (N * N) * Delegation =>
             (kd.1.1 =? delegator) && is_ok (ensure_valid_delegation env st kd.1.2 delegator None))
          (map_to_list (ms_deleg st)).

(** pallets/msa/src/lib.rs:1732-1771 *)
Definition ensure_msa_can_retire (env : MsaEnv) (st : MsaState) (who : N) : res ValidityErr unit :=
  match ms_keys st !! who with
  | None => Err VInvalidMsaKey
  | Some m =>
      ensure! negb (is_registered_provider st m) else VRegisteredProviderCannotBeRetired in
      ensure! negb (e_has_handle env m) else VHandleNotRetired in
      ensure! key_count st m =? 1 else VMoreThanOneKeyExists in
      ensure! negb (has_active_delegations env st m) else VNonZeroProviderDelegations in
      Ok tt
  end.

(** [CheckFreeExtrinsicUse::validate], pallets/msa/src/lib.rs:1849-1866; looks
    at the transaction's own call only. *)
Definition msa_validate (env : MsaEnv) (st : MsaState) (o : Origin) (call : MsaCall) : res ValidityErr unit :=
  match o with
  | Gov => Ok tt
  | Signed who =>
      match call with
      | RevokeByProvider did =>
          match ms_keys st !! who with
          | Some pid => validate_revocation env st pid did
          | None => Err VInvalidMsaKey
          end
      | RevokeByDelegator pid =>
          match ms_keys st !! who with
          | Some did => validate_revocation env st pid did
          | None => Err VInvalidMsaKey
          end
      | DeletePublicKey key => validate_key_delete st who key
      | RetireMsa => ensure_msa_can_retire env st who
      | _ => Ok tt
      end
  end.

(** FRAME: a dispatch error rolls the storage back. *)
Definition msa_call (env : MsaEnv) (st : MsaState) (o : Origin) (call : MsaCall) : MsaState :=
  match msa_dispatch env st o call with Ok st' => st' | Err _ => st end.

(** A top-level transaction: signed extension, then dispatch. *)
Definition msa_tx (env : MsaEnv) (st : MsaState) (o : Origin) (call : MsaCall) : MsaState :=
  match msa_validate env st o call with
  | Ok _ => msa_call env st o call
  | Err _ => st
  end.

(** One step of a history: a call that arrives either as a transaction of its
    own ([s_top = true]) or wrapped in another call (utility batch, proxy,
    multisig, sudo, scheduler, capacity batch), in which case the signed
    extension has not looked at it. *)
Record MsaStep := { s_env : MsaEnv; s_origin : Origin; s_call : MsaCall; s_top : bool }.

Definition msa_step (st : MsaState) (x : MsaStep) : MsaState :=
  if s_top x then msa_tx (s_env x) st (s_origin x) (s_call x)
  else msa_call (s_env x) st (s_origin x) (s_call x).

Fixpoint msa_run (st : MsaState) (h : list MsaStep) : MsaState :=
  match h with
  | [] => st
  | x :: h' => msa_run (msa_step st x) h'
  end.

End msa.

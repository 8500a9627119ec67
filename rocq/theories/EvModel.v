(** The events that the MSA and the vesting pallets deposit
    (pallets/msa/src/lib.rs, pallets/time-release/src/lib.rs). The states of the
    other pallets' models carry their events themselves. *)
From Verif Require Import Prelude Scale SigModel MsaModel TrModel.

(** pallets/msa/src/lib.rs:244-302 [Event<T>] *)
Inductive MsaEvent :=
| MsaCreated (msa key : N)
| PublicKeyAdded (msa key : N)
| PublicKeyDeleted (key : N)
| DelegationGranted (provider delegator : N)
| ProviderCreated (provider : N)
| DelegationRevoked (provider delegator : N)
| MsaRetired (msa : N)
| DelegationUpdated (provider delegator : N).

Section msa.
Context (cfg : MsaCfg).

(** The [deposit_event]s of a call that succeeds, in order; [st'] is the state
    after it (the new MSA's id is the highest one). Lines of pallets/msa/src/lib.rs. *)
Definition msa_deposits (st st' : MsaState) (o : Origin) (call : MsaCall) : list MsaEvent :=
  match call, o with
  | Create, Signed who => (* 433-435 *) [MsaCreated (ms_max st') who]
  | CreateSponsored dkey _ p, Signed who => (* 498-506 *)
      match ms_keys st !! who with
      | Some pid => [MsaCreated (ms_max st') dkey; DelegationGranted pid (ms_max st')]
      | None => []
      end
  | CreateProvider _, Signed who => (* 526-528 *)
      match ms_keys st !! who with Some pid => [ProviderCreated pid] | None => [] end
  | GrantDelegation dkey _ _, Signed who => (* 580 *)
      match ms_keys st !! who, ms_keys st !! dkey with
      | Some pid, Some did => [DelegationGranted pid did]
      | _, _ => []
      end
  | RevokeByDelegator pid, Signed who => (* 604-618: nothing if the caller has no MSA *)
      match ms_keys st !! who with Some did => [DelegationRevoked pid did] | None => [] end
  | AddPublicKey _ _ _ p, Signed _ => (* 680-691 *) [PublicKeyAdded (ak_msa p) (ak_key p)]
  | DeletePublicKey key, Signed who => (* 718-732 *)
      match ms_keys st !! who with Some _ => [PublicKeyDeleted key] | None => [] end
  | RevokeByProvider did, Signed who => (* 759-773 *)
      match ms_keys st !! who with Some pid => [DelegationRevoked pid did] | None => [] end
  | RevokeSchemaPermissions pid _, Signed who => (* 807 *)
      match ms_keys st !! who with Some did => [DelegationUpdated pid did] | None => [] end
  | RetireMsa, Signed who => (* 838-852 *)
      match ms_keys st !! who with Some m => [PublicKeyDeleted who; MsaRetired m] | None => [] end
  | ProposeToBeProvider _, _ => (* 862-882 *) []
  | CreateProviderViaGovernance key _, Gov => (* 903-905 *)
      match ms_keys st !! key with Some pid => [ProviderCreated pid] | None => [] end
  | _, _ => []
  end.

(** FRAME: the events of a call that fails are rolled back. *)
Definition call_events (env : MsaEnv) (st : MsaState) (o : Origin) (call : MsaCall) : list MsaEvent :=
  match msa_dispatch cfg env st o call with Ok st' => msa_deposits st st' o call | Err _ => [] end.

(** the events of one step of a history; a transaction that is not admitted has none *)
Definition step_events (st : MsaState) (x : MsaStep) : list MsaEvent :=
  if s_top x
  then match msa_validate (s_env x) st (s_origin x) (s_call x) with
       | Ok _ => call_events (s_env x) st (s_origin x) (s_call x)
       | Err _ => []
       end
  else call_events (s_env x) st (s_origin x) (s_call x).

Fixpoint msa_events (st : MsaState) (h : list MsaStep) : list MsaEvent :=
  match h with
  | [] => []
  | x :: h' => step_events st x ++ msa_events (msa_step cfg st x) h'
  end.

End msa.

(** pallets/time-release/src/lib.rs:139-162 [Event<T>] *)
Inductive TrEvent :=
| ReleaseScheduleAdded (from to : N) (s : Sched)
| Claimed (who amount : N)
| ReleaseSchedulesUpdated (who : N).

Section tr.
Context (cfg : TrCfg).

(** The events of a call, lines 247-251, 283-290, 311-317, 332-337. The amount in
    [Claimed] is what [do_claim] returns (342-351). *)
Definition tr_events (st : TrState) (now : N) (c : TrCall) : list TrEvent :=
  match tr_apply cfg st now c with
  | Err _ => []
  | Ok _ =>
      match c with
      | TClaimFor _ who =>
          match prune_and_get_frozen_balance st who now with
          | Ok (_, frozen) => [Claimed who frozen]
          | Err _ => []
          end
      | TTransfer _ from to s => [ReleaseScheduleAdded from to s]
      | TUpdate _ who _ => [ReleaseSchedulesUpdated who]
      | TBalances _ => []
      end
  end.

(** The events of a history, each with its time. *)
Fixpoint tr_history (st : TrState) (h : list (N * TrCall)) : list (N * TrEvent) :=
  match h with
  | [] => []
  | e :: h' => map (pair e.1) (tr_events st e.1 e.2) ++ tr_history (tr_step cfg st e) h'
  end.

End tr.

(** The RPC methods of the node that read the runtime's state: the wrappers in
    pallets/*/src/rpc/src/lib.rs, the runtime APIs in runtime/frequency/src/lib.rs
    that they call, and the helper common/helpers/src/rpc.rs. They are called at
    the best block (client.info().best_hash), with the state after that block.

    Not modelled: errors of the client itself (ApiError), which have no
    counterpart in a model where the state is there; the JSON on the wire (see
    PoolModel.v, C123); msa_getKeysByMsaId, which reads the off-chain database
    (OcModel.v); messages_getBySchemaId (MgModel.v); the fee estimate (FeeModel.v). *)
From Verif Require Import Prelude Scale Utf8 CommonTypes SigModel MsaModel CapModel TrModel HModel ScModel StModel MgModel FeeModel RtModel.

(** An answer, or the error of the method: for the methods of the handles pallet
    InvalidHandle (handles/src/rpc/src/lib.rs:67-79), for those of the stateful
    storage pallet 300 with the error of the runtime
    (stateful-storage/src/rpc/src/lib.rs:95-109). *)
Inductive RpcErr := InvalidHandle | RuntimeError (e : StErr).

(** common/primitives/src/handles.rs:18, 20, 22, 24, 32-33: bytes of a base handle,
    digits of a suffix, and the numbers of suffixes *)
Definition HANDLE_BYTES_MAX : N := 32.
Definition DISPLAY_BYTES_MAX : N := 32 + 5 + 1.
Definition MAX_SUFFIXES_COUNT : N := 100.
Definition DEFAULT_SUFFIX_COUNT : N := 1.

Section rpc.
Variable cfg : RtCfg.

(** ** Handles *)

(** handles/src/rpc/src/lib.rs:89-94, runtime/frequency/src/lib.rs:1491-1493 *)
Definition rpc_handle_for_msa (st : RtState) (m : N) : option HResponse := get_handle_for_msa (r_h cfg) (rs_h st) m.

(** handles/src/rpc/src/lib.rs:96-111: a text (a list of characters) becomes its
    bytes, which must fit a base handle; the count defaults to one and is cut off
    at 100. runtime/frequency/src/lib.rs:1495-1497; the answer repeats the base *)
Definition rpc_next_suffixes (st : RtState) (text : list N) (count : option N) : res RpcErr (list N * list N) :=
  if len (utf8 text) <=? HANDLE_BYTES_MAX
  then Ok (utf8 text, get_next_suffixes (r_h cfg) (rs_h st) (utf8 text) (N.min (default DEFAULT_SUFFIX_COUNT count) MAX_SUFFIXES_COUNT))
  else Err InvalidHandle.

(** handles/src/rpc/src/lib.rs:113-122, runtime/frequency/src/lib.rs:1499-1501 *)
Definition rpc_msa_for_handle (st : RtState) (text : list N) : res RpcErr (option N) :=
  if len (utf8 text) <=? DISPLAY_BYTES_MAX
  then Ok (get_msa_id_for_handle (r_h cfg) (rs_h st) (utf8 text))
  else Err InvalidHandle.

(** handles/src/rpc/src/lib.rs:124-130: what does not fit is replaced by nothing;
    runtime/frequency/src/lib.rs:1502-1504 *)
Definition rpc_validate_handle (text : list N) : bool :=
  validate_handle (r_h cfg) (if len (utf8 text) <=? HANDLE_BYTES_MAX then utf8 text else []).

(** ** Delegations *)

(** runtime/frequency/src/lib.rs:1455-1460 *)
Definition api_has_delegation (st : RtState) (delegator provider block : N) (schema : option N) : bool :=
  match schema with
  | Some s => is_ok (ensure_valid_schema_grant (env_msa st) (rs_msa st) provider delegator s block)
  | None => is_ok (ensure_valid_delegation (env_msa st) (rs_msa st) provider delegator (Some block))
  end.

(** msa/src/rpc/src/lib.rs:122-153: in parallel, but collected in order *)
Definition rpc_check_delegations (st : RtState) (delegators : list N) (provider block : N) (schema : option N) : list (N * bool) :=
  map (fun d => (d, api_has_delegation st d provider block schema)) delegators.

(** msa/src/rpc/src/lib.rs:155-165, runtime/frequency/src/lib.rs:1462-1470: any
    error becomes no answer *)
Definition rpc_granted_schemas (st : RtState) (delegator provider : N) : option (list (N * N)) :=
  match get_granted_schemas (rs_msa st) delegator provider with Ok l => Some l | Err _ => None end.

(** msa/src/rpc/src/lib.rs:167-175, runtime/frequency/src/lib.rs:1472-1477 and
    pallets/msa/src/lib.rs:1333-1360 without a provider: all delegations of the
    delegator, in the order of the storage, each with its schemas and the block
    in which they end or ended (0: not yet) *)
Definition granted_of (d : Delegation) : list (N * N) :=
  map (fun '(id, r) =>
         if (0 <? dg_revoked d) && ((dg_revoked d <? r) || (r =? 0))
         then (id, dg_revoked d) else (id, r)) (map_to_list (dg_perms d)).
Definition rpc_all_granted (st : RtState) (delegator : N) : list (N * list (N * N)) :=
  omap (fun '((d, p), dg) => if d =? delegator then Some (p, granted_of dg) else None) (map_to_list (ms_deleg (rs_msa st))).

(** ** Schemas *)

(** schemas/src/rpc/src/lib.rs:100-105, runtime/frequency/src/lib.rs:1439-1441 *)
Definition rpc_schema (st : RtState) (id : N) : option SchemaResponse := get_schema_by_id (rs_sc st) id.
(** schemas/src/rpc/src/lib.rs:107-112, runtime/frequency/src/lib.rs:1443-1445 *)
Definition rpc_schema_versions (st : RtState) (text : list N) : option (list VersionResponse) := get_schema_versions (rs_sc st) (utf8 text).

(** ** Stateful storage *)

(** stateful-storage/src/rpc/src/lib.rs:72-109, runtime/frequency/src/lib.rs:1481-1487 *)
Definition rpc_pages (st : RtState) (m s : N) : res RpcErr (list (N * N * N * list N)) :=
  match get_paginated_storage (r_st cfg) (env_st st) (rs_st st) m s with Ok r => Ok r | Err e => Err (RuntimeError e) end.
Definition rpc_items (st : RtState) (m s : N) : res RpcErr (N * N * list (N * list N)) :=
  match get_itemized_storage (r_st cfg) (env_st st) (rs_st st) m s with Ok r => Ok r | Err e => Err (RuntimeError e) end.
End rpc.
